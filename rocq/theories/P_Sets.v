(** Generated by tools/gen_p.py from T_Sets.v: the property theorems, nothing else. *)
From Verif Require Import T_Sets Ex_Base Ex_Sets.
Open Scope nat_scope.

(** C23: Join, Exclude and Intersect answer by the parents of the two sets; a failing call changes nothing; a successful one leaves the operand
    and everything else as it was, and the set holds the union, difference or intersection of the records, and still belongs to its vault. *)
Theorem C23_join_exact :
  forall b ord w s a sb ab w' out, fair ord -> reach b w -> set_at w s sb -> set_at w a ab ->
    step ord w (OJoin s a) = Some (w', out) ->
    exists res, out = ORes res /\ res_code res = algebra_answer s a sb ab /\ (res_ok res = true <-> algebra_answer s a sb ab = Success) /\
      (res_ok res = false -> w' = w) /\
      (res_ok res = true -> only_set_changed s w w' /\ set_at w' a ab /\ set_holds w' s (o_parent sb) (o_recs sb ∪ o_recs ab)).
Proof. exact t_C23_join_exact. Qed.
Print Assumptions C23_join_exact.
Example ex_C23_join_exact :
  exists b ord w s a sb ab w' out,
    fair ord /\
    reach b w /\
    set_at w s sb /\
    set_at w a ab /\
    step ord w (OJoin s a) = Some (w', out) /\
    out = ORes (okres Success "" None None) /\ o_recs (ob_at w' s) <> o_recs sb.
Proof. exact tex_C23_join_exact. Qed.

Theorem C23_exclude_exact :
  forall b ord w s a sb ab w' out, fair ord -> reach b w -> set_at w s sb -> set_at w a ab ->
    step ord w (OExclude s a) = Some (w', out) ->
    exists res, out = ORes res /\ res_code res = algebra_answer s a sb ab /\ (res_ok res = true <-> algebra_answer s a sb ab = Success) /\
      (res_ok res = false -> w' = w) /\
      (res_ok res = true -> only_set_changed s w w' /\ set_at w' a ab /\ set_holds w' s (o_parent sb) (o_recs sb ∖ o_recs ab)).
Proof. exact t_C23_exclude_exact. Qed.
Print Assumptions C23_exclude_exact.
Example ex_C23_exclude_exact :
  exists b ord w s a sb ab w' out,
    fair ord /\
    reach b w /\
    set_at w s sb /\
    set_at w a ab /\
    step ord w (OExclude s a) = Some (w', out) /\
    out = ORes (okres Success "" None None) /\ o_recs (ob_at w' s) <> o_recs sb.
Proof. exact tex_C23_exclude_exact. Qed.

Theorem C23_intersect_exact :
  forall b ord w s a sb ab w' out, fair ord -> reach b w -> set_at w s sb -> set_at w a ab ->
    step ord w (OIntersect s a) = Some (w', out) ->
    exists res, out = ORes res /\ res_code res = algebra_answer s a sb ab /\ (res_ok res = true <-> algebra_answer s a sb ab = Success) /\
      (res_ok res = false -> w' = w) /\
      (res_ok res = true -> only_set_changed s w w' /\ set_at w' a ab /\ set_holds w' s (o_parent sb) (o_recs sb ∩ o_recs ab)).
Proof. exact t_C23_intersect_exact. Qed.
Print Assumptions C23_intersect_exact.
Example ex_C23_intersect_exact :
  exists b ord w s a sb ab w' out,
    fair ord /\
    reach b w /\
    set_at w s sb /\
    set_at w a ab /\
    step ord w (OIntersect s a) = Some (w', out) /\
    out = ORes (okres Success "" None None) /\ o_recs (ob_at w' s) <> o_recs sb.
Proof. exact tex_C23_intersect_exact. Qed.

(** C23: Union and Intersection of two sets into a third one: the answer, no change on failure, and on success the result set belongs to the operands'
    vault and holds exactly the union or intersection, while both operands and everything else are as before. *)
Theorem C23_union_exact :
  forall b ord w x y z xb yb zb w' out, fair ord -> reach b w -> set_at w x xb -> set_at w y yb -> set_at w z zb ->
    allowed false w (OUnion x y z) -> step ord w (OUnion x y z) = Some (w', out) ->
    exists res, out = ORes res /\ res_code res = combination_answer x y z xb yb /\ (res_ok res = true <-> combination_answer x y z xb yb = Success) /\
      (res_ok res = false -> w' = w) /\
      (res_ok res = true -> only_set_changed z w w' /\ set_at w' x xb /\ set_at w' y yb /\ set_holds w' z (o_parent xb) (o_recs xb ∪ o_recs yb)).
Proof. exact t_C23_union_exact. Qed.
Print Assumptions C23_union_exact.
Example ex_C23_union_exact :
  exists b ord w x y z xb yb zb w' out,
    fair ord /\
    reach b w /\
    set_at w x xb /\
    set_at w y yb /\
    set_at w z zb /\
    allowed false w (OUnion x y z) /\
    step ord w (OUnion x y z) = Some (w', out) /\
    out = ORes (okres Success "" None None) /\ size (o_recs (ob_at w' z)) = 4.
Proof. exact tex_C23_union_exact. Qed.

Theorem C23_intersection_exact :
  forall b ord w x y z xb yb zb w' out, fair ord -> reach b w -> set_at w x xb -> set_at w y yb -> set_at w z zb ->
    allowed false w (OIntersection x y z) -> step ord w (OIntersection x y z) = Some (w', out) ->
    exists res, out = ORes res /\ res_code res = combination_answer x y z xb yb /\ (res_ok res = true <-> combination_answer x y z xb yb = Success) /\
      (res_ok res = false -> w' = w) /\
      (res_ok res = true -> only_set_changed z w w' /\ set_at w' x xb /\ set_at w' y yb /\ set_holds w' z (o_parent xb) (o_recs xb ∩ o_recs yb)).
Proof. exact t_C23_intersection_exact. Qed.
Print Assumptions C23_intersection_exact.
Example ex_C23_intersection_exact :
  exists b ord w x y z xb yb zb w' out,
    fair ord /\
    reach b w /\
    set_at w x xb /\
    set_at w y yb /\
    set_at w z zb /\
    allowed false w (OIntersection x y z) /\
    step ord w (OIntersection x y z) = Some (w', out) /\
    out = ORes (okres Success "" None None) /\ size (o_recs (ob_at w' z)) = 2.
Proof. exact tex_C23_intersection_exact. Qed.

(** C23: sets compare equal exactly when they have the same vault (or both none) and the same records; != is the negation. *)
Theorem C23_equality_meaning :
  forall a b : obj, (sets_equal a b = true <-> o_parent a = o_parent b /\ forall r, r ∈ o_recs a <-> r ∈ o_recs b) /\ sets_differ a b = negb (sets_equal a b).
Proof. exact t_C23_equality_meaning. Qed.
Print Assumptions C23_equality_meaning.

Theorem C23_defined :
  forall ord w s a sb ab, fair ord -> reach true w -> set_at w s sb -> set_at w a ab ->
    is_Some (step ord w (OJoin s a)) /\ is_Some (step ord w (OExclude s a)) /\ is_Some (step ord w (OIntersect s a)) /\
    forall z zb, set_at w z zb -> is_Some (step ord w (OUnion s a z)) /\ is_Some (step ord w (OIntersection s a z)).
Proof. exact t_C23_defined. Qed.
Print Assumptions C23_defined.
Example ex_C23_defined :
  exists ord w s a sb ab,
    fair ord /\
    reach true w /\
    set_at w s sb /\
    set_at w a ab /\
    o_recs sb <> o_recs ab.
Proof. exact tex_C23_defined. Qed.
