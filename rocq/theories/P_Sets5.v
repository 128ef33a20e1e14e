(** Generated by tools/gen_p.py from T_Sets5.v: the property theorems, nothing else. *)
From Verif Require Import T_Sets5 Ex_Base Ex_Sets5.
Open Scope nat_scope.

(** C23: Join files every record it adds under its current values, on top of what the set had filed. *)
Theorem C23_join_answers :
  forall ord w s a sb ab w' res, fair ord -> reach true w -> set_at w s sb -> set_at w a ab -> step ord w (OJoin s a) = Some (w', ORes res) -> res_ok res = true ->
    exists sb', set_at w' s sb' /\ o_parent sb' = o_parent sb /\ same_schema sb sb' /\
      forall k v r, is_Some (get_key_type sb k) ->
        (filed sb' k v r <-> filed sb k v r \/ (r ∈ o_recs ab /\ r ∉ o_recs sb /\ stored w r k = Some v)) /\
        (filed_ord sb' k v r <-> filed_ord sb k v r \/ (r ∈ o_recs ab /\ r ∉ o_recs sb /\ stored w r k = Some v)).
Proof. exact t_C23_join_answers. Qed.
Print Assumptions C23_join_answers.
Example ex_C23_join_answers :
  exists ord w s a sb ab w' res,
    fair ord /\
    reach true w /\
    set_at w s sb /\
    set_at w a ab /\
    step ord w (OJoin s a) = Some (w', ORes res) /\
    res_ok res = true /\
    o_recs (ob_at w' s) <> o_recs sb /\ filed (ob_at w' s) "age" (VInt I32 18) 3.
Proof. exact tex_C23_join_answers. Qed.

(** C23: the result of a Union of two sets answers every query completely. *)
Theorem C23_union_answers :
  forall ord w x y z xb yb zb w' res, fair ord -> reach true w -> set_at w x xb -> set_at w y yb -> set_at w z zb ->
    step ord w (OUnion x y z) = Some (w', ORes res) -> res_ok res = true ->
    exists zb', set_at w' z zb' /\ equal_keys xb zb' /\ indexed w' zb'.
Proof. exact t_C23_union_answers. Qed.
Print Assumptions C23_union_answers.
Example ex_C23_union_answers :
  exists ord w x y z xb yb zb w' res,
    fair ord /\
    reach true w /\
    set_at w x xb /\
    set_at w y yb /\
    set_at w z zb /\
    step ord w (OUnion x y z) = Some (w', ORes res) /\
    res_ok res = true /\
    size (o_recs (ob_at w' z)) = 4 /\ filed (ob_at w' z) "age" (VInt I32 18) 3.
Proof. exact tex_C23_union_answers. Qed.

(** C23: the result of an Intersection of two sets answers every query completely. *)
Theorem C23_intersection_answers :
  forall ord w x y z xb yb zb w' res, fair ord -> reach true w -> set_at w x xb -> set_at w y yb -> set_at w z zb ->
    step ord w (OIntersection x y z) = Some (w', ORes res) -> res_ok res = true ->
    exists zb', set_at w' z zb' /\ equal_keys xb zb' /\ indexed w' zb'.
Proof. exact t_C23_intersection_answers. Qed.
Print Assumptions C23_intersection_answers.
Example ex_C23_intersection_answers :
  exists ord w x y z xb yb zb w' res,
    fair ord /\
    reach true w /\
    set_at w x xb /\
    set_at w y yb /\
    set_at w z zb /\
    step ord w (OIntersection x y z) = Some (w', ORes res) /\
    res_ok res = true /\
    size (o_recs (ob_at w' z)) = 2 /\ filed (ob_at w' z) "age" (VInt I32 30) 1.
Proof. exact tex_C23_intersection_answers. Qed.

(** C23: Exclude takes the removed records out of the answers of the set by equality, and out of its answers in order together with all records that share a value with one of them. *)
Theorem C23_exclude_answers :
  forall ord w s a sb ab w' res, fair ord -> reach true w -> set_at w s sb -> set_at w a ab -> step ord w (OExclude s a) = Some (w', ORes res) -> res_ok res = true ->
    exists sb', set_at w' s sb' /\ o_parent sb' = o_parent sb /\ same_schema sb sb' /\
      forall k v r, is_Some (get_key_type sb k) ->
        (filed sb' k v r <-> filed sb k v r /\ r ∉ o_recs ab) /\
        (filed_ord sb' k v r <-> filed_ord sb k v r /\ forall x, x ∈ o_recs sb -> x ∈ o_recs ab -> ~ filed_ord sb k v x).
Proof. exact t_C23_exclude_answers. Qed.
Print Assumptions C23_exclude_answers.
Example ex_C23_exclude_answers :
  exists ord w s a sb ab w' res,
    fair ord /\
    reach true w /\
    set_at w s sb /\
    set_at w a ab /\
    step ord w (OExclude s a) = Some (w', ORes res) /\
    res_ok res = true /\
    o_recs (ob_at w' s) <> o_recs sb /\ filed (ob_at w' s) "age" (VInt I32 40) 2.
Proof. exact tex_C23_exclude_answers. Qed.

(** C23: the same for Intersect. *)
Theorem C23_intersect_answers :
  forall ord w s a sb ab w' res, fair ord -> reach true w -> set_at w s sb -> set_at w a ab -> step ord w (OIntersect s a) = Some (w', ORes res) -> res_ok res = true ->
    exists sb', set_at w' s sb' /\ o_parent sb' = o_parent sb /\ same_schema sb sb' /\
      forall k v r, is_Some (get_key_type sb k) ->
        (filed sb' k v r <-> filed sb k v r /\ r ∈ o_recs ab) /\
        (filed_ord sb' k v r <-> filed_ord sb k v r /\ forall x, x ∈ o_recs sb -> x ∉ o_recs ab -> ~ filed_ord sb k v x).
Proof. exact t_C23_intersect_answers. Qed.
Print Assumptions C23_intersect_answers.
Example ex_C23_intersect_answers :
  exists ord w s a sb ab w' res,
    fair ord /\
    reach true w /\
    set_at w s sb /\
    set_at w a ab /\
    step ord w (OIntersect s a) = Some (w', ORes res) /\
    res_ok res = true /\
    o_recs (ob_at w' s) <> o_recs sb /\ filed (ob_at w' s) "age" (VInt I32 30) 1.
Proof. exact tex_C23_intersect_answers. Qed.
