(** Generated by tools/gen_p.py from T_Sets4.v: the property theorems, nothing else. *)
From Verif Require Import T_Sets4 Ex_Base Ex_Sets4.
Open Scope nat_scope.

(** C24: what removal takes out of a set of the safe class, and what it does to the set's answers: lookups by equality lose exactly the removed records, lookups in order
    lose every record that shares its value with a removed one. *)
Theorem C24_removal_answers :
  forall ord w q s sb p w' out, fair ord -> reach true w -> set_at w s sb -> o_parent sb = Some p -> erases_from s q -> step ord w q = Some (w', out) ->
    exists X sb', erasure_picks w sb q X /\ only_set_changed s w w' /\ set_at w' s sb' /\ o_parent sb' = Some p /\ same_schema sb sb' /\
      (forall r, r ∈ o_recs sb' <-> r ∈ o_recs sb /\ r ∉ X) /\
      (forall k v r, is_Some (get_key_type sb k) -> (filed sb' k v r <-> filed sb k v r /\ r ∉ X)) /\
      (forall k v r, is_Some (get_key_type sb k) -> (filed_ord sb' k v r <-> filed_ord sb k v r /\ forall x, x ∈ X -> ~ filed_ord sb k v x)).
Proof. exact t_C24_removal_answers. Qed.
Print Assumptions C24_removal_answers.
Example ex_C24_removal_answers :
  exists ord w q s sb p w' out,
    fair ord /\
    reach true w /\
    set_at w s sb /\
    o_parent sb = Some p /\
    erases_from s q /\
    step ord w q = Some (w', out) /\
    o_recs (ob_at w' s) <> o_recs sb /\ filed sb "age" (VInt I32 30) 0 /\ filed sb "age" (VInt I32 30) 1.
Proof. exact tex_C24_removal_answers. Qed.
