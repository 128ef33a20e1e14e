(** Generated by tools/gen_p.py from T_Sort.v: the property theorems, nothing else. *)
From Verif Require Import T_Sort Ex_Base Ex_Sort.
Open Scope nat_scope.

(** C12: a new record is listed after all records with an equal or smaller value and before all records with a greater one; the others
    keep their order. *)
Theorem C12_create_after_equals :
  forall b ord w o ob f ps w' res k v l l', reach b w -> vault_at w o ob ->
    step ord w (OCreateRecord o f ps) = Some (w', ORes res) -> res_ok res = true -> given ob ps k = Some v ->
    sorted_records w o k false None = Some l -> sorted_records w' o k false None = Some l' ->
    exists r l1 l2, w_recs w !! r = None /\ l = l1 ++ l2 /\ l' = l1 ++ r :: l2 /\
      (forall x, x ∈ l1 -> exists vx, stored w x k = Some vx /\ vle vx v) /\
      (forall x, x ∈ l2 -> exists vx, stored w x k = Some vx /\ vlt v vx).
Proof. exact t_C12_create_after_equals. Qed.
Print Assumptions C12_create_after_equals.
Example ex_C12_create_after_equals :
  exists b ord w o ob f ps w' res (k : string) v l l',
    reach b w /\
    vault_at w o ob /\
    step ord w (OCreateRecord o f ps) = Some (w', ORes res) /\
    res_ok res = true /\
    given ob ps k = Some v /\
    sorted_records w o k false None = Some l /\
    sorted_records w' o k false None = Some l'.
Proof. exact tex_C12_create_after_equals. Qed.

(** C12: SetData moves the record behind all records with an equal or smaller new value; the records that shared the old value leave the
    listing (see C05), all others keep their order. *)
Theorem C12_setdata_after_equals :
  forall b ord w f r o ob k v w' res l l', fair ord -> reach b w -> allowed b w (OSetData f k v) ->
    denotes w f r -> bound_to w f o -> vault_at w o ob ->
    step ord w (OSetData f k v) = Some (w', ORes res) -> res_ok res = true ->
    sorted_records w o k false None = Some l -> sorted_records w' o k false None = Some l' ->
    exists l1 l2, l1 ++ l2 = (if decide (r ∈ l) then filter (fun x => stored w x k <> stored w r k) l else l) /\ l' = l1 ++ r :: l2 /\
      (forall x, x ∈ l1 -> exists vx, stored w x k = Some vx /\ vle vx v) /\
      (forall x, x ∈ l2 -> exists vx, stored w x k = Some vx /\ vlt v vx).
Proof. exact t_C12_setdata_after_equals. Qed.
Print Assumptions C12_setdata_after_equals.
Example ex_C12_setdata_after_equals :
  exists b ord w f r o ob (k : string) v w' res l l',
    fair ord /\
    reach b w /\
    allowed b w (OSetData f k v) /\
    denotes w f r /\
    bound_to w f o /\
    vault_at w o ob /\
    step ord w (OSetData f k v) = Some (w', ORes res) /\
    res_ok res = true /\
    sorted_records w o k false None = Some l /\
    sorted_records w' o k false None = Some l'.
Proof. exact tex_C12_setdata_after_equals. Qed.
