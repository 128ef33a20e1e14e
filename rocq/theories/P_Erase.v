(** Generated by tools/gen_p.py from T_Erase.v: the property theorems, nothing else. *)
From Verif Require Import T_Erase Ex_Base Ex_Erase.
Open Scope nat_scope.

(** C06: erasing changes nothing, or exactly the erased records leave the vault; the equality index keeps every remaining record. *)
Theorem C06_others_found_by_equality :
  forall b ord w p o ob w' out, fair ord -> reach b w -> vault_at w o ob -> erases_from o p -> step ord w p = Some (w', out) ->
    exists X ob', NoDup X /\ (forall r, r ∈ X -> r ∈ o_recs ob) /\ erased_exactly o X w w' /\ vault_at w' o ob' /\
      forall k v r, is_Some (get_key_type ob k) -> (filed ob' k v r <-> filed ob k v r /\ r ∉ X).
Proof. exact t_C06_others_found_by_equality. Qed.
Print Assumptions C06_others_found_by_equality.
Example ex_C06_others_found_by_equality :
  exists b ord w p o ob w' out,
    fair ord /\
    reach b w /\
    vault_at w o ob /\
    erases_from o p /\
    step ord w p = Some (w', out) /\
    (exists r, r ∈ o_recs ob /\ ~ valid_rec w' r).
Proof. exact tex_C06_others_found_by_equality. Qed.

(** C06: exactly what an erasure does to the ordered index: all records filed under a value of an erased record leave it. *)
Theorem C06_erase_effect_on_ordered_index :
  forall b ord w p o ob w' out, fair ord -> reach b w -> vault_at w o ob -> erases_from o p -> step ord w p = Some (w', out) ->
    exists X ob', NoDup X /\ (forall r, r ∈ X -> r ∈ o_recs ob) /\ erased_exactly o X w w' /\ vault_at w' o ob' /\
      forall k v r, is_Some (get_key_type ob k) -> (filed_ord ob' k v r <-> filed_ord ob k v r /\ forall x, x ∈ X -> ~ filed_ord ob k v x).
Proof. exact t_C06_erase_effect_on_ordered_index. Qed.
Print Assumptions C06_erase_effect_on_ordered_index.
Example ex_C06_erase_effect_on_ordered_index :
  exists b ord w p o ob w' out,
    fair ord /\
    reach b w /\
    vault_at w o ob /\
    erases_from o p /\
    step ord w p = Some (w', out) /\
    (exists r, r ∈ o_recs ob /\ ~ valid_rec w' r).
Proof. exact tex_C06_erase_effect_on_ordered_index. Qed.

(** C06 (restricted): a remaining record that shares its value with no record that left stays in the ordered index. *)
Theorem C06_others_found_in_order_partial :
  forall b ord w p o ob w' out k v x, fair ord -> reach b w -> vault_at w o ob -> erases_from o p -> step ord w p = Some (w', out) ->
    is_Some (get_key_type ob k) -> filed_ord ob k v x ->
    (forall y, valid_rec w y -> ~ valid_rec w' y -> stored w y k <> stored w x k) ->
    exists ob', vault_at w' o ob' /\ filed_ord ob' k v x /\ stored w' x k = Some v.
Proof. exact t_C06_others_found_in_order_partial. Qed.
Print Assumptions C06_others_found_in_order_partial.
Example ex_C06_others_found_in_order_partial :
  exists b ord w p o ob w' out (k : string) v x,
    fair ord /\
    reach b w /\
    vault_at w o ob /\
    erases_from o p /\
    step ord w p = Some (w', out) /\
    is_Some (get_key_type ob k) /\
    filed_ord ob k v x /\
    (forall y, valid_rec w y -> ~ valid_rec w' y -> stored w y k <> stored w x k) /\
    ~ valid_rec w' 0.
Proof. exact tex_C06_others_found_in_order_partial. Qed.

(** C06: the answer of EraseRecord(key, value): refused without change exactly when the key or type is wrong or no record is found
    under the value; otherwise one of the found records is erased. *)
Theorem C06_eraserecord_exact :
  forall b ord w o ob k v w' res, fair ord -> reach b w -> vault_at w o ob -> step ord w (OEraseRecord o k v) = Some (w', ORes res) ->
    if res_ok res then get_key_type ob k = Some (vty v) /\ exists r, filed ob k v r /\ r ∈ o_recs ob /\ stored w r k = Some v /\ erased_exactly o [r] w w'
    else w' = w /\ res = match get_key_type ob k with
                         | None => bad WrongKey k (Some (vty v)) None
                         | Some t => if decide (t = vty v) then bad WrongValue k (Some (vty v)) (Some t) else bad WrongType k (Some (vty v)) (Some t)
                         end /\ (get_key_type ob k = Some (vty v) -> forall r, ~ filed ob k v r).
Proof. exact t_C06_eraserecord_exact. Qed.
Print Assumptions C06_eraserecord_exact.
Example ex_C06_eraserecord_exact :
  exists b ord w o ob (k : string) v w' res,
    fair ord /\
    reach b w /\
    vault_at w o ob /\
    step ord w (OEraseRecord o k v) = Some (w', ORes res) /\
    res_ok res = true.
Proof. exact tex_C06_eraserecord_exact. Qed.
Example ex_C06_eraserecord_exact__absent :
  exists b ord w o ob (k : string) v w' res,
    fair ord /\
    reach b w /\
    vault_at w o ob /\
    step ord w (OEraseRecord o k v) = Some (w', ORes res) /\
    res_ok res = false.
Proof. exact tex_C06_eraserecord_exact__absent. Qed.

(** C11: EraseRecords with a limit erases min(limit, matches) records, at least one; without a limit all of them. *)
Theorem C11_eraserecords_limit :
  forall b ord w o ob k v amt w' res, fair ord -> reach b w -> vault_at w o ob -> step ord w (OEraseRecords o k v amt) = Some (w', ORes res) ->
    if res_ok res then exists found X, NoDup found /\ (forall r, r ∈ found <-> filed ob k v r) /\ X `sublist_of` found /\ X <> [] /\
      length X = match amt with None => length found | Some n => length found `min` (n `max` 1) end /\ erased_exactly o X w w'
    else w' = w /\ res = match get_key_type ob k with
                         | None => bad WrongKey k (Some (vty v)) None
                         | Some t => if decide (t = vty v) then bad WrongValue k (Some (vty v)) (Some t) else bad WrongType k (Some (vty v)) (Some t)
                         end /\ (get_key_type ob k = Some (vty v) -> forall r, ~ filed ob k v r).
Proof. exact t_C11_eraserecords_limit. Qed.
Print Assumptions C11_eraserecords_limit.
Example ex_C11_eraserecords_limit :
  exists b ord w o ob (k : string) v amt w' res,
    fair ord /\
    reach b w /\
    vault_at w o ob /\
    step ord w (OEraseRecords o k v amt) = Some (w', ORes res) /\
    res_ok res = true /\ filed ob k v 0 /\ filed ob k v 1.
Proof. exact tex_C11_eraserecords_limit. Qed.

(** C06, C19: EraseRecord(reference) erases the record the reference denotes, if it is a record of this vault. *)
Theorem C06_eraseref_exact :
  forall b ord w o ob f rf w' done_, fair ord -> reach b w -> vault_at w o ob -> w_refs w !! f = Some rf ->
    step ord w (OEraseRef o f) = Some (w', OBool done_) ->
    match f_rec rf with
    | Some r => if decide (r ∈ o_recs ob) then done_ = true /\ erased_exactly o [r] w w' else done_ = false /\ w' = w
    | None => done_ = false /\ w' = w
    end.
Proof. exact t_C06_eraseref_exact. Qed.
Print Assumptions C06_eraseref_exact.
Example ex_C06_eraseref_exact :
  exists b ord w o ob f rf w' done_,
    fair ord /\
    reach b w /\
    vault_at w o ob /\
    w_refs w !! f = Some rf /\
    step ord w (OEraseRef o f) = Some (w', OBool done_) /\
    done_ = true.
Proof. exact tex_C06_eraseref_exact. Qed.
Example ex_C06_eraseref_exact__erased :
  exists b ord w o ob f rf w' done_,
    fair ord /\
    reach b w /\
    vault_at w o ob /\
    w_refs w !! f = Some rf /\
    step ord w (OEraseRef o f) = Some (w', OBool done_) /\
    done_ = false.
Proof. exact tex_C06_eraseref_exact__erased. Qed.

(** C22: in the safe class a set loses exactly the erased records, in its contents and in every lookup. *)
Theorem C22_sets_follow_erasure :
  forall ord w p o ob w' out s sb, fair ord -> reach true w -> vault_at w o ob -> erases_from o p -> step ord w p = Some (w', out) ->
    set_at w s sb ->
    exists sb', set_at w' s sb' /\ sb' = ob_recs (o_recs sb') (ob_idx (o_idx sb') sb) /\ (forall r, r ∈ o_recs sb' <-> r ∈ o_recs sb /\ valid_rec w' r) /\
      (forall k v r, is_Some (get_key_type sb' k) -> filed sb' k v r \/ filed_ord sb' k v r -> r ∈ o_recs sb' /\ stored w' r k = Some v).
Proof. exact t_C22_sets_follow_erasure. Qed.
Print Assumptions C22_sets_follow_erasure.
Example ex_C22_sets_follow_erasure :
  exists ord w p o ob w' out s sb,
    fair ord /\
    reach true w /\
    vault_at w o ob /\
    erases_from o p /\
    step ord w p = Some (w', out) /\
    set_at w s sb /\
    0 ∈ o_recs sb /\ 2 ∈ o_recs sb.
Proof. exact tex_C22_sets_follow_erasure. Qed.

(** C22: in the safe class a set only ever holds valid records of its vault, and every lookup in it gives such records. *)
Theorem C22_sets_hold_valid_records :
  forall w s sb r, reach true w -> set_at w s sb -> r ∈ o_recs sb ->
    valid_rec w r /\ exists o ob, o_parent sb = Some o /\ vault_at w o ob /\ r ∈ o_recs ob.
Proof. exact t_C22_sets_hold_valid_records. Qed.
Print Assumptions C22_sets_hold_valid_records.
Example ex_C22_sets_hold_valid_records :
  exists w s sb r,
    reach true w /\
    set_at w s sb /\
    r ∈ o_recs sb.
Proof. exact tex_C22_sets_hold_valid_records. Qed.
