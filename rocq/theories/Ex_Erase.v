(** Generated by tools/gen_ex.py from tools/examples.txt. *)
From Verif Require Import T_Erase Ex_Base.
Open Scope nat_scope.

Lemma tex_C06_others_found_by_equality :
  exists b ord w p o ob w' out,
    fair ord /\
    reach b w /\
    vault_at w o ob /\
    erases_from o p /\
    step ord w p = Some (w', out) /\
    (exists r, r ∈ o_recs ob /\ ~ valid_rec w' r).
Proof. exists (true), (id_order), (W), (OEraseRecord 0 "age" (VInt I32 30)), (0), (ob_at (W) (0)), (nw (W) (OEraseRecord 0 "age" (VInt I32 30))), (out_of (W) (OEraseRecord 0 "age" (VInt I32 30))); ex; exists 0; ex. Qed.

Lemma tex_C06_erase_effect_on_ordered_index :
  exists b ord w p o ob w' out,
    fair ord /\
    reach b w /\
    vault_at w o ob /\
    erases_from o p /\
    step ord w p = Some (w', out) /\
    (exists r, r ∈ o_recs ob /\ ~ valid_rec w' r).
Proof. exists (true), (id_order), (W), (OEraseRecords 0 "age" (VInt I32 30) None), (0), (ob_at (W) (0)), (nw (W) (OEraseRecords 0 "age" (VInt I32 30) None)), (out_of (W) (OEraseRecords 0 "age" (VInt I32 30) None)); ex; exists 1; ex. Qed.

Lemma tex_C06_others_found_in_order_partial :
  exists b ord w p o ob w' out (k : string) v x,
    fair ord /\
    reach b w /\
    vault_at w o ob /\
    erases_from o p /\
    step ord w p = Some (w', out) /\
    is_Some (get_key_type ob k) /\
    filed_ord ob k v x /\
    (forall y, valid_rec w y -> ~ valid_rec w' y -> stored w y k <> stored w x k) /\
    ~ valid_rec w' 0.
Proof. exists (true), (id_order), (W), (OEraseRef 0 0), (0), (ob_at (W) (0)), (nw (W) (OEraseRef 0 0)), (out_of (W) (OEraseRef 0 0)), ("age"), (VInt I32 40), (2); ex; only_lost 0. Qed.

Lemma tex_C06_eraserecord_exact :
  exists b ord w o ob (k : string) v w' res,
    fair ord /\
    reach b w /\
    vault_at w o ob /\
    step ord w (OEraseRecord o k v) = Some (w', ORes res) /\
    res_ok res = true.
Proof. exists (true), (id_order), (W), (0), (ob_at (W) (0)), ("age"), (VInt I32 30), (nw (W) (OEraseRecord (0) ("age") (VInt I32 30))), (res_of (W) (OEraseRecord (0) ("age") (VInt I32 30))); ex. Qed.

Lemma tex_C06_eraserecord_exact__absent :
  exists b ord w o ob (k : string) v w' res,
    fair ord /\
    reach b w /\
    vault_at w o ob /\
    step ord w (OEraseRecord o k v) = Some (w', ORes res) /\
    res_ok res = false.
Proof. exists (true), (id_order), (W), (0), (ob_at (W) (0)), ("age"), (VInt I32 99), (nw (W) (OEraseRecord (0) ("age") (VInt I32 99))), (res_of (W) (OEraseRecord (0) ("age") (VInt I32 99))); ex. Qed.

Lemma tex_C11_eraserecords_limit :
  exists b ord w o ob (k : string) v amt w' res,
    fair ord /\
    reach b w /\
    vault_at w o ob /\
    step ord w (OEraseRecords o k v amt) = Some (w', ORes res) /\
    res_ok res = true /\ filed ob k v 0 /\ filed ob k v 1.
Proof. exists (true), (id_order), (W), (0), (ob_at (W) (0)), ("age"), (VInt I32 30), (Some 1), (nw (W) (OEraseRecords (0) ("age") (VInt I32 30) (Some 1))), (res_of (W) (OEraseRecords (0) ("age") (VInt I32 30) (Some 1))); ex. Qed.

Lemma tex_C06_eraseref_exact :
  exists b ord w o ob f rf w' done_,
    fair ord /\
    reach b w /\
    vault_at w o ob /\
    w_refs w !! f = Some rf /\
    step ord w (OEraseRef o f) = Some (w', OBool done_) /\
    done_ = true.
Proof. exists (true), (id_order), (W), (0), (ob_at (W) (0)), (0), (rf_at (W) (0)), (nw (W) (OEraseRef (0) (0))), (match out_of (W) (OEraseRef (0) (0)) with OBool b => b | _ => false end); ex. Qed.

Lemma tex_C06_eraseref_exact__erased :
  exists b ord w o ob f rf w' done_,
    fair ord /\
    reach b w /\
    vault_at w o ob /\
    w_refs w !! f = Some rf /\
    step ord w (OEraseRef o f) = Some (w', OBool done_) /\
    done_ = false.
Proof. exists (true), (id_order), (W), (0), (ob_at (W) (0)), (4), (rf_at (W) (4)), (nw (W) (OEraseRef (0) (4))), (match out_of (W) (OEraseRef (0) (4)) with OBool b => b | _ => false end); ex. Qed.

Lemma tex_C22_sets_follow_erasure :
  exists ord w p o ob w' out s sb,
    fair ord /\
    reach true w /\
    vault_at w o ob /\
    erases_from o p /\
    step ord w p = Some (w', out) /\
    set_at w s sb /\
    0 ∈ o_recs sb /\ 2 ∈ o_recs sb.
Proof. exists (id_order), (W), (OEraseRef 0 0), (0), (ob_at (W) (0)), (nw (W) (OEraseRef 0 0)), (out_of (W) (OEraseRef 0 0)), (10), (ob_at (W) (10)); ex. Qed.

Lemma tex_C22_sets_hold_valid_records :
  exists w s sb r,
    reach true w /\
    set_at w s sb /\
    r ∈ o_recs sb.
Proof. exists (W), (10), (ob_at (W) (10)), (2); ex. Qed.
