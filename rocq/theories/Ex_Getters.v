(** Generated by tools/gen_ex.py from tools/examples.txt. *)
From Verif Require Import T_Getters Ex_Base.
Open Scope nat_scope.

Lemma tex_C49_set_getters :
  exists b w s sb p,
    reach b w /\
    set_at w s sb /\
    o_parent sb = Some p /\
    get_keys sb = ["id"; "age"; "name"] /\ size (o_recs sb) = 3.
Proof. exists (true), (W), (10), (ob_at (W) (10)), (0); ex. Qed.

Lemma tex_C49_check_exact :
  exists b w s sb f rf,
    reach b w /\
    set_at w s sb /\
    w_refs w !! f = Some rf /\
    set_check w s rf = Some true.
Proof. exists (true), (W), (10), (ob_at (W) (10)), (2), (rf_at (W) (2)); ex. Qed.

Lemma tex_C49_check_exact__out :
  exists b w s sb f rf,
    reach b w /\
    set_at w s sb /\
    w_refs w !! f = Some rf /\
    set_check w s rf = Some false.
Proof. exists (true), (W), (10), (ob_at (W) (10)), (3), (rf_at (W) (3)); ex. Qed.

Lemma tex_C49_getkeyvalue_exact :
  exists b w o ob (k : string) t,
    reach b w /\
    vault_at w o ob /\
    get_key_value ob k t = (okres Success k (Some t) (Some t), Some (VInt I32 18)).
Proof. exists (true), (W), (0), (ob_at (W) (0)), ("age"), (TInt I32); ex. Qed.

Lemma tex_C49_set_getkeyvalue :
  exists w s sb p pb (k : string) t,
    reach true w /\
    set_at w s sb /\
    o_parent sb = Some p /\
    vault_at w p pb /\
    get_key_value pb k t = (okres Success k (Some t) (Some t), Some (VInt I32 18)).
Proof. exists (W), (10), (ob_at (W) (10)), (0), (ob_at (W) 0), ("age"), (TInt I32); ex. Qed.

Lemma tex_C49_size_after_create :
  exists b ord w o ob f ps w' res,
    reach b w /\
    vault_at w o ob /\
    step ord w (OCreateRecord o f ps) = Some (w', ORes res) /\
    res_ok res = true.
Proof. exists (true), (id_order), (W), (0), (ob_at (W) (0)), (Some 9), ([("id", VInt I32 50)]), (nw (W) (OCreateRecord (0) (Some 9) ([("id", VInt I32 50)]))), (res_of (W) (OCreateRecord (0) (Some 9) ([("id", VInt I32 50)]))); ex. Qed.

Lemma tex_C49_size_after_create__rejected :
  exists b ord w o ob f ps w' res,
    reach b w /\
    vault_at w o ob /\
    step ord w (OCreateRecord o f ps) = Some (w', ORes res) /\
    res_ok res = false.
Proof. exists (true), (id_order), (W), (0), (ob_at (W) (0)), (Some 9), ([("id", VInt I32 1)]), (nw (W) (OCreateRecord (0) (Some 9) ([("id", VInt I32 1)]))), (res_of (W) (OCreateRecord (0) (Some 9) ([("id", VInt I32 1)]))); ex. Qed.

Lemma tex_C49_size_after_erase :
  exists b ord w p o ob w' out,
    fair ord /\
    reach b w /\
    vault_at w o ob /\
    erases_from o p /\
    step ord w p = Some (w', out) /\
    vault_size ob = 4 /\ vault_size (ob_at w' 0) = 2.
Proof. exists (true), (id_order), (W), (OEraseRecords 0 "age" (VInt I32 30) None), (0), (ob_at (W) (0)), (nw (W) (OEraseRecords 0 "age" (VInt I32 30) None)), (out_of (W) (OEraseRecords 0 "age" (VInt I32 30) None)); ex. Qed.
