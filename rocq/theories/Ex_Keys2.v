(** Generated by tools/gen_ex.py from tools/examples.txt. *)
From Verif Require Import T_Keys2 Ex_Base.
Open Scope nat_scope.

Lemma tex_C14_removekey_exact :
  exists b ord w o ob (k : string) w' out,
    fair ord /\
    reach b w /\
    vault_at w o ob /\
    step ord w (ORemoveKey o k) = Some (w', out) /\
    out = OBool true /\ size (o_recs ob) = 4.
Proof. exists (true), (id_order), (W), (0), (ob_at (W) (0)), ("age"), (nw (W) (ORemoveKey (0) ("age"))), (out_of (W) (ORemoveKey (0) ("age"))); ex. Qed.

Lemma tex_C17_updatekey_exact :
  exists b ord w o ob (k : string) d w' out,
    reach b w /\
    vault_at w o ob /\
    step ord w (OUpdateKey o k d) = Some (w', out) /\
    out = ORes (okres Success "age" (Some (TInt I32)) (Some (TInt I32))).
Proof. exists (true), (id_order), (W), (0), (ob_at (W) (0)), ("age"), (VInt I32 21), (nw (W) (OUpdateKey (0) ("age") (VInt I32 21))), (out_of (W) (OUpdateKey (0) ("age") (VInt I32 21))); ex. Qed.

Lemma tex_C17_default_in_force :
  exists b ord w o ob (k : string) d w1 f ps w2 res,
    reach b w /\
    vault_at w o ob /\
    o_tmpl ob !! k = Some d /\
    later_if b (fun p => ~ schema_op o p /\ p <> ODelVault o) w w1 /\
    step ord w1 (OCreateRecord o f ps) = Some (w2, ORes res) /\
    res_ok res = true /\
    k ∉ (fst <$> ps).
Proof. exists (true), (id_order), (nw W (OUpdateKey 0 "age" (VInt I32 21))), (0), (ob_at (nw W (OUpdateKey 0 "age" (VInt I32 21))) (0)), ("age"), (VInt I32 21), (nw (nw W (OUpdateKey 0 "age" (VInt I32 21))) (OEraseRef 0 0)), (Some 9), ([("id", VInt I32 8)]), (nw (nw (nw W (OUpdateKey 0 "age" (VInt I32 21))) (OEraseRef 0 0)) (OCreateRecord (0) (Some 9) ([("id", VInt I32 8)]))), (res_of (nw (nw W (OUpdateKey 0 "age" (VInt I32 21))) (OEraseRef 0 0)) (OCreateRecord (0) (Some 9) ([("id", VInt I32 8)]))); ex; apply nw_later_if; [apply later_if_now|cbn; intuition discriminate|vmr]. Qed.
