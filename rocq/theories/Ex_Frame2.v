(** Generated by tools/gen_ex.py from tools/examples.txt. *)
From Verif Require Import T_Frame2 Ex_Base.
Open Scope nat_scope.

Lemma tex_C19_invalid_forever :
  exists b w f r w',
    reach b w /\
    denotes w f r /\
    ~ valid_rec w r /\
    later b w w' /\
    bound_to w' 4 0.
Proof. exists (true), (W), (4), (4), (nw (nw (W) (OSetData 0 "age" (VInt I32 1))) (OCreateRecord 0 None [("id", VInt I32 8)])); ex. Qed.

Lemma tex_C07_values_change_only_by_setdata :
  exists b ord w p w' out r (k : string),
    fair ord /\
    reach b w /\
    allowed b w p /\
    step ord w p = Some (w', out) /\
    valid_rec w r /\
    valid_rec w' r /\
    ~ may_write w p r k /\
    out = ORes (okres Success "age" (Some (TInt I32)) (Some (TInt I32))).
Proof. exists (true), (id_order), (W), (OSetData 0 "age" (VInt I32 31)), (nw (W) (OSetData 0 "age" (VInt I32 31))), (out_of (W) (OSetData 0 "age" (VInt I32 31))), (1), ("age"); ex; intros [_ H]; revert H; refute_dec. Qed.

Lemma tex_C13_keys_change_only_by_key_ops :
  exists b ord w p w' out o ob,
    fair ord /\
    reach b w /\
    allowed b w p /\
    step ord w p = Some (w', out) /\
    vault_at w o ob /\
    ~ schema_op o p /\
    p <> ODelVault o /\
    stored w' 0 "age" <> stored w 0 "age".
Proof. exists (true), (id_order), (W), (OSetData 0 "age" (VInt I32 31)), (nw (W) (OSetData 0 "age" (VInt I32 31))), (out_of (W) (OSetData 0 "age" (VInt I32 31))), (0), (ob_at (W) (0)); ex; cbn; intuition discriminate. Qed.

Lemma tex_C19_members_change_only_by_create_and_erase :
  exists b ord w p w' out o ob ob',
    fair ord /\
    reach b w /\
    allowed b w p /\
    step ord w p = Some (w', out) /\
    vault_at w o ob /\
    vault_at w' o ob' /\
    size (o_recs ob') = S (size (o_recs ob)).
Proof. exists (true), (id_order), (W), (OCreateRecord 0 (Some 9) [("id", VInt I32 8)]), (nw (W) (OCreateRecord 0 (Some 9) [("id", VInt I32 8)])), (out_of (W) (OCreateRecord 0 (Some 9) [("id", VInt I32 8)])), (0), (ob_at (W) (0)), (ob_at (nw (W) (OCreateRecord 0 (Some 9) [("id", VInt I32 8)])) (0)); ex. Qed.
