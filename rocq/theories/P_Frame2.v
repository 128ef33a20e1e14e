(** Generated by tools/gen_p.py from T_Frame2.v: the property theorems, nothing else. *)
From Verif Require Import T_Frame2 Ex_Base Ex_Frame2.
Open Scope nat_scope.

(** C19: once a record a reference denotes is invalid it stays invalid in every later history, and every access through any reference to it
    that is bound to an existing vault reports so and changes nothing. *)
Theorem C19_invalid_forever :
  forall b w f r w', reach b w -> denotes w f r -> ~ valid_rec w r -> later b w w' ->
    ~ valid_rec w' r /\
    forall f2 rf2 o ob, w_refs w' !! f2 = Some rf2 -> f_rec rf2 = Some r -> f_vlt rf2 = Some o -> vault_at w' o ob ->
      (forall k t, ref_get_data w' rf2 k t = Some (bad DataRecordNotValid k (Some t) None, None)) /\
      (forall ord k v w2 res, fair ord -> step ord w' (OSetData f2 k v) = Some (w2, ORes res) ->
         w2 = w' /\ res = bad DataRecordNotValid k (Some (vty v)) None).
Proof. exact t_C19_invalid_forever. Qed.
Print Assumptions C19_invalid_forever.
Example ex_C19_invalid_forever :
  exists b w f r w',
    reach b w /\
    denotes w f r /\
    ~ valid_rec w r /\
    later b w w' /\
    bound_to w' 4 0.
Proof. exact tex_C19_invalid_forever. Qed.

(** C07, C21: no operation other than SetData through a reference to the record, or adding or removing the key, changes a stored value. *)
Theorem C07_values_change_only_by_setdata :
  forall b ord w p w' out r k, fair ord -> reach b w -> allowed b w p -> step ord w p = Some (w', out) ->
    valid_rec w r -> valid_rec w' r -> ~ may_write w p r k -> stored w' r k = stored w r k.
Proof. exact t_C07_values_change_only_by_setdata. Qed.
Print Assumptions C07_values_change_only_by_setdata.
Example ex_C07_values_change_only_by_setdata :
  exists b ord w p w' out r (k : string),
    fair ord /\
    reach b w /\
    allowed b w p /\
    step ord w p = Some (w', out) /\
    valid_rec w r /\
    valid_rec w' r /\
    ~ may_write w p r k /\
    out = ORes (okres Success "age" (Some (TInt I32)) (Some (TInt I32))).
Proof. exact tex_C07_values_change_only_by_setdata. Qed.

(** C13: only AddKey, AddUniqueKey, UpdateKey, RemoveKey, DropVault, vault assignment and moves change the keys of a vault. *)
Theorem C13_keys_change_only_by_key_ops :
  forall b ord w p w' out o ob, fair ord -> reach b w -> allowed b w p -> step ord w p = Some (w', out) ->
    vault_at w o ob -> ~ schema_op o p -> p <> ODelVault o -> exists ob', vault_at w' o ob' /\ same_schema ob ob'.
Proof. exact t_C13_keys_change_only_by_key_ops. Qed.
Print Assumptions C13_keys_change_only_by_key_ops.
Example ex_C13_keys_change_only_by_key_ops :
  exists b ord w p w' out o ob,
    fair ord /\
    reach b w /\
    allowed b w p /\
    step ord w p = Some (w', out) /\
    vault_at w o ob /\
    ~ schema_op o p /\
    p <> ODelVault o /\
    stored w' 0 "age" <> stored w 0 "age".
Proof. exact tex_C13_keys_change_only_by_key_ops. Qed.

(** C19, C03: a vault gains records only by CreateRecord, file loading or assignment (and they are new records) or by a move (and they are the
    records of the vault moved from), and loses records only by erasure, DropData, DropVault or assignment (and they become invalid) or by a move
    (and they are in the vault moved to). *)
Theorem C19_members_change_only_by_create_and_erase :
  forall b ord w p w' out o ob ob', fair ord -> reach b w -> allowed b w p -> step ord w p = Some (w', out) ->
    vault_at w o ob -> vault_at w' o ob' ->
    (forall r, r ∈ o_recs ob' -> r ∉ o_recs ob ->
       (adds_to o p /\ ~ valid_rec w r /\ forall f, ~ denotes w f r) \/ exists s sb, moves_vault p o s /\ vault_at w s sb /\ r ∈ o_recs sb) /\
    (forall r, r ∈ o_recs ob -> r ∉ o_recs ob' ->
       (takes_from o p /\ ~ valid_rec w' r) \/ exists d db, moves_vault p d o /\ vault_at w' d db /\ r ∈ o_recs db).
Proof. exact t_C19_members_change_only_by_create_and_erase. Qed.
Print Assumptions C19_members_change_only_by_create_and_erase.
Example ex_C19_members_change_only_by_create_and_erase :
  exists b ord w p w' out o ob ob',
    fair ord /\
    reach b w /\
    allowed b w p /\
    step ord w p = Some (w', out) /\
    vault_at w o ob /\
    vault_at w' o ob' /\
    size (o_recs ob') = S (size (o_recs ob)).
Proof. exact tex_C19_members_change_only_by_create_and_erase. Qed.
