(** Generated by tools/gen_p.py from T_Drop.v: the property theorems, nothing else. *)
From Verif Require Import T_Drop Ex_Base Ex_Drop.
Open Scope nat_scope.

(** C26: DropData empties the vault and the sets filled from it, and nothing else. *)
Theorem C26_dropdata_exact :
  forall b ord w o ob w' out, fair ord -> reach b w -> vault_at w o ob -> step ord w (ODropData o) = Some (w', out) ->
    w_refs w' = w_refs w /\
    (exists ob', vault_at w' o ob' /\ same_schema ob ob' /\ o_recs ob' = ∅ /\ o_sets ob' = o_sets ob /\ indexed w' ob') /\
    (forall s sb, set_at w s sb -> o_parent sb = Some o -> exists sb', set_at w' s sb' /\ o_parent sb' = Some o /\ same_schema sb sb' /\ o_recs sb' = ∅) /\
    (forall x, x <> o -> (forall xb, set_at w x xb -> o_parent xb <> Some o) -> w_objs w' !! x = w_objs w !! x) /\
    (forall r, valid_rec w' r <-> valid_rec w r /\ r ∉ o_recs ob) /\
    (forall r k, r ∉ o_recs ob -> stored w' r k = stored w r k).
Proof. exact t_C26_dropdata_exact. Qed.
Print Assumptions C26_dropdata_exact.
Example ex_C26_dropdata_exact :
  exists b ord w o ob w' out,
    fair ord /\
    reach b w /\
    vault_at w o ob /\
    step ord w (ODropData o) = Some (w', out) /\
    size (o_recs ob) = 4.
Proof. exact tex_C26_dropdata_exact. Qed.

(** C26: after DropVault the vault is a new one and the sets filled from it are new ones; nothing else changes. *)
Theorem C26_dropvault_exact :
  forall b ord w o ob w' out, fair ord -> reach b w -> vault_at w o ob -> step ord w (ODropVault o) = Some (w', out) ->
    w_refs w' = w_refs w /\ vault_at w' o new_vault /\
    (forall s sb, set_at w s sb -> o_parent sb = Some o -> set_at w' s new_set) /\
    (forall x, x <> o -> (forall xb, set_at w x xb -> o_parent xb <> Some o) -> w_objs w' !! x = w_objs w !! x) /\
    (forall r, valid_rec w' r <-> valid_rec w r /\ r ∉ o_recs ob) /\
    (forall r k, r ∉ o_recs ob -> stored w' r k = stored w r k).
Proof. exact t_C26_dropvault_exact. Qed.
Print Assumptions C26_dropvault_exact.
Example ex_C26_dropvault_exact :
  exists b ord w o ob w' out,
    fair ord /\
    reach b w /\
    vault_at w o ob /\
    step ord w (ODropVault o) = Some (w', out) /\
    size (o_recs ob) = 4.
Proof. exact tex_C26_dropvault_exact. Qed.

(** C26: the end of a vault's lifetime. *)
Theorem C26_destroyed_exact :
  forall b ord w o ob w' out, fair ord -> reach b w -> vault_at w o ob -> step ord w (ODelVault o) = Some (w', out) ->
    w_refs w' = w_refs w /\ w_objs w' !! o = None /\
    (forall s sb, set_at w s sb -> o_parent sb = Some o -> set_at w' s new_set) /\
    (forall x, x <> o -> (forall xb, set_at w x xb -> o_parent xb <> Some o) -> w_objs w' !! x = w_objs w !! x) /\
    (forall r, valid_rec w' r <-> valid_rec w r /\ r ∉ o_recs ob) /\
    (forall r k, r ∉ o_recs ob -> stored w' r k = stored w r k).
Proof. exact t_C26_destroyed_exact. Qed.
Print Assumptions C26_destroyed_exact.
Example ex_C26_destroyed_exact :
  exists b ord w o ob w' out,
    fair ord /\
    reach b w /\
    vault_at w o ob /\
    step ord w (ODelVault o) = Some (w', out) /\
    size (o_recs ob) = 4.
Proof. exact tex_C26_destroyed_exact. Qed.

(** C45: a set has a parent iff it was filled from a vault that still exists and was not dropped since. *)
Theorem C45_valid_iff_vault_exists :
  forall b w s sb, reach b w -> set_at w s sb ->
    (set_parent_valid sb = true <-> exists p pb, o_parent sb = Some p /\ vault_at w p pb).
Proof. exact t_C45_valid_iff_vault_exists. Qed.
Print Assumptions C45_valid_iff_vault_exists.
Example ex_C45_valid_iff_vault_exists :
  exists b w s sb,
    reach b w /\
    set_at w s sb /\
    set_parent_valid sb = true.
Proof. exact tex_C45_valid_iff_vault_exists. Qed.

(** C45: what a set without a vault answers. *)
Theorem C45_invalid_set_answers :
  forall ord w s sb k v f rf, set_at w s sb -> set_parent_valid sb = false -> w_refs w !! f = Some rf ->
    let no := fun k t => bad ParentVaultNotValid k t None in
    step ord w (OGetRecord s k v f) = Some (w, ORes (no k (Some (vty v)))) /\
    (forall amt, get_records ord w s k v amt = Some (no k (Some (vty v)), [])) /\
    (forall rev amt, sorted_records w s k rev amt = Some []) /\
    (forall rev amt g, sort_by w s k rev amt g = Some []) /\
    (forall rt e ib ie amt p x xb, set_at w x xb -> step ord w (ORequest s rt k v e ib ie amt p x) = Some (w, ORes (no k (Some (vty v))))) /\
    (forall q x xb, set_at w x xb -> step ord w (OComplex s q x) = Some (w, ORes (no ""%string None))) /\
    step ord w (OEraseRecord s k v) = Some (w, ORes (no k (Some (vty v)))) /\
    (forall amt, step ord w (OEraseRecords s k v amt) = Some (w, ORes (no k (Some (vty v))))) /\
    step ord w (OEraseRef s f) = Some (w, OBool false) /\
    step ord w (OSetAdd s f) = Some (w, ORes (no ""%string None)) /\
    set_check w s rf = Some false /\ set_size w sb = Some 0 /\ set_get_keys w sb = Some [] /\ set_get_unique_keys w sb = Some [] /\
    set_is_key_exist w sb k = Some false /\ set_get_key_type w sb k = Some None /\ set_get_key_value w sb k (vty v) = Some (no k (Some (vty v)), None).
Proof. exact t_C45_invalid_set_answers. Qed.
Print Assumptions C45_invalid_set_answers.
Example ex_C45_invalid_set_answers :
  exists w s sb f rf,
    set_at w s sb /\
    set_parent_valid sb = false /\
    w_refs w !! f = Some rf.
Proof. exact tex_C45_invalid_set_answers. Qed.
