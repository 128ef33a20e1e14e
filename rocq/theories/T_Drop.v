(** Lemmas for C26 and C45: DropData, DropVault, destruction of vaults; sets whose vault is gone. *)
From Verif Require Export T_Sets.
Open Scope nat_scope.

Lemma live_gone (L L' : gmap nat lrec) (X : gset nat) (P : nat -> Prop) {d : forall r, Decision (P r)} w w' :
  live w = L -> live w' = L' -> (forall r, P r <-> r ∈ X) ->
  (forall r, fst <$> L' !! r = if decide (P r) then None else fst <$> L !! r) ->
  (forall r, valid_rec w' r <-> valid_rec w r /\ r ∉ X) /\ (forall r k, r ∉ X -> stored w' r k = stored w r k).
Proof.
  intros <- <- HP H. split.
  - intros r. rewrite !valid_rec_live. specialize (H r). destruct (decide (P r)) as [Hr|Hr].
    + apply HP in Hr. split; [|by intros [_ ?]]. intros [l El]. rewrite El in H. done.
    + rewrite HP in Hr. split; [|intros [[l El] _]; rewrite El in H; destruct (live w' !! r); [eauto|done]].
      intros [l El]. split; [|done]. rewrite El in H. destruct (live w !! r); [eauto|done].
  - intros r k Hr. rewrite !stored_val_of. apply val_of_fst. rewrite H, decide_False; [done|]. by rewrite HP.
Qed.
Lemma cleared_indexed w ob : (forall k td, o_keys ob !! k = Some td -> is_Some (o_idx ob !! k)) -> indexed w (cleared ob).
Proof.
  intros Hi k [t Ht] v r. unfold get_key_type in Ht. change (o_keys (cleared ob)) with (o_keys ob) in Ht. destruct (o_keys ob !! k) as [td|] eqn:Ek; [|done].
  destruct (Hi _ _ Ek) as [ix Hix].
  assert (E : o_idx (cleared ob) !! k = Some (Idx (ix_multi ix) [] [])). { rewrite lookup_cleared, Hix. cbn. by rewrite Ek. }
  unfold filed, filed_ord. rewrite E. split; (split; [intros (ix' & [= <-] & H); by apply elem_of_nil in H|intros [H _]; by apply not_elem_of_empty in H]).
Qed.
(** C26: DropData empties the vault and the sets filled from it, and nothing else. *)
Lemma t_C26_dropdata_exact :
  forall b ord w o ob w' out, fair ord -> reach b w -> vault_at w o ob -> step ord w (ODropData o) = Some (w', out) ->
    w_refs w' = w_refs w /\
    (exists ob', vault_at w' o ob' /\ same_schema ob ob' /\ o_recs ob' = ∅ /\ o_sets ob' = o_sets ob /\ indexed w' ob') /\
    (forall s sb, set_at w s sb -> o_parent sb = Some o -> exists sb', set_at w' s sb' /\ o_parent sb' = Some o /\ same_schema sb sb' /\ o_recs sb' = ∅) /\
    (forall x, x <> o -> (forall xb, set_at w x xb -> o_parent xb <> Some o) -> w_objs w' !! x = w_objs w !! x) /\
    (forall r, valid_rec w' r <-> valid_rec w r /\ r ∉ o_recs ob) /\
    (forall r k, r ∉ o_recs ob -> stored w' r k = stored w r k).
Proof.
  intros b ord w o ob w' out Hf HR HV H. pose proof (reach_inv _ _ HR) as HI. pose proof HV as [Ho Hst]. cbn [step] in H. rewrite (vault_guard _ _ _ HV) in H. cbn [guard_op] in H.
  apply unit_inv in H as (E & _). destruct (drop_data_ok b ord w o ob) as (w1 & E1 & _ & Hem); [done|done|done|done|by eapply Some_Def|]. assert (w1 = w') as -> by congruence.
  destruct Hem as [M1 M2 M3 M4 M5 M6 M7]. split; [done|]. split; [|split; [|split; [|eapply live_gone; [done|done| |exact M6]]]].
  - exists (cleared ob). split; [by split; [apply M3|]|]. split; [done|]. split; [done|]. split; [done|]. apply cleared_indexed. intros k td Hk.
    destruct (v_idx _ _ (vi_vault _ _ _ _ (inv_obj _ _ HI) _ _ Ho Hst) _ _ Hk) as (ix & Hix & _). eauto.
  - intros s sb [Hs Hss] Hp. exists (cleared sb). split; [by split; [apply M4|]|]. done.
  - intros x Hx Hn. apply M5; [done|]. intros (sb & Hs & Hss & Hp). by apply (Hn sb).
  - intros r. split; [intros (ob1 & E1' & Hr); congruence|eauto].
Qed.
(** C26: after DropVault the vault is a new one and the sets filled from it are new ones; nothing else changes. *)
Lemma t_C26_dropvault_exact :
  forall b ord w o ob w' out, fair ord -> reach b w -> vault_at w o ob -> step ord w (ODropVault o) = Some (w', out) ->
    w_refs w' = w_refs w /\ vault_at w' o new_vault /\
    (forall s sb, set_at w s sb -> o_parent sb = Some o -> set_at w' s new_set) /\
    (forall x, x <> o -> (forall xb, set_at w x xb -> o_parent xb <> Some o) -> w_objs w' !! x = w_objs w !! x) /\
    (forall r, valid_rec w' r <-> valid_rec w r /\ r ∉ o_recs ob) /\
    (forall r k, r ∉ o_recs ob -> stored w' r k = stored w r k).
Proof.
  intros b ord w o ob w' out Hf HR HV H. pose proof (reach_inv _ _ HR) as HI. pose proof HV as [Ho Hst]. cbn [step] in H. rewrite (vault_guard _ _ _ HV) in H. cbn [guard_op] in H.
  apply unit_inv in H as (E & _). destruct (drop_vault_ok b ord w o ob) as (w1 & E1 & _ & Hem); [done|done|done|done|by eapply Some_Def|]. assert (w1 = w') as -> by congruence.
  destruct Hem as [M1 M2 M3 M4 M5 M6 M7]. pose proof (vi_vault _ _ _ _ (inv_obj _ _ HI) _ _ Ho Hst) as Hv. split; [done|]. split; [|split; [|split; [|eapply live_gone; [done|done| |exact M6]]]].
  - split; [|done]. rewrite (M3 _ Ho), Hst, (v_isset _ _ Hv), (v_parent _ _ Hv). done.
  - intros s sb [Hs Hss] Hp. split; [|done]. rewrite (M4 _ _ Hs Hss Hp). unfold reset_obj. rewrite Hss, (so_isset _ _ _ _ _ _ (vi_set _ _ _ _ (inv_obj _ _ HI) _ _ Hs Hss)). done.
  - intros x Hx Hn. apply M5; [done|]. intros (sb & Hs & Hss & Hp). by apply (Hn sb).
  - intros r. split; [intros (ob1 & E1' & Hr); congruence|eauto].
Qed.
(** C26: the end of a vault's lifetime. *)
Lemma t_C26_destroyed_exact :
  forall b ord w o ob w' out, fair ord -> reach b w -> vault_at w o ob -> step ord w (ODelVault o) = Some (w', out) ->
    w_refs w' = w_refs w /\ w_objs w' !! o = None /\
    (forall s sb, set_at w s sb -> o_parent sb = Some o -> set_at w' s new_set) /\
    (forall x, x <> o -> (forall xb, set_at w x xb -> o_parent xb <> Some o) -> w_objs w' !! x = w_objs w !! x) /\
    (forall r, valid_rec w' r <-> valid_rec w r /\ r ∉ o_recs ob) /\
    (forall r k, r ∉ o_recs ob -> stored w' r k = stored w r k).
Proof.
  intros b ord w o ob w' out Hf HR HV H. cbn [step] in H. rewrite (vault_guard _ _ _ HV) in H. cbn [guard_op] in H.
  apply unit_inv in H as (E & _). destruct (drop_vault ord w o) as [w1|] eqn:E1; [|done]. cbn [mbind option_bind] in E. injection E as <-.
  destruct (t_C26_dropvault_exact b ord w o ob w1 OUnit) as (A1 & [A2 _] & A3 & A4 & A5 & A6); [done|done|done| |].
  { cbn [step]. rewrite (vault_guard _ _ _ HV). cbn [guard_op]. by rewrite E1. }
  split; [done|]. split; [cbn; by rewrite lookup_delete|]. split; [|split; [|split; [|done]]].
  - intros s sb HS Hp. destruct (A3 s sb HS Hp) as [B1 B2]. split; [|done]. cbn. rewrite lookup_delete_ne; [done|]. intros ->. destruct HS, HV. congruence.
  - intros x Hx Hn. cbn. rewrite lookup_delete_ne by done. by apply A4.
  - exact A5.
Qed.

(** C45: a set has a parent iff it was filled from a vault that still exists and was not dropped since. *)
Lemma t_C45_valid_iff_vault_exists :
  forall b w s sb, reach b w -> set_at w s sb ->
    (set_parent_valid sb = true <-> exists p pb, o_parent sb = Some p /\ vault_at w p pb).
Proof.
  intros b w s sb HR [Hs Hst]. pose proof (reach_inv _ _ HR) as HI. unfold set_parent_valid. rewrite bool_decide_eq_true. split.
  - intros [p Hp]. destruct (Inv_set_facts _ _ _ _ _ HI Hs Hst Hp) as (pb & Hpb & Hps & _). by exists p, pb.
  - intros (p & pb & Hp & _). eauto.
Qed.
(** C45: what a set without a vault answers. *)
Lemma t_C45_invalid_set_answers :
  forall ord w s sb k v f rf, set_at w s sb -> set_parent_valid sb = false -> w_refs w !! f = Some rf ->
    let no := fun k t => bad ParentVaultNotValid k t None in
    step ord w (OGetRecord s k v f) = Some (w, ORes (no k (Some (vty v)))) /\
    (forall amt, get_records ord w s k v amt = Some (no k (Some (vty v)), [])) /\
    (forall rev amt, sorted_records w s k rev amt = Some []) /\
    (forall rev amt g, sort_by w s k rev amt g = Some []) /\
    (forall rt e ib ie amt p x xb, set_at w x xb -> step ord w (ORequest s rt k v e ib ie amt p x) = Some (w, ORes (no k (Some (vty v))))) /\
    (forall q x xb, set_at w x xb -> step ord w (OComplex s q x) = Some (w, ORes (no ""%string None))) /\
    step ord w (OEraseRecord s k v) = Some (w, ORes (no k (Some (vty v)))) /\
    (forall amt, step ord w (OEraseRecords s k v amt) = Some (w, ORes (no k (Some (vty v))))) /\
    step ord w (OEraseRef s f) = Some (w, OBool false) /\
    step ord w (OSetAdd s f) = Some (w, ORes (no ""%string None)) /\
    set_check w s rf = Some false /\ set_size w sb = Some 0 /\ set_get_keys w sb = Some [] /\ set_get_unique_keys w sb = Some [] /\
    set_is_key_exist w sb k = Some false /\ set_get_key_type w sb k = Some None /\ set_get_key_value w sb k (vty v) = Some (no k (Some (vty v)), None).
Proof.
  intros ord w s sb k v f rf HS Hn Hrf no. pose proof HS as [Hs Hst]. unfold set_parent_valid in Hn. apply bool_decide_eq_false in Hn. apply eq_None_not_Some in Hn.
  assert (is_obj w s = true) as Ho. { unfold is_obj. rewrite Hs. done. } assert (is_ref w f = true) as Hf. { unfold is_ref. rewrite Hrf. done. }
  assert (forall x xb, set_at w x xb -> is_set w x = true) as Hx by apply set_guard. cbn [step]. rewrite Ho, Hf, (set_guard _ _ _ HS). cbn [andb guard_op].
  assert (HG : forall m k', set_parent_guard w s k' v m = Some (w, no k' (Some (vty v)))). { intros m k'. unfold set_parent_guard. rewrite Hs. cbn [mbind option_bind]. by rewrite Hst, Hn. }
  repeat split.
  - unfold get_record. rewrite Hs. cbn [mbind option_bind]. by rewrite Hst, Hn.
  - intros amt. unfold get_records. rewrite Hs. cbn [mbind option_bind]. by rewrite Hst, Hn.
  - intros rev amt. unfold sorted_records. rewrite Hs. cbn [mbind option_bind]. by rewrite Hst, Hn.
  - intros rev amt g. unfold sort_by, sorted_records. rewrite Hs. cbn [mbind option_bind]. by rewrite Hst, Hn.
  - intros rt e ib ie amt p x xb Hxb. rewrite (Hx _ _ Hxb). cbn [andb guard_op]. unfold request, source_vault. rewrite Hs. cbn [mbind option_bind]. by rewrite Hst, Hn.
  - intros q x xb Hxb. rewrite (Hx _ _ Hxb). cbn [andb guard_op]. unfold complex_request, source_vault. rewrite Hs. cbn [mbind option_bind]. by rewrite Hst, Hn.
  - by rewrite HG.
  - intros amt. by rewrite HG.
  - unfold erase_ref. rewrite Hs, Hrf. cbn [mbind option_bind]. by rewrite Hst, Hn.
  - unfold set_add_record. rewrite Hs, Hrf. cbn [mbind option_bind]. by rewrite Hn.
  - unfold set_check. rewrite Hs. cbn [mbind option_bind]. by rewrite Hn.
  - unfold set_size. by rewrite Hn.
  - unfold set_get_keys. by rewrite Hn.
  - unfold set_get_unique_keys. by rewrite Hn.
  - unfold set_is_key_exist. by rewrite Hn.
  - unfold set_get_key_type. by rewrite Hn.
  - unfold set_get_key_value. by rewrite Hn.
Qed.
