(** Clear, Reset, binding and filling of record sets keep the invariant. *)
From Verif Require Export InvChange.
Open Scope nat_scope.

Lemma vlt_ok_frame objs objs' L L' refs :
  vlt_ok objs L refs ->
  (forall f rf r o ob', refs !! f = Some rf -> f_rec rf = Some r -> objs' !! o = Some ob' -> o_static_set ob' = false ->
     is_Some (L' !! r) -> is_Some (L !! r) /\ exists ob, objs !! o = Some ob /\ o_static_set ob = false /\ (r ∈ o_recs ob -> r ∈ o_recs ob')) ->
  vlt_ok objs' L' refs.
Proof.
  intros H Hf f rf r Hrf Hr. destruct (H f rf r Hrf Hr) as (o & Ho & Hin). exists o. split; [done|].
  intros ob' Hob' Hst Hl. destruct (Hf _ _ _ _ _ Hrf Hr Hob' Hst Hl) as (Hl0 & ob & Hob & Hst0 & Hsub). eauto.
Qed.

Lemma live_upd_deps m X (g : nat -> gset nat -> gset nat) x :
  live_of (upd_on (fun y rc => rd_deps (g y (r_deps rc)) rc) X m) !! x
  = (fun l => if decide (x ∈ X) then (l.1, g x l.2) else l) <$> live_of m !! x.
Proof.
  rewrite !lookup_live_of, lookup_upd_on. destruct (m !! x) as [rc|]; cbn; [|done].
  unfold live_rec. destruct (decide (x ∈ X)); cbn; destruct (r_valid rc); done.
Qed.

(** Facts about a set and its parent. *)
Lemma Inv_set_facts b w s sb p :
  Inv b w -> w_objs w !! s = Some sb -> o_static_set sb = true -> o_parent sb = Some p ->
  exists pb, w_objs w !! p = Some pb /\ o_static_set pb = false /\ s ∈ o_sets pb /\ s <> p /\ set_par b (live w) s sb pb.
Proof.
  intros HI Hs Hst Hp. destruct (so_some _ _ _ _ _ _ (vi_set _ _ _ _ (inv_obj _ _ HI) _ _ Hs Hst) p Hp) as (pb & Hpb & Hpst & Hin & Hpar).
  exists pb. split; [done|]. split; [done|]. split; [done|]. split; [|done]. intros ->. congruence.
Qed.

Lemma live_is_some w r : is_Some (live w !! r) -> is_Some (w_recs w !! r).
Proof. unfold live. rewrite lookup_live_of. destruct (w_recs w !! r); [eauto|]. intros []. done. Qed.
Lemma Inv_live_bound b w r : Inv b w -> is_Some (live w !! r) -> r < w_next w.
Proof. intros HI H. by apply HI, live_is_some. Qed.
Lemma Inv_vault_live b w o ob r :
  Inv b w -> w_objs w !! o = Some ob -> o_static_set ob = false -> r ∈ o_recs ob -> is_Some (live w !! r).
Proof.
  intros HI Ho Hst Hr. destruct (v_recs _ _ (vi_vault _ _ _ _ (inv_obj _ _ HI) _ _ Ho Hst) r Hr) as (l & Hl & _). eauto.
Qed.
Lemma strict_recs_live w s sb p pb r :
  Inv true w -> w_objs w !! s = Some sb -> o_static_set sb = true -> o_parent sb = Some p ->
  w_objs w !! p = Some pb -> r ∈ o_recs sb -> is_Some (w_recs w !! r).
Proof.
  intros HI Hs Hst Hp Hpb Hr. destruct (Inv_set_facts _ _ _ _ _ HI Hs Hst Hp) as (pb' & Hpb' & Hpst & _ & _ & Hpar).
  assert (pb' = pb) as -> by congruence. apply live_is_some. eapply Inv_vault_live; [done|exact Hpb'|done|].
  by apply (st_recs _ _ _ _ (sp_strict _ _ _ _ _ Hpar eq_refl)).
Qed.

(** ** Clear *)
Lemma lookup_cleared ob k :
  o_idx (cleared ob) !! k = (fun ix => match o_keys ob !! k with Some _ => Idx (ix_multi ix) [] [] | None => ix end) <$> o_idx ob !! k.
Proof. unfold cleared, all_clearers. cbn -[all_idx]. change (o_idx (ob_recs ∅ (all_idx (fun _ _ ix => Idx (ix_multi ix) [] []) ob)) ) with (o_idx (all_idx (fun _ _ ix => Idx (ix_multi ix) [] []) ob)). by rewrite lookup_all_idx. Qed.
Lemma cleared_elem ob k ix e :
  o_idx (cleared ob) !! k = Some ix -> e ∈ ix_hash ix \/ e ∈ ix_tree ix ->
  o_keys ob !! k = None /\ o_idx ob !! k = Some ix.
Proof.
  rewrite lookup_cleared. destruct (o_idx ob !! k) as [ix0|]; [|done]. cbn. intros [= <-].
  destruct (o_keys ob !! k); cbn; [|done]. intros [H|H]; by apply elem_of_nil in H.
Qed.

Definition clear_world (s : nat) (sb : obj) (w : world) : world :=
  World (upd_on (fun _ => drop_dep s) (o_recs sb) (w_recs w)) (<[s := cleared sb]> (w_objs w)) (w_refs w) (w_next w).

Lemma live_clear s sb w x :
  live (clear_world s sb w) !! x = (fun l => if decide (x ∈ o_recs sb) then (l.1, l.2 ∖ {[s]}) else l) <$> live w !! x.
Proof. unfold live, clear_world. cbn. apply (live_upd_deps _ _ (fun _ d => d ∖ {[s]})). Qed.

Lemma RInv_drop_dep m s X refs xs : RInv m refs xs -> RInv (upd_on (fun _ => drop_dep s) X m) refs xs.
Proof. apply RInv_upd. done. Qed.

Lemma set_clear_inv b w s sb p :
  Inv b w -> w_objs w !! s = Some sb -> o_static_set sb = true -> o_parent sb = Some p -> Inv b (clear_world s sb w).
Proof.
  intros HI Hs Hst Hp. destruct (Inv_set_facts _ _ _ _ _ HI Hs Hst Hp) as (pb & Hpb & Hpst & Hin & Hne & Hpar).
  pose proof (inv_obj _ _ HI) as HV. pose proof (vi_set _ _ _ _ HV _ _ Hs Hst) as Hsok.
  split.
  - cbn. intros r Hr. rewrite lookup_upd_on in Hr. apply HI. destruct (w_recs w !! r); [eauto|by destruct Hr].
  - cbn. apply RInv_drop_dep, HI.
  - eapply (VInv_set_change b (w_objs w) _ (live w) _ _ s); [done|..].
    + intros sb' Hsb'. congruence.
    + intros sb' Hsb'. cbn in Hsb'. rewrite lookup_insert in Hsb'. injection Hsb' as <-.
      split; [done|]. split; [apply Hsok|]. split; [apply Hsok|]. split; [|split; [|split]].
      * intros k ix e Hix He. destruct (cleared_elem _ _ _ _ Hix He) as [_ Hix']. by eapply (so_bidx _ _ _ _ _ _ Hsok).
      * cbn. set_solver.
      * cbn. congruence.
      * cbn. intros p' Hp'. assert (p' = p) as -> by congruence. exists pb. split; [done|]. split; [done|]. split.
        -- intros k ix e Hix He Hl. destruct (cleared_elem _ _ _ _ Hix He) as [_ Hix'].
           eapply (sp_idx _ _ _ _ _ Hpar); eauto. rewrite live_clear in Hl. destruct (live w !! e.2); [eauto|by destruct Hl].
        -- cbn. set_solver.
        -- intros Hb. pose proof (sp_strict _ _ _ _ _ Hpar Hb) as [T1 T2 T3 T4 T5 T6 T7 T8]. split; try done.
           ++ intros k td Hk. destruct (T8 k td Hk) as (ix & Hix & (G & Hm & Hc)). rewrite lookup_cleared, Hix.
              cbn in Hk. rewrite Hk. cbn. eexists. split; [done|]. split; [apply good_empty|]. split; [done|].
              intros _. split; intros r Hr; set_solver.
    + intros x Hx. cbn. rewrite lookup_insert_ne by done. destruct (w_objs w !! x) as [xb|] eqn:Ex; [|done].
      split; [by destruct xb|]. split; [done|]. split; [done|]. intros Hxs.
      rewrite lookup_insert. split.
      * intros Hsx. destruct (vi_sets _ _ _ _ HV _ _ _ Ex Hxs Hsx) as (sb2 & Hsb2 & _ & Hp2).
        exists (cleared sb). split; [done|]. cbn. congruence.
      * intros (sb' & [= <-] & Hp'). cbn in Hp'. assert (x = p) as -> by congruence. congruence.
    + intros r. rewrite live_clear. destruct (live w !! r) as [l|]; [|done]. cbn.
      destruct (decide (r ∈ o_recs sb)); cbn; [|done]. split; [done|]. set_solver.
    + intros r l' Hl' Hsl. rewrite live_clear in Hl'. destruct (live w !! r) as [l|] eqn:El; [|done]. cbn in Hl'. injection Hl' as <-.
      destruct (decide (r ∈ o_recs sb)) as [Hr|Hr]; [set_solver|].
      destruct (vi_deps _ _ _ _ HV _ _ _ El Hsl) as [D1 D2]. split.
      * intros sb' p' Hsb' Hp'. cbn in Hsb'. rewrite lookup_insert in Hsb'. injection Hsb' as <-. cbn in Hp'.
        destruct (D1 _ Hs) as [_ D]. by apply D.
      * intros Hb. destruct (D2 Hb) as (sb2 & Hsb2 & Hr2). congruence.
  - eapply vlt_ok_frame; [apply HI|]. intros f rf r o ob' Hrf Hr Hob' Hst' Hl. split.
    + rewrite live_clear in Hl. destruct (live w !! r); [eauto|by destruct Hl].
    + cbn in Hob'. apply lookup_insert_Some in Hob' as [[<- <-]|[Hno Hob']]; [cbn in Hst'; congruence|]. eauto.
Qed.

(** ** Reset *)
Definition reset_world (s : nat) (sb : obj) (p : nat) (pb : obj) (w : world) : world :=
  World (upd_on (fun _ => drop_dep s) (o_recs sb) (w_recs w))
        (<[s := reset_obj sb]> (<[p := ob_sets (o_sets pb ∖ {[s]}) pb]> (w_objs w))) (w_refs w) (w_next w).

Lemma live_reset s sb p pb w x :
  live (reset_world s sb p pb w) !! x = (fun l => if decide (x ∈ o_recs sb) then (l.1, l.2 ∖ {[s]}) else l) <$> live w !! x.
Proof. unfold live, reset_world. cbn. apply (live_upd_deps _ _ (fun _ d => d ∖ {[s]})). Qed.

Lemma set_reset_inv b w s sb p pb :
  Inv b w -> w_objs w !! s = Some sb -> o_static_set sb = true -> o_parent sb = Some p -> w_objs w !! p = Some pb ->
  Inv b (reset_world s sb p pb w).
Proof.
  intros HI Hs Hst Hp Hpb. destruct (Inv_set_facts _ _ _ _ _ HI Hs Hst Hp) as (pb' & Hpb' & Hpst & Hin & Hne & Hpar).
  assert (pb' = pb) as -> by congruence. clear Hpb'.
  pose proof (inv_obj _ _ HI) as HV. pose proof (vi_set _ _ _ _ HV _ _ Hs Hst) as Hsok.
  split.
  - cbn. intros r Hr. rewrite lookup_upd_on in Hr. apply HI. destruct (w_recs w !! r); [eauto|by destruct Hr].
  - cbn. apply RInv_drop_dep, HI.
  - eapply (VInv_set_change b (w_objs w) _ (live w) _ _ s); [done|..].
    + intros sb' Hsb'. congruence.
    + intros sb' Hsb'. cbn in Hsb'. rewrite lookup_insert in Hsb'. injection Hsb' as <-.
      split; [done|]. split; [apply Hsok|]. split; [done|]. split; [|split; [|split]]; cbn; [done|set_solver|done|done].
    + intros x Hx. cbn. rewrite lookup_insert_ne by done. destruct (decide (x = p)) as [->|Hxp].
      * rewrite lookup_insert, Hpb. cbn. split; [done|]. split; [set_solver|]. split; [congruence|]. intros _.
        rewrite lookup_insert. split; [set_solver|]. intros (sb' & [= <-] & Hp'). done.
      * rewrite !lookup_insert_ne by done. destruct (w_objs w !! x) as [xb|] eqn:Ex; [|done].
        split; [by destruct xb|]. split; [done|]. split; [done|]. intros Hxs.
        rewrite lookup_insert. split.
        -- intros Hsx. destruct (vi_sets _ _ _ _ HV _ _ _ Ex Hxs Hsx) as (sb2 & Hsb2 & _ & Hp2). congruence.
        -- intros (sb' & [= <-] & Hp'). done.
    + intros r. rewrite live_reset. destruct (live w !! r) as [l|]; [|done]. cbn.
      destruct (decide (r ∈ o_recs sb)); cbn; [|done]. split; [done|]. set_solver.
    + intros r l' Hl' Hsl. rewrite live_reset in Hl'. destruct (live w !! r) as [l|] eqn:El; [|done]. cbn in Hl'. injection Hl' as <-.
      destruct (decide (r ∈ o_recs sb)) as [Hr|Hr]; [set_solver|].
      destruct (vi_deps _ _ _ _ HV _ _ _ El Hsl) as [D1 D2]. split.
      * intros sb' p' Hsb' Hp'. cbn in Hsb'. rewrite lookup_insert in Hsb'. injection Hsb' as <-. done.
      * intros Hb. destruct (D2 Hb) as (sb2 & Hsb2 & Hr2). congruence.
  - eapply vlt_ok_frame; [apply HI|]. intros f rf r o ob' Hrf Hr Hob' Hst' Hl. split.
    + rewrite live_reset in Hl. destruct (live w !! r); [eauto|by destruct Hl].
    + cbn in Hob'. apply lookup_insert_Some in Hob' as [[<- <-]|[Hno Hob']]; [cbn in Hst'; congruence|].
      apply lookup_insert_Some in Hob' as [[<- <-]|[Hno' Hob']]; eauto.
Qed.

(** ** Putting one record into a set (registered) *)
Lemma lookup_obj_add data r ob k :
  o_idx (obj_add data r ob) !! k
  = (fun ix => match o_keys ob !! k with Some td => (adder k td data r ix).1 | None => ix end) <$> o_idx ob !! k.
Proof. unfold obj_add, all_adders. by rewrite lookup_all_idx. Qed.
Lemma obj_add_elem data r ob k ix e :
  o_idx (obj_add data r ob) !! k = Some ix -> e ∈ ix_hash ix \/ e ∈ ix_tree ix ->
  e.2 = r \/ exists ix0, o_idx ob !! k = Some ix0 /\ (e ∈ ix_hash ix0 \/ e ∈ ix_tree ix0).
Proof.
  rewrite lookup_obj_add. destruct (o_idx ob !! k) as [ix0|]; [|done]. cbn. intros [= <-] He.
  destruct (o_keys ob !! k) as [td|]; [|eauto]. unfold adder in He. apply idx_add_elem in He as [->|He]; [by left|eauto].
Qed.

(** The value of a record for a typed key. *)
Lemma get_typed_typed keys data k t d0 d :
  typed keys data -> keys !! k = Some (t, d0) -> exists v, data !! k = Some v /\ vty v = t /\ get_typed data k t d = v.
Proof.
  intros H Hk. specialize (H k). rewrite Hk in H. unfold get_typed. destruct (data !! k) as [v|]; [|done]. cbn in H.
  exists v. by rewrite decide_True.
Qed.
Lemma typed_fst keys keys' data : (fst <$> keys) = (fst <$> keys') -> typed keys data -> typed keys' data.
Proof.
  intros E H k. specialize (H k). assert (Ek : fst <$> keys !! k = fst <$> keys' !! k) by (rewrite <- !lookup_fmap, E; done).
  destruct (data !! k), (keys !! k), (keys' !! k); try done. cbn in Ek. congruence.
Qed.

(** Index of a key after adding record [r] with value [v]. *)
Lemma idx_ok_add L recs uniq k ix v r :
  idx_ok L recs uniq k ix -> r ∉ recs -> val_of L k r = Some v ->
  (k ∈ uniq -> forall r' , r' ∈ recs -> val_of L k r' <> Some v) ->
  idx_ok L ({[r]} ∪ recs) uniq k (idx_add v r ix).1.
Proof.
  intros (G & Hm & Hc) Hr Hv Hu. split; [by apply good_add|]. split; [by rewrite idx_add_multi|].
  intros Hk. destruct (Hc Hk) as [C1 C2]. apply complete_add; try done.
  unfold idx_add, hash_emplace. destruct (ix_multi ix); [done|]. destruct (has_value v (ix_hash ix)) eqn:E; [|done].
  apply has_value_spec in E as [r' Hr']. destruct (g_hash _ _ _ G _ _ Hr') as [H1 H2]. by destruct (Hu Hk _ H1).
Qed.

Definition take_world (s : nat) (sb : obj) (r : nat) (rc : recd) (w : world) : world :=
  World (<[r := rd_deps ({[s]} ∪ r_deps rc) rc]> (w_recs w)) (<[s := obj_add (r_data rc) r sb]> (w_objs w)) (w_refs w) (w_next w).
Lemma set_take_eq w s sb r rc :
  w_objs w !! s = Some sb -> w_recs w !! r = Some rc -> set_take s w r = Some (take_world s sb r rc w).
Proof. intros Hs Hr. unfold set_take. rewrite Hs, Hr. cbn. unfold add_dep. cbn. by rewrite Hr. Qed.
Lemma live_take s sb r rc w x :
  w_recs w !! r = Some rc ->
  live (take_world s sb r rc w) !! x = (fun l => if decide (x = r) then (l.1, {[s]} ∪ l.2) else l) <$> live w !! x.
Proof.
  intros Hr. unfold live, take_world. cbn. rewrite !lookup_live_of. destruct (decide (x = r)) as [->|].
  - rewrite lookup_insert, Hr. cbn. unfold live_rec. cbn. by destruct (r_valid rc).
  - rewrite lookup_insert_ne by done. destruct (w_recs w !! x); cbn; [|done]. unfold live_rec. by destruct (r_valid _).
Qed.

(** Uniqueness of the values of a unique key among the records of a vault. *)
Lemma vault_inj L ob k td r r' v :
  vault_ok L ob -> o_keys ob !! k = Some td -> k ∈ o_uniq ob -> r ∈ o_recs ob -> r' ∈ o_recs ob ->
  val_of L k r = Some v -> val_of L k r' = Some v -> r = r'.
Proof.
  intros HO Hk Hu H1 H2 H3 H4. destruct (v_idx _ _ HO k td Hk) as (ix & Hix & (G & Hm & Hc) & Hmu).
  eapply (inj_of_complete (o_recs ob) (val_of L k) ix); eauto. by apply Hc.
Qed.

Lemma set_take_inv b w s sb p pb r rc :
  Inv b w -> w_objs w !! s = Some sb -> o_static_set sb = true -> o_parent sb = Some p -> w_objs w !! p = Some pb ->
  w_recs w !! r = Some rc -> (is_Some (live w !! r) -> r ∈ o_recs pb) ->
  (b = true -> r ∈ o_recs pb /\ r ∉ o_recs sb) ->
  Inv b (take_world s sb r rc w).
Proof.
  intros HI Hs Hst Hp Hpb Hr Hrp Hb. destruct (Inv_set_facts _ _ _ _ _ HI Hs Hst Hp) as (pb' & Hpb' & Hpst & Hin & Hne & Hpar).
  assert (pb' = pb) as -> by congruence. clear Hpb'.
  pose proof (inv_obj _ _ HI) as HV. pose proof (vi_set _ _ _ _ HV _ _ Hs Hst) as Hsok.
  pose proof (vi_vault _ _ _ _ HV _ _ Hpb Hpst) as Hpok.
  assert (Hls : forall x, is_Some (live (take_world s sb r rc w) !! x) -> is_Some (live w !! x)).
  { intros x. rewrite live_take by done. destruct (live w !! x); [eauto|]. by intros []. }
  assert (Hrn : r < w_next w) by (apply HI; eauto).
  split.
  - cbn. intros x Hx. apply HI. destruct (decide (x = r)) as [->|]; [eauto|by rewrite lookup_insert_ne in Hx].
  - cbn. eapply RInv_insert; [done|done|done|apply HI].
  - eapply (VInv_set_change b (w_objs w) _ (live w) _ _ s); [done|..].
    + intros sb' Hsb'. congruence.
    + intros sb' Hsb'. cbn in Hsb'. rewrite lookup_insert in Hsb'. injection Hsb' as <-.
      split; [done|]. split; [apply Hsok|]. split; [apply Hsok|]. split; [|split; [|split]].
      * intros k ix e Hix He. apply (obj_add_elem _ _ _ _ _ _ Hix) in He as [->|(ix0 & Hix0 & He)]; [done|].
        by eapply (so_bidx _ _ _ _ _ _ Hsok).
      * cbn. intros x Hx. apply elem_of_union in Hx as [Hx|Hx]; [apply elem_of_singleton in Hx; by subst|by apply Hsok].
      * cbn. congruence.
      * intros p' Hp'. cbn in Hp'. assert (p' = p) as -> by congruence. exists pb. split; [done|]. split; [done|]. split.
        -- intros k ix e Hix He Hl. apply Hls in Hl. apply (obj_add_elem _ _ _ _ _ _ Hix) in He as [E|(ix0 & Hix0 & He)].
           ++ rewrite E in *. auto.
           ++ by eapply (sp_idx _ _ _ _ _ Hpar).
        -- cbn. intros x Hx Hl. apply Hls in Hl. apply elem_of_union in Hx as [Hx|Hx]; [apply elem_of_singleton in Hx; subst; auto|].
           by apply (sp_recs _ _ _ _ _ Hpar).
        -- intros Hbt. destruct (Hb Hbt) as [Hrin Hrni].
           pose proof (sp_strict _ _ _ _ _ Hpar Hbt) as [T1 T2 T3 T4 T5 T6 T7 T8]. split; try done.
           ++ cbn. set_solver.
           ++ intros x l Hx Hl. rewrite live_take in Hl by done. destruct (live w !! x) as [l0|] eqn:El0; [|done]. cbn in Hl. injection Hl as <-.
              destruct (decide (x = r)) as [->|]; [cbn; set_solver|]. cbn in Hx. apply elem_of_union in Hx as [Hx|Hx]; [set_solver|]. eauto.
           ++ intros k td Hk. cbn in Hk. destruct (T8 k td Hk) as (ix & Hix & Hok). rewrite lookup_obj_add, Hix. cbn. rewrite Hk.
              eexists. split; [done|].
              eapply (idx_ok_frame (live w)).
              { intros x Hx. apply val_of_ext. rewrite live_take by done. destruct (live w !! x); [|done]. cbn. by destruct (decide _). }
              destruct (v_recs _ _ Hpok _ Hrin) as (l & Hl & Htl).
              assert (Hldata : l.1 = r_data rc).
              { unfold live in Hl. rewrite lookup_live_of, Hr in Hl. cbn in Hl. unfold live_rec in Hl. destruct (r_valid rc); [|done]. by injection Hl as <-. }
              assert (Htyp : typed (o_keys sb) (r_data rc)) by (rewrite <- Hldata; by eapply typed_fst).
              destruct td as [t d0]. destruct (get_typed_typed _ _ k t d0 d0 Htyp Hk) as (v & Hv & Hvt & Hg).
              assert (Hval : val_of (live w) k r = Some v).
              { unfold val_of. rewrite Hl. cbn. by rewrite Hldata. }
              unfold adder. cbn [fst snd]. rewrite Hg. apply idx_ok_add; try done.
              intros Hku x Hx Hxv. apply Hrni. cbn in Hku. rewrite T5 in Hku.
              assert (is_Some (o_keys pb !! k)) as [td Htd].
              { assert (E : fst <$> o_keys sb !! k = fst <$> o_keys pb !! k) by (rewrite <- !lookup_fmap, T1; done).
                rewrite Hk in E. destruct (o_keys pb !! k); [eauto|done]. }
              assert (x = r) as <-; [|done]. eapply (vault_inj _ pb k td); eauto.
    + intros x Hx. cbn. rewrite lookup_insert_ne by done. destruct (w_objs w !! x) as [xb|] eqn:Ex; [|done].
      split; [by destruct xb|]. split; [done|]. split; [done|]. intros Hxs.
      rewrite lookup_insert. split.
      * intros Hsx. destruct (vi_sets _ _ _ _ HV _ _ _ Ex Hxs Hsx) as (sb2 & Hsb2 & _ & Hp2).
        eexists. split; [done|]. cbn. congruence.
      * intros (sb' & [= <-] & Hp'). cbn in Hp'. assert (x = p) as -> by congruence. congruence.
    + intros x. rewrite live_take by done. destruct (live w !! x) as [l|]; [|done]. cbn.
      destruct (decide (x = r)); cbn; [|done]. split; [done|]. set_solver.
    + intros x l' Hl' Hsl. rewrite live_take in Hl' by done. destruct (live w !! x) as [l|] eqn:El; [|done]. cbn in Hl'. injection Hl' as <-.
      cbn. rewrite lookup_insert.
      destruct (decide (x = r)) as [->|Hxr].
      * split.
        -- intros sb' p' [= <-] Hp'. cbn in Hp'. assert (p' = p) as -> by congruence. exists pb. split; [done|]. split; [done|]. apply Hrp. eauto.
        -- intros Hbt. eexists. split; [done|]. cbn. set_solver.
      * destruct (vi_deps _ _ _ _ HV _ _ _ El Hsl) as [D1 D2]. split.
        -- intros sb' p' [= <-] Hp'. cbn in Hp'. destruct (D1 _ Hs) as [_ D]. by apply D.
        -- intros Hbt. destruct (D2 Hbt) as (sb2 & Hsb2 & Hr2). eexists. split; [done|]. cbn. assert (sb2 = sb) by congruence. set_solver.
  - eapply vlt_ok_frame; [apply HI|]. intros f rf x o ob' Hrf Hx Hob' Hst' Hl. split; [auto|].
    cbn in Hob'. apply lookup_insert_Some in Hob' as [[<- <-]|[Hno Hob']]; [cbn in Hst'; congruence|]. eauto.
Qed.
