(** Erasing a record from a vault keeps the invariant. *)
From Verif Require Export InvVault.
Open Scope nat_scope.

Lemma idx_ok_erase L L' recs uniq k ix v r :
  idx_ok L recs uniq k ix -> (r ∈ recs -> val_of L k r = Some v) -> (k ∈ uniq -> inj_on recs (val_of L k)) ->
  (forall x, x <> r -> val_of L' k x = val_of L k x) ->
  idx_ok L' (recs ∖ {[r]}) uniq k (idx_erase v r ix).
Proof.
  intros (G1 & G2 & G3) Hv Hi HL. apply (idx_ok_frame L).
  { intros x Hx. symmetry. apply HL. set_solver. }
  split; [by apply good_erase|]. split; [by rewrite idx_erase_multi|].
  intros Hk. destruct (G3 Hk) as [C1 C2]. by apply complete_erase; auto.
Qed.

Lemma lookup_drop_rec data r ob k :
  o_idx (drop_rec data r ob) !! k
  = (fun ix => match o_keys ob !! k with Some td => eraser k td data r ix | None => ix end) <$> o_idx ob !! k.
Proof. unfold drop_rec. change (o_idx (ob_recs (o_recs ob ∖ {[r]}) (all_erasers data r ob))) with (o_idx (all_erasers data r ob)).
  unfold all_erasers. by rewrite lookup_all_idx. Qed.

Lemma drop_rec_if_elem data r ob k ix e :
  o_idx (drop_rec_if data r ob) !! k = Some ix -> e ∈ ix_hash ix \/ e ∈ ix_tree ix ->
  exists ix0, o_idx ob !! k = Some ix0 /\ (e ∈ ix_hash ix0 \/ e ∈ ix_tree ix0).
Proof. unfold drop_rec_if. destruct (decide _); [apply drop_rec_elem|eauto]. Qed.

Definition detached (o r : nat) (rc : recd) (w : world) : world :=
  World (invalidate_on {[r]} (w_recs w)) (detach_objs o r (r_data rc) (r_deps rc) (w_objs w)) (w_refs w) (w_next w).
Lemma live_detached o r rc w x : live (detached o r rc w) !! x = if decide (x = r) then None else live w !! x.
Proof.
  unfold live. cbn. rewrite live_invalidate_on. destruct (decide (x = r)) as [->|].
  - rewrite decide_True; [done|set_solver].
  - rewrite decide_False; [done|set_solver].
Qed.
Lemma lookup_detach_objs o r data deps m x :
  detach_objs o r data deps m !! x =
  (fun ob => (if decide (x ∈ deps) then drop_rec_if data r else id) ((if decide (x = o) then drop_rec data r else id) ob)) <$> m !! x.
Proof.
  unfold detach_objs. rewrite !lookup_upd_on. destruct (m !! x) as [ob|]; [|done]. cbn. f_equal.
  destruct (decide (x = o)) as [->|].
  - rewrite (decide_True (P := o ∈ {[o]})) by set_solver. by destruct (decide _).
  - rewrite (decide_False (P := x ∈ {[o]})) by set_solver. by destruct (decide _).
Qed.

(** What the registrations of a live record look like. *)
Lemma deps_facts b w o ob r rc :
  Inv b w -> w_objs w !! o = Some ob -> o_static_set ob = false -> r ∈ o_recs ob -> w_recs w !! r = Some rc ->
  r_valid rc = true /\ live w !! r = Some (r_data rc, r_deps rc) /\ o ∉ r_deps rc /\
  (forall d db, d ∈ r_deps rc -> w_objs w !! d = Some db -> o_static_set db = true /\ o_isset db = true /\
     (o_parent db = Some o \/ (o_parent db = None /\ o_recs db = ∅))) /\
  (b = true -> forall d, d ∈ r_deps rc -> exists db, w_objs w !! d = Some db /\ o_isset db = true /\ r ∈ o_recs db /\ o_parent db = Some o).
Proof.
  intros HI Ho Hst Hr Hrc. pose proof (inv_obj _ _ HI) as HV.
  destruct (Inv_vault_live _ _ _ _ _ HI Ho Hst Hr) as [l Hl].
  assert (Hl0 := Hl). unfold live in Hl. rewrite lookup_live_of, Hrc in Hl. cbn in Hl. unfold live_rec in Hl. destruct (r_valid rc) eqn:Ev; [|done].
  injection Hl as <-. split; [done|]. split; [done|].
  assert (Hd : forall d db, d ∈ r_deps rc -> w_objs w !! d = Some db -> o_static_set db = true /\ o_isset db = true /\
     (o_parent db = Some o \/ (o_parent db = None /\ o_recs db = ∅))).
  { intros d db Hd Hdb. destruct (vi_deps _ _ _ _ HV _ _ d Hl0 Hd) as [D1 _]. destruct (D1 _ Hdb) as [Hds D2].
    pose proof (vi_set _ _ _ _ HV _ _ Hdb Hds) as Hsok. split; [done|]. split; [apply Hsok|].
    destruct (o_parent db) as [p|] eqn:Ep; [left|right].
    - destruct (D2 _ eq_refl) as (pb & Hpb & Hpst & Hin). f_equal. by eapply (vi_disj _ _ _ _ HV).
    - split; [done|]. by apply (so_none _ _ _ _ _ _ Hsok). }
  split; [|split].
  - intros Hin. destruct (Hd _ _ Hin Ho) as [? _]. congruence.
  - done.
  - intros Hb d Hdd. destruct (vi_deps _ _ _ _ HV _ _ d Hl0 Hdd) as [_ D]. destruct (D Hb) as (db & Hdb & Hin). exists db. split; [done|].
    destruct (Hd _ _ Hdd Hdb) as (_ & Hi & [Hp|[_ E]]); [done|]. rewrite E in Hin. by apply not_elem_of_empty in Hin.
Qed.

Lemma vault_inj_on L ob k td : vault_ok L ob -> o_keys ob !! k = Some td -> k ∈ o_uniq ob -> inj_on (o_recs ob) (val_of L k).
Proof. intros Hv Hk Hu a c v Ha Hc Hva Hvc. by eapply vault_inj. Qed.
Lemma inj_on_sub recs recs' val : recs' ⊆ recs -> inj_on recs val -> inj_on recs' val.
Proof. intros Hs Hi a c v Ha Hc. apply Hi; set_solver. Qed.

Lemma val_of_typed L keys k td r l d :
  L !! r = Some l -> typed keys l.1 -> keys !! k = Some td -> val_of L k r = Some (get_typed l.1 k td.1 d).
Proof.
  intros Hl Ht Hk. destruct td as [t d0]. cbn [fst]. destruct (get_typed_typed _ _ _ _ _ d Ht Hk) as (v & Hv & _ & ->).
  unfold val_of. rewrite Hl. cbn. done.
Qed.

Lemma drop_rec_vault_ok L L' ob r l :
  vault_ok L ob -> r ∈ o_recs ob -> L !! r = Some l -> (forall x, x <> r -> L' !! x = L !! x) -> vault_ok L' (drop_rec l.1 r ob).
Proof.
  intros Hv Hr Hl HL. pose proof Hv as [H1 H2 H3 H4 H5]. split; [done|done| | |].
  - destruct H3. by split.
  - cbn. intros x Hx. apply elem_of_difference in Hx as [Hx Hxr]. rewrite HL by set_solver. auto.
  - intros k td Hk. change (o_keys ob !! k = Some td) in Hk. destruct (H5 _ _ Hk) as (ix & Hix & Hok & Hu).
    rewrite lookup_drop_rec, Hix. cbn. rewrite Hk. eexists. split; [done|]. unfold eraser. rewrite idx_erase_multi. split; [|done].
    eapply (idx_ok_erase L); [done| | |].
    + intros _. destruct (H4 _ Hr) as (l' & Hl' & Ht). assert (l' = l) as -> by congruence. by eapply val_of_typed.
    + intros Hku. by eapply vault_inj_on.
    + intros x Hx. unfold val_of. by rewrite HL.
Qed.

Lemma drop_rec_strict L L' s sb pb r l pb' :
  vault_ok L pb -> strict L s sb pb -> r ∈ o_recs pb -> L !! r = Some l -> (forall x, x <> r -> L' !! x = L !! x) -> L' !! r = None ->
  o_keys pb' = o_keys pb -> o_order pb' = o_order pb -> o_uniq pb' = o_uniq pb -> o_recs pb' = o_recs pb ∖ {[r]} ->
  (s ∈ l.2 -> r ∈ o_recs sb) ->
  strict L' s (if decide (s ∈ l.2) then drop_rec_if l.1 r sb else sb) pb'.
Proof.
  intros Hv Hs Hr Hl HL HLr K1 K2 K3 K4 Hin. pose proof Hs as [S1 S2 S3 S4 S5 S6 S7 S8].
  destruct (decide (s ∈ l.2)) as [Hsl|Hsl].
  - unfold drop_rec_if. rewrite decide_True by auto. split; [cbn; congruence|done|done|cbn; congruence|cbn; congruence| | |].
    + cbn. rewrite K4. set_solver.
    + intros x lx Hx Hlx. apply elem_of_difference in Hx as [Hx Hxr]. apply (S7 x); [done|]. rewrite <- HL; [done|]. set_solver.
    + intros k td Hk. change (o_keys sb !! k = Some td) in Hk. destruct (S8 _ _ Hk) as (ix & Hix & Hok).
      rewrite lookup_drop_rec, Hix. cbn. rewrite Hk. eexists. split; [done|]. unfold eraser.
      assert (exists td', o_keys pb !! k = Some td' /\ td'.1 = td.1) as (td' & Hk' & Etd).
      { pose proof (f_equal (fun m => m !! k) S1) as E. cbn in E. rewrite !lookup_fmap, Hk in E. cbn in E.
        destruct (o_keys pb !! k) as [td'|]; [|done]. cbn in E. injection E as E. eauto. }
      eapply (idx_ok_erase L); [done| | |].
      * intros _. destruct (v_recs _ _ Hv _ Hr) as (l' & Hl' & Ht). assert (l' = l) as -> by congruence. rewrite <- Etd. by eapply val_of_typed.
      * rewrite S5. intros Hku. eapply inj_on_sub; [done|]. by eapply vault_inj_on.
      * intros x Hx. unfold val_of. by rewrite HL.
  - assert (Hnr : r ∉ o_recs sb) by (intros Hc; apply Hsl; by eapply S7).
    eapply strict_frame; [| |done|done|done| |done].
    + intros x Hx. rewrite HL; [done|]. intros ->. done.
    + intros x lx Hx Hlx. rewrite HL in Hlx by (intros ->; done). eauto.
    + rewrite K4. set_solver.
Qed.

Lemma detached_inv b w o ob r rc :
  Inv b w -> w_objs w !! o = Some ob -> o_static_set ob = false -> r ∈ o_recs ob -> w_recs w !! r = Some rc -> Inv b (detached o r rc w).
Proof.
  intros HI Ho Hst Hr Hrc. pose proof (inv_obj _ _ HI) as HV.
  destruct (deps_facts _ _ _ _ _ _ HI Ho Hst Hr Hrc) as (Hval & Hl & Hod & Hd & Hdb).
  pose proof (vi_vault _ _ _ _ HV _ _ Ho Hst) as Hv.
  assert (Ho' : w_objs (detached o r rc w) !! o = Some (drop_rec (r_data rc) r ob)).
  { cbn. rewrite lookup_detach_objs, Ho. cbn. rewrite decide_False by done. by rewrite decide_True by done. }
  split.
  - cbn. intros x [xc Hx]. rewrite lookup_invalidate_on in Hx. destruct (w_recs w !! x) eqn:E; [|done]. apply HI. eauto.
  - cbn. apply RInv_invalidate, HI.
  - change (w_next (detached o r rc w)) with (w_next w).
    eapply (VInv_vault_change b (w_objs w) _ (live w) _ (w_next w) (w_next w) o ob); try done.
    + change (r_data rc) with ((r_data rc, r_deps rc).1). eapply drop_rec_vault_ok; try done. intros x Hx. rewrite live_detached. by rewrite decide_False.
    + intros x Hx. change (w_objs (detached o r rc w)) with (detach_objs o r (r_data rc) (r_deps rc) (w_objs w)). rewrite lookup_detach_objs.
      destruct (w_objs w !! x) as [xb|] eqn:Ex; [|done]. cbn. rewrite (decide_False (P := x = o)) by done. cbn.
      destruct (decide (o_static_set xb = true ∧ o_parent xb = Some o)) as [[Hxs Hxp]|Hn].
      * pose proof (vi_set _ _ _ _ HV _ _ Ex Hxs) as Hsok. destruct (so_some _ _ _ _ _ _ Hsok _ Hxp) as (ob0 & Hob0 & _ & Hin & Hpar).
        assert (ob0 = ob) as -> by congruence.
        set (xb' := (if decide (x ∈ r_deps rc) then drop_rec_if (r_data rc) r else id) xb).
        assert (Hsame : o_static_set xb' = o_static_set xb /\ o_isset xb' = o_isset xb /\ o_sets xb' = o_sets xb /\ o_parent xb' = o_parent xb).
        { subst xb'. destruct (decide _); [|done]. unfold drop_rec_if. by destruct (decide _). }
        destruct Hsame as (E1 & E2 & E3 & E4). rewrite E1, E2, E3, E4.
        assert (Hel : forall k ix e, o_idx xb' !! k = Some ix -> e ∈ ix_hash ix \/ e ∈ ix_tree ix ->
           exists ix0, o_idx xb !! k = Some ix0 /\ (e ∈ ix_hash ix0 \/ e ∈ ix_tree ix0)).
        { subst xb'. destruct (decide _) as [Hdec|]; [intros k ix e; apply drop_rec_if_elem|eauto]. }
        assert (Hrl : forall y, y ∈ o_recs xb' -> y ∈ o_recs xb).
        { subst xb'. destruct (decide _); [|done]. unfold drop_rec_if. destruct (decide _); [|done]. cbn. set_solver. }
        split; [done|]. split; [apply Hsok|]. split; [apply Hsok|]. split; [done|]. split; [|split].
        -- intros k ix e Hix He. destruct (Hel _ _ _ Hix He) as (ix0 & Hix0 & He0). by eapply (so_bidx _ _ _ _ _ _ Hsok).
        -- intros y Hy. apply (so_brecs _ _ _ _ _ _ Hsok). auto.
        -- split.
           ++ intros k ix e Hix He Hle. rewrite live_detached in Hle. destruct (decide (e.2 = r)) as [|Hne]; [by destruct Hle|].
              destruct (Hel _ _ _ Hix He) as (ix0 & Hix0 & He0). cbn. apply elem_of_difference. split; [by eapply (sp_idx _ _ _ _ _ Hpar)|set_solver].
           ++ intros y Hy Hly. rewrite live_detached in Hly. destruct (decide (y = r)) as [|Hne]; [by destruct Hly|].
              cbn. apply elem_of_difference. split; [apply (sp_recs _ _ _ _ _ Hpar); auto|set_solver].
           ++ intros Hb. subst xb'.
              pose proof (drop_rec_strict (live w) (live (detached o r rc w)) x xb ob r (r_data rc, r_deps rc) (drop_rec (r_data rc) r ob)) as HS.
              cbn [fst snd] in HS. destruct (decide (x ∈ r_deps rc)); apply HS; try done; try (by eapply sp_strict);
                try (intros y Hy; rewrite live_detached; by rewrite decide_False); try (rewrite live_detached; by rewrite decide_True);
                intros Hxd; destruct (Hdb Hb _ Hxd) as (db & Hdb1 & _ & Hdr & _); congruence.
      * destruct (decide (x ∈ r_deps rc)) as [Hxd|]; [|done]. destruct (Hd _ _ Hxd Ex) as (D1 & D2 & [D3|[D3 D4]]); [by destruct Hn|].
        unfold drop_rec_if. rewrite decide_False; [done|]. rewrite D4. apply not_elem_of_empty.
    + intros x Hx _. rewrite live_detached. rewrite decide_False; [done|]. intros ->. done.
    + cbn. intros x Hx. set_solver.
    + intros x Hx. by eapply Inv_live_bound.
    + cbn. intros x Hx Hx2. assert (x = r) as -> by (destruct (decide (x = r)); [done|set_solver]). rewrite live_detached. by rewrite decide_True.
    + cbn. intros x lx s Hx Hlx Hs. apply elem_of_difference in Hx as [Hx Hxr]. rewrite live_detached in Hlx.
      destruct (decide (x = r)); [done|].
      destruct (vi_deps _ _ _ _ HV _ _ _ Hlx Hs) as [D1 D2]. split.
      * intros sb Hsb. destruct (D1 _ Hsb) as [D3 D4]. split; [done|]. intros p Hp. destruct (D4 _ Hp) as (pb & Hpb & Hpst & Hin). by eapply (vi_disj _ _ _ _ HV).
      * intros Hb. destruct (D2 Hb) as (sb & Hsb & Hin). rewrite lookup_detach_objs, Hsb. cbn. eexists. split; [done|].
        destruct (decide (s ∈ r_deps rc)), (decide (s = o)); cbn; unfold drop_rec_if; try destruct (decide _); cbn; try done; set_solver.
  - eapply vlt_ok_frame; [apply HI|]. intros f rf x y yb' Hrf Hx Hyb' Hyst Hlx. rewrite live_detached in Hlx. destruct (decide (x = r)) as [|Hne]; [by destruct Hlx|].
    split; [done|]. cbn in Hyb'. rewrite lookup_detach_objs in Hyb'. destruct (w_objs w !! y) as [yb|] eqn:Ey; [|done]. cbn in Hyb'. injection Hyb' as <-.
    exists yb. split; [done|]. split.
    + rewrite <- Hyst. destruct (decide (y ∈ r_deps rc)), (decide (y = o)); cbn; unfold drop_rec_if; try destruct (decide _); done.
    + intros Hxy. destruct (decide (y ∈ r_deps rc)), (decide (y = o)); cbn; unfold drop_rec_if; try destruct (decide _); cbn; try done; set_solver.
Qed.

Lemma detach_ok b n ord w o ob r :
  fair ord -> Inv b w -> w_objs w !! o = Some ob -> o_static_set ob = false -> r ∈ o_recs ob ->
  Def b (detach (S (S n)) ord w o r) ->
  exists rc, w_recs w !! r = Some rc /\ detach (S (S n)) ord w o r = Some (detached o r rc w) /\ Inv b (detached o r rc w).
Proof.
  intros Hf HI Ho Hst Hr HD. destruct (vault_recs_heap _ _ _ _ _ HI Ho Hst Hr) as [rc Hrc]. exists rc. split; [done|].
  destruct (deps_facts _ _ _ _ _ _ HI Ho Hst Hr Hrc) as (Hval & Hl & Hod & Hd & Hdb).
  pose proof (vi_vault _ _ _ _ (inv_obj _ _ HI) _ _ Ho Hst) as Hv. split; [|by eapply detached_inv].
  apply (detach_vault _ _ _ _ _ ob); try done; [apply Hv|]. destruct b.
  - intros d Hdd. destruct (Hdb eq_refl _ Hdd) as (db & H1 & H2 & _). eauto.
  - destruct (HD eq_refl) as [w' Hw']. eapply (detach_vault_some _ _ _ _ _ w' ob rc); try done; [apply Hv|].
    intros d db Hdd Hdb2. by apply (Hd d).
Qed.
