(** CreateRecord and rows of ReadFile keep the invariant. *)
From Verif Require Export InvAddKey.
Open Scope nat_scope.
Local Arguments strltb : simpl never.

(** ** Unique keys are added one by one and taken back on failure *)
Definition key_adder (data : gmap string value) (r : nat) (ob : obj) (k : string) (ix : idx) : idx :=
  match o_keys ob !! k with Some td => (adder k td data r ix).1 | None => ix end.
Definition added_obj (data : gmap string value) (r : nat) (A : list string) (ob : obj) : obj :=
  ob_idx (map_imap (fun k ix => Some (if decide (k ∈ A) then key_adder data r ob k ix else ix)) (o_idx ob)) ob.

Lemma added_obj_nil data r ob : added_obj data r [] ob = ob.
Proof.
  unfold added_obj. destruct ob. unfold ob_idx. cbn. f_equal. apply map_eq. intros k. rewrite map_lookup_imap.
  destruct (_ !! k); [|done]. cbn. rewrite decide_False by (apply not_elem_of_nil). done.
Qed.
Lemma lookup_added_obj data r A ob k :
  o_idx (added_obj data r A ob) !! k = (fun ix => if decide (k ∈ A) then key_adder data r ob k ix else ix) <$> o_idx ob !! k.
Proof. cbn. rewrite map_lookup_imap. by destruct (o_idx ob !! k). Qed.

Definition uniq_new (data : gmap string value) (ob : obj) (k : string) : Prop :=
  exists td ix, o_keys ob !! k = Some td /\ o_idx ob !! k = Some ix /\ ix_multi ix = false /\
    has_value (get_typed data k td.1 td.2) (ix_hash ix) = false.
Definition uniq_taken (data : gmap string value) (ob : obj) (k : string) : Prop :=
  exists td ix, o_keys ob !! k = Some td /\ o_idx ob !! k = Some ix /\ ix_multi ix = false /\
    has_value (get_typed data k td.1 td.2) (ix_hash ix) = true.

Lemma add_uniques_spec data r ob ks : forall A,
  NoDup (A ++ ks) -> (forall k, k ∈ ks -> uniq_new data ob k \/ uniq_taken data ob k) ->
  (Forall (uniq_new data ob) ks /\ add_uniques data r (added_obj data r A ob) ks A = Some (added_obj data r (A ++ ks) ob, A ++ ks, None)) \/
  (exists ks1 k ks2, ks = ks1 ++ k :: ks2 /\ Forall (uniq_new data ob) ks1 /\ uniq_taken data ob k /\
     add_uniques data r (added_obj data r A ob) ks A = Some (added_obj data r (A ++ ks1) ob, A ++ ks1, Some k)).
Proof.
  induction ks as [|k ks IH]; intros A Hn Hk.
  - left. rewrite app_nil_r. done.
  - assert (HkA : k ∉ A). { apply NoDup_app in Hn as (_ & Hn & _). intros Hin. apply (Hn _ Hin). by left. }
    assert (Hix : forall ix, o_idx ob !! k = Some ix -> o_idx (added_obj data r A ob) !! k = Some ix).
    { intros ix H. rewrite lookup_added_obj, H. cbn. by rewrite decide_False. }
    destruct (Hk k) as [Hnew|Htk]; [by left| |].
    + pose proof Hnew as (td & ix & H1 & H2 & H3 & H4). destruct (IH (A ++ [k])) as [(HF & E)|(ks1 & k' & ks2 & -> & HF & Ht & E)].
      { by rewrite <- app_assoc. } { intros k' Hk'. apply Hk. by right. }
      1: left; split; [by constructor|]. 2: right; exists (k :: ks1), k', ks2; split; [done|]; split; [by constructor|]; split; [done|].
      all: cbn [add_uniques]; unfold run_adder; change (o_keys (added_obj data r A ob)) with (o_keys ob); rewrite H1, (Hix _ H2); cbn [mbind option_bind].
      all: destruct (adder k td data r ix) as [ix' bb] eqn:Ea; cbn [mbind option_bind].
      all: assert (bb = true) as -> by (unfold adder, idx_add in Ea; unfold hash_emplace in Ea; rewrite H3, H4 in Ea; congruence).
      all: rewrite <- app_assoc in E; cbn [app] in E.
      all: enough (ob_idx (<[k := ix']> (o_idx (added_obj data r A ob))) (added_obj data r A ob) = added_obj data r (A ++ [k]) ob) as -> by done.
      all: unfold added_obj at 3; unfold ob_idx; cbn; f_equal; apply map_eq; intros k2; rewrite map_lookup_imap.
      all: destruct (decide (k2 = k)) as [->|Hne]; [rewrite lookup_insert, H2; cbn; rewrite decide_True by (apply elem_of_app; right; by left); unfold key_adder; rewrite H1, Ea; done|].
      all: rewrite lookup_insert_ne by done; rewrite map_lookup_imap; destruct (o_idx ob !! k2); [|done]; cbn; f_equal.
      all: assert (k2 ∈ A ++ [k] <-> k2 ∈ A) as Hiff by (rewrite elem_of_app, elem_of_list_singleton; tauto).
      all: repeat case_decide; tauto.
    + pose proof Htk as (td & ix & H1 & H2 & H3 & H4). right. exists [], k, ks. split; [done|]. split; [constructor|]. split; [done|]. rewrite app_nil_r.
      cbn [add_uniques]; unfold run_adder; change (o_keys (added_obj data r A ob)) with (o_keys ob); rewrite H1, (Hix _ H2); cbn [mbind option_bind].
      destruct (adder k td data r ix) as [ix' bb] eqn:Ea; cbn [mbind option_bind].
      unfold adder, idx_add, hash_emplace in Ea. rewrite H3, H4 in Ea. injection Ea as <- <-. do 3 f_equal.
      unfold added_obj at 3; unfold ob_idx; cbn; f_equal. rewrite insert_id; [done|]. apply Hix. done.
Qed.

Lemma tree_insert_notin v r l : has_value v l = false -> erase_value v (tree_insert v r l) = l.
Proof.
  intros H. rewrite has_value_false in H.
  assert (Hc : forall e l, erase_value v (e :: l) = if decide (e.1 <> v) then e :: erase_value v l else erase_value v l) by reflexivity.
  assert (He : erase_value v l = l).
  { induction l as [|e l IH]; [done|]. rewrite Hc. destruct e as [v' r']. rewrite decide_True.
    - f_equal. apply IH. intros x Hx. apply (H x). by right.
    - intros E. cbn in E. subst. apply (H r'). by left. }
  induction l as [|[v' r'] l IH]; cbn [tree_insert].
  - rewrite Hc. rewrite decide_False; [done|]. cbn. tauto.
  - destruct (vltb v v').
    + rewrite Hc. rewrite decide_False by (cbn; tauto). done.
    + rewrite Hc. rewrite Hc in He. cbn [fst] in *. destruct (decide (v' <> v)) as [Hne|Hne].
      * f_equal. apply IH; [|congruence]. intros x Hx. apply (H x). by right.
      * exfalso. apply Hne. intros ->. apply (H r'). by left.
Qed.
Lemma erase_entry_last v r l : (v, r) ∉ l -> erase_entry v r (l ++ [(v, r)]) = l.
Proof.
  induction l as [|e l IH]; cbn; intros H; [by rewrite decide_True|]. apply not_elem_of_cons in H as [H1 H2].
  rewrite decide_False by done. by rewrite IH.
Qed.
Lemma idx_add_undo v r ix :
  ix_multi ix = false -> has_value v (ix_hash ix) = false -> has_value v (ix_tree ix) = false ->
  idx_erase v r (idx_add v r ix).1 = ix.
Proof.
  intros Hm Hh Ht. unfold idx_add, hash_emplace, tree_emplace. rewrite Hm, Hh, Ht. unfold idx_erase. cbn [fst ix_hash ix_tree ix_multi].
  rewrite erase_entry_last by (rewrite has_value_false in Hh; auto). rewrite decide_True by (apply elem_tree_insert; by left).
  rewrite tree_insert_notin by done. destruct ix; cbn in *. by subst.
Qed.

Lemma undo_uniques data r ob A :
  NoDup A -> (forall k, k ∈ A -> uniq_new data ob k /\ forall td ix, o_keys ob !! k = Some td -> o_idx ob !! k = Some ix ->
     has_value (get_typed data k td.1 td.2) (ix_tree ix) = false /\ get_typed data k td.1 td.2 = get_typed data k td.1 (vzero td.1)) ->
  foldM (run_eraser data r) (added_obj data r A ob) A = Some ob.
Proof.
  induction A as [|k A IH]; intros Hn H; cbn [foldM]; [by rewrite added_obj_nil|]. apply NoDup_cons in Hn as [HkA Hn].
  destruct (H k) as [(td & ix & H1 & H2 & H3 & H4) H5]; [by left|]. destruct (H5 _ _ H1 H2) as [H6 H7].
  assert (run_eraser data r (added_obj data r (k :: A) ob) k = Some (added_obj data r A ob)) as ->.
  { unfold run_eraser. change (o_keys (added_obj data r (k :: A) ob)) with (o_keys ob). rewrite H1, lookup_added_obj, H2. cbn [mbind option_bind fmap option_fmap option_map].
    rewrite decide_True by (by left). f_equal. unfold added_obj at 2 3. unfold ob_idx. cbn. f_equal. apply map_eq. intros k2. rewrite map_lookup_imap.
    destruct (decide (k2 = k)) as [->|Hne].
    - rewrite lookup_insert, H2. cbn. rewrite decide_False by done. f_equal. unfold key_adder. rewrite H1. unfold eraser, adder. rewrite <- H7. by apply idx_add_undo.
    - rewrite lookup_insert_ne, map_lookup_imap by done. destruct (o_idx ob !! k2); [|done]. cbn. f_equal.
      assert (k2 ∈ k :: A <-> k2 ∈ A) as Hiff by (rewrite elem_of_cons; tauto). repeat case_decide; tauto. }
  cbn [mbind option_bind]. apply IH; [done|]. intros k' Hk'. apply H. by right.
Qed.

Lemma idx_add_again v r ix : ix_multi ix = false -> (idx_add v r (idx_add v r ix).1).1 = (idx_add v r ix).1.
Proof.
  intros Hm. unfold idx_add, hash_emplace. rewrite Hm. destruct (has_value v (ix_hash ix)) eqn:E; cbn; [by rewrite Hm, E|].
  assert (has_value v (ix_hash ix ++ [(v, r)]) = true) as ->; [|done]. apply has_value_spec. exists r. apply elem_of_app. right. by left.
Qed.
Lemma obj_add_added data r ob A :
  (forall k, k ∈ A -> uniq_new data ob k) -> obj_add data r (added_obj data r A ob) = obj_add data r ob.
Proof.
  intros H. unfold obj_add, all_adders, all_idx, ob_idx. cbn. f_equal. apply map_eq. intros k. rewrite !map_lookup_imap.
  destruct (o_idx ob !! k) as [ix|] eqn:Ei; [|done]. cbn. f_equal. destruct (decide (k ∈ A)) as [Hk|]; [|done].
  destruct (H _ Hk) as (td & ix' & H1 & H2 & H3 & H4). unfold key_adder. rewrite H1. assert (ix' = ix) as -> by congruence. by apply idx_add_again.
Qed.

(** ** Inserting one record *)
(** Some record of [ob] holds, for the unique key [k], the value [data] has. *)
Definition conflict (w : world) (ob : obj) (data : gmap string value) (k : string) : Prop :=
  exists r v, r ∈ o_recs ob /\ val_of (live w) k r = Some v /\ data !! k = Some v.
Definition created (o : nat) (ob : obj) (data : gmap string value) (w : world) : world :=
  World (<[w_next w := Recd data true 0 ∅]> (w_recs w)) (<[o := obj_add data (w_next w) ob]> (w_objs w)) (w_refs w) (S (w_next w)).
Definition bumped (w : world) : world := World (w_recs w) (w_objs w) (w_refs w) (S (w_next w)).

Lemma bumped_inv b w : Inv b w -> Inv b (bumped w).
Proof.
  intros [H1 H2 [V1 V2 V3 V4 V5 V6] H4]. split; try done.
  - intros r Hr. cbn. apply H1 in Hr. lia.
  - split; try done. intros s sb Hs Hst. destruct (V3 _ _ Hs Hst) as [S1 S2 S3 S4 S5 S6]. split; try done.
    + intros k ix e Hix He. specialize (S1 _ _ _ Hix He). cbn. lia.
    + intros r Hr. specialize (S2 _ Hr). cbn. lia.
Qed.

Lemma uniq_dec b w o ob data k :
  Inv b w -> w_objs w !! o = Some ob -> o_static_set ob = false -> typed (o_keys ob) data -> k ∈ o_uniq ob ->
  (uniq_new data ob k /\ ~ conflict w ob data k) \/ (uniq_taken data ob k /\ conflict w ob data k).
Proof.
  intros HI Ho Hst Ht Hk. pose proof (vi_vault _ _ _ _ (inv_obj _ _ HI) _ _ Ho Hst) as Hv.
  destruct (k_uniq _ (v_keys _ _ Hv) _ Hk) as [[t d] Htd]. destruct (v_idx _ _ Hv _ _ Htd) as (ix & Hix & (G & Gm & Gc) & Hm).
  destruct (get_typed_typed _ _ _ _ _ d Ht Htd) as (v & Hd & Hvt & Hg). destruct (Gc Hk) as [C1 C2].
  destruct (has_value v (ix_hash ix)) eqn:E; [right|left].
  - split; [exists (t, d), ix; cbn; rewrite Hg; auto|]. apply has_value_spec in E as [r Hr]. destruct (g_hash _ _ _ G _ _ Hr) as [H1 H2].
    exists r, v. done.
  - split; [exists (t, d), ix; cbn; rewrite Hg; auto|]. intros (r & v' & H1 & H2 & H3). assert (v' = v) as -> by congruence.
    destruct (C1 _ H1) as (v2 & H4 & H5). assert (v2 = v) as -> by congruence. rewrite has_value_false in E. by apply (E r).
Qed.

Lemma val_of_created o ob data w k r :
  val_of (live (created o ob data w)) k r = if decide (r = w_next w) then data !! k else val_of (live w) k r.
Proof.
  unfold val_of, live, created. cbn. rewrite !lookup_live_of. destruct (decide (r = w_next w)) as [->|]; [by rewrite lookup_insert|by rewrite lookup_insert_ne].
Qed.
Lemma live_created o ob data w r :
  live (created o ob data w) !! r = if decide (r = w_next w) then Some (data, ∅) else live w !! r.
Proof.
  unfold live, created. cbn. rewrite !lookup_live_of. destruct (decide (r = w_next w)) as [->|]; [by rewrite lookup_insert|by rewrite lookup_insert_ne].
Qed.

Lemma created_inv b w o ob data :
  Inv b w -> w_objs w !! o = Some ob -> o_static_set ob = false -> typed (o_keys ob) data ->
  (forall k, k ∈ o_uniq ob -> ~ conflict w ob data k) -> Inv b (created o ob data w).
Proof.
  intros HI Ho Hst Ht Hno. pose proof (vi_vault _ _ _ _ (inv_obj _ _ HI) _ _ Ho Hst) as Hv. set (n := w_next w) in *.
  assert (Hnl : forall r, is_Some (live w !! r) -> r <> n). { intros r Hr ->. apply (Inv_live_bound _ _ _ HI) in Hr. unfold n in Hr. lia. }
  assert (Hnv : n ∉ o_recs ob). { intros Hin. by apply (Hnl n (Inv_vault_live _ _ _ _ _ HI Ho Hst Hin)). }
  assert (HL : forall r, r <> n -> live (created o ob data w) !! r = live w !! r).
  { intros r Hr. rewrite live_created. by rewrite decide_False. }
  assert (Hn' : w_recs w !! n = None). { destruct (w_recs w !! n) eqn:E; [|done]. apply mk_is_Some in E. apply HI in E. unfold n in E. lia. }
  assert (Hvok : vault_ok (live (created o ob data w)) (obj_add data n ob)).
  { destruct Hv as [H1 H2 K H4 H5]. destruct K as [K1 K2 K3 K4 K5 K6]. split; [done|done|by split| |].
    - intros r Hr. change (r ∈ {[n]} ∪ o_recs ob) in Hr. rewrite live_created. fold n. case_decide as Hd; [eexists; done|].
      apply H4. clear -Hr Hd. set_solver.
    - intros k td Hk. change (o_keys ob !! k = Some td) in Hk. destruct (H5 _ _ Hk) as (ix & Hix & Hok & Hm).
      rewrite lookup_obj_add, Hix. cbn. rewrite Hk. eexists. split; [done|]. destruct td as [t d].
      destruct (get_typed_typed _ _ _ _ _ d Ht Hk) as (v & Hd & Hvt & Hg). unfold adder. cbn [fst snd]. rewrite Hg. split.
      + change (o_recs (obj_add data n ob)) with ({[n]} ∪ o_recs ob). change (o_uniq (obj_add data n ob)) with (o_uniq ob). apply idx_ok_add.
        * eapply (idx_ok_frame (live w)); [|done]. intros r Hr. rewrite val_of_created. fold n. rewrite decide_False; [done|]. intros ->. done.
        * done.
        * rewrite val_of_created. fold n. by rewrite decide_True.
        * intros Hku r Hr. rewrite val_of_created. fold n. rewrite decide_False by (intros ->; done). intros E. apply (Hno _ Hku). exists r, v. done.
      + intros Hku. rewrite idx_add_multi. auto. }
  split.
  - intros r Hr. cbn in *. apply lookup_insert_is_Some in Hr as [<-|[_ Hr]]; [fold n; lia|]. apply HI in Hr. fold n in Hr. fold n. lia.
  - cbn. apply RInv_new; [done|]. apply HI.
  - cbn. eapply (VInv_vault_change b (w_objs w) _ (live w) _ n (S n) o ob (obj_add data n ob)); try done; [apply HI|lia|..].
    + by rewrite lookup_insert.
    + intros x Hx. rewrite lookup_insert_ne by done. destruct (w_objs w !! x) as [xb|] eqn:Ex; [|done]. destruct (decide _) as [[Hxs Hxp]|]; [|done].
      pose proof (vi_set _ _ _ _ (inv_obj _ _ HI) _ _ Ex Hxs) as [S1 S2 S3 S4 S5 S6].
      destruct (Inv_set_facts _ _ _ _ _ HI Ex Hxs Hxp) as (pb & Hpb & _ & _ & _ & [P1 P2 P3]). assert (pb = ob) as -> by congruence.
      repeat (split; [done|]). split; [intros; eapply Nat.lt_trans; [by eapply S1|unfold n; lia]|]. split; [intros; eapply Nat.lt_trans; [by eapply S2|unfold n; lia]|].
      assert (Hrn : forall r, r ∈ o_recs xb -> r <> n). { intros r Hr ->. apply S2 in Hr. unfold n in Hr. lia. }
      split.
      * intros k ix e Hix He Hl. assert (e.2 <> n) as Hen. { intros E. pose proof (S1 _ _ _ Hix He) as Hlt. rewrite E in Hlt. unfold n in Hlt. lia. }
        rewrite HL in Hl by done. pose proof (P1 _ _ _ Hix He Hl). apply elem_of_union_r. done.
      * intros r Hr Hl. rewrite HL in Hl by auto. apply elem_of_union_r. auto.
      * intros Hb. eapply (strict_frame (live w) _ x xb ob); try done; [..|by apply P3].
        -- intros r Hr. rewrite HL by auto. done.
        -- intros r l' Hr Hl'. rewrite HL in Hl' by auto. eauto.
        -- intros r Hr. apply elem_of_union_r. by apply (st_recs _ _ _ _ (P3 Hb)).
    + intros r Hr Hr'. apply HL. intros ->. apply Hr'. apply elem_of_union_l. by apply elem_of_singleton.
    + intros r Hr Hr'. change (r ∈ {[n]} ∪ o_recs ob) in Hr. apply elem_of_union in Hr as [Hr|Hr]; [|done]. apply elem_of_singleton in Hr. lia.
    + intros r Hr. by apply (Inv_live_bound _ _ _ HI).
    + intros r Hr Hr'. destruct Hr'. by apply elem_of_union_r.
    + intros r l' s Hr Hl' Hs. rewrite live_created in Hl'. fold n in Hl'. case_decide as Hd; [injection Hl' as <-; by apply not_elem_of_empty in Hs|].
      destruct (vi_deps _ _ _ _ (inv_obj _ _ HI) _ _ _ Hl' Hs) as [D1 D2]. split.
      * intros sb Hsb. destruct (D1 _ Hsb) as [D3 D4]. split; [done|]. intros p Hp. destruct (D4 _ Hp) as (pb & Hpb & Hps & Hrp).
        change (r ∈ {[n]} ∪ o_recs ob) in Hr. apply elem_of_union in Hr as [Hr|Hr]; [apply elem_of_singleton in Hr; done|].
        by eapply (vi_disj _ _ _ _ (inv_obj _ _ HI)).
      * intros Hb. destruct (D2 Hb) as (sb & Hsb & Hrs). exists sb. split; [|done]. rewrite lookup_insert_ne; [done|]. intros <-.
        destruct (D1 _ Hsb) as [D3 _]. congruence.
  - intros f rf r Hf Hr. cbn in Hf. destruct (inv_vlt _ _ HI _ _ _ Hf Hr) as (o' & Ho' & Hin). exists o'. split; [done|].
    assert (r <> n) as Hrn. { intros ->. pose proof (ri_refs _ _ _ (inv_ref _ _ HI) _ _ _ Hf Hr) as Hs. rewrite Hn' in Hs. by destruct Hs. }
    intros ob' Hob' Hst' Hl. rewrite HL in Hl by done. cbn in Hob'. apply lookup_insert_Some in Hob' as [[<- <-]|[_ Hob']].
    + apply elem_of_union_r. eauto.
    + eauto.
Qed.

Lemma insert_new_ok b w o ob data :
  Inv b w -> w_objs w !! o = Some ob -> o_static_set ob = false -> typed (o_keys ob) data ->
  ((forall k, k ∈ o_uniq ob -> ~ conflict w ob data k) /\
     insert_new w o data = Some (created o ob data w, inr (w_next w)) /\ Inv b (created o ob data w)) \/
  (exists ks1 k ks2, o_uniq ob = ks1 ++ k :: ks2 /\ (forall k', k' ∈ ks1 -> ~ conflict w ob data k') /\ conflict w ob data k /\
     insert_new w o data = Some (bumped w, inl k)).
Proof.
  intros HI Ho Hst Ht. pose proof (vi_vault _ _ _ _ (inv_obj _ _ HI) _ _ Ho Hst) as Hv.
  assert (Hnd : NoDup (o_uniq ob)).
  { pose proof (k_usort _ (v_keys _ _ Hv)) as Hs. induction Hs as [|a l Hs IH Hf]; constructor; [|done]. intros Hin. rewrite Forall_forall in Hf.
    by apply (strlt_irrefl a), Hf. }
  pose proof (uniq_dec b w o ob data) as Hud.
  assert (Hnc : forall ks, (forall k, k ∈ ks -> k ∈ o_uniq ob) -> Forall (uniq_new data ob) ks -> forall k, k ∈ ks -> ~ conflict w ob data k).
  { intros ks Hin HF k Hk. rewrite Forall_forall in HF. specialize (HF _ Hk). destruct (Hud k) as [[_ H]|[(td & ix & H1 & H2 & H3 & H4) _]]; auto.
    destruct HF as (td' & ix' & H1' & H2' & H3' & H4'). congruence. }
  destruct (add_uniques_spec data (w_next w) ob (o_uniq ob) []) as [(HF & E)|(ks1 & k & ks2 & Hu & HF & Htk & E)]; [done| | |].
  { intros k Hk. destruct (Hud k) as [[H _]|[H _]]; auto. }
  - left. assert (Hno : forall k, k ∈ o_uniq ob -> ~ conflict w ob data k) by (by apply Hnc). split; [done|].
    rewrite added_obj_nil in E. split; [|by apply created_inv]. unfold insert_new. rewrite Ho. cbn [mbind option_bind]. rewrite E. cbn [mbind option_bind].
    rewrite obj_add_added; [done|]. intros k Hk. rewrite Forall_forall in HF. auto.
  - right. exists ks1, k, ks2. split; [done|].
    assert (Hin1 : forall k', k' ∈ ks1 -> k' ∈ o_uniq ob). { intros k' Hk'. rewrite Hu. apply elem_of_app. by left. }
    split; [by apply Hnc|]. assert (Hku : k ∈ o_uniq ob). { rewrite Hu. apply elem_of_app. right. by left. }
    split. { destruct (Hud k) as [[(td & ix & H1 & H2 & H3 & H4) _]|[_ H]]; auto. destruct Htk as (td' & ix' & H1' & H2' & H3' & H4'). congruence. }
    rewrite added_obj_nil in E. unfold insert_new. rewrite Ho. cbn [mbind option_bind]. rewrite E. cbn [mbind option_bind].
    rewrite undo_uniques; [cbn [mbind option_bind]; unfold bumped; by rewrite insert_id|..].
    { rewrite Hu in Hnd. by apply NoDup_app in Hnd as [Hnd _]. }
    intros k' Hk'. cbn in Hk'. rewrite Forall_forall in HF. split; [by apply HF|]. intros [t d] ix Hk1 Hix.
    destruct (get_typed_typed _ _ _ _ _ d Ht Hk1) as (v & Hd & Hvt & Hg). destruct (get_typed_typed _ _ _ _ _ (vzero t) Ht Hk1) as (v' & Hd' & _ & Hg').
    cbn [fst snd]. rewrite Hg, Hg'. split; [|congruence]. destruct (has_value v (ix_tree ix)) eqn:Et; [|done]. exfalso.
    apply has_value_spec in Et as [r Hr]. destruct (v_idx _ _ Hv _ _ Hk1) as (ix' & Hix' & (G & _) & _). assert (ix' = ix) as -> by congruence.
    destruct (g_tree _ _ _ G _ _ Hr) as [H1 H2]. apply (Hnc ks1 Hin1 (proj2 (Forall_forall _ _) HF) k' Hk'). exists r, v. done.
Qed.

(** ** CreateRecord *)
Definition param_ok (ob : obj) (p : string * value) : Prop := exists td, o_keys ob !! p.1 = Some td /\ td.1 = vty p.2.
Definition param_err (ob : obj) (p : string * value) : opres :=
  match o_keys ob !! p.1 with
  | None => bad WrongKey p.1 (Some (vty p.2)) None
  | Some td => bad WrongType p.1 (Some (vty p.2)) (Some td.1)
  end.
Definition overlay (ps : list (string * value)) (data : gmap string value) : gmap string value :=
  foldl (fun d p => <[p.1 := p.2]> d) data ps.

Lemma typed_insert_same keys data k v td : typed keys data -> keys !! k = Some td -> td.1 = vty v -> typed keys (<[k := v]> data).
Proof.
  intros H Hk Hv k'. destruct (decide (k' = k)) as [->|].
  - by rewrite lookup_insert, Hk.
  - rewrite lookup_insert_ne by done. apply H.
Qed.
Lemma typed_overlay ob ps data : typed (o_keys ob) data -> Forall (param_ok ob) ps -> typed (o_keys ob) (overlay ps data).
Proof.
  intros H HF. revert data H. induction HF as [|p ps (td & Hk & Hv) HF IH]; intros data H; cbn; [done|]. apply IH. by eapply typed_insert_same.
Qed.

Definition last_info (ps : list (string * value)) (res : opres) : string * option vtype :=
  match last ps with Some p => (p.1, Some (vty p.2)) | None => (res_key res, res_req res) end.
Lemma apply_params_spec ob ps : forall data res,
  typed (o_keys ob) data ->
  (Forall (param_ok ob) ps /\ exists res', apply_params ob ps data res = Some (inr (overlay ps data, res')) /\ (res_key res', res_req res') = last_info ps res) \/
  (exists ps1 p ps2, ps = ps1 ++ p :: ps2 /\ Forall (param_ok ob) ps1 /\ ~ param_ok ob p /\ apply_params ob ps data res = Some (inl (param_err ob p))).
Proof.
  induction ps as [|[k v] ps IH]; intros data res Ht.
  - left. split; [constructor|]. exists res. done.
  - cbn [apply_params]. destruct (data !! k) as [old|] eqn:Ed.
    + pose proof (Ht k) as Hk. rewrite Ed in Hk. destruct (o_keys ob !! k) as [td|] eqn:Ek; [|done]. cbn [mbind option_bind]. destruct (decide (vty old = vty v)) as [Hd|Hd].
      * destruct (IH (<[k := v]> data) (OpRes (res_ok res) (res_code res) k (Some (vty v)) (Some td.1))) as [(HF & res' & E & El)|(ps1 & p & ps2 & -> & HF & Hp & E)].
        { eapply typed_insert_same; [done|done|congruence]. }
        -- left. split. { constructor; [|done]. exists td. split; [done|]. cbn. congruence. } exists res'. split; [done|]. rewrite El. unfold last_info.
           destruct ps as [|p ps]; [done|]. change (last ((k, v) :: p :: ps)) with (last (p :: ps)). destruct (last (p :: ps)) eqn:El'; [done|]. by apply last_None in El'.
        -- right. exists ((k, v) :: ps1), p, ps2. split; [done|]. split; [|done]. constructor; [|done]. exists td. split; [done|]. cbn. congruence.
      * right. exists [], (k, v), ps. split; [done|]. split; [constructor|]. split.
        { intros (td' & H1 & H2). cbn in *. congruence. } unfold param_err. cbn. by rewrite Ek.
    + right. exists [], (k, v), ps. split; [done|]. split; [constructor|]. pose proof (Ht k) as Hk. rewrite Ed in Hk. destruct (o_keys ob !! k) as [td|] eqn:Ek; [done|].
      split. { intros (td' & H1 & H2). cbn in *. congruence. } unfold param_err. cbn. by rewrite Ek.
Qed.

(** The three outcomes of CreateRecord. *)
Definition create_outcome (w : world) (o : nat) (ob : obj) (f : option nat) (ps : list (string * value)) (w' : world) (res : opres) : Prop :=
  (exists ps1 p ps2, ps = ps1 ++ p :: ps2 /\ Forall (param_ok ob) ps1 /\ ~ param_ok ob p /\ w' = w /\ res = param_err ob p) \/
  (Forall (param_ok ob) ps /\ exists ks1 k ks2 td, o_uniq ob = ks1 ++ k :: ks2 /\ o_keys ob !! k = Some td /\
     (forall k', k' ∈ ks1 -> ~ conflict w ob (overlay ps (o_tmpl ob)) k') /\ conflict w ob (overlay ps (o_tmpl ob)) k /\
     w' = bumped w /\ res = bad UniqueKeyValueAlredyInSet k (Some td.1) None) \/
  (Forall (param_ok ob) ps /\ (forall k, k ∈ o_uniq ob -> ~ conflict w ob (overlay ps (o_tmpl ob)) k) /\
     let w1 := created o ob (overlay ps (o_tmpl ob)) w in
     match f with
     | Some f => ref_only w1 w' /\ w_refs w' = <[f := Ref (Some (w_next w)) (Some o)]> (w_refs w)
     | None => w' = w1
     end /\ res_ok res = true /\ res_code res = Success /\ (res_key res, res_req res) = last_info ps res0).

Lemma create_record_ok b w o ob f ps :
  Inv b w -> w_objs w !! o = Some ob -> o_static_set ob = false -> (forall f0, f = Some f0 -> is_Some (w_refs w !! f0)) ->
  exists w' res, create_record w o f ps = Some (w', res) /\ Inv b w' /\ create_outcome w o ob f ps w' res.
Proof.
  intros HI Ho Hst Hf. pose proof (vi_vault _ _ _ _ (inv_obj _ _ HI) _ _ Ho Hst) as Hv. pose proof (k_tmpl _ (v_keys _ _ Hv)) as Htm.
  unfold create_record. rewrite Ho. cbn [mbind option_bind].
  destruct (apply_params_spec ob ps (o_tmpl ob) res0 Htm) as [(HF & res' & E & El)|(ps1 & p & ps2 & -> & HF & Hp & E)]; rewrite E; cbn [mbind option_bind].
  2:{ eexists _, _. split; [done|]. split; [done|]. left. exists ps1, p, ps2. done. }
  pose proof (typed_overlay _ _ _ Htm HF) as Hty.
  destruct (insert_new_ok b w o ob _ HI Ho Hst Hty) as [(Hno & Ei & HI1)|(ks1 & k & ks2 & Hu & H1 & H2 & Ei)]; rewrite Ei; cbn [mbind option_bind].
  - destruct f as [f|].
    + destruct (Hf f eq_refl) as [rf Hrf].
      destruct (set_record_spec (created o ob (overlay ps (o_tmpl ob)) w) f rf (Some (w_next w)) o) as (w' & Es & Hro & Hrefs); [apply HI1|done|..].
      { intros r [= <-]. cbn. rewrite lookup_insert. eauto. }
      rewrite Es. cbn [mbind option_bind]. eexists _, _. split; [done|]. split.
      * eapply (Inv_ref_only b); [exact HI1|done|]. rewrite Hrefs. apply vlt_ok_insert; [apply HI1|]. cbn. intros r [= <-]. exists o. split; [done|].
        intros ob' Hob' _ _. cbn in Hob'. rewrite lookup_insert in Hob'. injection Hob' as <-. apply elem_of_union_l. by apply elem_of_singleton.
      * right. right. split; [done|]. split; [done|]. cbn [w_refs created] in Hrefs. done.
    + eexists _, _. split; [done|]. split; [done|]. right. right. done.
  - assert (Hku : k ∈ o_uniq ob). { rewrite Hu. apply elem_of_app. right. by left. }
    destruct (k_uniq _ (v_keys _ _ Hv) _ Hku) as [td Htd]. rewrite Htd. cbn [mbind option_bind]. eexists _, _. split; [done|].
    split; [by apply bumped_inv|]. right. left. split; [done|]. exists ks1, k, ks2, td. done.
Qed.

(** ** Rows of ReadFile *)
Lemma vty_from_string_int t s v : from_string_int t s = FsOk v -> vty v = TInt t.
Proof.
  unfold from_string_int. destruct s as [|c s]; [done|]. destruct (from_digits _ _ _); try done.
  destruct (_ && _); [destruct (arith _ _); [|done]|]; intros H; injection H as <-; done.
Qed.
Lemma vty_from_string t s v : from_string t s = FsOk v -> vty v = t.
Proof.
  unfold from_string. destruct t as [ty| | |]; intros H; try discriminate.
  - destruct ty; try discriminate; by apply vty_from_string_int in H.
  - repeat (destruct (decide _); [injection H as <-; done|]); discriminate.
  - injection H as <-; done.
Qed.
Lemma typed_from_string keys data k s data' :
  typed keys data -> set_from_string data k s = Some (Some data') -> typed keys data'.
Proof.
  intros Ht H. unfold set_from_string in H. destruct (data !! k) as [v|] eqn:Ed; [|done]. destruct (from_string (vty v) s) as [v'| |] eqn:Ef; try done.
  injection H as <-. apply vty_from_string in Ef. pose proof (Ht k) as Hk. rewrite Ed in Hk. destruct (keys !! k) as [td|] eqn:Ek; [|done].
  eapply typed_insert_same; [done|done|congruence].
Qed.
Lemma typed_read_fields strict keys ks fields : forall data ok data' ok' wrong,
  typed keys data -> read_fields strict ks fields data ok = Some (data', ok', wrong) -> typed keys data'.
Proof.
  revert ks. induction fields as [|s fields IH]; intros ks data ok data' ok' wrong Ht H; destruct ks as [|k ks]; cbn in H; try (by injection H as <- <- <-).
  - destruct strict; [done|]. by injection H as <- <- <-.
  - destruct (set_from_string data k s) as [[d|]|] eqn:Es; cbn in H; try done.
    + eapply IH; [|done]. by eapply typed_from_string.
    + by injection H as <- <- <-.
Qed.

(** What one row says, given the vault's template and key order: contents, whether a record is created, the key that failed. *)
Definition add_bad (x : list (nat * string)) (ob : obj) : obj := ob_bad (o_bad ob ++ x) ob.
Definition row_wrong (load : bool) (line : nat) (wrong : option string) : list (nat * string) :=
  match wrong with Some k => [(if load then S line else line, k)] | None => [] end.

Lemma bad_inv b w o ob x : Inv b w -> w_objs w !! o = Some ob -> o_static_set ob = false -> Inv b (set_obj o (ob_bad x ob) w).
Proof.
  intros HI Ho Hst. pose proof (vi_vault _ _ _ _ (inv_obj _ _ HI) _ _ Ho Hst) as Hv.
  assert (EL : live (set_obj o (ob_bad x ob) w) = live w) by done.
  eapply (key_change_inv b w _ o ob (ob_bad x ob) (fun _ x => x)); try done.
  - intros y. rewrite EL. destruct (live w !! y) as [[]|]; [|done]. cbn. by destruct (decide _).
  - cbn. by rewrite lookup_insert.
  - rewrite EL. destruct Hv as [H1 H2 [K1 K2 K3 K4 K5 K6] H4 H5]. by split.
  - intros y Hy. cbn. rewrite lookup_insert_ne by done. destruct (w_objs w !! y) as [xb|] eqn:Ex; [|done].
    destruct (decide _) as [[Hxs Hxp]|]; [|done]. split; [apply set_kept_refl|]. intros Hb.
    destruct (Inv_set_facts _ _ _ _ _ HI Ex Hxs Hxp) as (pb & Hpb & _ & _ & _ & Hpar). assert (pb = ob) as -> by congruence.
    pose proof (sp_strict _ _ _ _ _ Hpar Hb) as [S1 S2 S3 S4 S5 S6 S7 S8]. by split.
Qed.

(** The effect of one row. *)
Definition row_effect (o : nat) (ob : obj) (load : bool) (line : nat) (data : gmap string value) (ok : bool) (wrong : option string) (w w' : world) : Prop :=
  let ob1 := add_bad (row_wrong load line wrong) ob in
  let w1 := set_obj o ob1 w in
  if ok then
    ((forall k, k ∈ o_uniq ob -> ~ conflict w ob data k) /\ w' = created o ob1 data w1) \/
    (exists ks1 k ks2, o_uniq ob = ks1 ++ k :: ks2 /\ (forall k', k' ∈ ks1 -> ~ conflict w ob data k') /\ conflict w ob data k /\
       w' = set_obj o (add_bad [(line, k)] ob1) (bumped w1))
  else w' = w1.

Lemma ob_bad_nil ob : add_bad [] ob = ob.
Proof. destruct ob. unfold add_bad, ob_bad. cbn. by rewrite app_nil_r. Qed.

Lemma read_row_ok b w o ob load keys user line row data ok wrong :
  Inv b w -> w_objs w !! o = Some ob -> o_static_set ob = false -> row_fields ob load keys user row = Some (data, ok, wrong) ->
  exists w', read_row w o load keys user line row = Some w' /\ Inv b w' /\ typed (o_keys ob) data /\ row_effect o ob load line data ok wrong w w'.
Proof.
  intros HI Ho Hst Hrow. pose proof (vi_vault _ _ _ _ (inv_obj _ _ HI) _ _ Ho Hst) as Hv. pose proof (k_tmpl _ (v_keys _ _ Hv)) as Htm.
  assert (Hty : typed (o_keys ob) data).
  { unfold row_fields in Hrow. destruct load; [by eapply typed_read_fields|]. destruct user; by eapply typed_read_fields. }
  unfold read_row. rewrite Ho. cbn [mbind option_bind].
  change (if load then read_fields false keys row (o_tmpl ob) false else match user with [] => read_fields true (o_order ob) row (o_tmpl ob) false | _ :: _ => read_fields false user row (o_tmpl ob) false end)
    with (row_fields ob load keys user row). rewrite Hrow. cbn [mbind option_bind].
  set (ob1 := add_bad (row_wrong load line wrong) ob). set (w1 := set_obj o ob1 w).
  assert (match wrong with Some k => set_obj o (ob_bad (o_bad ob ++ [(if load then S line else line, k)]) ob) w | None => w end = w1) as ->.
  { unfold w1, ob1. destruct wrong; [done|]. cbn. rewrite ob_bad_nil. unfold set_obj. rewrite insert_id by done. by rewrite world_eta. }
  assert (HI1 : Inv b w1) by (by apply bad_inv). unfold row_effect. fold ob1. fold w1. destruct ok; [|by exists w1].
  assert (Ho1 : w_objs w1 !! o = Some ob1) by (cbn; by rewrite lookup_insert).
  destruct (insert_new_ok b w1 o ob1 data HI1 Ho1 Hst Hty) as [(Hno & Ei & HI2)|(ks1 & k & ks2 & Hu & H1 & H2 & Ei)]; rewrite Ei; cbn [mbind option_bind].
  - eexists. split; [done|]. split; [done|]. split; [done|]. left. done.
  - cbn [w_objs bumped]. rewrite Ho1. cbn [mbind option_bind]. eexists. split; [done|]. split.
    + apply bad_inv; [by apply bumped_inv|done|done].
    + split; [done|]. right. exists ks1, k, ks2. done.
Qed.

Lemma row_fields_same ob ob' load keys user row :
  o_tmpl ob' = o_tmpl ob -> o_order ob' = o_order ob -> row_fields ob' load keys user row = row_fields ob load keys user row.
Proof. unfold row_fields. by intros -> ->. Qed.

(** Everything of the vault but its records, indexes and list of rejected rows. *)
Definition same_keys (ob ob' : obj) : Prop :=
  o_static_set ob' = o_static_set ob /\ o_isset ob' = o_isset ob /\ o_tmpl ob' = o_tmpl ob /\ o_keys ob' = o_keys ob /\ o_order ob' = o_order ob /\
  o_uniq ob' = o_uniq ob /\ o_sets ob' = o_sets ob /\ o_parent ob' = o_parent ob.
Lemma row_effect_keys o ob load line data ok wrong w w' :
  row_effect o ob load line data ok wrong w w' -> exists ob', w_objs w' !! o = Some ob' /\ same_keys ob ob'.
Proof.
  unfold row_effect. destruct ok; [intros [(_ & ->)|(ks1 & k & ks2 & _ & _ & _ & ->)]|intros ->]; cbn; rewrite lookup_insert; eexists; split; done.
Qed.

Lemma read_rows_loop_ok b o load keys user rows : forall line w ob,
  Inv b w -> w_objs w !! o = Some ob -> o_static_set ob = false ->
  (is_Some (read_rows_loop w o load keys user line rows) \/ Forall (fun row => is_Some (row_fields ob load keys user row)) rows) ->
  exists w', read_rows_loop w o load keys user line rows = Some w' /\ Inv b w'.
Proof.
  induction rows as [|row rows IH]; intros line w ob HI Ho Hst HD; cbn [read_rows_loop] in *; [eauto|].
  assert (is_Some (row_fields ob load keys user row)) as [[[data ok] wrong] Hrow].
  { destruct HD as [HD|HD]; [|by inversion HD]. destruct (row_fields ob load keys user row) as [|] eqn:E; [eauto|].
    exfalso. unfold read_row in HD. rewrite Ho in HD. cbn [mbind option_bind] in HD. unfold row_fields in E. rewrite E in HD. by destruct HD. }
  destruct (read_row_ok b w o ob load keys user (S line) row data ok wrong) as (w1 & E1 & HI1 & _ & He); try done. rewrite E1 in *. cbn [mbind option_bind] in *.
  destruct (row_effect_keys _ _ _ _ _ _ _ _ _ He) as (ob' & Ho' & Hs1 & _ & Hs3 & _ & Hs5 & _). eapply IH; [done|done|congruence|].
  destruct HD as [HD|HD]; [by left|right]. inversion HD as [|? ? _ HD']; subst. eapply Forall_impl; [done|]. intros row' Hr. cbn. by rewrite (row_fields_same ob ob').
Qed.
Lemma read_rows_ok b w o ob load keys user rows :
  Inv b w -> w_objs w !! o = Some ob -> o_static_set ob = false ->
  (is_Some (read_rows w o load keys user rows) \/ Forall (fun row => is_Some (row_fields ob load keys user row)) rows) ->
  exists w', read_rows w o load keys user rows = Some w' /\ Inv b w'.
Proof.
  intros HI Ho Hst HD. unfold read_rows in *. rewrite Ho in *. cbn [mbind option_bind] in *.
  eapply (read_rows_loop_ok b o load keys user rows 0 _ (ob_bad [] ob)).
  - by apply bad_inv.
  - cbn. by rewrite lookup_insert.
  - done.
  - done.
Qed.
