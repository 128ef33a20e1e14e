(** AddRecord, set copies, set algebra and set-level removal. *)
From Verif Require Export InvSets3.
Open Scope nat_scope.

Lemma set_add_ok b w s sb f rf :
  Inv b w -> w_objs w !! s = Some sb -> o_static_set sb = true -> w_refs w !! f = Some rf ->
  exists w' res, set_add_record w s f = Some (w', res) /\ Inv b w' /\ set_only s w w'.
Proof.
  intros HI Hs Hst Hf. unfold set_add_record. rewrite Hs, Hf. cbn [mbind option_bind].
  destruct (o_parent sb) as [p|] eqn:Ep; [|by eauto 10 using set_only_refl].
  destruct (Inv_set_facts _ _ _ _ _ HI Hs Hst Ep) as (pb & Hpb & Hpst & Hin & Hne & Hpar). rewrite Hpb. cbn [mbind option_bind].
  unfold ref_valid. destruct (f_rec rf) as [r|] eqn:Er; [|by eauto 10 using set_only_refl].
  destruct (ri_refs _ _ _ (inv_ref _ _ HI) _ _ _ Hf Er) as [rc Hrc]. rewrite Hrc. cbn [mbind option_bind].
  destruct (bool_decide (f_vlt rf = Some p) && r_valid rc) eqn:E; [|by eauto 10 using set_only_refl].
  apply andb_true_iff in E as [E1 E2]. apply bool_decide_eq_true in E1.
  destruct (decide (r ∈ o_recs sb)) as [|Hni]; [by eauto 10 using set_only_refl|].
  rewrite (set_take_eq _ _ sb _ rc) by done. cbn. eexists _, _. split; [done|]. split; [|by apply set_only_take].
  assert (Hl : is_Some (live w !! r)). { unfold live. rewrite lookup_live_of, Hrc. cbn. unfold live_rec. rewrite E2. eauto. }
  assert (Hrp : r ∈ o_recs pb).
  { destruct (inv_vlt _ _ HI _ _ _ Hf Er) as (o & Ho & Hv). assert (o = p) as -> by congruence. by apply Hv. }
  by eapply set_take_inv.
Qed.

(** ** Copies *)
Lemma copy_tail b ord w dst src sb p pb db :
  fair ord -> Inv b w -> w_objs w !! src = Some sb -> o_static_set sb = true -> o_parent sb = Some p -> w_objs w !! p = Some pb ->
  o_static_set pb = false -> dst <> src ->
  (forall sbx, w_objs w !! dst = Some sbx -> o_static_set sbx = true /\ o_parent sbx = None) ->
  target_ok w dst pb ->
  w_objs (set_obj dst db w) !! dst = Some db -> o_static_set db = true ->
  o_recs db = ∅ -> o_keys db = ∅ -> o_tmpl db = ∅ -> o_idx db = ∅ -> o_sets db = ∅ ->
  Def b (copy_set ord (set_obj dst db w) dst src) ->
  exists w' sb', copy_set ord (set_obj dst db w) dst src = Some w' /\ Inv b w' /\ set_only dst w w' /\
    w_objs w' !! dst = Some sb' /\ o_recs sb' = o_recs sb /\ o_parent sb' = Some p /\ o_order sb' = o_order sb /\ o_uniq sb' = o_uniq sb /\
    o_keys sb' = (fun td => (vty td.2, td.2)) <$> o_keys sb /\ o_tmpl sb' = snd <$> o_keys sb.
Proof.
  intros Hf HI Hsrc Hst Hp Hpb Hpst Hne Hdst Ht Hdb D1 D2 D3 D4 D5 D6 HD.
  assert (Hdp : dst <> p). { intros ->. apply Hdst in Hpb as [? _]. congruence. }
  assert (EW : copy_set ord (set_obj dst db w) dst src = foldM (set_take dst) (bind_world dst p sb pb (o_bad sb) w) (ord (elements (o_recs sb)))).
  { unfold copy_set. cbn [set_obj w_objs]. rewrite (lookup_insert_ne _ dst src) by done. rewrite Hsrc. cbn [mbind option_bind].
    rewrite Hp. rewrite (lookup_insert_ne _ dst p) by done. rewrite Hpb. cbn [mbind option_bind].
    rewrite lookup_insert. cbn [mbind option_bind].
    match goal with |- context [copy_keys ord ?W sb dst] => set (w0 := W) end.
    destruct (copy_keys_empty ord w0 sb dst (ob_parent (Some p) (ob_isset true db))) as (order' & Hc & Ho); try done.
    { cbn. by rewrite lookup_insert. }
    rewrite Hc. cbn [mbind option_bind]. subst w0; cbn [set_obj w_objs]. rewrite lookup_insert. cbn [mbind option_bind].
    rewrite !(lookup_insert_ne _ dst p) by done. rewrite Hpb. cbn [mbind option_bind]. f_equal.
    unfold bind_world, bound_obj, set_obj. cbn. f_equal. f_equal. rewrite !insert_insert. f_equal.
    unfold ob_bad, ob_uniq, ob_order, keyed, ob_parent. cbn. rewrite D1, D2, D6. done. }
  rewrite EW in *. clear EW.
  assert (Hsf : set_only dst w (bind_world dst p sb pb (o_bad sb) w)) by by apply set_only_bind.
  destruct (Inv_set_facts _ _ _ _ _ HI Hsrc Hst Hp) as (pb' & Hpb' & _ & _ & _ & Hpar). assert (pb' = pb) as -> by congruence.
  assert (HI1 : Inv b (bind_world dst p sb pb (o_bad sb) w)).
  { apply bind_world_inv; try done. intros Hb. by destruct (sp_strict _ _ _ _ _ Hpar Hb). }
  destruct (take_fold b dst p (bind_world dst p sb pb (o_bad sb) w) (bound_obj p sb (o_bad sb)) (ob_sets ({[dst]} ∪ o_sets pb) pb)
     (ord (elements (o_recs sb)))) as (w' & sb' & H1 & H2 & H3 & H4 & H5 & H6 & H7 & H8 & H9 & H10 & H11); try done.
  - cbn. rewrite lookup_insert_ne by done. by rewrite lookup_insert.
  - cbn. by rewrite lookup_insert.
  - by apply fair_NoDup.
  - intros r Hr. apply fair_elem in Hr; [|done]. split.
    + change (live (bind_world dst p sb pb (o_bad sb) w)) with (live w). cbn. by apply (sp_recs _ _ _ _ _ Hpar).
    + intros Hb. cbn. split; [|set_solver]. by apply (st_recs _ _ _ _ (sp_strict _ _ _ _ _ Hpar Hb)).
  - exists w', sb'. split; [done|]. split; [done|]. split; [by eapply set_only_trans|]. split; [done|].
    split; [|done]. rewrite H5. cbn. rewrite list_to_set_ord by done. by rewrite (right_id_L ∅ (∪)).
Qed.

Lemma copy_construct_set_ok b ord w dst src sb p :
  fair ord -> Inv b w -> w_objs w !! src = Some sb -> o_static_set sb = true -> o_parent sb = Some p -> w_objs w !! dst = None ->
  (b = false -> forall r l, live w !! r = Some l -> dst ∉ l.2) ->
  Def b (copy_construct_set ord w dst src) ->
  exists w' sb', copy_construct_set ord w dst src = Some w' /\ Inv b w' /\ set_only dst w w' /\
    w_objs w' !! dst = Some sb' /\ o_recs sb' = o_recs sb /\ o_parent sb' = Some p /\ o_order sb' = o_order sb /\ o_uniq sb' = o_uniq sb /\
    o_keys sb' = (fun td => (vty td.2, td.2)) <$> o_keys sb /\ o_tmpl sb' = snd <$> o_keys sb.
Proof.
  intros Hf HI Hsrc Hst Hp Hdst Hfr HD.
  destruct (Inv_set_facts _ _ _ _ _ HI Hsrc Hst Hp) as (pb & Hpb & Hpst & _).
  unfold copy_construct_set in *. eapply (copy_tail b ord w dst src sb p pb); try done.
  - congruence.
  - intros sbx Hsbx. congruence.
  - destruct b; [apply target_ok_true; [done|]; intros sbx Hsbx; congruence|]. intros r l Hl Hin. by apply (Hfr eq_refl) in Hl.
  - cbn. by rewrite lookup_insert.
Qed.

Lemma set_obj_id w o ob : w_objs w !! o = Some ob -> set_obj o ob w = w.
Proof. intros H. unfold set_obj. rewrite insert_id by done. by rewrite world_eta. Qed.

Lemma copy_assign_set_ok b ord w dst src sb db :
  fair ord -> Inv b w -> w_objs w !! src = Some sb -> o_static_set sb = true -> w_objs w !! dst = Some db -> o_static_set db = true ->
  dst <> src ->
  (b = false -> forall p pb, o_parent sb = Some p -> w_objs w !! p = Some pb -> target_ok (reset_result dst db w) dst pb) ->
  Def b (copy_assign_set ord w dst src) ->
  exists w' sb', copy_assign_set ord w dst src = Some w' /\ Inv b w' /\ set_only dst w w' /\
    w_objs w' !! dst = Some sb' /\ o_static_set sb' = true /\ o_recs sb' = o_recs sb /\ o_parent sb' = o_parent sb.
Proof.
  intros Hf HI Hsrc Hst Hdst Hdt Hne Ht HD. unfold copy_assign_set in *. rewrite decide_False in * by done.
  destruct (set_reset_ok b ord w dst db) as [Hc Hci]; try done. { by eapply Def_bind. }
  rewrite Hc in *. cbn [mbind option_bind] in *.
  destruct (reset_result_obj dst db w b HI Hdst Hdt) as (db1 & Hdb1 & R1 & R2 & R3 & R4 & R5 & R6 & R7 & R8 & R9 & R10 & R11).
  pose proof (set_only_reset_result b dst db w HI Hdst Hdt) as Hso.
  destruct (set_only_obj _ _ _ _ _ Hso (not_eq_sym Hne) Hsrc) as (sb1 & Hsb1 & _ & Esb1). rewrite (Esb1 Hst) in Hsb1. clear sb1 Esb1.
  destruct (o_parent sb) as [p|] eqn:Ep.
  - destruct (Inv_set_facts _ _ _ _ _ Hci Hsb1 Hst Ep) as (pb & Hpb & Hpst & _).
    assert (Hdp : p <> dst) by congruence.
    destruct (Inv_set_facts _ _ _ _ _ HI Hsrc Hst Ep) as (pb0 & Hpb0 & Hpst0 & _).
    destruct (set_only_obj _ _ _ _ _ Hso Hdp Hpb0) as (pb1 & Hpb1 & Epb1 & _). assert (pb1 = pb) as -> by congruence.
    destruct (copy_tail b ord (reset_result dst db w) dst src sb p pb db1) as (w' & sb' & C1 & C2 & C3 & C4 & C5 & C6 & C7); try done.
    + intros sbx Hsbx. assert (sbx = db1) as -> by congruence. done.
    + destruct b; [apply target_ok_true; [done|]; intros sbx Hsbx; congruence|]. intros r l Hl Hin. rewrite Epb1. cbn.
      by eapply (Ht eq_refl p pb0).
    + cbn. by rewrite lookup_insert.
    + by rewrite set_obj_id.
    + rewrite set_obj_id in C1 by done. exists w', sb'. split; [done|]. split; [done|]. split; [by eapply set_only_trans|]. split; [done|].
      split; [|done]. destruct (o_static_set sb') eqn:Es; [done|].
      pose proof (v_parent _ _ (vi_vault _ _ _ _ (inv_obj _ _ C2) _ _ C4 Es)). congruence.
  - assert (Ecs : copy_set ord (reset_result dst db w) dst src = Some (reset_result dst db w)).
    { unfold copy_set. rewrite Hsb1. cbn. by rewrite Ep. }
    rewrite Ecs. exists (reset_result dst db w), db1. split; [done|]. split; [done|]. split; [done|]. split; [done|].
    split; [done|]. split; [|done]. rewrite R10. symmetry. by apply (so_none _ _ _ _ _ _ (vi_set _ _ _ _ (inv_obj _ _ HI) _ _ Hsrc Hst)).
Qed.

(** ** Changes of a set without registration (wide class only) *)
Lemma set_change_inv w s sb sb' p pb :
  Inv false w -> w_objs w !! s = Some sb -> o_static_set sb = true -> o_parent sb = Some p -> w_objs w !! p = Some pb ->
  o_static_set sb' = true -> o_isset sb' = true -> o_sets sb' = ∅ -> o_parent sb' = Some p ->
  (forall k ix e, o_idx sb' !! k = Some ix -> e ∈ ix_hash ix \/ e ∈ ix_tree ix ->
     e.2 < w_next w /\ (is_Some (live w !! e.2) -> e.2 ∈ o_recs pb)) ->
  (forall r, r ∈ o_recs sb' -> r < w_next w /\ (is_Some (live w !! r) -> r ∈ o_recs pb)) ->
  Inv false (set_obj s sb' w).
Proof.
  intros HI Hs Hst Hp Hpb S1 S2 S3 S4 S5 S6. pose proof (inv_obj _ _ HI) as HV.
  destruct (Inv_set_facts _ _ _ _ _ HI Hs Hst Hp) as (pb' & Hpb' & Hpst & Hin & Hne & Hpar). assert (pb' = pb) as -> by congruence.
  split; [apply HI|apply HI| |].
  - eapply (VInv_set_change false (w_objs w) _ (live w) _ _ s); [done|..].
    + intros sbx Hsbx. congruence.
    + intros sbx Hsbx. cbn in Hsbx. rewrite lookup_insert in Hsbx. injection Hsbx as <-.
      split; [done|]. split; [done|]. split; [done|]. split; [|split; [|split]].
      * intros k ix e Hix He. by apply (S5 k ix e).
      * intros r Hr. by apply S6.
      * congruence.
      * intros p' Hp'. assert (p' = p) as -> by congruence. exists pb. split; [done|]. split; [done|]. split; [| |done].
        -- intros k ix e Hix He Hl. by apply (S5 k ix e).
        -- intros r Hr Hl. by apply S6.
    + intros x Hx. cbn. rewrite lookup_insert_ne by done. destruct (w_objs w !! x) as [xb|] eqn:Ex; [|done].
      split; [apply ob_sets_id|]. split; [done|]. split; [done|]. intros Hxs. rewrite lookup_insert. split.
      * intros Hsx. destruct (vi_sets _ _ _ _ HV _ _ _ Ex Hxs Hsx) as (sb2 & Hsb2 & _ & Hp2). exists sb'. split; [done|]. congruence.
      * intros (sbx & [= <-] & Hp'). assert (x = p) as -> by congruence. congruence.
    + intros r. change (live (set_obj s sb' w)) with (live w). destruct (live w !! r); done.
    + intros r l Hl Hsl. cbn. rewrite lookup_insert. split; [|done]. intros sbx p' [= <-] Hp'. assert (p' = p) as -> by congruence.
      destruct (vi_deps _ _ _ _ HV _ _ _ Hl Hsl) as [D _]. destruct (D _ Hs) as [_ D2]. by apply D2.
  - eapply vlt_ok_frame; [apply HI|]. intros f rf x o ob' Hrf Hx Hob' Hst' Hl. split; [done|].
    cbn in Hob'. apply lookup_insert_Some in Hob' as [[<- <-]|[Hno Hob']]; [congruence|]. eauto.
Qed.

Lemma take_unreg_inv w s sb p pb r rc :
  Inv false w -> w_objs w !! s = Some sb -> o_static_set sb = true -> o_parent sb = Some p -> w_objs w !! p = Some pb ->
  w_recs w !! r = Some rc -> (is_Some (live w !! r) -> r ∈ o_recs pb) ->
  Inv false (set_obj s (obj_add (r_data rc) r sb) w).
Proof.
  intros HI Hs Hst Hp Hpb Hr Hrp. pose proof (vi_set _ _ _ _ (inv_obj _ _ HI) _ _ Hs Hst) as Hsok.
  destruct (Inv_set_facts _ _ _ _ _ HI Hs Hst Hp) as (pb' & Hpb' & Hpst & Hin & Hne & Hpar). assert (pb' = pb) as -> by congruence.
  assert (Hrn : r < w_next w) by (apply HI; eauto).
  eapply (set_change_inv w s sb _ p pb); try done; try apply Hsok.
  - intros k ix e Hix He. apply (obj_add_elem _ _ _ _ _ _ Hix) in He as [->|(ix0 & Hix0 & He)]; [done|].
    split; [by eapply (so_bidx _ _ _ _ _ _ Hsok)|by eapply (sp_idx _ _ _ _ _ Hpar)].
  - cbn. intros x Hx. apply elem_of_union in Hx as [Hx|Hx]; [apply elem_of_singleton in Hx; by subst|].
    split; [by apply Hsok|by apply (sp_recs _ _ _ _ _ Hpar)].
Qed.
Lemma drop_rec_elem data r ob k ix e :
  o_idx (drop_rec data r ob) !! k = Some ix -> e ∈ ix_hash ix \/ e ∈ ix_tree ix ->
  exists ix0, o_idx ob !! k = Some ix0 /\ (e ∈ ix_hash ix0 \/ e ∈ ix_tree ix0).
Proof.
  unfold drop_rec. change (o_idx (ob_recs (o_recs ob ∖ {[r]}) (all_erasers data r ob))) with (o_idx (all_erasers data r ob)).
  unfold all_erasers. rewrite lookup_all_idx. destruct (o_idx ob !! k) as [ix0|]; [|done]. cbn. intros [= <-] He.
  exists ix0. split; [done|]. destruct (o_keys ob !! k) as [td|]; [|done]. unfold eraser in He. by apply idx_erase_elem in He.
Qed.
Lemma drop_set_inv w s sb p pb r data :
  Inv false w -> w_objs w !! s = Some sb -> o_static_set sb = true -> o_parent sb = Some p -> w_objs w !! p = Some pb ->
  Inv false (set_obj s (drop_rec data r sb) w).
Proof.
  intros HI Hs Hst Hp Hpb. pose proof (vi_set _ _ _ _ (inv_obj _ _ HI) _ _ Hs Hst) as Hsok.
  destruct (Inv_set_facts _ _ _ _ _ HI Hs Hst Hp) as (pb' & Hpb' & Hpst & Hin & Hne & Hpar). assert (pb' = pb) as -> by congruence.
  eapply (set_change_inv w s sb _ p pb); try done; try apply Hsok.
  - intros k ix e Hix He. destruct (drop_rec_elem _ _ _ _ _ _ Hix He) as (ix0 & Hix0 & He0).
    split; [by eapply (so_bidx _ _ _ _ _ _ Hsok)|by eapply (sp_idx _ _ _ _ _ Hpar)].
  - cbn. intros x Hx. apply elem_of_difference in Hx as [Hx _]. split; [by apply Hsok|by apply (sp_recs _ _ _ _ _ Hpar)].
Qed.

(** Removal from a set by the shared vault code. *)
Lemma detach_set_ok w s sb p r n ord w' :
  Inv false w -> w_objs w !! s = Some sb -> o_static_set sb = true -> o_parent sb = Some p ->
  detach (S n) ord w s r = Some w' ->
  exists rc, w_recs w !! r = Some rc /\ w' = set_obj s (drop_rec (r_data rc) r sb) w /\ Inv false w'.
Proof.
  intros HI Hs Hst Hp H. pose proof (vi_set _ _ _ _ (inv_obj _ _ HI) _ _ Hs Hst) as Hsok.
  destruct (Inv_set_facts _ _ _ _ _ HI Hs Hst Hp) as (pb & Hpb & _).
  assert (is_Some (w_recs w !! r)) as [rc Hrc].
  { cbn in H. rewrite Hs in H. cbn in H. destruct (w_recs w !! r); [eauto|done]. }
  rewrite (detach_set _ _ _ _ _ sb rc) in H by (try done; apply Hsok). injection H as <-. exists rc. split; [done|]. split; [done|].
  by eapply drop_set_inv.
Qed.
Lemma remove_record_set_ok ord w s sb p r w' b :
  Inv false w -> w_objs w !! s = Some sb -> o_static_set sb = true -> o_parent sb = Some p ->
  remove_record ord w s r = Some (w', b) ->
  Inv false w' /\ set_only s w w' /\
  exists sb', w_objs w' !! s = Some sb' /\ o_static_set sb' = true /\ o_parent sb' = Some p /\ o_recs sb' = o_recs sb ∖ {[r]} /\
    b = bool_decide (r ∈ o_recs sb).
Proof.
  intros HI Hs Hst Hp H. unfold remove_record in H. rewrite Hs in H. cbn [mbind option_bind] in H.
  destruct (decide (r ∈ o_recs sb)) as [Hin|Hni].
  - destruct (detach _ _ _ _ _) as [w1|] eqn:E; [|done]. cbn in H. injection H as <- <-. unfold dfuel in E.
    destruct (detach_set_ok _ _ _ _ _ _ _ _ HI Hs Hst Hp E) as (rc & Hrc & -> & HI'). split; [done|]. split; [apply set_only_set|].
    exists (drop_rec (r_data rc) r sb). cbn. rewrite lookup_insert. rewrite bool_decide_true by done. done.
  - injection H as <- <-. split; [done|]. split; [apply set_only_refl|]. exists sb. rewrite bool_decide_false by done.
    split; [done|]. split; [done|]. split; [done|]. split; [set_solver|done].
Qed.

(** ** Join, Exclude, Intersect, Union, Intersection (wide class) *)
Lemma take_unreg_some s w r sb w' :
  w_objs w !! s = Some sb -> set_take_unregistered s w r = Some w' ->
  exists rc, w_recs w !! r = Some rc /\ w' = set_obj s (obj_add (r_data rc) r sb) w.
Proof.
  intros Hs. unfold set_take_unregistered. rewrite Hs. cbn. destruct (w_recs w !! r) as [rc|]; [|done]. intros [= <-]. eauto.
Qed.
Lemma unreg_fold w s sb p pb (P : nat -> bool) l w' :
  Inv false w -> w_objs w !! s = Some sb -> o_static_set sb = true -> o_parent sb = Some p -> w_objs w !! p = Some pb ->
  (forall r, r ∈ l -> is_Some (live w !! r) -> r ∈ o_recs pb) ->
  foldM (fun w r => if P r then set_take_unregistered s w r else Some w) w l = Some w' ->
  Inv false w' /\ set_only s w w' /\ exists sb', w_objs w' !! s = Some sb' /\ o_static_set sb' = true /\ o_parent sb' = Some p /\
    o_recs sb' = list_to_set (filter P l) ∪ o_recs sb.
Proof.
  revert w sb. induction l as [|r l IH]; intros w sb HI Hs Hst Hp Hpb Hl H; cbn [foldM] in H.
  - injection H as <-. split; [done|]. split; [apply set_only_refl|]. exists sb. split; [done|]. split; [done|]. split; [done|]. cbn. set_solver.
  - assert (Hps : p <> s). { destruct (Inv_set_facts _ _ _ _ _ HI Hs Hst Hp) as (? & _ & _ & _ & ? & _). done. }
    rewrite filter_cons. destruct (P r) eqn:EP.
    + destruct (set_take_unregistered s w r) as [wt|] eqn:Et; [|done]. cbn [mbind option_bind] in H.
      destruct (take_unreg_some _ _ _ _ _ Hs Et) as (rc & Hrc & ->). clear Et.
      assert (HI1 : Inv false (set_obj s (obj_add (r_data rc) r sb) w)).
      { eapply take_unreg_inv; try done. intros ?. apply Hl; [by left|done]. }
      eapply IH in H as (H1 & H2 & sb' & H3 & H4 & H5 & H6); [|exact HI1|cbn; by rewrite lookup_insert|done|done|cbn; by rewrite lookup_insert_ne|].
      * split; [done|]. split; [eapply set_only_trans; [apply set_only_set|done]|]. exists sb'. split; [done|]. split; [done|]. split; [done|].
        rewrite H6. cbn. rewrite decide_True by done. clear. set_solver.
      * intros x Hx Hlx. apply Hl; [by right|done].
    + cbn [mbind option_bind] in H. rewrite decide_False by (cbn; auto). eapply IH; try done. intros x Hx Hlx. apply Hl; [by right|done].
Qed.

Lemma join_ok ord w s a sb ab w' res :
  fair ord -> Inv false w -> w_objs w !! s = Some sb -> o_static_set sb = true -> w_objs w !! a = Some ab -> o_static_set ab = true ->
  set_join ord w s a = Some (w', res) ->
  Inv false w' /\ set_only s w w' /\ exists sb', w_objs w' !! s = Some sb' /\ o_parent sb' = o_parent sb /\ o_static_set sb' = true /\
    (algebra_check s a sb ab = None -> o_recs sb' = o_recs sb ∪ o_recs ab).
Proof.
  intros Hf HI Hs Hst Ha Hat H. unfold set_join in H. rewrite Hs, Ha in H. cbn [mbind option_bind] in H.
  destruct (algebra_check s a sb ab) as [c|] eqn:Ec.
  { injection H as <- <-. split; [done|]. split; [apply set_only_refl|]. exists sb. done. }
  destruct (foldM _ _ _) as [w1|] eqn:E; [|done]. cbn in H. injection H as <- <-.
  unfold algebra_check in Ec. destruct (o_parent sb) as [p|] eqn:Ep; [|done]. destruct (o_parent ab) as [p'|] eqn:Ep'; [|done].
  destruct (decide (p' = p)) as [->|]; [|done]. destruct (decide (s = a)); [done|].
  destruct (Inv_set_facts _ _ _ _ _ HI Hs Hst Ep) as (pb & Hpb & Hpst & _ & Hsp & _).
  destruct (Inv_set_facts _ _ _ _ _ HI Ha Hat Ep') as (pb' & Hpb' & _ & _ & _ & Hpar). assert (pb' = pb) as -> by congruence.
  assert (Hl : forall r, r ∈ ord (elements (o_recs ab)) -> is_Some (live w !! r) -> r ∈ o_recs pb).
  { intros r Hr Hlr. apply fair_elem in Hr; [|done]. by apply (sp_recs _ _ _ _ _ Hpar). }
  assert (Hset : o_recs ab = list_to_set (ord (elements (o_recs ab)))) by by rewrite list_to_set_ord.
  rewrite Hset. clear Hset.
  clear Hpar Hpb'. revert w sb HI Hs Hst Ep Hpb Ha Hl E. generalize (ord (elements (o_recs ab))). intros l.
  induction l as [|r l IH]; intros w sb HI Hs Hst Ep Hpb Ha Hl E; cbn [foldM] in E.
  - injection E as <-. split; [done|]. split; [apply set_only_refl|]. exists sb. split; [done|]. split; [done|]. split; [done|]. set_solver.
  - rewrite Hs in E. cbn [mbind option_bind] in E. destruct (decide (r ∈ o_recs sb)) as [Hin|Hni].
    + cbn [mbind option_bind] in E. eapply IH in E as (H1 & H2 & sb' & H3 & H4 & H5 & H6); try done.
      * split; [done|]. split; [done|]. exists sb'. split; [done|]. split; [done|]. split; [done|]. intros _. rewrite H6 by done.
        cbn. clear -Hin. set_solver.
      * intros x Hx. apply Hl. by right.
    + destruct (set_take_unregistered s w r) as [wt|] eqn:Et; [|done]. cbn [mbind option_bind] in E.
      destruct (take_unreg_some _ _ _ _ _ Hs Et) as (rc & Hrc & ->). clear Et.
      assert (HI1 : Inv false (set_obj s (obj_add (r_data rc) r sb) w)).
      { eapply take_unreg_inv; try done. intros ?. apply Hl; [by left|done]. }
      eapply IH in E as (H1 & H2 & sb' & H3 & H4 & H5 & H6);
        [|exact HI1|cbn; by rewrite lookup_insert|done|done|cbn; by rewrite lookup_insert_ne|cbn; by rewrite lookup_insert_ne|].
      * split; [done|]. split; [eapply set_only_trans; [apply set_only_set|done]|]. exists sb'. split; [done|]. split; [done|]. split; [done|].
        intros _. rewrite H6 by done. cbn. clear. set_solver.
      * intros x Hx Hlx. apply Hl; [by right|done].
Qed.

Lemma subtract_ok kc ord w s a sb ab w' res :
  fair ord -> Inv false w -> w_objs w !! s = Some sb -> o_static_set sb = true -> w_objs w !! a = Some ab -> o_static_set ab = true ->
  set_subtract kc ord w s a = Some (w', res) ->
  Inv false w' /\ set_only s w w' /\ exists sb', w_objs w' !! s = Some sb' /\ o_parent sb' = o_parent sb /\ o_static_set sb' = true /\
    (algebra_check s a sb ab = None -> o_recs sb' = if kc then o_recs sb ∩ o_recs ab else o_recs sb ∖ o_recs ab).
Proof.
  intros Hf HI Hs Hst Ha Hat H. unfold set_subtract in H. rewrite Hs, Ha in H. cbn [mbind option_bind] in H.
  destruct (algebra_check s a sb ab) as [c|] eqn:Ec.
  { injection H as <- <-. split; [done|]. split; [apply set_only_refl|]. exists sb. done. }
  destruct (foldM _ _ _) as [w1|] eqn:E; [|done]. cbn in H. injection H as <- <-.
  unfold algebra_check in Ec. destruct (o_parent sb) as [p|] eqn:Ep; [|done]. destruct (o_parent ab) as [p'|] eqn:Ep'; [|done]. clear Ec.
  assert (G : forall l w sb, Inv false w -> w_objs w !! s = Some sb -> o_static_set sb = true -> o_parent sb = Some p ->
     foldM (fun w r =>
             if bool_decide (r ∈ o_recs ab) then
               (if kc then Some w else '(w', _) ← remove_record ord w s r; Some w')
             else (if kc then '(w', _) ← remove_record ord w s r; Some w' else Some w)) w l = Some w1 ->
     Inv false w1 /\ set_only s w w1 /\ exists sb', w_objs w1 !! s = Some sb' /\ o_parent sb' = Some p /\ o_static_set sb' = true /\
       o_recs sb' = o_recs sb ∖ list_to_set (filter (fun r => bool_decide (r ∈ o_recs ab) <> kc) l)).
  { clear w sb HI Hs Hst Ep Ha E. intros l. induction l as [|r l IH]; intros w sb HI Hs Hst Ep E; cbn [foldM] in E.
    - injection E as <-. split; [done|]. split; [apply set_only_refl|]. exists sb. split; [done|]. split; [done|]. split; [done|]. cbn. set_solver.
    - rewrite filter_cons. destruct (decide (bool_decide (r ∈ o_recs ab) <> kc)) as [Hd|Hd].
      + assert (E2 : ('(w', _) ← remove_record ord w s r; foldM (fun w r =>
             if bool_decide (r ∈ o_recs ab) then
               (if kc then Some w else '(w', _) ← remove_record ord w s r; Some w')
             else (if kc then '(w', _) ← remove_record ord w s r; Some w' else Some w)) w' l) = Some w1).
        { destruct (bool_decide (r ∈ o_recs ab)), kc; try done; destruct (remove_record ord w s r) as [[w2 c]|]; done. }
        destruct (remove_record ord w s r) as [[w2 c]|] eqn:Er; [|done]. cbn [mbind option_bind] in E2.
        destruct (remove_record_set_ok _ _ _ _ _ _ _ _ HI Hs Hst Ep Er) as (R1 & R2 & sb2 & R3 & R4 & R5 & R6 & _).
        destruct (IH _ _ R1 R3 R4 R5 E2) as (H1 & H2 & sb' & H3 & H4 & H5 & H6). split; [done|]. split; [by eapply set_only_trans|].
        exists sb'. split; [done|]. split; [done|]. split; [done|]. rewrite H6, R6. cbn. clear. set_solver.
      + assert (E2 : foldM (fun w r =>
             if bool_decide (r ∈ o_recs ab) then
               (if kc then Some w else '(w', _) ← remove_record ord w s r; Some w')
             else (if kc then '(w', _) ← remove_record ord w s r; Some w' else Some w)) w l = Some w1).
        { destruct (bool_decide (r ∈ o_recs ab)), kc; try done; by destruct Hd. }
        by apply (IH _ _ HI). }
  destruct (G _ _ _ HI Hs Hst Ep E) as (H1 & H2 & sb' & H3 & H4 & H5 & H6). split; [done|]. split; [done|].
  exists sb'. split; [done|]. split; [done|]. split; [done|]. intros _. rewrite H6. apply set_eq. intros x.
  rewrite elem_of_difference, elem_of_list_to_set, elem_of_list_filter, (fair_elem ord) by done.
  destruct kc; rewrite ?elem_of_intersection, ?elem_of_difference; destruct (bool_decide (x ∈ o_recs ab)) eqn:Eb;
    (apply bool_decide_eq_true in Eb || apply bool_decide_eq_false in Eb); naive_solver.
Qed.

Lemma union_ok ord w a b res ab bb rb w' rs :
  fair ord -> Inv false w -> w_objs w !! a = Some ab -> o_static_set ab = true -> w_objs w !! b = Some bb -> o_static_set bb = true ->
  w_objs w !! res = Some rb -> o_static_set rb = true ->
  (forall p pb, o_parent ab = Some p -> w_objs w !! p = Some pb -> target_ok (reset_result res rb w) res pb) ->
  set_union ord w a b res = Some (w', rs) ->
  Inv false w' /\ set_only res w w' /\
  (res_ok rs = true -> exists rb', w_objs w' !! res = Some rb' /\ o_static_set rb' = true /\ o_parent rb' = o_parent ab /\
    o_recs rb' = o_recs ab ∪ o_recs bb).
Proof.
  intros Hf HI Ha Hat Hb Hbt Hr Hrt Ht H. unfold set_union in H. rewrite Ha, Hb in H. cbn [mbind option_bind] in H.
  destruct (decide (a = b \/ a = res \/ b = res)) as [|Hd]; [injection H as <- <-; split; [done|]; split; [apply set_only_refl|done]|].
  destruct (o_parent ab) as [p|] eqn:Ep; [|injection H as <- <-; split; [done|]; split; [apply set_only_refl|done]].
  destruct (o_parent bb) as [p'|] eqn:Ep'; [|injection H as <- <-; split; [done|]; split; [apply set_only_refl|done]].
  destruct (decide (p = p')) as [<-|]; [|injection H as <- <-; split; [done|]; split; [apply set_only_refl|done]].
  destruct (copy_assign_set ord w res a) as [w1|] eqn:Ec; [|done]. cbn [mbind option_bind] in H.
  destruct (copy_assign_set_ok false ord w res a ab rb) as (w1' & rb1 & C1 & C2 & C3 & C4 & C5 & C6 & C7); try done.
  { intros ->. apply Hd. auto. } { rewrite Ep. intros _ p0 pb [= <-]. by apply Ht. } { intros _. by rewrite Ec. }
  assert (w1' = w1) as -> by congruence.
  assert (Hbr : b <> res) by (intros ->; apply Hd; auto).
  destruct (set_only_obj _ _ _ _ _ C3 Hbr Hb) as (bb1 & Hb1 & _ & Ebb). rewrite (Ebb Hbt) in Hb1. clear bb1 Ebb.
  destruct (join_ok ord w1 res b rb1 bb w' rs Hf C2 C4 C5 Hb1 Hbt H) as (J1 & J2 & rb' & J3 & J4 & J5 & J6).
  split; [done|]. split; [by eapply set_only_trans|]. intros _. exists rb'. split; [done|]. split; [done|].
  split; [congruence|]. rewrite J6, C6; [done|]. unfold algebra_check. rewrite C7, Ep, Ep'. rewrite decide_True by done. by rewrite decide_False by done.
Qed.

Lemma intersection_ok ord w a b res ab bb rb w' rs :
  fair ord -> Inv false w -> w_objs w !! a = Some ab -> o_static_set ab = true -> w_objs w !! b = Some bb -> o_static_set bb = true ->
  w_objs w !! res = Some rb -> o_static_set rb = true ->
  (forall p pb, o_parent ab = Some p -> w_objs w !! p = Some pb -> target_ok (reset_result res rb w) res pb) ->
  set_intersection ord w a b res = Some (w', rs) ->
  Inv false w' /\ set_only res w w' /\
  (res_ok rs = true -> exists rb', w_objs w' !! res = Some rb' /\ o_static_set rb' = true /\ o_parent rb' = o_parent ab /\
    o_recs rb' = o_recs ab ∩ o_recs bb).
Proof.
  intros Hf HI Ha Hat Hb Hbt Hr Hrt Ht H. unfold set_intersection in H. rewrite Ha, Hb in H. cbn [mbind option_bind] in H.
  destruct (decide (a = b \/ a = res \/ b = res)) as [|Hd]; [injection H as <- <-; split; [done|]; split; [apply set_only_refl|done]|].
  destruct (o_parent ab) as [p|] eqn:Ep; [|injection H as <- <-; split; [done|]; split; [apply set_only_refl|done]].
  destruct (o_parent bb) as [p'|] eqn:Ep'; [|injection H as <- <-; split; [done|]; split; [apply set_only_refl|done]].
  destruct (decide (p = p')) as [<-|]; [|injection H as <- <-; split; [done|]; split; [apply set_only_refl|done]].
  destruct (set_reset ord w res) as [w1|] eqn:Er; [|done]. cbn [mbind option_bind] in H.
  destruct (set_reset_ok false ord w res rb) as [Hc Hci]; try done. { intros _. by rewrite Er. }
  assert (w1 = reset_result res rb w) as -> by congruence. clear Er Hc.
  destruct (reset_result_obj res rb w false HI Hr Hrt) as (db1 & Hdb1 & R1 & R2 & R3 & R4 & R5 & R6 & R7 & R8 & R9 & R10 & R11).
  pose proof (set_only_reset_result false res rb w HI Hr Hrt) as Hso.
  assert (Hra : a <> res) by (intros ->; apply Hd; auto). assert (Hrb : b <> res) by (intros ->; apply Hd; auto).
  destruct (Inv_set_facts _ _ _ _ _ HI Ha Hat Ep) as (pb0 & Hpb0 & Hpst0 & _ & _ & Hpar).
  destruct (Inv_set_facts _ _ _ _ _ HI Hb Hbt Ep') as (pb0' & Hpb0' & _ & _ & _ & Hparb). assert (pb0' = pb0) as -> by congruence.
  assert (Hrp : p <> res) by congruence.
  destruct (set_only_obj _ _ _ _ _ Hso Hrp Hpb0) as (pb1 & Hpb1 & Epb1 & _).
  rewrite Hdb1 in H. cbn [mbind option_bind] in H.
  match type of H with (copy_keys _ ?W _ _ ≫= ?K) = _ =>
    destruct (copy_keys ord W ab res) as [w3|] eqn:Eck; [|done]; cbn [mbind option_bind] in H;
    pose proof (bind_tail ord (reset_result res rb w) res p db1 ab pb1 Hf Hdb1 (not_eq_sym Hrp) Hpb1) as Hbt2 end.
  rewrite Eck in Hbt2. cbn [mbind option_bind] in Hbt2.
  destruct (w_objs w3 !! res) as [rb3|]; [|done]. cbn [mbind option_bind] in H, Hbt2.
  match type of H with (?X ≫= _) = _ => destruct X as [pb2|]; [|done] end. cbn [mbind option_bind] in H, Hbt2.
  assert (E2 := Hbt2 ltac:(done) ltac:(done) ltac:(done) ltac:(done) ltac:(done) ltac:(done) ltac:(done)). apply (inj Some) in E2. rewrite E2 in H. clear E2 Hbt2.
  set (wb := bind_world res p ab pb1 (o_bad db1) (reset_result res rb w)) in *.
  assert (Hsb : set_only res (reset_result res rb w) wb) by (apply set_only_bind; [done|by rewrite Epb1|done]).
  assert (HIb : Inv false wb).
  { apply bind_world_inv; try done.
    - intros sbx Hsbx. assert (sbx = db1) as -> by congruence. done.
    - rewrite Epb1. done.
    - intros r l Hl Hin. rewrite Epb1. cbn. by eapply (Ht p pb0). }
  assert (Hsall : set_only res w wb) by by eapply set_only_trans.
  destruct (if size (o_recs ab) <? size (o_recs bb) then (o_recs ab, o_recs bb) else (o_recs bb, o_recs ab)) as [small big] eqn:Esb.
  destruct (foldM _ _ _) as [w6|] eqn:E6; [|done]. cbn in H. injection H as <- <-.
  destruct (unreg_fold wb res (bound_obj p ab (o_bad db1)) p (ob_sets ({[res]} ∪ o_sets pb1) pb1) (fun r => bool_decide (r ∈ big))
     (ord (elements small)) w6) as (U1 & U2 & rb' & U3 & U4 & U5 & U6); try done.
  - cbn. rewrite lookup_insert_ne by done. by rewrite lookup_insert.
  - cbn. by rewrite lookup_insert.
  - intros r Hrs Hl. cbn. rewrite Epb1. cbn. apply fair_elem in Hrs; [|done]. apply (set_only_live_some _ _ _ _ Hsall) in Hl.
    assert (r ∈ o_recs ab \/ r ∈ o_recs bb) as [Hx|Hx].
    { destruct (size (o_recs ab) <? size (o_recs bb)); injection Esb as <- <-; auto. }
    + by apply (sp_recs _ _ _ _ _ Hpar).
    + by apply (sp_recs _ _ _ _ _ Hparb).
  - rewrite <- E6. clearbody wb. clear. revert wb. generalize (ord (elements small)). intros l. induction l as [|r l IH]; intros wb; [done|]. cbn [foldM].
    destruct (decide (r ∈ big)) as [Hd|Hd]; [rewrite bool_decide_true by done|rewrite bool_decide_false by done]; cbn [mbind option_bind];
      [destruct (set_take_unregistered res wb r); [|done]; cbn|]; apply IH.
  - split; [done|]. split; [by eapply set_only_trans|]. intros _. exists rb'. split; [done|]. split; [done|]. split; [done|].
    rewrite U6. cbn. apply set_eq. intros x. rewrite elem_of_union, elem_of_list_to_set, elem_of_list_filter, (fair_elem ord), elem_of_intersection by done.
    assert (Hbd : Is_true (bool_decide (x ∈ big)) <-> x ∈ big) by apply bool_decide_spec. rewrite Hbd.
    destruct (size (o_recs ab) <? size (o_recs bb)); injection Esb as <- <-; clear; set_solver.
Qed.
