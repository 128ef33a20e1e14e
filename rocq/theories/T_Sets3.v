(** Lemmas for C09, C10, C25: the sets that requests and copies fill answer every query completely. *)
From Verif Require Export T_Sets2.
Open Scope nat_scope.

(** Every record is filed in the multi indexes. *)
Definition files_all (w : world) (sb : obj) : Prop :=
  forall k td ix r v, o_keys sb !! k = Some td -> o_idx sb !! k = Some ix -> ix_multi ix = true -> r ∈ o_recs sb ->
    stored w r k = Some v -> vty v = td.1 -> (v, r) ∈ ix_hash ix /\ (v, r) ∈ ix_tree ix.
Lemma files_all_empty w sb : o_recs sb = ∅ -> files_all w sb.
Proof. intros E k td ix r v _ _ _ Hr. rewrite E in Hr. by apply not_elem_of_empty in Hr. Qed.
Lemma add_files_all w w' sb r rc :
  w_recs w !! r = Some rc -> files_all w sb -> (forall x k, stored w' x k = stored w x k) -> files_all w' (obj_add (r_data rc) r sb).
Proof.
  intros Hrc HF HS k td ix x v Hk Hix Hm Hx Hv Ht. rewrite HS in Hv. rewrite lookup_obj_add in Hix. change (o_keys (obj_add (r_data rc) r sb)) with (o_keys sb) in Hk. rewrite Hk in Hix.
  destruct (o_idx sb !! k) as [ix0|] eqn:Eix; [|done]. cbn in Hix. injection Hix as <-.
  change (o_recs (obj_add (r_data rc) r sb)) with ({[r]} ∪ o_recs sb) in Hx.
  assert (Em : ix_multi ix0 = true). { revert Hm. unfold adder, idx_add, hash_emplace. destruct (ix_multi ix0) eqn:E; [done|]. destruct (has_value _ _); cbn; by rewrite ?E. }
  unfold adder, idx_add, hash_emplace, tree_emplace. rewrite Em. cbn. rewrite elem_of_app, elem_of_list_singleton, tree_insert_elem.
  apply elem_of_union in Hx as [Hx|Hx].
  - apply elem_of_singleton in Hx as ->. unfold stored in Hv. rewrite Hrc in Hv. cbn in Hv. destruct (r_valid rc); [|done]. unfold get_typed. rewrite Hv, decide_True by done. auto.
  - destruct (HF _ _ _ _ _ Hk Eix Em Hx Hv Ht) as [H1 H2]. auto.
Qed.
Lemma stored_take s sb r rc w x k : w_recs w !! r = Some rc -> stored (take_world s sb r rc w) x k = stored w x k.
Proof. intros Hrc. unfold stored, take_world. cbn. destruct (decide (x = r)) as [->|]; [rewrite lookup_insert, Hrc; done|by rewrite lookup_insert_ne]. Qed.
Lemma take_fold_files s l w w' sb :
  foldM (set_take s) w l = Some w' -> w_objs w !! s = Some sb -> files_all w sb -> exists sb', w_objs w' !! s = Some sb' /\ files_all w' sb'.
Proof.
  revert w sb. induction l as [|r l IH]; intros w sb H Hs HF; cbn [foldM] in H; [injection H as <-; by exists sb|].
  destruct (w_recs w !! r) as [rc|] eqn:Hrc.
  2:{ unfold set_take in H. rewrite Hs, Hrc in H. done. }
  rewrite (set_take_eq _ _ _ _ _ Hs Hrc) in H. cbn [mbind option_bind] in H. eapply IH; [exact H|cbn; by rewrite lookup_insert|].
  eapply add_files_all; [done|done|]. intros x k. by apply stored_take.
Qed.
Lemma strict_indexed w s sb : Inv true w -> set_at w s sb -> files_all w sb -> indexed w sb.
Proof.
  intros HI [Hs Hst] HF k Hk v r. pose proof (vi_set _ _ _ _ (inv_obj _ _ HI) _ _ Hs Hst) as SO. unfold get_key_type in Hk. apply fmap_is_Some in Hk as [td Hk].
  destruct (o_parent sb) as [p|] eqn:Ep.
  2:{ destruct (so_none _ _ _ _ _ _ SO Ep) as (_ & _ & E & _). by rewrite E in Hk. }
  destruct (Inv_set_facts _ _ _ _ _ HI Hs Hst Ep) as (pb & Hpb & Hpst & _ & _ & Hpar). pose proof (sp_strict _ _ _ _ _ Hpar eq_refl) as ST.
  pose proof (vi_vault _ _ _ _ (inv_obj _ _ HI) _ _ Hpb Hpst) as VO.
  destruct (st_idx _ _ _ _ ST _ _ Hk) as (ix & Hix & G & M & U). unfold filed, filed_ord. rewrite stored_val_of. rewrite Hix.
  assert (HC : r ∈ o_recs sb /\ val_of (live w) k r = Some v -> (v, r) ∈ ix_hash ix /\ (v, r) ∈ ix_tree ix).
  { intros [Hr Hv]. destruct (ix_multi ix) eqn:Em.
    - eapply HF; try done; [by rewrite stored_val_of|].
      destruct (v_recs _ _ VO r) as (l & Hl & Hty); [by apply (st_recs _ _ _ _ ST)|]. unfold val_of in Hv. rewrite Hl in Hv. cbn in Hv. specialize (Hty k). rewrite Hv in Hty.
      pose proof (f_equal (lookup k) (st_keys _ _ _ _ ST)) as E. rewrite !lookup_fmap, Hk in E. destruct (o_keys pb !! k) as [td'|]; [|done]. cbn in E. injection E as E. congruence.
    - destruct (U (M eq_refl)) as [U1 U2]. destruct (U1 r Hr) as (v1 & V1 & ?), (U2 r Hr) as (v2 & V2 & ?). assert (v1 = v) as -> by congruence. assert (v2 = v) as -> by congruence. done. }
  split; (split; [intros (ix' & [= <-] & H)|intros H; exists ix; split; [done|]; by apply HC]).
  - by apply (g_hash _ _ _ G) in H.
  - by apply (g_tree _ _ _ G) in H.
Qed.
Lemma request_files ord w o ob pv rt k bv ev ib ie amt p s sb w' res :
  fair ord -> Inv true w -> w_objs w !! o = Some ob -> source_vault o ob = Some pv -> o <> s -> set_at w s sb ->
  request ord w o rt k bv ev ib ie amt p s = Some (w', res) -> exists sb', w_objs w' !! s = Some sb' /\ files_all w' sb'.
Proof.
  intros Hf HI Ho Hsv Hos [Hs Hst] H. unfold request in H. rewrite Ho in H. cbn [mbind option_bind] in H. rewrite Hsv in H. rewrite (bool_decide_false (s = o)) in H by done. rewrite andb_false_r in H.
  destruct (w_objs w !! pv); [|done]. cbn [mbind option_bind] in H. destruct (bind_target ord w o pv s) as [w0|] eqn:Eb; [|done]. cbn [mbind option_bind] in H.
  destruct (bind_target_ok true ord w o pv s sb ob) as (w1 & sb1 & pb1 & Hb & _ & _ & Hs1 & _ & _ & Hr1 & _); try done. assert (w0 = w1) as -> by congruence.
  destruct (w_objs w1 !! o) as [ob1|]; [|done]. cbn [mbind option_bind] in H. destruct (request_set _ _ _ _ _ _ _ _ _ _ _) as [[r0 l]|]; [|done]. cbn [mbind option_bind] in H.
  destruct (foldM _ _ _) as [w2|] eqn:E; [|done]. cbn in H. injection H as <- <-. eapply take_fold_files; [done|done|]. by apply files_all_empty.
Qed.
Lemma complex_files ord w o ob pv q s sb w' res :
  fair ord -> Inv true w -> w_objs w !! o = Some ob -> source_vault o ob = Some pv -> o <> s -> set_at w s sb ->
  complex_request ord w o q s = Some (w', res) -> exists sb', w_objs w' !! s = Some sb' /\ files_all w' sb'.
Proof.
  intros Hf HI Ho Hsv Hos [Hs Hst] H. unfold complex_request in H. rewrite Ho in H. cbn [mbind option_bind] in H. rewrite Hsv in H. rewrite (bool_decide_false (s = o)) in H by done. rewrite andb_false_r in H.
  destruct (w_objs w !! pv); [|done]. cbn [mbind option_bind] in H. destruct (bind_target ord w o pv s) as [w0|] eqn:Eb; [|done]. cbn [mbind option_bind] in H.
  destruct (bind_target_ok true ord w o pv s sb ob) as (w1 & sb1 & pb1 & Hb & HI1 & _ & Hs1 & Hst1 & Hp1 & Hr1 & _); try done. assert (w0 = w1) as -> by congruence.
  destruct (w_objs w1 !! o) as [ob1|]; [|done]. cbn [mbind option_bind] in H. destruct (eval_req _ _ _ _) as [[e|l]|]; [| |done]; cbn [mbind option_bind] in H.
  - destruct (set_clear ord w1 s) as [w2|] eqn:E; [|done]. cbn in H. injection H as <- <-. destruct (set_clear_ok true ord w1 s sb1) as (E' & _); try done. rewrite Hp1 in E'. assert (w2 = clear_world s sb1 w1) as -> by congruence.
    exists (cleared sb1). split; [cbn; by rewrite lookup_insert|]. by apply files_all_empty.
  - destruct (foldM _ _ _) as [w2|] eqn:E; [|done]. cbn in H. injection H as <- <-. eapply take_fold_files; [done|done|]. by apply files_all_empty.
Qed.
(** C09: the set a request filled answers every query completely. *)
Lemma t_C09_request_set_indexed :
  forall ord w o ob pv rt k bv ev ib ie amt p s w' res, fair ord -> reach true w -> source_at true w o ob pv -> o <> s -> vty ev = vty bv ->
    step ord w (ORequest o rt k bv ev ib ie amt p s) = Some (w', ORes res) ->
    exists sb', set_at w' s sb' /\ o_parent sb' = Some pv /\ indexed w' sb'.
Proof.
  intros ord w o ob pv rt k bv ev ib ie amt p s w' res Hf HR HSo Hos Ht H. pose proof (source_obj _ _ _ _ _ HSo) as Ho. pose proof (source_vault_at _ _ _ _ _ HR HSo) as Hpv.
  assert (HA : allowed true w (ORequest o rt k bv ev ib ie amt p s)) by done. pose proof (reach_step true ord w _ w' _ HR Hf HA H) as HR'.
  destruct (request_step _ _ _ _ _ _ _ _ _ _ _ _ _ _ _ _ _ Hf HR HA HSo Hos Ht H) as (H0 & sb' & l & H1 & H2 & _). exists sb'. split; [done|]. split; [done|].
  cbn [step] in H. unfold guard_op in H. destruct (is_obj w o && is_set w s) eqn:G; [|done]. apply andb_true_iff in G as [_ G]. apply is_set_true in G as (sb & Hsb & Hst).
  apply res_inv in H as (res' & H & _). destruct (request_files _ _ _ _ _ _ _ _ _ _ _ _ _ _ _ _ _ Hf (reach_inv _ _ HR) Ho Hpv Hos (conj Hsb Hst) H) as (sb2 & H3 & H4).
  destruct H1 as [H1 H1']. assert (sb2 = sb') as -> by congruence. eapply strict_indexed; [by apply (reach_inv true)|by split|done].
Qed.
(** C10: the set a complex request filled answers every query completely. *)
Lemma t_C10_complex_set_indexed :
  forall ord w o ob pv q s w' res, fair ord -> reach true w -> source_at true w o ob pv -> o <> s -> req_ok q ->
    step ord w (OComplex o q s) = Some (w', ORes res) ->
    exists sb', set_at w' s sb' /\ o_parent sb' = Some pv /\ indexed w' sb'.
Proof.
  intros ord w o ob pv q s w' res Hf HR HSo Hos Hq H. pose proof (source_obj _ _ _ _ _ HSo) as Ho. pose proof (source_vault_at _ _ _ _ _ HR HSo) as Hpv.
  assert (HA : allowed true w (OComplex o q s)) by (split; [done|by intros _]). pose proof (reach_step true ord w _ w' _ HR Hf HA H) as HR'.
  destruct (t_C10_complex_request_exact true ord w o ob pv q s w' res Hf HR HA HSo Hos H) as (_ & sb' & H1 & H2 & _). exists sb'. split; [done|]. split; [done|].
  cbn [step] in H. unfold guard_op in H. destruct (is_obj w o && is_set w s) eqn:G; [|done]. apply andb_true_iff in G as [_ G]. apply is_set_true in G as (sb & Hsb & Hst).
  apply res_inv in H as (res' & H & _). destruct (complex_files _ _ _ _ _ _ _ _ _ _ Hf (reach_inv _ _ HR) Ho Hpv Hos (conj Hsb Hst) H) as (sb2 & H3 & H4).
  destruct H1 as [H1 H1']. assert (sb2 = sb') as -> by congruence. eapply strict_indexed; [by apply (reach_inv true)|by split|done].
Qed.
Lemma copy_set_files b ord w dst src sb p pb db w' :
  fair ord -> Inv b w -> set_at w src sb -> o_parent sb = Some p -> w_objs w !! p = Some pb -> o_static_set pb = false -> dst <> src ->
  (forall sbx, w_objs w !! dst = Some sbx -> o_static_set sbx = true /\ o_parent sbx = None) ->
  o_static_set db = true -> o_recs db = ∅ -> o_keys db = ∅ -> o_tmpl db = ∅ -> o_idx db = ∅ -> o_sets db = ∅ ->
  copy_set ord (set_obj dst db w) dst src = Some w' -> exists sb', w_objs w' !! dst = Some sb' /\ files_all w' sb'.
Proof.
  intros Hf HI [Hsrc Hst] Hp Hpb Hpst Hne Hdst D1 D2 D3 D4 D5 D6 H.
  assert (Hdp : dst <> p). { intros ->. apply Hdst in Hpb as [? _]. congruence. }
  assert (EW : copy_set ord (set_obj dst db w) dst src = foldM (set_take dst) (bind_world dst p sb pb (o_bad sb) w) (ord (elements (o_recs sb)))).
  { unfold copy_set. cbn [set_obj w_objs]. rewrite (lookup_insert_ne _ dst src) by done. rewrite Hsrc. cbn [mbind option_bind].
    rewrite Hp. rewrite (lookup_insert_ne _ dst p) by done. rewrite Hpb. cbn [mbind option_bind].
    rewrite lookup_insert. cbn [mbind option_bind].
    match goal with |- context [copy_keys ord ?W sb dst] => set (w0 := W) end.
    destruct (copy_keys_empty ord w0 sb dst (ob_parent (Some p) (ob_isset true db))) as (order' & Hc & Ho); try done.
    { cbn. by rewrite lookup_insert. }
    rewrite Hc. cbn [mbind option_bind]. subst w0; cbn [set_obj w_objs]. rewrite lookup_insert. cbn [mbind option_bind].
    rewrite !(lookup_insert_ne _ dst p) by done. rewrite Hpb. cbn [mbind option_bind]. f_equal.
    unfold bind_world, bound_obj, set_obj. cbn. f_equal. f_equal. rewrite !insert_insert. f_equal.
    unfold ob_bad, ob_uniq, ob_order, keyed, ob_parent. cbn. rewrite D1, D2, D6. done. }
  rewrite EW in H. eapply take_fold_files; [done| |].
  - cbn. rewrite lookup_insert_ne by done. by rewrite lookup_insert.
  - by apply files_all_empty.
Qed.
Lemma safe_types w s sb k td : Inv true w -> set_at w s sb -> o_keys sb !! k = Some td -> vty td.2 = td.1.
Proof.
  intros HI [Hs Hst] Hk. destruct td as [t d]. pose proof (vi_set _ _ _ _ (inv_obj _ _ HI) _ _ Hs Hst) as SO. destruct (o_parent sb) as [p|] eqn:Ep.
  2:{ destruct (so_none _ _ _ _ _ _ SO Ep) as (_ & _ & E & _). by rewrite E in Hk. }
  destruct (Inv_set_facts _ _ _ _ _ HI Hs Hst Ep) as (pb & Hpb & Hpst & _ & _ & Hpar). pose proof (sp_strict _ _ _ _ _ Hpar eq_refl) as ST. by apply (st_type _ _ _ _ ST k).
Qed.
(** C25: a copied set belongs to the same vault, has the same keys and records, and answers every query completely; the original is untouched. *)
Lemma t_C25_copy_exact :
  forall b ord w dst src sb w' out, fair ord -> reach b w -> allowed b w (OCopySet dst src) -> set_at w src sb -> w_objs w !! dst = None ->
    step ord w (OCopySet dst src) = Some (w', out) ->
    only_set_changed dst w w' /\ set_at w' src sb /\ exists sb', set_at w' dst sb' /\ o_parent sb' = o_parent sb /\ o_recs sb' = o_recs sb /\
      get_keys sb' = get_keys sb /\ get_unique_keys sb' = get_unique_keys sb /\ (b = true -> equal_keys sb sb' /\ indexed w' sb').
Proof.
  intros b ord w dst src sb w' out Hf HR HA HS Hd H. pose proof (reach_inv _ _ HR) as HI. pose proof HS as [Hs Hst]. pose proof (reach_step b ord w _ w' _ HR Hf HA H) as HR'.
  cbn [step] in H. unfold guard_op, is_obj in H. rewrite (set_guard _ _ _ HS) in H. rewrite (bool_decide_false (is_Some (w_objs w !! dst))) in H by (rewrite Hd; by intros [? ?]). cbn [negb andb] in H.
  apply unit_inv in H as [H _]. destruct HA as [A1 A2]. destruct (o_parent sb) as [q|] eqn:Ep; [|by destruct (A2 _ Hs)].
  destruct (copy_construct_set_ok b ord w dst src sb q) as (w1 & sb' & E & HI' & Hso & C1 & C2 & C3 & C4 & C5 & C6 & C7); try done; [by intros Hb; apply dependent_none; auto|by eapply Some_Def|]. assert (w1 = w') as -> by congruence. clear E.
  assert (src <> dst) by congruence. split; [by apply set_only_changed|]. split; [by eapply set_only_other|].
  assert (HS' : set_at w' dst sb'). { split; [done|]. destruct (o_static_set sb') eqn:Es; [done|]. pose proof (v_parent _ _ (vi_vault _ _ _ _ (inv_obj _ _ HI') _ _ C1 Es)). congruence. }
  assert (G1 : get_keys sb' = get_keys sb) by (by unfold get_keys; rewrite C4). assert (G2 : get_unique_keys sb' = get_unique_keys sb) by (by unfold get_unique_keys; rewrite C5).
  exists sb'. split; [done|]. split; [done|]. split; [done|]. split; [done|]. split; [done|]. intros ->. split.
  - split; [done|]. split; [done|]. intros k. unfold get_key_type. rewrite C6, lookup_fmap. destruct (o_keys sb !! k) as [[t d]|] eqn:Ek; [|done]. cbn. pose proof (safe_types _ _ _ _ _ HI HS Ek) as X. cbn in X. by rewrite X.
  - destruct (Inv_set_facts _ _ _ _ _ HI Hs Hst Ep) as (pb & Hpb & Hpst & _).
    unfold copy_construct_set in H. destruct (copy_set_files true ord w dst src sb q pb (ob_isset false new_set) w') as (sb2 & E2 & HF); try done; [congruence|].
    assert (sb2 = sb') as -> by congruence. by eapply strict_indexed.
Qed.
(** C25: the same for assignment to an existing set; what it held before is gone. *)
Lemma t_C25_assign_exact :
  forall b ord w dst src sb db w' out, fair ord -> reach b w -> allowed b w (OAssignSet dst src) -> set_at w src sb -> set_at w dst db -> dst <> src ->
    step ord w (OAssignSet dst src) = Some (w', out) ->
    only_set_changed dst w w' /\ set_at w' src sb /\ exists sb', set_at w' dst sb' /\ o_parent sb' = o_parent sb /\ o_recs sb' = o_recs sb /\
      get_keys sb' = get_keys sb /\ get_unique_keys sb' = get_unique_keys sb /\ (b = true -> equal_keys sb sb' /\ indexed w' sb').
Proof.
  intros b ord w dst src sb db w' out Hf HR HA HS HD Hne H. pose proof (reach_inv _ _ HR) as HI. pose proof HS as [Hs Hst]. pose proof HD as [Hd Hdst]. pose proof (reach_step b ord w _ w' _ HR Hf HA H) as HR'.
  cbn [step] in H. rewrite (set_guard _ _ _ HS), (set_guard _ _ _ HD) in H. cbn [guard_op andb] in H. apply unit_inv in H as [H _].
  destruct (copy_assign_set_ok b ord w dst src sb db) as (w1 & sb' & E & HI' & Hso & C1 & C2 & C3 & C4); try done; [intros Hb q pb Hp' Hpb; eapply (leftovers_target_inv b); [done..|]; by eapply HA|by eapply Some_Def|].
  assert (w1 = w') as -> by congruence. clear E. split; [by apply set_only_changed|]. split; [eapply set_only_other; [done| |done]; congruence|].
  exists sb'. split; [done|]. split; [done|]. split; [done|].
  unfold copy_assign_set in H. rewrite decide_False in H by done. destruct (set_reset_ok b ord w dst db) as [Hc Hci]; try done. { eapply Def_bind. by eapply Some_Def. }
  rewrite Hc in H. cbn [mbind option_bind] in H.
  destruct (reset_result_obj dst db w b HI Hd Hdst) as (db1 & Hdb1 & R1 & R2 & R3 & R4 & R5 & R6 & R7 & R8 & R9 & R10 & R11).
  pose proof (set_only_reset_result b dst db w HI Hd Hdst) as Hsr.
  destruct (set_only_obj _ _ _ _ _ Hsr (not_eq_sym Hne) Hs) as (sb1 & Hsb1 & _ & Esb1). rewrite (Esb1 Hst) in Hsb1. clear sb1 Esb1.
  destruct (o_parent sb) as [p|] eqn:Ep.
  - destruct (Inv_set_facts _ _ _ _ _ Hci Hsb1 Hst Ep) as (pb & Hpb & Hpst & _). assert (Hdp : p <> dst) by congruence.
    destruct (Inv_set_facts _ _ _ _ _ HI Hs Hst Ep) as (pb0 & Hpb0 & Hpst0 & _).
    destruct (set_only_obj _ _ _ _ _ Hsr Hdp Hpb0) as (pb1 & Hpb1 & Epb1 & _). assert (pb1 = pb) as -> by congruence.
    assert (H' : copy_set ord (set_obj dst db1 (reset_result dst db w)) dst src = Some w') by (by rewrite set_obj_id).
    assert (HX : forall sbx, w_objs (reset_result dst db w) !! dst = Some sbx -> o_static_set sbx = true /\ o_parent sbx = None). { intros sbx Hsbx. assert (sbx = db1) as -> by congruence. done. }
    destruct (copy_tail b ord (reset_result dst db w) dst src sb p pb db1) as (w2 & sb2 & T1 & T2 & T3 & T4 & T5 & T6 & T7 & T8 & T9 & T10); try done.
    { destruct b; [apply target_ok_true; [done|]; intros sbx Hsbx; congruence|]. intros r l Hl Hin. rewrite Epb1. cbn. assert (HT : target_ok (reset_result dst db w) dst pb0) by (eapply (leftovers_target_inv false); [done..|by eapply HA]). by eapply HT. }
    { cbn. by rewrite lookup_insert. }
    { by eapply Some_Def. }
    assert (w2 = w') as -> by congruence. assert (sb2 = sb') as -> by congruence.
    assert (G1 : get_keys sb' = get_keys sb) by (by unfold get_keys; rewrite T7). assert (G2 : get_unique_keys sb' = get_unique_keys sb) by (by unfold get_unique_keys; rewrite T8).
    split; [done|]. split; [done|]. intros ->. split.
    + split; [done|]. split; [done|]. intros k. unfold get_key_type. rewrite T9, lookup_fmap. destruct (o_keys sb !! k) as [[t d]|] eqn:Ek; [|done]. cbn. pose proof (safe_types _ _ _ _ _ HI HS Ek) as X. cbn in X. by rewrite X.
    + destruct (copy_set_files true ord (reset_result dst db w) dst src sb p pb db1 w') as (sb2 & E2 & HF); try done.
      assert (sb2 = sb') as -> by congruence. by eapply strict_indexed.
  - pose proof (vi_set _ _ _ _ (inv_obj _ _ HI) _ _ Hs Hst) as SO. destruct (so_none _ _ _ _ _ _ SO Ep) as (N1 & N2 & N3 & N4 & N5 & N6).
    pose proof (vi_set _ _ _ _ (inv_obj _ _ HI') _ _ C1 C2) as SO'. destruct (so_none _ _ _ _ _ _ SO' C4) as (M1 & M2 & M3 & M4 & M5 & M6).
    unfold equal_keys, get_keys, get_unique_keys, get_key_type. rewrite N3, N4, N5, M3, M4, M5. split; [done|]. split; [done|]. intros _. split; [done|].
    intros k [t Hk]. unfold get_key_type in Hk. by rewrite M3 in Hk.
Qed.
(** C24: AddRecord puts exactly a valid record of the set's own vault into the set, and keeps its answers complete. *)
Lemma t_C24_add_exact :
  forall b ord w s sb f rf va w' out, fair ord -> reach b w -> set_at w s sb -> w_refs w !! f = Some rf -> ref_valid w rf = Some va ->
    step ord w (OSetAdd s f) = Some (w', out) ->
    match o_parent sb, f_rec rf with
    | None, _ => w' = w /\ out = ORes (bad ParentVaultNotValid "" None None)
    | Some _, None => w' = w /\ out = ORes (bad DataRecordNotValid "" None None)
    | Some p, Some r =>
        if va then
          if decide (f_vlt rf = Some p) then
            if decide (r ∈ o_recs sb) then w' = w /\ out = ORes (bad RecordAlredyInSet "" None None)
            else out = ORes (okres Success "" None None) /\ only_set_changed s w w' /\
              exists sb', set_at w' s sb' /\ o_parent sb' = Some p /\ same_schema sb sb' /\ o_recs sb' = {[r]} ∪ o_recs sb /\ (b = true -> indexed w sb -> indexed w' sb')
          else w' = w /\ out = ORes (bad ParentVaultNotMatch "" None None)
        else w' = w /\ out = ORes (bad DataRecordNotValid "" None None)
    end.
Proof.
  intros b ord w s sb f rf va w' out Hf HR HS Hrf Hva H. pose proof (reach_inv _ _ HR) as HI. pose proof HS as [Hs Hst]. assert (HA : allowed b w (OSetAdd s f)) by done.
  pose proof (reach_step b ord w _ w' _ HR Hf HA H) as HR'. clear HA.
  cbn [step] in H. unfold is_ref in H. rewrite (set_guard _ _ _ HS), (bool_decide_true (is_Some (w_refs w !! f))) in H by eauto. cbn [andb guard_op] in H.
  apply res_inv in H as (res & H & ->). destruct (set_add_ok b w s sb f rf) as (w1 & res1 & E & _ & Hso); try done.
  pose proof (eq_trans (eq_sym E) H) as E'. apply (inj Some) in E'. injection E' as -> ->. clear E.
  unfold set_add_record in H. rewrite Hs, Hrf in H. cbn [mbind option_bind] in H. destruct (o_parent sb) as [p|] eqn:Ep; [|by injection H as <- <-].
  destruct (w_objs w !! p); [|done]. cbn [mbind option_bind] in H. rewrite Hva in H. cbn [mbind option_bind] in H.
  destruct (f_rec rf) as [r|] eqn:Er; [|by injection H as <- <-]. destruct va; [|rewrite andb_false_r in H; by injection H as <- <-]. rewrite andb_true_r in H.
  destruct (decide (f_vlt rf = Some p)) as [Hv|Hv]; [rewrite (bool_decide_true (f_vlt rf = Some p)) in H by done|rewrite (bool_decide_false (f_vlt rf = Some p)) in H by done; by injection H as <- <-].
  destruct (decide (r ∈ o_recs sb)) as [Hin|Hin]; [by injection H as <- <-|].
  destruct (set_take s w r) as [w2|] eqn:Et; [|done]. cbn in H. injection H as <- <-. split; [done|]. split; [by apply set_only_changed|].
  destruct (w_recs w !! r) as [rc|] eqn:Erc; [|unfold set_take in Et; by rewrite Hs, Erc in Et]. rewrite (set_take_eq _ _ _ _ _ Hs Erc) in Et. injection Et as <-.
  assert (HS' : set_at (take_world s sb r rc w) s (obj_add (r_data rc) r sb)) by (split; [cbn; by rewrite lookup_insert|done]).
  exists (obj_add (r_data rc) r sb). split; [done|]. split; [done|]. split; [done|]. split; [done|]. intros -> Hidx. eapply strict_indexed; [by apply (reach_inv true)|done|].
  eapply add_files_all; [done| |by intros; apply stored_take]. intros k td ix x v Hk Hix _ Hx Hvv _. destruct (Hidx k) with (v := v) (r := x) as [I1 I2]; [unfold get_key_type; by rewrite Hk|].
  destruct I1 as [_ I1]. destruct I2 as [_ I2]. destruct I1 as (ix1 & E1 & ?); [done|]. destruct I2 as (ix2 & E2 & ?); [done|]. assert (ix1 = ix) as -> by congruence. assert (ix2 = ix) as -> by congruence. done.
Qed.
