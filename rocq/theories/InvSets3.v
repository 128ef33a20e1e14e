(** Requests, AddRecord and set copies: definedness and preservation of the invariant. *)
From Verif Require Export ReqProofs.
Open Scope nat_scope.

(** Nothing but set [s] (and its registrations) changes. *)
Record set_only (s : nat) (w w' : world) : Prop := SetOnly {
  son_refs : w_refs w' = w_refs w;
  son_next : w_next w' = w_next w;
  son_objs : forall x, x <> s -> match w_objs w !! x, w_objs w' !! x with
    | None, None => True
    | Some a, Some a' => a' = ob_sets (o_sets a') a /\ (o_static_set a = true -> a' = a) /\
                         forall y, y <> s -> y ∈ o_sets a' <-> y ∈ o_sets a
    | _, _ => False end;
  son_recs : forall r, match w_recs w !! r, w_recs w' !! r with
    | None, None => True
    | Some a, Some a' => a' = rd_deps (r_deps a') a /\ forall y, y <> s -> y ∈ r_deps a' <-> y ∈ r_deps a
    | _, _ => False end
}.
Lemma ob_sets_id a : a = ob_sets (o_sets a) a.
Proof. by destruct a. Qed.
Lemma rd_deps_id a : a = rd_deps (r_deps a) a.
Proof. by destruct a. Qed.
Lemma set_only_refl s w : set_only s w w.
Proof.
  split; try done.
  - intros x _. destruct (w_objs w !! x); [|done]. split; [apply ob_sets_id|done].
  - intros r. destruct (w_recs w !! r); [|done]. split; [apply rd_deps_id|done].
Qed.
Lemma set_only_trans s w1 w2 w3 : set_only s w1 w2 -> set_only s w2 w3 -> set_only s w1 w3.
Proof.
  intros [A1 A2 A3 A4] [B1 B2 B3 B4]. split; try congruence.
  - intros x Hx. specialize (A3 x Hx). specialize (B3 x Hx).
    destruct (w_objs w1 !! x) as [a|], (w_objs w2 !! x) as [b|], (w_objs w3 !! x) as [c|]; try done.
    destruct A3 as (E1 & E2 & E3), B3 as (F1 & F2 & F3). split; [|split].
    + rewrite F1, E1. done.
    + intros Ha. rewrite F2; [auto|]. by rewrite E2.
    + intros y Hy. rewrite F3 by done. by apply E3.
  - intros r. specialize (A4 r). specialize (B4 r).
    destruct (w_recs w1 !! r) as [a|], (w_recs w2 !! r) as [b|], (w_recs w3 !! r) as [c|]; try done.
    destruct A4 as (E1 & E3), B4 as (F1 & F3). split.
    + rewrite F1, E1. done.
    + intros y Hy. rewrite F3 by done. by apply E3.
Qed.
Lemma set_only_set s sb w : set_only s w (set_obj s sb w).
Proof.
  split; try done.
  - intros x Hx. cbn. rewrite lookup_insert_ne by done. destruct (w_objs w !! x); [|done]. split; [apply ob_sets_id|done].
  - intros r. cbn. destruct (w_recs w !! r); [|done]. split; [apply rd_deps_id|done].
Qed.
Lemma set_only_clear s sb w : set_only s w (clear_world s sb w).
Proof.
  split; try done.
  - intros x Hx. cbn. rewrite lookup_insert_ne by done. destruct (w_objs w !! x); [|done]. split; [apply ob_sets_id|done].
  - intros r. cbn. rewrite lookup_upd_on. destruct (w_recs w !! r) as [rc|]; [|done]. cbn.
    destruct (decide _); [|split; [apply rd_deps_id|done]]. split; [done|]. cbn. intros y Hy. set_solver.
Qed.
Lemma set_only_reset s sb p pb w : w_objs w !! p = Some pb -> o_static_set pb = false -> set_only s w (reset_world s sb p pb w).
Proof.
  intros Hpb Hst. split; try done.
  - intros x Hx. cbn. rewrite lookup_insert_ne by done. destruct (decide (x = p)) as [->|].
    + rewrite lookup_insert, Hpb. split; [done|]. split; [congruence|]. cbn. set_solver.
    + rewrite lookup_insert_ne by done. destruct (w_objs w !! x); [|done]. split; [apply ob_sets_id|done].
  - intros r. cbn. rewrite lookup_upd_on. destruct (w_recs w !! r) as [rc|]; [|done]. cbn.
    destruct (decide _); [|split; [apply rd_deps_id|done]]. split; [done|]. cbn. intros y Hy. set_solver.
Qed.
Lemma set_only_reset_result b s sb w :
  Inv b w -> w_objs w !! s = Some sb -> o_static_set sb = true -> set_only s w (reset_result s sb w).
Proof.
  intros HI Hs Hst. unfold reset_result. destruct (o_parent sb) as [p|] eqn:Ep; [|apply set_only_refl].
  destruct (Inv_set_facts _ _ _ _ _ HI Hs Hst Ep) as (pb & Hpb & Hpst & _). rewrite Hpb. by apply set_only_reset.
Qed.
Lemma set_only_bind s p src pb bd w :
  w_objs w !! p = Some pb -> o_static_set pb = false -> s <> p -> set_only s w (bind_world s p src pb bd w).
Proof.
  intros Hpb Hst Hne. split; try done.
  - intros x Hx. cbn. destruct (decide (x = p)) as [->|].
    + rewrite lookup_insert, Hpb. split; [done|]. split; [congruence|]. cbn. set_solver.
    + rewrite !lookup_insert_ne by done. destruct (w_objs w !! x); [|done]. split; [apply ob_sets_id|done].
  - intros r. cbn. destruct (w_recs w !! r); [|done]. split; [apply rd_deps_id|done].
Qed.
Lemma set_only_take s sb r rc w : w_recs w !! r = Some rc -> set_only s w (take_world s sb r rc w).
Proof.
  intros Hr. split; try done.
  - intros x Hx. cbn. rewrite lookup_insert_ne by done. destruct (w_objs w !! x); [|done]. split; [apply ob_sets_id|done].
  - intros x. cbn. destruct (decide (x = r)) as [->|].
    + rewrite lookup_insert, Hr. split; [done|]. cbn. set_solver.
    + rewrite lookup_insert_ne by done. destruct (w_recs w !! x); [|done]. split; [apply rd_deps_id|done].
Qed.

Lemma set_only_live s w w' r : set_only s w w' -> fst <$> live w' !! r = fst <$> live w !! r.
Proof.
  intros H. pose proof (son_recs _ _ _ H r) as Hr. unfold live. rewrite !lookup_live_of.
  destruct (w_recs w !! r) as [a|], (w_recs w' !! r) as [a'|]; try done. destruct Hr as [E _]. cbn. rewrite E. unfold live_rec. cbn.
  by destruct (r_valid a).
Qed.
Lemma set_only_live_some s w w' r : set_only s w w' -> is_Some (live w' !! r) <-> is_Some (live w !! r).
Proof.
  intros H. pose proof (set_only_live _ _ _ r H) as E. destruct (live w !! r), (live w' !! r); try done; split; eauto.
Qed.
Lemma set_only_recs_some s w w' r : set_only s w w' -> is_Some (w_recs w' !! r) <-> is_Some (w_recs w !! r).
Proof.
  intros H. pose proof (son_recs _ _ _ H r) as E. destruct (w_recs w !! r), (w_recs w' !! r); try done; split; eauto.
Qed.
Lemma set_only_obj s w w' x a : set_only s w w' -> x <> s -> w_objs w !! x = Some a ->
  exists a', w_objs w' !! x = Some a' /\ a' = ob_sets (o_sets a') a /\ (o_static_set a = true -> a' = a).
Proof.
  intros H Hx Ha. pose proof (son_objs _ _ _ H x Hx) as E. rewrite Ha in E. destruct (w_objs w' !! x) as [a'|]; [|done].
  exists a'. destruct E as (E1 & E2 & _). done.
Qed.

(** ** bind_target *)
Lemma bind_tail ord w1 s p sb1 src pb :
  fair ord -> w_objs w1 !! s = Some sb1 -> s <> p -> w_objs w1 !! p = Some pb ->
  o_recs sb1 = ∅ -> o_keys sb1 = ∅ -> o_tmpl sb1 = ∅ -> o_idx sb1 = ∅ -> o_sets sb1 = ∅ -> o_static_set sb1 = true -> o_isset sb1 = true ->
  (w3 ← copy_keys ord (set_obj s (ob_parent (Some p) sb1) w1) src s;
   sb3 ← w_objs w3 !! s;
   pb ← w_objs (set_obj s (ob_uniq (o_uniq src) (ob_order (o_order src) sb3)) w3) !! p;
   Some (set_obj p (ob_sets ({[s]} ∪ o_sets pb) pb) (set_obj s (ob_uniq (o_uniq src) (ob_order (o_order src) sb3)) w3)))
  = Some (bind_world s p src pb (o_bad sb1) w1).
Proof.
  intros Hf Hs Hne Hp E1 E2 E3 E4 E5 E6 E7.
  destruct (copy_keys_empty ord (set_obj s (ob_parent (Some p) sb1) w1) src s (ob_parent (Some p) sb1)) as (order' & Hc & Ho); try done.
  { cbn. by rewrite lookup_insert. }
  rewrite Hc. cbn [mbind option_bind]. cbn [set_obj w_objs]. rewrite lookup_insert. cbn [mbind option_bind].
  rewrite lookup_insert_ne by done. rewrite insert_insert. rewrite lookup_insert_ne by done. rewrite Hp. cbn [mbind option_bind].
  f_equal. unfold set_obj, bind_world. cbn. f_equal. f_equal.
  rewrite !insert_insert. f_equal. unfold bound_obj, ob_uniq, ob_order, keyed, ob_parent. cbn. rewrite E1, E5, E6, E7. done.
Qed.

Lemma bind_target_ok b ord w o p s sb srcb :
  fair ord -> Inv b w -> w_objs w !! s = Some sb -> o_static_set sb = true ->
  w_objs w !! o = Some srcb -> source_vault o srcb = Some p -> o <> s ->
  (b = false -> o_parent sb <> Some p -> forall pb, w_objs w !! p = Some pb -> target_ok (reset_result s sb w) s pb) ->
  Def b (bind_target ord w o p s) ->
  exists w1 sb1 pb1, bind_target ord w o p s = Some w1 /\ Inv b w1 /\ set_only s w w1 /\
    w_objs w1 !! s = Some sb1 /\ o_static_set sb1 = true /\ o_parent sb1 = Some p /\ o_recs sb1 = ∅ /\
    w_objs w1 !! p = Some pb1 /\ o_static_set pb1 = false.
Proof.
  intros Hf HI Hs Hst Ho Hsv Hos Ht HD.
  destruct (source_parent _ _ _ _ _ HI Ho Hsv) as (pb & Hpb & Hpst).
  assert (Hne : s <> p) by congruence.
  unfold bind_target in *. rewrite Hs in *. cbn [mbind option_bind] in *.
  destruct (decide (o_parent sb = Some p)) as [Ep|Ep].
  - destruct (set_clear_ok b ord w s sb) as [Hc Hci]; try done. { by eapply Def_bind. }
    rewrite Ep in Hc, Hci. rewrite Hc in *. cbn [mbind option_bind] in *.
    assert (Hp1 : w_objs (clear_world s sb w) !! p = Some pb) by (cbn; by rewrite lookup_insert_ne).
    rewrite Hp1. cbn [mbind option_bind].
    assert (E : set_obj p (ob_sets ({[s]} ∪ o_sets pb) pb) (clear_world s sb w) = clear_world s sb w).
    { destruct (Inv_set_facts _ _ _ _ _ HI Hs Hst Ep) as (pb' & Hpb' & _ & Hin & _). assert (pb' = pb) as -> by congruence.
      assert (ob_sets ({[s]} ∪ o_sets pb) pb = pb) as ->.
      { assert ({[s]} ∪ o_sets pb = o_sets pb) as -> by set_solver. by destruct pb. }
      unfold set_obj. rewrite insert_id by done. by rewrite world_eta. }
    rewrite E. exists (clear_world s sb w), (cleared sb), pb. split; [done|]. split; [done|].
    split; [apply set_only_clear|]. split; [cbn; by rewrite lookup_insert|]. done.
  - destruct (set_reset_ok b ord w s sb) as [Hc Hci]; try done. { eapply Def_bind. by eapply Def_bind. }
    destruct (reset_result_obj s sb w b HI Hs Hst) as (sb1 & Hsb1 & R1 & R2 & R3 & R4 & R5 & R6 & R7 & R8 & R9 & R10 & R11).
    pose proof (set_only_reset_result b s sb w HI Hs Hst) as Hso.
    destruct (set_only_obj _ _ _ _ _ Hso (not_eq_sym Hne) Hpb) as (pb1 & Hpb1 & Epb & _).
    destruct (set_only_obj _ _ _ _ _ Hso Hos Ho) as (src1 & Hsrc1 & Esrc & Esrc').
    set (w1 := reset_result s sb w) in *. rewrite Hc in *. cbn [mbind option_bind] in *.
    rewrite Hsb1 in *. cbn [mbind option_bind] in *. cbn [set_obj w_objs] in *. rewrite lookup_insert_ne in * by done.
    rewrite Hsrc1 in *. cbn [mbind option_bind] in *.
    pose proof (bind_tail ord w1 s p sb1 src1 pb1 Hf Hsb1 Hne Hpb1 R10 R7 R5 R6 R4 R1 R2) as HB.
    unfold set_obj in HB at 1. 
    exists (bind_world s p src1 pb1 (o_bad sb1) w1), (bound_obj p src1 (o_bad sb1)), (ob_sets ({[s]} ∪ o_sets pb1) pb1).
    split.
    { revert HB. destruct (copy_keys _ _ _ _) as [w3|]; [|done]. cbn [mbind option_bind]. destruct (w_objs w3 !! s) as [sb3|]; [|done].
      cbn [mbind option_bind]. done. }
    assert (Hpst1 : o_static_set pb1 = false) by (rewrite Epb; done).
    split.
    { apply bind_world_inv; try done.
      - intros sbx Hsbx. assert (sbx = sb1) as -> by congruence. done.
      - destruct b; [apply target_ok_true; [done|]; intros sbx Hsbx; congruence|].
        intros r l Hl Hin. rewrite Epb. cbn. by eapply (Ht eq_refl Ep pb Hpb).
      - intros Hbt. subst b. unfold source_vault in Hsv. destruct (o_static_set srcb) eqn:Est.
        + destruct (Inv_set_facts _ _ _ _ _ HI Ho Est Hsv) as (pb' & Hpb' & _ & _ & _ & Hpar). assert (pb' = pb) as -> by congruence.
          destruct (sp_strict _ _ _ _ _ Hpar eq_refl) as [T1 T2 T3 T4 T5 T6 T7 T8]. rewrite (Esrc' eq_refl), Epb. done.
        + injection Hsv as ->. assert (srcb = pb) as -> by congruence. assert (src1 = pb1) as -> by congruence.
          split; [|done]. rewrite Epb. apply (v_keys _ _ (vi_vault _ _ _ _ (inv_obj _ _ HI) _ _ Hpb Hpst)). }
    split. { eapply set_only_trans; [exact Hso|]. by apply set_only_bind. }
    split. { cbn. rewrite lookup_insert_ne by done. by rewrite lookup_insert. }
    split; [done|]. split; [done|]. split; [done|]. split; [cbn; by rewrite lookup_insert|done].
Qed.

(** ** Filling *)
Lemma take_fold b s p w sb pb l :
  Inv b w -> w_objs w !! s = Some sb -> o_static_set sb = true -> o_parent sb = Some p -> w_objs w !! p = Some pb ->
  NoDup l ->
  (forall r, r ∈ l -> (is_Some (live w !! r) -> r ∈ o_recs pb) /\ (b = true -> r ∈ o_recs pb /\ r ∉ o_recs sb)) ->
  Def b (foldM (set_take s) w l) ->
  exists w' sb', foldM (set_take s) w l = Some w' /\ Inv b w' /\ set_only s w w' /\ w_objs w' !! s = Some sb' /\
    o_recs sb' = list_to_set l ∪ o_recs sb /\ o_keys sb' = o_keys sb /\ o_parent sb' = o_parent sb /\ o_order sb' = o_order sb /\
    o_uniq sb' = o_uniq sb /\ o_tmpl sb' = o_tmpl sb /\ o_static_set sb' = true /\ o_isset sb' = o_isset sb.
Proof.
  intros HI Hs Hst Hp Hpb Hn. revert w sb HI Hs Hst Hp Hpb. induction Hn as [|r l Hr Hn IH]; intros w sb HI Hs Hst Hp Hpb Hl HD.
  - exists w, sb. split; [done|]. split; [done|]. split; [apply set_only_refl|]. split; [done|]. split; [set_solver|]. done.
  - destruct (Hl r) as [Hl1 Hl2]; [by left|].
    assert (is_Some (w_recs w !! r)) as [rc Hrc].
    { destruct b.
      - apply live_is_some. eapply Inv_vault_live; [done|exact Hpb| |by apply Hl2].
        destruct (Inv_set_facts _ _ _ _ _ HI Hs Hst Hp) as (pb' & Hpb' & Hpst & _). congruence.
      - destruct (HD eq_refl) as [w' Hw']. cbn [foldM] in Hw'.
        destruct (set_take s w r) as [w0|] eqn:E0; [|done]. unfold set_take in E0. rewrite Hs in E0. cbn in E0.
        destruct (w_recs w !! r); [eauto|done]. }
    cbn [foldM] in HD |- *. rewrite (set_take_eq _ _ sb _ rc) in HD |- * by done. cbn [mbind option_bind] in HD |- *.
    assert (HI' : Inv b (take_world s sb r rc w)) by by eapply set_take_inv.
    assert (Hps : p <> s). { destruct (Inv_set_facts _ _ _ _ _ HI Hs Hst Hp) as (? & _ & _ & _ & ? & _). done. }
    destruct (IH (take_world s sb r rc w) (obj_add (r_data rc) r sb)) as (w' & sb' & H1 & H2 & H3 & H4 & H5 & H6); try done.
    + cbn. by rewrite lookup_insert.
    + cbn. by rewrite lookup_insert_ne.
    + intros x Hx. destruct (Hl x) as [Hx1 Hx2]; [by right|]. split.
      * intros Hlx. apply Hx1. rewrite live_take in Hlx by done. destruct (live w !! x); [eauto|by destruct Hlx].
      * intros Hbt. destruct (Hx2 Hbt) as [Hx3 Hx4]. split; [done|]. cbn. intros Hin. apply elem_of_union in Hin as [Hin|Hin]; [|done].
        apply elem_of_singleton in Hin. by subst.
    + exists w', sb'. split; [done|]. split; [done|]. split.
      { eapply set_only_trans; [|exact H3]. by apply set_only_take. }
      split; [done|]. split; [|done]. rewrite H5. cbn. clear. set_solver.
Qed.

Lemma queryable_vault L w ob : vault_ok L ob -> (forall r, r ∈ o_recs ob -> is_Some (w_recs w !! r)) -> queryable w ob.
Proof.
  intros HO Hr k td Hk. destruct (v_idx _ _ HO k td Hk) as (ix & Hix & (G & _) & _). exists ix. split; [done|]. split; [apply G|].
  intros [v x] [Hx|Hx]; apply Hr; [by destruct (g_hash _ _ _ G _ _ Hx)|by destruct (g_tree _ _ _ G _ _ Hx)].
Qed.
Lemma queryable_strict L w s ob pb : strict L s ob pb -> (forall r, r ∈ o_recs ob -> is_Some (w_recs w !! r)) -> queryable w ob.
Proof.
  intros HO Hr k td Hk. destruct (st_idx _ _ _ _ HO k td Hk) as (ix & Hix & (G & _)). exists ix. split; [done|]. split; [apply G|].
  intros [v x] [Hx|Hx]; apply Hr; [by destruct (g_hash _ _ _ G _ _ Hx)|by destruct (g_tree _ _ _ G _ _ Hx)].
Qed.

(** Records found through an object of vault [p]. *)
Lemma source_idx b w o ob p pb k td ix x :
  Inv b w -> w_objs w !! o = Some ob -> source_vault o ob = Some p -> w_objs w !! p = Some pb ->
  o_keys ob !! k = Some td -> o_idx ob !! k = Some ix -> x ∈ ix_hash ix \/ x ∈ ix_tree ix ->
  (is_Some (live w !! x.2) -> x.2 ∈ o_recs pb) /\ (b = true -> x.2 ∈ o_recs pb) /\
  (o_static_set ob = false \/ b = true -> x.2 ∈ o_recs ob).
Proof.
  intros HI Ho Hsv Hpb Hk Hix Hx. unfold source_vault in Hsv. destruct (o_static_set ob) eqn:Est.
  - destruct (Inv_set_facts _ _ _ _ _ HI Ho Est Hsv) as (pb' & Hpb' & _ & _ & _ & Hpar). assert (pb' = pb) as -> by congruence.
    assert (Hin : b = true -> x.2 ∈ o_recs ob).
    { intros Hb. pose proof (sp_strict _ _ _ _ _ Hpar Hb) as HS. destruct (st_idx _ _ _ _ HS k td Hk) as (ix' & Hix' & (G & _)).
      assert (ix' = ix) as -> by congruence. destruct x as [v r].
      destruct Hx as [Hx|Hx]; [by destruct (g_hash _ _ _ G _ _ Hx)|by destruct (g_tree _ _ _ G _ _ Hx)]. }
    split; [|split].
    + intros Hl. by eapply (sp_idx _ _ _ _ _ Hpar).
    + intros Hb. apply (st_recs _ _ _ _ (sp_strict _ _ _ _ _ Hpar Hb)). auto.
    + intros [?|?]; [done|auto].
  - injection Hsv as ->. assert (ob = pb) as -> by congruence.
    destruct (v_idx _ _ (vi_vault _ _ _ _ (inv_obj _ _ HI) _ _ Hpb Est) k td Hk) as (ix' & Hix' & (G & _) & _).
    assert (ix' = ix) as -> by congruence. destruct x as [v r].
    assert (r ∈ o_recs pb); [|done]. destruct Hx as [Hx|Hx]; [by destruct (g_hash _ _ _ G _ _ Hx)|by destruct (g_tree _ _ _ G _ _ Hx)].
Qed.
Lemma source_queryable w o ob p :
  Inv true w -> w_objs w !! o = Some ob -> source_vault o ob = Some p -> queryable w ob.
Proof.
  intros HI Ho Hsv. unfold source_vault in Hsv. destruct (o_static_set ob) eqn:Est.
  - destruct (Inv_set_facts _ _ _ _ _ HI Ho Est Hsv) as (pb & Hpb & _ & _ & _ & Hpar).
    eapply queryable_strict; [apply (sp_strict _ _ _ _ _ Hpar eq_refl)|]. intros r Hr. exact (strict_recs_live _ _ _ _ _ _ HI Ho Est Hsv Hpb Hr).
  - eapply queryable_vault; [by eapply (vi_vault _ _ _ _ (inv_obj _ _ HI))|]. intros r Hr. apply live_is_some. by eapply Inv_vault_live.
Qed.

(** The condition on targets of requests and assignments in the wide class. *)
Definition rebind_ok (w : world) (s p : nat) : Prop :=
  forall sb pb, w_objs w !! s = Some sb -> w_objs w !! p = Some pb -> o_parent sb <> Some p -> target_ok (reset_result s sb w) s pb.

(** The answer depends on keys, indexes and contents only. *)
Lemma keep_frame s w w1 p r : set_only s w w1 -> keep w1 p r = keep w p r.
Proof.
  intros H. unfold keep. destruct p as [f|]; [|done]. pose proof (son_recs _ _ _ H r) as Hr.
  destruct (w_recs w !! r) as [a|], (w_recs w1 !! r) as [a'|]; try done. destruct Hr as [E _]. rewrite E. done.
Qed.
Lemma filterM_ext f g l : (forall x : nat, f x = g x) -> filterM f l = filterM g l.
Proof. intros H. induction l as [|x l IH]; [done|]. cbn. by rewrite H, IH. Qed.
Lemma request_set_frame s w w1 X ob ord rt k b e ib ie amt p :
  set_only s w w1 -> request_set ord w1 (ob_sets X ob) rt k b e ib ie amt p = request_set ord w ob rt k b e ib ie amt p.
Proof.
  intros H. unfold request_set. cbn [o_keys o_idx ob_sets]. destruct (o_keys ob !! k) as [[t d]|]; [|done]. destruct (decide _); [|done].
  destruct (o_idx ob !! k); [|done]. cbn [mbind option_bind]. destruct (candidates _ _ _ _ _ _ _); [|done]. cbn [mbind option_bind].
  by rewrite (filterM_ext _ (keep w p)) by (intros; by eapply keep_frame).
Qed.
Lemma eval_req_frame s w w1 X ob ord q : set_only s w w1 -> eval_req ord w1 (ob_sets X ob) q = eval_req ord w ob q.
Proof.
  intros H. induction q as [l k v p|a IHa b IHb|a IHa b IHb]; cbn [eval_req].
  - by rewrite (request_set_frame s w).
  - destruct (shortcut a b) as [[[[[? ?] ?] ?] ?]|]; [by rewrite (request_set_frame s w)|]. by rewrite IHa, IHb.
  - by rewrite IHa, IHb.
Qed.

Lemma request_ok b ord w o ob rt k bv ev ib ie amt p s sb :
  fair ord -> Inv b w -> w_objs w !! o = Some ob -> w_objs w !! s = Some sb -> o_static_set sb = true ->
  (b = false -> forall pv, source_vault o ob = Some pv -> rebind_ok w s pv) -> vty ev = vty bv ->
  Def b (request ord w o rt k bv ev ib ie amt p s) ->
  exists w' res, request ord w o rt k bv ev ib ie amt p s = Some (w', res) /\ Inv b w' /\ set_only s w w' /\
    (source_vault o ob = None -> w' = w /\ res = bad ParentVaultNotValid k (Some (vty bv)) None) /\
    (is_Some (source_vault o ob) -> o = s -> w' = w /\ res = bad SameVaultRecordSet k None None) /\
    (forall pv, source_vault o ob = Some pv -> o <> s -> exists sb' l,
       request_set ord w ob rt k bv ev ib ie amt p = Some (res, l) /\
       w_objs w' !! s = Some sb' /\ o_static_set sb' = true /\ o_parent sb' = Some pv /\ o_recs sb' = list_to_set l).
Proof.
  intros Hf HI Ho Hs Hst Hre Hty HD. unfold request in *. rewrite Ho in *. cbn [mbind option_bind] in *.
  destruct (source_vault o ob) as [pv|] eqn:Esv;
    [|eexists _, _; split; [done|]; split; [done|]; split; [apply set_only_refl|]; split; [done|]; split; [by intros [? ?]|done]].
  destruct (o_static_set ob && bool_decide (s = o)) eqn:Eso.
  { apply andb_true_iff in Eso as [_ Eso]. apply bool_decide_eq_true in Eso as ->. eexists _, _. split; [done|]. split; [done|]. split; [apply set_only_refl|].
    split; [done|]. split; [done|]. by intros ? ? []. }
  assert (Hos : o <> s).
  { intros ->. assert (sb = ob) as -> by congruence. rewrite Hst in Eso. cbn in Eso. by rewrite bool_decide_true in Eso. }
  destruct (source_parent _ _ _ _ _ HI Ho Esv) as (pb & Hpb & Hpst). rewrite Hpb in *. cbn [mbind option_bind] in *.
  destruct (bind_target_ok b ord w o pv s sb ob) as (w1 & sb1 & pb1 & Hb & HI1 & Hso & Hs1 & Hst1 & Hp1 & Hr1 & Hpb1 & Hpst1); try done.
  { intros -> Hne pb0 Hpb0. by eapply (Hre eq_refl pv eq_refl). }
  { by eapply Def_bind. }
  rewrite Hb in *. cbn [mbind option_bind] in *.
  destruct (set_only_obj _ _ _ _ _ Hso Hos Ho) as (ob1 & Hob1 & Eob1 & _). rewrite Hob1 in *. cbn [mbind option_bind] in *.
  assert (Hsv1 : source_vault o ob1 = Some pv) by (rewrite Eob1; done).
  assert (exists res l, request_set ord w1 ob1 rt k bv ev ib ie amt p = Some (res, l)) as (res & l & Hq).
  { destruct b.
    - destruct (request_set_def ord w1 ob1 rt k bv ev ib ie amt p Hf) as [[res l] H]; [|done|eauto]. by eapply source_queryable.
    - destruct (Def_bind _ _ _ HD eq_refl) as [[res l] H]. eauto. }
  rewrite Hq in *. cbn [mbind option_bind] in *.
  destruct (take_fold b s pv w1 sb1 pb1 (ord (elements (list_to_set l : gset nat)))) as (w2 & sb2 & Hw2 & HI2 & Hso2 & Hs2 & Hrs2 & _ & Hpp2 & _ & _ & _ & Hst2 & _); try done.
  { by apply fair_NoDup. }
  { intros r Hr. apply fair_elem in Hr; [|done]. apply elem_of_list_to_set in Hr.
    destruct (request_set_elem _ _ _ _ _ _ _ _ _ _ _ _ _ _ Hf Hq Hr) as (td & ix & x & K1 & K2 & <- & K4).
    destruct (source_idx _ _ _ _ _ _ _ _ _ _ HI1 Hob1 Hsv1 Hpb1 K1 K2 K4) as (A1 & A2 & A3). split; [done|].
    intros Hbt. split; [auto|]. rewrite Hr1. set_solver. }
  { by eapply Def_bind. }
  rewrite Hw2. cbn. exists w2, res. split; [done|]. split; [done|]. split; [by eapply set_only_trans|].
  split; [done|]. split; [by intros _ ->|]. intros pv' [= <-] _. exists sb2, l. rewrite Eob1, (request_set_frame s w) in Hq by done. split; [done|].
  split; [done|]. split; [done|]. split; [congruence|]. rewrite Hrs2, Hr1, union_empty_r_L. apply set_eq. intros x. rewrite !elem_of_list_to_set, (fair_elem _ _ _ Hf).
  by rewrite elem_of_list_to_set.
Qed.

Lemma complex_ok b ord w o ob q s sb :
  fair ord -> Inv b w -> w_objs w !! o = Some ob -> w_objs w !! s = Some sb -> o_static_set sb = true ->
  (b = false -> forall pv, source_vault o ob = Some pv -> rebind_ok w s pv) -> (b = true -> req_ok q) ->
  Def b (complex_request ord w o q s) ->
  exists w' res, complex_request ord w o q s = Some (w', res) /\ Inv b w' /\ set_only s w w' /\
    (source_vault o ob = None -> w' = w /\ res = bad ParentVaultNotValid "" None None) /\
    (is_Some (source_vault o ob) -> o = s -> w' = w /\ res = bad SameVaultRecordSet "" None None) /\
    (forall pv, source_vault o ob = Some pv -> o <> s -> exists sb' rs,
       eval_req ord w ob q = Some rs /\
       w_objs w' !! s = Some sb' /\ o_static_set sb' = true /\ o_parent sb' = Some pv /\
       match rs with
       | inl e => res = e /\ o_recs sb' = ∅
       | inr l => res = okres Success "" None None /\ o_recs sb' = list_to_set l
       end).
Proof.
  intros Hf HI Ho Hs Hst Hre Hty HD. unfold complex_request in *. rewrite Ho in *. cbn [mbind option_bind] in *.
  destruct (source_vault o ob) as [pv|] eqn:Esv;
    [|eexists _, _; split; [done|]; split; [done|]; split; [apply set_only_refl|]; split; [done|]; split; [by intros [? ?]|done]].
  destruct (o_static_set ob && bool_decide (s = o)) eqn:Eso.
  { apply andb_true_iff in Eso as [_ Eso]. apply bool_decide_eq_true in Eso as ->. eexists _, _. split; [done|]. split; [done|]. split; [apply set_only_refl|].
    split; [done|]. split; [done|]. by intros ? ? []. }
  assert (Hos : o <> s).
  { intros ->. assert (sb = ob) as -> by congruence. rewrite Hst in Eso. cbn in Eso. by rewrite bool_decide_true in Eso. }
  destruct (source_parent _ _ _ _ _ HI Ho Esv) as (pb & Hpb & Hpst). rewrite Hpb in *. cbn [mbind option_bind] in *.
  destruct (bind_target_ok b ord w o pv s sb ob) as (w1 & sb1 & pb1 & Hb & HI1 & Hso & Hs1 & Hst1 & Hp1 & Hr1 & Hpb1 & Hpst1); try done.
  { intros -> Hne pb0 Hpb0. by eapply (Hre eq_refl pv eq_refl). }
  { by eapply Def_bind. }
  rewrite Hb in *. cbn [mbind option_bind] in *.
  destruct (set_only_obj _ _ _ _ _ Hso Hos Ho) as (ob1 & Hob1 & Eob1 & _). rewrite Hob1 in *. cbn [mbind option_bind] in *.
  assert (Hsv1 : source_vault o ob1 = Some pv) by (rewrite Eob1; done).
  assert (exists rs, eval_req ord w1 ob1 q = Some rs) as (rs & Hq).
  { destruct b.
    - destruct (eval_req_def ord w1 ob1 q Hf) as [rs H]; [|auto|eauto]. by eapply source_queryable.
    - destruct (Def_bind _ _ _ HD eq_refl) as [rs H]. eauto. }
  rewrite Hq in *. cbn [mbind option_bind] in *. destruct rs as [e|l].
  { destruct (set_clear_ok b ord w1 s sb1) as [Hc Hci]; try done. { by eapply Def_bind. }
    rewrite Hp1 in Hc, Hci. rewrite Hc. cbn. eexists _, _. split; [done|]. split; [done|]. split; [eapply set_only_trans; [done|]; apply set_only_clear|].
    split; [done|]. split; [by intros _ ->|]. intros pv' [= <-] _. eexists _, (inl e). rewrite Eob1, (eval_req_frame s w) in Hq by done. split; [done|].
    split; [cbn; by rewrite lookup_insert|]. done. }
  destruct (take_fold b s pv w1 sb1 pb1 (ord (elements (list_to_set l : gset nat)))) as (w2 & sb2 & Hw2 & HI2 & Hso2 & Hs2 & Hrs2 & _ & Hpp2 & _ & _ & _ & Hst2 & _); try done.
  { by apply fair_NoDup. }
  { intros r Hr. apply fair_elem in Hr; [|done]. apply elem_of_list_to_set in Hr.
    destruct (eval_req_elem _ _ _ _ _ _ Hf Hq Hr) as (k & td & ix & x & K1 & K2 & <- & K4).
    destruct (source_idx _ _ _ _ _ _ _ _ _ _ HI1 Hob1 Hsv1 Hpb1 K1 K2 K4) as (A1 & A2 & A3). split; [done|].
    intros Hbt. split; [auto|]. rewrite Hr1. set_solver. }
  { by eapply Def_bind. }
  rewrite Hw2. cbn. eexists w2, _. split; [done|]. split; [done|]. split; [by eapply set_only_trans|].
  split; [done|]. split; [by intros _ ->|]. intros pv' [= <-] _. exists sb2, (inr l). rewrite Eob1, (eval_req_frame s w) in Hq by done. split; [done|].
  split; [done|]. split; [done|]. split; [congruence|]. split; [done|].
  rewrite Hrs2, Hr1, union_empty_r_L. apply set_eq. intros x. rewrite !elem_of_list_to_set, (fair_elem _ _ _ Hf).
  by rewrite elem_of_list_to_set.
Qed.
