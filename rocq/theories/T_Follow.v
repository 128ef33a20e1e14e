(** Proofs of the properties about which sets follow a vault: exactly those the records are registered with (C21, C22). *)
From Verif Require Export T_SetData T_Erase T_Sets T_RefOps.
Open Scope nat_scope.

Lemma dependent_live w r s : dependent w r s <-> exists l, live w !! r = Some l /\ s ∈ l.2.
Proof.
  unfold dependent. split.
  - intros (rc & Hrc & Hv & Hs). exists (r_data rc, r_deps rc). split; [|done]. apply live_Some. eauto.
  - intros (l & Hl & Hs). apply live_Some in Hl as (rc & Hrc & Hv & ->). eauto.
Qed.

(** C22: erasing records from a vault takes a record out of a set exactly when the record is registered with the set. A record the set
    only got by Join, from the second operand of Union, or by Intersection stays in it, although it is no longer valid. *)
Lemma t_C22_set_loses_iff_registered :
  forall b ord w p o ob w' out s sb, fair ord -> reach b w -> vault_at w o ob -> erases_from o p -> step ord w p = Some (w', out) ->
    set_at w s sb ->
    exists sb', set_at w' s sb' /\ sb' = ob_recs (o_recs sb') (ob_idx (o_idx sb') sb) /\
      (forall r, r ∈ o_recs sb' <-> r ∈ o_recs sb /\ ~ (dependent w r s /\ ~ valid_rec w' r)) /\
      (o_parent sb <> Some o -> sb' = sb).
Proof.
  intros b ord w p o ob w' out s sb Hf HR HV Hp H [Hs Hst].
  destruct (erase_step _ _ _ _ _ _ _ _ Hf HR HV Hp H) as [->|(X & Hx0 & Hnd & Hin & He)].
  - exists sb. split; [done|]. split; [by destruct sb|]. split; [|done]. intros r. split; [|by intros [? _]]. intros Hr. split; [done|].
    intros [(rc & Hrc & Hv & _) Hn]. apply Hn. exists rc. done.
  - assert (Hso : s <> o) by (intros ->; destruct HV; congruence). pose proof (er_objs _ _ _ _ He s Hso) as Hob. rewrite Hs in Hob.
    destruct (w_objs w' !! s) as [sb'|] eqn:Es'; [|done]. destruct Hob as (Hsh & Hn & Hrec).
    exists sb'. split; [split; [done|]; by rewrite Hsh|]. split; [exact Hsh|]. split.
    + intros r. rewrite Hrec, dependent_live, valid_rec_live, (er_live _ _ _ _ He). split.
      * intros [Hr H1]. split; [done|]. intros [(l & Hl & Hd) H2]. apply H1. split; [|eauto]. destruct (decide (r ∈ (list_to_set X : gset nat))); [done|]. destruct H2. eauto.
      * intros [Hr H1]. split; [done|]. intros [HX (l & Hl & Hd)]. apply H1. split; [eauto|]. rewrite decide_True by done. by intros [? ?].
    + intros Hne. apply Hn. intros (sb0 & E0 & _ & Hpar). congruence.
Qed.

(** C21: a successful SetData refiles the record in a set exactly when the record is registered with the set, whether the set holds it or not:
    out of the entries under its old value - all of them, if the record is one - and into those under the new value. *)
Lemma t_C21_set_follows_iff_registered :
  forall b ord w f r o ob k v w' res s sb old, fair ord -> reach b w -> allowed b w (OSetData f k v) ->
    denotes w f r -> bound_to w f o -> vault_at w o ob ->
    step ord w (OSetData f k v) = Some (w', ORes res) -> res_ok res = true -> stored w r k = Some old ->
    set_at w s sb ->
    (~ dependent w r s -> w_objs w' !! s = Some sb) /\
    (dependent w r s -> exists sb', set_at w' s sb' /\ sb' = ob_idx (o_idx sb') sb /\
       (forall k' v' x, k' <> k -> (filed sb' k' v' x <-> filed sb k' v' x) /\ (filed_ord sb' k' v' x <-> filed_ord sb k' v' x)) /\
       forall ix, get_key_type sb k = Some (vty v) -> o_idx sb !! k = Some ix -> ix_multi ix = true -> forall v' x,
         (filed sb' k v' x <-> (v' = v /\ x = r) \/ (filed sb k v' x /\ ~ (v' = old /\ filed sb k old r))) /\
         (filed_ord sb' k v' x <-> (v' = v /\ x = r) \/ (filed_ord sb k v' x /\ ~ (v' = old /\ filed_ord sb k old r)))).
Proof.
  intros b ord w f r o ob k v w' res s sb old Hf HR HA Hd Hb HV H Hok Hold [Hs Hst].
  destruct (set_data_step _ _ _ _ _ _ _ _ _ _ _ Hf HR HA Hd Hb HV H) as (H1 & _ & _ & H4).
  destruct (H4 Hok) as (rc & Hrc & Hval & ->).
  assert (Hso : s <> o) by (intros ->; destruct HV; congruence).
  cbn. rewrite lookup_upd_on, Hs. cbn. split.
  - intros Hn. rewrite decide_False; [done|]. intros Hx. apply elem_of_union in Hx as [Hx|Hx]; [by apply elem_of_singleton in Hx|]. apply Hn. exists rc. done.
  - intros (rc' & Hrc' & _ & Hx). assert (rc' = rc) as -> by congruence. exists (set_obj_data (r_data rc) r k v sb). split.
    { split; [|by rewrite set_obj_data_shape]. cbn. rewrite lookup_upd_on, Hs. cbn. rewrite decide_True; [done|]. apply elem_of_union. by right. }
    split; [apply set_obj_data_shape|]. split.
    + intros k' v' x Hk. unfold set_obj_data. destruct (o_keys sb !! k) as [[t d]|]; [|done]. destruct (o_idx sb !! k) as [ix|]; [|done].
      destruct (decide _); [|done]. destruct (negb _ && _); [done|]. unfold filed, filed_ord. cbn [o_idx ob_idx]. by rewrite lookup_insert_ne.
    + intros ix Hk Hix Hm v' x. unfold get_key_type in Hk. destruct (o_keys sb !! k) as [[t d]|] eqn:Ek; [|done]. cbn in Hk. injection Hk as ->.
      assert (Eo : get_typed (r_data rc) k (vty v) (vzero (vty v)) = old).
      { destruct H1 as [Hin ->]; [by exists rc|]. apply set_data_answer_ok in Hok as [Hk' _]. unfold get_key_type in Hk'.
        destruct (o_keys ob !! k) as [[t0 d0]|] eqn:Ek0; [|done]. cbn in Hk'. injection Hk' as ->.
        assert (Hl : live w !! r = Some (r_data rc, r_deps rc)) by (apply live_Some; eauto).
        destruct (v_recs _ _ (vault_vok b w HR _ _ HV) _ Hin) as (l & Hl' & Ht). rewrite Hl in Hl'. injection Hl' as <-.
        pose proof (val_of_typed (live w) (o_keys ob) k (vty v, d0) r (r_data rc, r_deps rc) (vzero (vty v)) Hl Ht Ek0) as E.
        rewrite <- stored_val_of in E. cbn [fst] in E. congruence. }
      unfold set_obj_data. rewrite Ek, Hix. rewrite decide_True by done. rewrite Hm. cbn [negb andb]. rewrite Eo.
      unfold filed, filed_ord. cbn [o_idx ob_idx]. rewrite lookup_insert. rewrite Hix. unfold idx_set. rewrite Hm. cbn [ix_hash ix_tree]. unfold tree_emplace.
      assert (W : forall (P : idx -> Prop) i, (exists ix0, Some i = Some ix0 /\ P ix0) <-> P i).
      { intros P i. split; [by intros (? & [= <-] & ?)|eauto]. }
      rewrite !(W (fun i => (v', x) ∈ ix_hash i)), !(W (fun i => (v', x) ∈ ix_tree i)), !(W (fun i => (old, r) ∈ ix_hash i)), !(W (fun i => (old, r) ∈ ix_tree i)).
      cbn [ix_hash ix_tree]. rewrite multi_emplace, tree_insert_elem. split.
      * assert (P : forall P1 P2 Q : Prop, (P1 <-> P2) -> ((v', x) = (v, r) \/ P1 <-> (v' = v /\ x = r) \/ P2)).
        { intros P1 P2 _ E. rewrite E. split; (intros [Hz|Hz]; [left|by right]); [by injection Hz as -> ->|by destruct Hz as [-> ->]]. }
        apply (P _ _ True). destruct (decide ((old, r) ∈ ix_hash ix)) as [Hi|Hi]; [rewrite elem_erase_value; cbn [fst]|]; tauto.
      * assert (P : forall P1 P2 Q : Prop, (P1 <-> P2) -> ((v', x) = (v, r) \/ P1 <-> (v' = v /\ x = r) \/ P2)).
        { intros P1 P2 _ E. rewrite E. split; (intros [Hz|Hz]; [left|by right]); [by injection Hz as -> ->|by destruct Hz as [-> ->]]. }
        apply (P _ _ True). destruct (decide ((old, r) ∈ ix_tree ix)) as [Hi|Hi]; [rewrite elem_erase_value; cbn [fst]|]; tauto.
Qed.

(** C21: Join registers nothing: the records it adds are followed as far as they were before. *)
Lemma t_C21_join_registers_nothing :
  forall ord w s a w' out r x, step ord w (OJoin s a) = Some (w', out) -> (dependent w' r x <-> dependent w r x).
Proof.
  intros ord w s a w' out r x H. cbn [step] in H. unfold guard_op in H. destruct (is_set w s && is_set w a); [|by injection H as <- _].
  unfold res_out in H. destruct (set_join ord w s a) as [[w1 res]|] eqn:E; [|done]. cbn in H. injection H as <- _.
  unfold set_join in E. destruct (w_objs w !! s) as [sb|]; [|done]. destruct (w_objs w !! a) as [ab|]; [|done]. cbn [mbind option_bind] in E.
  destruct (algebra_check s a sb ab); [by injection E as <- _|].
  destruct (foldM _ w _) as [w2|] eqn:EF; [|done]. cbn in E. injection E as <- _.
  assert (K : w_recs w2 = w_recs w).
  { revert EF. generalize (ord (elements (o_recs ab))). intros l. clear. revert w. induction l as [|y l IH]; intros w H; [by injection H as <-|].
    cbn in H. destruct (w_objs w !! s) as [sb'|]; [|done]. cbn in H. destruct (decide (y ∈ o_recs sb')); cbn in H; [by apply IH|].
    unfold set_take_unregistered in H. destruct (w_objs w !! s); [|done]. cbn in H. destruct (w_recs w !! y); [|done]. cbn in H. apply IH in H. by rewrite H. }
  unfold dependent. by rewrite K.
Qed.

Lemma subtract_recs kc ord w s a sb p w' res :
  Inv false w -> w_objs w !! s = Some sb -> o_static_set sb = true -> o_parent sb = Some p ->
  set_subtract kc ord w s a = Some (w', res) -> w_recs w' = w_recs w.
Proof.
  intros HI Hs Hst Hp H. unfold set_subtract in H. rewrite Hs in H. cbn [mbind option_bind] in H.
  destruct (w_objs w !! a) as [ab|]; [|done]. cbn [mbind option_bind] in H.
  destruct (algebra_check s a sb ab) as [c|]; [by injection H as <- _|].
  destruct (foldM _ _ _) as [w1|] eqn:E; [|done]. cbn in H. injection H as <- _.
  revert E. generalize (ord (elements (o_recs sb))). intros l. revert w sb HI Hs Hst Hp.
  induction l as [|r l IH]; intros w sb HI Hs Hst Hp E; cbn [foldM] in E; [by injection E as <-|].
  assert (K : forall w2 c, remove_record ord w s r = Some (w2, c) -> Inv false w2 /\ w_recs w2 = w_recs w /\
     exists sb2, w_objs w2 !! s = Some sb2 /\ o_static_set sb2 = true /\ o_parent sb2 = Some p).
  { intros w2 c Er. destruct (remove_record_set_ok _ _ _ _ _ _ _ _ HI Hs Hst Hp Er) as (R1 & _ & sb2 & R3 & R4 & R5 & _).
    split; [done|]. split; [|by exists sb2]. unfold remove_record in Er. rewrite Hs in Er. cbn [mbind option_bind] in Er.
    destruct (decide (r ∈ o_recs sb)); [|by injection Er as <- _].
    destruct (detach _ _ _ _ _) as [w3|] eqn:Ed; [|done]. cbn in Er. injection Er as <- _. unfold dfuel in Ed.
    by destruct (detach_set_ok _ _ _ _ _ _ _ _ HI Hs Hst Hp Ed) as (rc & _ & -> & _). }
  destruct (bool_decide (r ∈ o_recs ab)), kc; cbn [mbind option_bind] in E; try (by eapply IH).
  all: destruct (remove_record ord w s r) as [[w2 c]|] eqn:Er; [|done]; cbn [mbind option_bind] in E;
    destruct (K _ _ eq_refl) as (R1 & R2 & sb2 & R3 & R4 & R5); rewrite <- R2; by eapply IH.
Qed.

(** C21: nor do Exclude and Intersect change what is registered: the records they take out of the set go on being refiled in it ... *)
Lemma t_C21_subtract_keeps_registered :
  forall b ord w p s a w' out r x, fair ord -> reach b w -> (p = OExclude s a \/ p = OIntersect s a) ->
    step ord w p = Some (w', out) -> (dependent w' r x <-> dependent w r x).
Proof.
  intros b ord w p s a w' out r x Hf HR Hp H. pose proof (Inv_wide _ _ (reach_inv _ _ HR)) as HI.
  assert (K : forall kc, guard_op (is_set w s && is_set w a) w (res_out (set_subtract kc ord w s a)) = Some (w', out) -> dependent w' r x <-> dependent w r x).
  { clear H Hp. intros kc H. unfold guard_op in H. destruct (is_set w s && is_set w a) eqn:G; [|by injection H as <- _].
    apply andb_prop in G as [Gs _]. unfold is_set in Gs. destruct (w_objs w !! s) as [sb|] eqn:Hs; [|done].
    unfold res_out in H. destruct (set_subtract kc ord w s a) as [[w1 res]|] eqn:E; [|done]. cbn in H. injection H as <- _.
    destruct (o_parent sb) as [q|] eqn:Ep.
    - unfold dependent. by rewrite (subtract_recs kc ord w s a sb q w1 res HI Hs Gs Ep E).
    - unfold set_subtract in E. rewrite Hs in E. cbn [mbind option_bind] in E. destruct (w_objs w !! a) as [ab|]; [|done]. cbn [mbind option_bind] in E.
      unfold algebra_check in E. rewrite Ep in E. by injection E as <- _. }
  destruct Hp as [-> | ->]; cbn [step] in H; [by apply (K false)|by apply (K true)].
Qed.

Lemma detach_set_recs ord s p l w sb w' :
  Inv false w -> w_objs w !! s = Some sb -> o_static_set sb = true -> o_parent sb = Some p ->
  foldM (fun w r => detach (dfuel w) ord w s r) w l = Some w' -> w_recs w' = w_recs w.
Proof.
  revert w sb. induction l as [|r l IH]; intros w sb HI Hs Hst Hp H; cbn [foldM] in H; [by injection H as <-|].
  destruct (detach _ _ _ _ _) as [w2|] eqn:E; [|done]. cbn [mbind option_bind] in H. unfold dfuel in E.
  destruct (detach_set_ok _ _ _ _ _ _ _ _ HI Hs Hst Hp E) as (rc & Hrc & -> & HI2).
  rewrite (IH _ (drop_rec (r_data rc) r sb) HI2) with (4 := H); [done|cbn; by rewrite lookup_insert|done|done].
Qed.

(** ... and so do records removed from the set, by reference or by value. *)
Lemma t_C24_removal_keeps_registered :
  forall b ord w s sb p w' out r x, fair ord -> reach b w -> set_at w s sb -> erases_from s p -> step ord w p = Some (w', out) ->
    (dependent w' r x <-> dependent w r x).
Proof.
  intros b ord w s sb p w' out r x Hf HR [Hs Hst] Hp H. pose proof (Inv_wide _ _ (reach_inv _ _ HR)) as HI.
  destruct p; cbn in Hp; try done; subst; cbn [step] in H; unfold guard_op, is_obj in H; rewrite (bool_decide_true (is_Some (w_objs w !! s))) in H by eauto; cbn [andb] in H.
  - destruct (is_ref w f) eqn:Ef; [|by injection H as <- _]. apply is_ref_true in Ef as [rf Hrf].
    unfold erase_ref, bool_out in H. rewrite Hs, Hrf in H. cbn [mbind option_bind] in H. rewrite Hst in H. cbn [andb] in H.
    destruct (o_parent sb) as [q|] eqn:Ep; [|by injection H as <- _].
    destruct (f_rec rf) as [y|]; [|by injection H as <- _].
    destruct (remove_record ord w s y) as [[w1 bb]|] eqn:E; [|done].
    assert (E1 : w1 = w') by (cbn in H; by injection H as <- _).
    subst w1. unfold remove_record in E. rewrite Hs in E. cbn [mbind option_bind] in E.
    destruct (decide (y ∈ o_recs sb)); [|by injection E as <- _].
    destruct (detach _ _ _ _ _) as [w3|] eqn:Ed; [|done]. cbn in E. injection E as <- _. unfold dfuel in Ed.
    by destruct (detach_set_ok _ _ _ _ _ _ _ _ HI Hs Hst Ep Ed) as (rc & _ & -> & _).
  - unfold set_parent_guard, res_out in H. rewrite Hs in H. cbn [mbind option_bind] in H. rewrite Hst in H. cbn [andb] in H.
    destruct (o_parent sb) as [q|] eqn:Ep; [|by injection H as <- _]. cbn [bool_decide] in H.
    destruct (erase_record ord w s k v) as [[w1 res]|] eqn:E; [|done].
    assert (E1 : w1 = w') by (cbn in H; by injection H as <- _).
    subst w1. unfold erase_record in E. rewrite Hs in E. cbn [mbind option_bind] in E.
    destruct (o_keys sb !! k) as [[t d]|]; [|by injection E as <- _].
    destruct (decide (t = vty v)); [|by injection E as <- _].
    destruct (o_idx sb !! k) as [ix|]; [|done]. cbn [mbind option_bind] in E.
    destruct (ord _) as [|y l]; [by injection E as <- _|].
    destruct (detach _ _ _ _ _) as [w3|] eqn:Ed; [|done]. cbn in E. injection E as <- _. unfold dfuel in Ed.
    by destruct (detach_set_ok _ _ _ _ _ _ _ _ HI Hs Hst Ep Ed) as (rc & _ & -> & _).
  - unfold set_parent_guard, res_out in H. rewrite Hs in H. cbn [mbind option_bind] in H. rewrite Hst in H. cbn [andb] in H.
    destruct (o_parent sb) as [q|] eqn:Ep; [|by injection H as <- _]. cbn [bool_decide] in H.
    destruct (erase_records ord w s k v amt) as [[w1 res]|] eqn:E; [|done].
    assert (E1 : w1 = w') by (cbn in H; by injection H as <- _).
    subst w1. unfold erase_records in E. rewrite Hs in E. cbn [mbind option_bind] in E.
    destruct (o_keys sb !! k) as [[t d]|]; [|by injection E as <- _].
    destruct (decide (t = vty v)); [|by injection E as <- _].
    destruct (o_idx sb !! k) as [ix|]; [|done]. cbn [mbind option_bind] in E.
    destruct (ord _) as [|y l]; [by injection E as <- _|].
    destruct (foldM _ _ _) as [w3|] eqn:Ed; [|done]. cbn in E. injection E as <- _.
    unfold dependent. by rewrite (detach_set_recs _ _ _ _ _ _ _ HI Hs Hst Ep Ed).
Qed.

(** Who is registered with which set only gets less. *)
Definition fewer (w w' : world) : Prop := forall r x, dependent w' r x -> dependent w r x.
Lemma fewer_refl w : fewer w w.
Proof. by intros r x. Qed.
Lemma fewer_trans w1 w2 w3 : fewer w1 w2 -> fewer w2 w3 -> fewer w1 w3.
Proof. intros A B r x H. by apply A, B. Qed.
Lemma fewer_recs w w' : w_recs w' = w_recs w -> fewer w w'.
Proof. intros E r x. unfold dependent. by rewrite E. Qed.
Lemma foldM_fewer {A} (F : world -> A -> option world) l : (forall w a w', F w a = Some w' -> fewer w w') -> forall w w', foldM F w l = Some w' -> fewer w w'.
Proof.
  intros HF. induction l as [|a l IH]; intros w w' H; cbn [foldM] in H; [injection H as <-; apply fewer_refl|].
  destruct (F w a) as [w1|] eqn:E; [|done]. cbn [mbind option_bind] in H. eapply fewer_trans; [by eapply HF|by apply IH].
Qed.
Lemma fewer_set_rec w r rc rc' : w_recs w !! r = Some rc -> r_valid rc' = r_valid rc -> r_deps rc' ⊆ r_deps rc -> fewer w (set_rec r rc' w).
Proof.
  intros Hrc Hv Hd y x (rc1 & H1 & V1 & D1). cbn in H1. destruct (decide (y = r)) as [->|Hne].
  - rewrite lookup_insert in H1. injection H1 as <-. exists rc. split; [done|]. split; [congruence|by apply Hd].
  - rewrite lookup_insert_ne in H1 by done. by exists rc1.
Qed.
Lemma erase_dep_fewer s w r w' : erase_dep s w r = Some w' -> fewer w w'.
Proof. unfold erase_dep. intros H. destruct (w_recs w !! r) as [rc|] eqn:E; [|done]. cbn in H. injection H as <-. eapply fewer_set_rec; [done|done|]. cbn. set_solver. Qed.
Lemma set_clear_fewer ord w s w' : set_clear ord w s = Some w' -> fewer w w'.
Proof.
  intros H. unfold set_clear in H. kgo; try apply fewer_refl.
  eapply fewer_trans; [eapply foldM_fewer; [|done]; intros ? ? ?; apply erase_dep_fewer|by apply fewer_recs].
Qed.
Lemma invalidate_fewer w r w' : invalidate w r = Some w' -> fewer w w'.
Proof.
  unfold invalidate. intros H. kgo. all: intros y x0 (rc1 & H1 & V1 & D1); cbn in H1; destruct (decide (y = r)) as [->|Hne];
    [first [rewrite lookup_delete in H1|rewrite lookup_insert in H1]; try done; injection H1 as <-; done
    |first [rewrite lookup_delete_ne in H1 by done|rewrite lookup_insert_ne in H1 by done]; by exists rc1].
Qed.
Lemma drop_core_fewer ord w s w' : drop_core ord w s = Some w' -> fewer w w'.
Proof.
  intros H. unfold drop_core in H. kgo. eapply fewer_trans; [eapply foldM_fewer; [|done]; intros ? ? ?; apply invalidate_fewer|by apply fewer_recs].
Qed.
Lemma set_reset_fewer ord w s w' : set_reset ord w s = Some w' -> fewer w w'.
Proof.
  intros H. unfold set_reset in H. destruct (w_objs w !! s) as [ob|]; [|done]. cbn [mbind option_bind] in H.
  destruct (o_parent ob) as [p|]; [|injection H as <-; apply fewer_refl].
  destruct (w_objs w !! p); [|done]. cbn [mbind option_bind] in H.
  destruct (set_clear ord w s) as [w1|] eqn:E1; [|done]. cbn [mbind option_bind] in H.
  destruct (drop_core ord w1 s) as [w2|] eqn:E2; [|done]. cbn [mbind option_bind] in H.
  destruct (w_objs w2 !! p) as [pb|]; [|done]. cbn [mbind option_bind] in H.
  match type of H with (?X ≫= _) = _ => destruct X as [sb|]; [|done] end. cbn [mbind option_bind] in H. injection H as <-.
  eapply fewer_trans; [by eapply set_clear_fewer|]. eapply fewer_trans; [by eapply drop_core_fewer|]. by apply fewer_recs.
Qed.
Lemma add_key_local_fewer ord w o k d w' res : add_key_local ord w o k d None false = Some (w', res) -> fewer w w'.
Proof.
  intros H. unfold add_key_local in H. destruct (w_objs w !! o) as [ob|]; [|done]. cbn [mbind option_bind] in H.
  destruct (o_keys ob !! k) as [[t d0]|]; [injection H as <- _; apply fewer_refl|].
  destruct (foldM _ w _) as [w1|] eqn:E; [|done]. cbn [mbind option_bind] in H. injection H as <- _.
  eapply fewer_trans; [eapply foldM_fewer; [|done]|by apply fewer_recs].
  intros w2 e w3 H. unfold rec_set in H. destruct (w_recs w2 !! e.2) as [rc|] eqn:E2; [|done]. cbn in H. injection H as <-. by eapply fewer_set_rec.
Qed.
Lemma copy_keys_fewer ord w src dst w' : copy_keys ord w src dst = Some w' -> fewer w w'.
Proof.
  intros H. unfold copy_keys in H. eapply foldM_fewer; [|done]. intros w1 e w2 E. cbn beta in E.
  destruct (add_key_local _ _ _ _ _ _ _) as [[w3 res]|] eqn:E3; [|done]. cbn in E. injection E as <-. by eapply add_key_local_fewer.
Qed.

(** C21: Intersection registers nothing either: a record is registered afterwards only if it was before. *)
Lemma t_C21_intersection_registers_nothing :
  forall ord w a b res w' out r x, step ord w (OIntersection a b res) = Some (w', out) -> dependent w' r x -> dependent w r x.
Proof.
  intros ord w a b res w' out r x H. revert r x. change (fewer w w'). cbn [step] in H. unfold guard_op in H.
  destruct (is_set w a && is_set w b && is_set w res); [|injection H as <- _; apply fewer_refl].
  unfold res_out in H. destruct (set_intersection ord w a b res) as [[w1 rs]|] eqn:E; [|done]. cbn in H. injection H as <- _.
  unfold set_intersection in E. destruct (w_objs w !! a) as [ab|]; [|done]. destruct (w_objs w !! b) as [bb|]; [|done]. cbn [mbind option_bind] in E.
  destruct (decide _); [injection E as <- _; apply fewer_refl|].
  destruct (o_parent ab) as [p|]; [|injection E as <- _; apply fewer_refl].
  destruct (o_parent bb) as [p'|]; [|injection E as <- _; apply fewer_refl].
  destruct (decide (p = p')); [|injection E as <- _; apply fewer_refl].
  destruct (set_reset ord w res) as [w2|] eqn:E2; [|done]. cbn [mbind option_bind] in E.
  destruct (w_objs w2 !! res) as [rb|]; [|done]. cbn [mbind option_bind] in E.
  destruct (copy_keys _ _ _ _) as [w3|] eqn:E3; [|done]. cbn [mbind option_bind] in E.
  destruct (w_objs w3 !! res) as [rb3|]; [|done]. cbn [mbind option_bind] in E.
  match type of E with (?X ≫= _) = _ => destruct X as [pb|]; [|done] end. cbn [mbind option_bind] in E.
  destruct (if _ <? _ then _ else _) as [small big]. destruct (foldM _ _ _) as [w6|] eqn:E6; [|done]. cbn [mbind option_bind] in E. injection E as <- _.
  eapply fewer_trans; [by eapply set_reset_fewer|]. eapply fewer_trans; [by apply (fewer_recs _ (set_obj res (ob_parent (Some p) rb) w2))|].
  eapply fewer_trans; [by eapply copy_keys_fewer|]. eapply fewer_trans; [|eapply foldM_fewer; [|exact E6]]; [by apply fewer_recs|].
  intros w7 y w8 H. cbn beta in H. destruct (decide (y ∈ big)); [|injection H as <-; apply fewer_refl].
  unfold set_take_unregistered in H. destruct (w_objs w7 !! res); [|done]. cbn [mbind option_bind] in H. destruct (w_recs w7 !! y); [|done]. cbn in H. injection H as <-. by apply fewer_recs.
Qed.

Lemma foldM_objs {A} (F : world -> A -> option world) l : (forall w a w', F w a = Some w' -> w_objs w' = w_objs w) -> forall w w', foldM F w l = Some w' -> w_objs w' = w_objs w.
Proof.
  intros HF. induction l as [|a l IH]; intros w w' H; cbn [foldM] in H; [by injection H as <-|].
  destruct (F w a) as [w1|] eqn:E; [|done]. cbn [mbind option_bind] in H. apply IH in H. apply HF in E. congruence.
Qed.
Lemma set_reset_keeps ord w s w' x xb :
  set_reset ord w s = Some w' -> x <> s -> w_objs w !! x = Some xb -> exists xb', w_objs w' !! x = Some xb' /\ o_recs xb' = o_recs xb.
Proof.
  intros H Hx Hxb. unfold set_reset in H. destruct (w_objs w !! s) as [ob|]; [|done]. cbn [mbind option_bind] in H.
  destruct (o_parent ob) as [p|]; [|injection H as <-; by exists xb].
  destruct (w_objs w !! p); [|done]. cbn [mbind option_bind] in H.
  destruct (set_clear ord w s) as [w1|] eqn:E1; [|done]. cbn [mbind option_bind] in H.
  destruct (drop_core ord w1 s) as [w2|] eqn:E2; [|done]. cbn [mbind option_bind] in H.
  destruct (w_objs w2 !! p) as [pb|] eqn:Ep; [|done]. cbn [mbind option_bind] in H.
  match type of H with (?X ≫= _) = _ => destruct X as [sb|]; [|done] end. cbn [mbind option_bind] in H. injection H as <-.
  assert (H1 : w_objs w1 !! x = Some xb).
  { unfold set_clear in E1. destruct (w_objs w !! s) as [ob'|]; [|done]. cbn [mbind option_bind] in E1. destruct (o_parent ob'); [|by injection E1 as <-].
    destruct (foldM _ _ _) as [w9|] eqn:E9; [|done]. cbn [mbind option_bind] in E1. injection E1 as <-. cbn. rewrite lookup_insert_ne by done.
    apply foldM_objs in E9; [by rewrite E9|]. intros w3 y w4 H. unfold erase_dep in H. destruct (w_recs w3 !! y); [|done]. cbn in H. by injection H as <-. }
  assert (H2 : w_objs w2 !! x = Some xb).
  { unfold drop_core in E2. destruct (w_objs w1 !! s) as [ob'|]; [|done]. cbn [mbind option_bind] in E2.
    destruct (foldM _ _ _) as [w9|] eqn:E9; [|done]. cbn [mbind option_bind] in E2. injection E2 as <-. cbn. rewrite lookup_insert_ne by done.
    apply foldM_objs in E9; [by rewrite E9|]. intros w3 y w4 H. unfold invalidate in H. kgo; done. }
  cbn. rewrite lookup_insert_ne by done. destruct (decide (x = p)) as [->|Hxp].
  - rewrite lookup_insert. assert (pb = xb) as -> by congruence. eexists. split; [done|]. done.
  - rewrite lookup_insert_ne by done. by exists xb.
Qed.
Lemma set_take_more s l : forall w w', foldM (set_take s) w l = Some w' -> forall r x, dependent w' r x -> dependent w r x \/ (x = s /\ r ∈ l).
Proof.
  induction l as [|y l IH]; intros w w' H r x Hd; cbn [foldM] in H; [injection H as <-; by left|].
  destruct (set_take s w y) as [w1|] eqn:E; [|done]. cbn [mbind option_bind] in H. destruct (IH _ _ H _ _ Hd) as [H1|[-> H1]]; [|right; split; [done|by right]].
  unfold set_take in E. destruct (w_objs w !! s) as [sb|]; [|done]. cbn [mbind option_bind] in E. destruct (w_recs w !! y) as [rc|] eqn:Ey; [|done]. cbn [mbind option_bind] in E.
  unfold add_dep in E. cbn in E. rewrite Ey in E. cbn in E. injection E as <-. destruct H1 as (rc1 & R1 & V1 & D1). cbn in R1. destruct (decide (r = y)) as [->|Hne].
  - rewrite lookup_insert in R1. injection R1 as <-. cbn in V1, D1. apply elem_of_union in D1 as [D1|D1]; [apply elem_of_singleton in D1 as ->; right; split; [done|by left]|].
    left. by exists rc.
  - rewrite lookup_insert_ne in R1 by done. left. by exists rc1.
Qed.

(** C21: Union registers the records of its first operand with the result, and no others. *)
Lemma t_C21_union_registers_first :
  forall ord w a ab b res w' out r x, fair ord -> set_at w a ab -> step ord w (OUnion a b res) = Some (w', out) -> dependent w' r x ->
    dependent w r x \/ (x = res /\ r ∈ o_recs ab).
Proof.
  intros ord w a ab b res w' out r x Hf [Ha Hat] H Hd. cbn [step] in H. unfold guard_op in H.
  destruct (is_set w a && is_set w b && is_set w res); [|injection H as <- _; by left].
  unfold res_out in H. destruct (set_union ord w a b res) as [[w1 rs]|] eqn:E; [|done]. cbn in H. injection H as <- _.
  unfold set_union in E. rewrite Ha in E. cbn [mbind option_bind] in E. destruct (w_objs w !! b) as [bb|]; [|done]. cbn [mbind option_bind] in E.
  destruct (decide _) as [|Hn]; [injection E as <- _; by left|].
  destruct (o_parent ab) as [p|] eqn:Ep; [|injection E as <- _; by left].
  destruct (o_parent bb) as [p'|]; [|injection E as <- _; by left].
  destruct (decide (p = p')); [|injection E as <- _; by left].
  destruct (copy_assign_set ord w res a) as [w2|] eqn:E2; [|done]. cbn [mbind option_bind] in E.
  assert (Hd2 : dependent w2 r x).
  { revert Hd. revert r x. change (fewer w2 w1). unfold set_join in E. destruct (w_objs w2 !! res) as [sb|]; [|done]. destruct (w_objs w2 !! b) as [ab2|]; [|done]. cbn [mbind option_bind] in E.
    destruct (algebra_check _ _ _ _); [injection E as <- _; apply fewer_refl|].
    destruct (foldM _ _ _) as [w6|] eqn:E6; [|done]. cbn in E. injection E as <- _. eapply foldM_fewer; [|exact E6].
    intros w7 y w8 H. cbn beta in H. destruct (w_objs w7 !! res) as [sb'|] eqn:Es; [|done]. cbn [mbind option_bind] in H. destruct (decide (y ∈ o_recs sb')); [injection H as <-; apply fewer_refl|].
    unfold set_take_unregistered in H. rewrite Es in H. cbn [mbind option_bind] in H. destruct (w_recs w7 !! y); [|done]. cbn in H. injection H as <-. by apply fewer_recs. }
  clear E Hd. assert (Hra : a <> res) by (intros ->; apply Hn; auto).
  unfold copy_assign_set in E2. rewrite decide_False in E2 by congruence.
  destruct (set_reset ord w res) as [w3|] eqn:E3; [|done]. cbn [mbind option_bind] in E2.
  destruct (set_reset_keeps _ _ _ _ _ _ E3 Hra Ha) as (ab3 & Ha3 & Er). pose proof (set_reset_fewer _ _ _ _ E3) as F3.
  unfold copy_set in E2. rewrite Ha3 in E2. cbn [mbind option_bind] in E2. destruct (o_parent ab3) as [q|]; [|injection E2 as <-; left; by apply F3].
  destruct (w_objs w3 !! q); [|done]. cbn [mbind option_bind] in E2. destruct (w_objs w3 !! res) as [db|]; [|done]. cbn [mbind option_bind] in E2.
  destruct (copy_keys _ _ _ _) as [w4|] eqn:E4; [|done]. cbn [mbind option_bind] in E2.
  destruct (w_objs w4 !! res) as [db2|]; [|done]. cbn [mbind option_bind] in E2.
  match type of E2 with (?X ≫= _) = _ => destruct X as [pb|]; [|done] end. cbn [mbind option_bind] in E2.
  destruct (set_take_more _ _ _ _ E2 _ _ Hd2) as [H1|[-> H1]].
  - left. apply F3. apply (fewer_recs w3 (set_obj res (ob_parent (Some q) (ob_isset true db)) w3) eq_refl). by apply (copy_keys_fewer _ _ _ _ _ E4).
  - right. split; [done|]. apply (WorldProofs.fair_elem ord _ _ Hf) in H1. by rewrite <- Er.
Qed.
