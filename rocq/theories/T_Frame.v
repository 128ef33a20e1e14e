(** What each operation leaves alone: frames for every operation (C07, C13, C18, C19, C24). *)
From Verif Require Export T_Erase.
Open Scope nat_scope.

(** Vaults and records as before, no record allocated. *)
Definition quiet (w w' : world) : Prop := vaults_kept w w' /\ w_next w' = w_next w.
Lemma set_only_kept b s w w' : Inv b w -> set_only s w w' -> (forall ob, w_objs w !! s = Some ob -> o_static_set ob = true) -> quiet w w'.
Proof.
  intros HI Hs Hst. split; [|apply Hs]. destruct (set_only_spec _ _ _ Hs) as (_ & H1 & H2 & H3). split; [done|]. split; [done|]. intros o ob [Ho Hos].
  assert (o <> s) as Hne. { intros ->. specialize (Hst _ Ho). congruence. } destruct (H3 o ob Hne Ho) as (ob' & Ho' & E). exists ob'. split; [|done]. split; [done|]. by rewrite E.
Qed.
Lemma kept_refl w : quiet w w.
Proof. split; [|done]. split; [done|]. split; [done|]. intros o ob H. exists ob. split; [done|by destruct ob]. Qed.
Lemma ref_only_kept w w' : ref_only w w' -> quiet w w'.
Proof.
  intros H. split; [|apply H]. destruct (ref_only_spec _ _ H) as (E & H1 & H2). split; [done|]. split; [done|]. intros o ob [Ho Hs]. exists ob. split; [split; [by rewrite E|done]|by destruct ob].
Qed.
Lemma guard_inv c w m w' out : guard_op c w m = Some (w', out) -> (c = false /\ w' = w /\ out = OSkip) \/ (c = true /\ m = Some (w', out)).
Proof. unfold guard_op. destruct c; [by right|]. intros [= <- <-]. by left. Qed.
Lemma res_inv m w' out : res_out m = Some (w', out) -> exists r, m = Some (w', r) /\ out = ORes r.
Proof. destruct m as [[? ?]|]; [|done]. intros [= <- <-]. eauto. Qed.
Lemma bool_inv m w' out : bool_out m = Some (w', out) -> exists r, m = Some (w', r) /\ out = OBool r.
Proof. destruct m as [[? ?]|]; [|done]. intros [= <- <-]. eauto. Qed.
Lemma unit_inv m w' out : unit_out m = Some (w', out) -> m = Some w' /\ out = OUnit.
Proof. destruct m as [?|]; [|done]. intros [= <- <-]. eauto. Qed.
Lemma Some_Def {A} b (m : option A) x : m = Some x -> Def b m.
Proof. intros E _. eauto. Qed.
Lemma same_fst {A B} (m : option (A * B)) a b a' b' : m = Some (a, b) -> m = Some (a', b') -> a' = a.
Proof. congruence. Qed.
Lemma same_fst1 {A} (m : option A) a a' : m = Some a -> m = Some a' -> a' = a.
Proof. congruence. Qed.

Lemma quiet_step b ord w p w' out : fair ord -> reach b w -> allowed b w p -> set_or_ref_op w p -> step ord w p = Some (w', out) -> quiet w w'.
Proof.
  intros Hf HR HA Hp H. pose proof (reach_inv _ _ HR) as HI.
  destruct p; cbn [set_or_ref_op] in Hp; try done; cbn [step allowed] in *;
    (apply guard_inv in H as [(_ & -> & _)|[Hg H]]; [by apply kept_refl|]; guards).
  - (* ONewSet *) injection H as <- <-. split; [|done]. split; [done|]. split; [done|]. intros o ob [Ho Hs]. exists ob. split; [|by destruct ob]. split; [|done]. cbn. rewrite lookup_insert_ne; [done|congruence].
  - (* ODelSet *) apply unit_inv in H as [H _]. destruct (del_set_ok b ord w s x) as (E & HI'); try done; [by eapply Some_Def|]. rewrite H in E. injection E as ->.
    assert (Hso : set_only s w (reset_result s x w)) by (by eapply set_only_reset_result).
    destruct (set_only_kept b s w (reset_result s x w)) as [(K1 & K2 & K3) K4]; [done|done|congruence|]. split; [|done]. split; [done|]. split; [done|].
    intros o ob HV. destruct (K3 _ _ HV) as (ob' & [Ho' Hs'] & E'). exists ob'. split; [|done]. split; [|done]. cbn. rewrite lookup_delete_ne; [done|].
    intros ->. destruct HV. congruence.
  - (* ONewRef *) injection H as <- <-. split; [|done]. split; [done|]. split; [done|]. intros o ob HV. exists ob. split; [done|by destruct ob].
  - (* ODelRef *) apply unit_inv in H as [H _]. destruct (reset_ref_spec w f x) as (w1 & E & Hro & Hr); [apply HI|done|]. rewrite E in H. cbn in H. injection H as <-.
    destruct (ref_only_kept _ _ Hro) as [(K1 & K2 & K3) K4]. split; [|done]. split; [done|]. split; [done|]. intros o ob HV. destruct (K3 _ _ HV) as (ob' & HV' & E'). by exists ob'.
  - (* OEraseRef *) destruct Hp as (sb & Hob & Hst). nref f rf Hrf. apply bool_inv in H as (bb & H & _). unfold erase_ref in H. rewrite Hob, Hrf in H. cbn [mbind option_bind] in H.
    rewrite Hst in H. cbn [andb] in H. destruct (o_parent sb) as [q|] eqn:Ep; cbn in H; [|injection H as <- <-; apply kept_refl]. destruct (f_rec rf) as [r|]; [|injection H as <- <-; apply kept_refl].
    destruct b; [specialize (HA eq_refl _ Hob Hst); congruence|]. destruct (remove_record_set_ok ord w o sb q r w' bb) as (HI' & Hso & _); try done.
    eapply (set_only_kept false); [done|done|congruence].
  - (* OEraseRecord *) destruct Hp as (sb & Hob & Hst). apply res_inv in H as (res & H & _). unfold set_parent_guard in H. rewrite Hob in H. cbn [mbind option_bind] in H. rewrite Hst in H. cbn [andb] in H.
    destruct (o_parent sb) as [q|] eqn:Ep; cbn [bool_decide option_eq_None_dec decide_rel] in *; [|injection H as <- <-; apply kept_refl].
    destruct b; [specialize (HA eq_refl _ Hob Hst); congruence|]. destruct (erase_record_set_ok ord w o sb q k v w' res) as (HI' & Hso); try done.
    eapply (set_only_kept false); [done|done|congruence].
  - (* OEraseRecords *) destruct Hp as (sb & Hob & Hst). apply res_inv in H as (res & H & _). unfold set_parent_guard in H. rewrite Hob in H. cbn [mbind option_bind] in H. rewrite Hst in H. cbn [andb] in H.
    destruct (o_parent sb) as [q|] eqn:Ep; cbn [bool_decide option_eq_None_dec decide_rel] in *; [|injection H as <- <-; apply kept_refl].
    destruct b; [specialize (HA eq_refl _ Hob Hst); congruence|]. destruct (erase_records_set_ok ord w o sb q k v amt w' res) as (HI' & Hso); try done.
    eapply (set_only_kept false); [done|done|congruence].
  - (* OGetRecord *) nobj o ob Hob. nref f rf Hrf. apply res_inv in H as (res & H & _). destruct (o_static_set ob) eqn:Hst.
    + destruct (get_record_set_ok b ord w o ob k v f rf) as (w1 & res1 & E & _ & Hc); try done; [|by eapply Some_Def|].
      { intros p pb r Hp' Hpb Hr Hl. eapply (HA ob p pb r); [done|done|done|by exists rf|by apply valid_rec_live]. }
      rewrite (same_fst _ _ _ _ _ E H). destruct (o_parent ob); [destruct Hc as (rf' & Hro & _); by apply ref_only_kept|destruct Hc as [-> _]; apply kept_refl].
    + destruct (get_record_vault_ok b ord w o ob k v f rf) as (w1 & res1 & rf' & E & _ & Hro & _); try done. rewrite (same_fst _ _ _ _ _ E H). by apply ref_only_kept.
  - (* OGetRecords *) nobj o ob Hob. apply res_inv in H as (res & H & _). rewrite Hob in H. cbn [mbind option_bind] in H.
    destruct (get_records_step_ok b ord w o ob k v amt fs) as (w1 & res1 & E & _ & Hro & _); try done; [by eapply Some_Def|]. rewrite (same_fst _ _ _ _ _ E H). by apply ref_only_kept.
  - (* OGetSorted *) apply unit_inv in H as [H _]. destruct (sorted_step_ok b w o x k rev amt fs) as (w1 & E & _ & Hro & _); try done; [by eapply Some_Def|]. rewrite (same_fst1 _ _ _ E H). by apply ref_only_kept.
  - (* OCopyRef *) nref dst rd Hrd. nref src rs Hrs. apply unit_inv in H as [H _]. destruct (decide (dst = src)) as [->|Hne].
    + unfold copy_ref in H. rewrite decide_True in H by done. injection H as <-. apply kept_refl.
    + destruct (copy_ref_spec w dst src rd rs) as (w1 & E & Hro & Hr); [apply HI|done|done|done|]. rewrite (same_fst1 _ _ _ E H). by apply ref_only_kept.
  - (* OMoveRef *) nref dst rd Hrd. nref src rs Hrs. apply unit_inv in H as [H _]. destruct (decide (dst = src)) as [->|Hne].
    + unfold move_ref in H. rewrite decide_True in H by done. injection H as <-. apply kept_refl.
    + destruct (move_ref_spec w dst src rd rs) as (w1 & E & Hro & Hr); [apply HI|done|done|done|]. rewrite (same_fst1 _ _ _ E H). by apply ref_only_kept.
  - (* OResetRef *) apply unit_inv in H as [H _]. destruct (reset_ref_spec w f x) as (w1 & E & Hro & Hr); [apply HI|done|]. rewrite (same_fst1 _ _ _ E H). by apply ref_only_kept.
  - (* ORequest *) nobj o ob Hob. nobj s sb Hsb. apply res_inv in H as (res & H & _).
    destruct (request_ok b ord w o ob rt k b0 (vcast (vty b0) e) ib ie amt p s sb) as (w1 & res1 & E & _ & Hso & _); try done;
      [intros Hb pv Hpv sb0 pb Hsb0 Hpb Hne; replace sb0 with sb in * by congruence; eapply (leftovers_target_inv b); [done..|]; by eapply HA|by apply vty_vcast|by eapply Some_Def|].
    rewrite (same_fst _ _ _ _ _ E H). eapply (set_only_kept b); [done|done|congruence].
  - (* OComplex *) nobj o ob Hob. nobj s sb Hsb. apply res_inv in H as (res & H & _). destruct HA as [A1 A2].
    destruct (complex_ok b ord w o ob q s sb) as (w1 & res1 & E & _ & Hso & _); try done;
      [intros Hb pv Hpv sb0 pb Hsb0 Hpb Hne; replace sb0 with sb in * by congruence; eapply (leftovers_target_inv b); [done..|]; by eapply A1|by eapply Some_Def|].
    rewrite (same_fst _ _ _ _ _ E H). eapply (set_only_kept b); [done|done|congruence].
  - (* OSetAdd *) apply res_inv in H as (res & H & _). destruct (set_add_ok b w s x f x0) as (w1 & res1 & E & _ & Hso); try done. rewrite (same_fst _ _ _ _ _ E H). eapply (set_only_kept b); [done|done|congruence].
  - (* OSetClear *) apply unit_inv in H as [H _]. destruct (set_clear_ok b ord w s x) as (E & HI'); try done; [by eapply Some_Def|]. rewrite (same_fst1 _ _ _ E H).
    destruct (o_parent x); [|apply kept_refl]. eapply (set_only_kept b); [done|apply set_only_clear|congruence].
  - (* OSetReset *) apply unit_inv in H as [H _]. destruct (set_reset_ok b ord w s x) as (E & HI'); try done; [by eapply Some_Def|]. rewrite (same_fst1 _ _ _ E H).
    eapply (set_only_kept b); [done|by eapply set_only_reset_result|congruence].
  - (* OJoin *) nobj s sb Hsb. nobj a ab Hab. subst b. apply res_inv in H as (res & H & _). destruct (join_ok ord w s a sb ab w' res) as (_ & Hso & _); try done. eapply (set_only_kept false); [done|done|congruence].
  - (* OExclude *) nobj s sb Hsb. nobj a ab Hab. subst b. apply res_inv in H as (res & H & _). destruct (subtract_ok false ord w s a sb ab w' res) as (_ & Hso & _); try done. eapply (set_only_kept false); [done|done|congruence].
  - (* OIntersect *) nobj s sb Hsb. nobj a ab Hab. subst b. apply res_inv in H as (res & H & _). destruct (subtract_ok true ord w s a sb ab w' res) as (_ & Hso & _); try done. eapply (set_only_kept false); [done|done|congruence].
  - (* OUnion *) nobj a ab Hab. nobj b0 bb Hbb. nobj res rb Hrb. destruct HA as [-> HA]. apply res_inv in H as (rs & H & _).
    destruct (union_ok ord w a b0 res ab bb rb w' rs) as (_ & Hso & _); try done; [intros p pb Hp' Hpb; eapply (leftovers_target_inv false); [done..|]; by eapply HA|]. eapply (set_only_kept false); [done|done|congruence].
  - (* OIntersection *) nobj a ab Hab. nobj b0 bb Hbb. nobj res rb Hrb. destruct HA as [-> HA]. apply res_inv in H as (rs & H & _).
    destruct (intersection_ok ord w a b0 res ab bb rb w' rs) as (_ & Hso & _); try done; [intros p pb Hp' Hpb; eapply (leftovers_target_inv false); [done..|]; by eapply HA|]. eapply (set_only_kept false); [done|done|congruence].
  - (* OCopySet *) nobj src x Hsb. apply unit_inv in H as [H _]. destruct HA as [A1 A2]. destruct (o_parent x) as [q|] eqn:Ep; [|by destruct (A2 _ Hsb)].
    destruct (copy_construct_set_ok b ord w dst src x q) as (w1 & sb' & E & _ & Hso & _); try done; [by intros Hb; apply dependent_none; auto|by eapply Some_Def|]. rewrite (same_fst1 _ _ _ E H).
    eapply (set_only_kept b); [done|done|congruence].
  - (* OAssignSet *) nobj dst db Hdb. nobj src sb Hsb. apply unit_inv in H as [H _]. destruct (decide (dst = src)) as [->|Hne].
    + unfold copy_assign_set in H. rewrite decide_True in H by done. injection H as <-. apply kept_refl.
    + destruct (copy_assign_set_ok b ord w dst src sb db) as (w1 & sb' & E & _ & Hso & _); try done; [intros Hb q pb Hp' Hpb; eapply (leftovers_target_inv b); [done..|]; by eapply HA|by eapply Some_Def|].
      rewrite (same_fst1 _ _ _ E H). eapply (set_only_kept b); [done|done|congruence].
Qed.

(** C24 (and queries, references): operations on sets and references, and queries, leave the vaults and their records untouched. *)
Lemma t_C24_set_ops_leave_vaults :
  forall b ord w p w' out, fair ord -> reach b w -> allowed b w p -> set_or_ref_op w p -> step ord w p = Some (w', out) -> vaults_kept w w'.
Proof. intros b ord w p w' out Hf HR HA Hp H. by destruct (quiet_step _ _ _ _ _ _ Hf HR HA Hp H). Qed.
