(** C67: vaults and sets that an operation is not about stay as they are. *)
From Verif Require Export T_Idx IsolationSpec.
Open Scope nat_scope.

Definition same_at (s : nat) (w w' : world) : Prop := w_objs w' !! s = w_objs w !! s.
Lemma same_refl s w : same_at s w w.
Proof. done. Qed.
Lemma same_set_only t s sb w w' : set_at w s sb -> set_only t w w' -> t <> s -> same_at s w w'.
Proof.
  intros [H1 H2] H Hne. pose proof (son_objs _ _ _ H s (not_eq_sym Hne)) as E. unfold same_at. rewrite H1 in *. destruct (w_objs w' !! s); [|done].
  destruct E as (_ & E & _). by rewrite E.
Qed.
Lemma same_ref_only s w w' : ref_only w w' -> same_at s w w'.
Proof. intros H. unfold same_at. by rewrite (ro_objs _ _ H). Qed.
Lemma quiet_set b ord w p w' out tgt tgb : fair ord -> reach b w -> allowed b w p -> set_or_ref_op w p -> step ord w p = Some (w', out) -> set_at w tgt tgb -> ~ names_set tgt p -> same_at tgt w w'.
Proof.
  intros Hf HR HA Hp H HV Hnm. pose proof (reach_inv _ _ HR) as HI.
  destruct p; cbn [set_or_ref_op] in Hp; try done; cbn [step allowed names_set] in *;
    (apply guard_inv in H as [(_ & -> & _)|[Hg H]]; [by apply same_refl|]; guards).
  - (* ONewSet *) injection H as <- <-. unfold same_at. cbn. rewrite lookup_insert_ne; [done|]. destruct HV. congruence.
  - (* ODelSet *) apply unit_inv in H as [H _]. destruct (del_set_ok b ord w s x) as (E & HI'); try done; [by eapply Some_Def|]. rewrite H in E. injection E as ->.
    assert (Hso : set_only s w (reset_result s x w)) by (by eapply set_only_reset_result). unfold same_at. cbn [del_obj w_objs]. rewrite lookup_delete_ne by done.
    eapply same_set_only; [exact HV|exact Hso|congruence].
  - (* ONewRef *) by injection H as <- <-.
  - (* ODelRef *) apply unit_inv in H as [H _]. destruct (reset_ref_spec w f x) as (w1 & E & Hro & Hr); [apply HI|done|]. rewrite E in H. cbn in H. injection H as <-. by apply (same_ref_only tgt w w1).
  - (* OEraseRef *) destruct Hp as (sb & Hob & Hst). nref f rf Hrf. apply bool_inv in H as (bb & H & _). unfold erase_ref in H. rewrite Hob, Hrf in H. cbn [mbind option_bind] in H.
    rewrite Hst in H. cbn [andb] in H. destruct (o_parent sb) as [q|] eqn:Ep; cbn in H; [|injection H as <- <-; apply same_refl]. destruct (f_rec rf) as [r|]; [|injection H as <- <-; apply same_refl].
    destruct b; [specialize (HA eq_refl _ Hob Hst); congruence|]. destruct (remove_record_set_ok ord w o sb q r w' bb) as (HI' & Hso & _); try done.
    eapply same_set_only; [exact HV|exact Hso|congruence].
  - (* OEraseRecord *) destruct Hp as (sb & Hob & Hst). apply res_inv in H as (res & H & _). unfold set_parent_guard in H. rewrite Hob in H. cbn [mbind option_bind] in H. rewrite Hst in H. cbn [andb] in H.
    destruct (o_parent sb) as [q|] eqn:Ep; cbn [bool_decide option_eq_None_dec decide_rel] in *; [|injection H as <- <-; apply same_refl].
    destruct b; [specialize (HA eq_refl _ Hob Hst); congruence|]. destruct (erase_record_set_ok ord w o sb q k v w' res) as (HI' & Hso); try done.
    eapply same_set_only; [exact HV|exact Hso|congruence].
  - (* OEraseRecords *) destruct Hp as (sb & Hob & Hst). apply res_inv in H as (res & H & _). unfold set_parent_guard in H. rewrite Hob in H. cbn [mbind option_bind] in H. rewrite Hst in H. cbn [andb] in H.
    destruct (o_parent sb) as [q|] eqn:Ep; cbn [bool_decide option_eq_None_dec decide_rel] in *; [|injection H as <- <-; apply same_refl].
    destruct b; [specialize (HA eq_refl _ Hob Hst); congruence|]. destruct (erase_records_set_ok ord w o sb q k v amt w' res) as (HI' & Hso); try done.
    eapply same_set_only; [exact HV|exact Hso|congruence].
  - (* OGetRecord *) nobj o ob Hob. nref f rf Hrf. apply res_inv in H as (res & H & _). destruct (o_static_set ob) eqn:Hst.
    + destruct (get_record_set_ok b ord w o ob k v f rf) as (w1 & res1 & E & _ & Hc); try done; [|by eapply Some_Def|].
      { intros p pb r Hp' Hpb Hr Hl. eapply (HA ob p pb r); [done|done|done|by exists rf|by apply valid_rec_live]. }
      rewrite (same_fst _ _ _ _ _ E H). destruct (o_parent ob); [destruct Hc as (rf' & Hro & _); by apply same_ref_only|destruct Hc as [-> _]; apply same_refl].
    + destruct (get_record_vault_ok b ord w o ob k v f rf) as (w1 & res1 & rf' & E & _ & Hro & _); try done. rewrite (same_fst _ _ _ _ _ E H). by apply same_ref_only.
  - (* OGetRecords *) nobj o ob Hob. apply res_inv in H as (res & H & _). rewrite Hob in H. cbn [mbind option_bind] in H.
    destruct (get_records_step_ok b ord w o ob k v amt fs) as (w1 & res1 & E & _ & Hro & _); try done; [by eapply Some_Def|]. rewrite (same_fst _ _ _ _ _ E H). by apply same_ref_only.
  - (* OGetSorted *) apply unit_inv in H as [H _]. destruct (sorted_step_ok b w o x k rev amt fs) as (w1 & E & _ & Hro & _); try done; [by eapply Some_Def|]. rewrite (same_fst1 _ _ _ E H). by apply same_ref_only.
  - (* OCopyRef *) nref dst rd Hrd. nref src rs Hrs. apply unit_inv in H as [H _]. destruct (decide (dst = src)) as [->|Hne].
    + unfold copy_ref in H. rewrite decide_True in H by done. injection H as <-. apply same_refl.
    + destruct (copy_ref_spec w dst src rd rs) as (w1 & E & Hro & Hr); [apply HI|done|done|done|]. rewrite (same_fst1 _ _ _ E H). by apply same_ref_only.
  - (* OMoveRef *) nref dst rd Hrd. nref src rs Hrs. apply unit_inv in H as [H _]. destruct (decide (dst = src)) as [->|Hne].
    + unfold move_ref in H. rewrite decide_True in H by done. injection H as <-. apply same_refl.
    + destruct (move_ref_spec w dst src rd rs) as (w1 & E & Hro & Hr); [apply HI|done|done|done|]. rewrite (same_fst1 _ _ _ E H). by apply same_ref_only.
  - (* OResetRef *) apply unit_inv in H as [H _]. destruct (reset_ref_spec w f x) as (w1 & E & Hro & Hr); [apply HI|done|]. rewrite (same_fst1 _ _ _ E H). by apply same_ref_only.
  - (* ORequest *) nobj o ob Hob. nobj s sb Hsb. apply res_inv in H as (res & H & _).
    destruct (request_ok b ord w o ob rt k b0 (vcast (vty b0) e) ib ie amt p s sb) as (w1 & res1 & E & _ & Hso & _); try done;
      [intros Hb pv Hpv sb0 pb Hsb0 Hpb Hne; replace sb0 with sb in * by congruence; eapply (leftovers_target_inv b); [done..|]; by eapply HA|by apply vty_vcast|by eapply Some_Def|].
    rewrite (same_fst _ _ _ _ _ E H). eapply same_set_only; [exact HV|exact Hso|congruence].
  - (* OComplex *) nobj o ob Hob. nobj s sb Hsb. apply res_inv in H as (res & H & _). destruct HA as [A1 A2].
    destruct (complex_ok b ord w o ob q s sb) as (w1 & res1 & E & _ & Hso & _); try done;
      [intros Hb pv Hpv sb0 pb Hsb0 Hpb Hne; replace sb0 with sb in * by congruence; eapply (leftovers_target_inv b); [done..|]; by eapply A1|by eapply Some_Def|].
    rewrite (same_fst _ _ _ _ _ E H). eapply same_set_only; [exact HV|exact Hso|congruence].
  - (* OSetAdd *) apply res_inv in H as (res & H & _). destruct (set_add_ok b w s x f x0) as (w1 & res1 & E & _ & Hso); try done. rewrite (same_fst _ _ _ _ _ E H). eapply same_set_only; [exact HV|exact Hso|congruence].
  - (* OSetClear *) apply unit_inv in H as [H _]. destruct (set_clear_ok b ord w s x) as (E & HI'); try done; [by eapply Some_Def|]. rewrite (same_fst1 _ _ _ E H).
    destruct (o_parent x); [|apply same_refl]. eapply same_set_only; [exact HV|apply set_only_clear|congruence].
  - (* OSetReset *) apply unit_inv in H as [H _]. destruct (set_reset_ok b ord w s x) as (E & HI'); try done; [by eapply Some_Def|]. rewrite (same_fst1 _ _ _ E H).
    eapply same_set_only; [exact HV|by eapply set_only_reset_result|congruence].
  - (* OJoin *) nobj s sb Hsb. nobj a ab Hab. subst b. apply res_inv in H as (res & H & _). destruct (join_ok ord w s a sb ab w' res) as (_ & Hso & _); try done. eapply same_set_only; [exact HV|exact Hso|congruence].
  - (* OExclude *) nobj s sb Hsb. nobj a ab Hab. subst b. apply res_inv in H as (res & H & _). destruct (subtract_ok false ord w s a sb ab w' res) as (_ & Hso & _); try done. eapply same_set_only; [exact HV|exact Hso|congruence].
  - (* OIntersect *) nobj s sb Hsb. nobj a ab Hab. subst b. apply res_inv in H as (res & H & _). destruct (subtract_ok true ord w s a sb ab w' res) as (_ & Hso & _); try done. eapply same_set_only; [exact HV|exact Hso|congruence].
  - (* OUnion *) nobj a ab Hab. nobj b0 bb Hbb. nobj res rb Hrb. destruct HA as [-> HA]. apply res_inv in H as (rs & H & _).
    destruct (union_ok ord w a b0 res ab bb rb w' rs) as (_ & Hso & _); try done; [intros p pb Hp' Hpb; eapply (leftovers_target_inv false); [done..|]; by eapply HA|]. eapply same_set_only; [exact HV|exact Hso|congruence].
  - (* OIntersection *) nobj a ab Hab. nobj b0 bb Hbb. nobj res rb Hrb. destruct HA as [-> HA]. apply res_inv in H as (rs & H & _).
    destruct (intersection_ok ord w a b0 res ab bb rb w' rs) as (_ & Hso & _); try done; [intros p pb Hp' Hpb; eapply (leftovers_target_inv false); [done..|]; by eapply HA|]. eapply same_set_only; [exact HV|exact Hso|congruence].
  - (* OCopySet *) nobj src x Hsb. apply unit_inv in H as [H _]. destruct HA as [A1 A2]. destruct (o_parent x) as [q|] eqn:Ep; [|by destruct (A2 _ Hsb)].
    destruct (copy_construct_set_ok b ord w dst src x q) as (w1 & sb' & E & _ & Hso & _); try done; [by intros Hb; apply dependent_none; auto|by eapply Some_Def|]. rewrite (same_fst1 _ _ _ E H).
    eapply same_set_only; [exact HV|exact Hso|destruct HV; congruence].
  - (* OAssignSet *) nobj dst db Hdb. nobj src sb Hsb. apply unit_inv in H as [H _]. destruct (decide (dst = src)) as [->|Hne].
    + unfold copy_assign_set in H. rewrite decide_True in H by done. injection H as <-. apply same_refl.
    + destruct (copy_assign_set_ok b ord w dst src sb db) as (w1 & sb' & E & _ & Hso & _); try done; [intros Hb q pb Hp' Hpb; eapply (leftovers_target_inv b); [done..|]; by eapply HA|by eapply Some_Def|].
      rewrite (same_fst1 _ _ _ E H). eapply same_set_only; [exact HV|exact Hso|congruence].
Qed.
Lemma set_many_set b ord f ps x xb : forall w rf res w' res',
  fair ord -> Inv b w -> w_refs w !! f = Some rf -> ref_fit b w rf -> ref_set_many_loop ord w f ps res = Some (w', res') ->
  set_at w x xb -> (o_parent xb = None -> o_keys xb = ∅) -> (forall v r vb, o_parent xb = Some v -> f_rec rf = Some r -> vault_at w v vb -> r ∉ o_recs vb) -> w_objs w' !! x = w_objs w !! x.
Proof.
  induction ps as [|[k u] ps IH]; intros w rf res w' res' Hf HI Hrf Hfit H HV Hp Hr; cbn [ref_set_many_loop] in *; [by injection H as <- <-|].
  destruct (ref_set_data ord w f k u) as [[w1 res1]|] eqn:E1; [|done]. cbn [mbind option_bind] in H.
  destruct (ref_set_data_ok b ord w f rf k u) as (w2 & res2 & E & HI' & Hc); try done; [by eapply Some_Def|]. rewrite E1 in E. apply (inj Some) in E. injection E as <- <-.
  assert (W1 : w_objs w1 !! x = w_objs w !! x /\ ref_fit b w1 rf /\ w_refs w1 !! f = Some rf /\ (forall v r vb, o_parent xb = Some v -> f_rec rf = Some r -> vault_at w1 v vb -> r ∉ o_recs vb)).
  { destruct Hc as [[-> _]|(r1 & o & ob & rc & Hr1 & _ & Ho & Hos & Hin & Hrc & _ & _ & ->)]; [done|].
    assert (Hd1 : forall s1 pb, s1 ∈ ({[o]} ∪ r_deps rc : gset nat) -> w_objs w !! s1 = Some pb -> s1 = o \/ (o_static_set pb = true /\ forall p, o_parent pb = Some p -> exists vb, vault_at w p vb /\ r1 ∈ o_recs vb)).
    { intros s1 pb Hd Hpb. apply elem_of_union in Hd as [Hd|Hd]; [left; by apply elem_of_singleton in Hd|]. right.
      destruct (v_recs _ _ (vi_vault _ _ _ _ (inv_obj _ _ HI) _ _ Ho Hos) _ Hin) as (l & Hl & _).
      assert (Hdl : s1 ∈ l.2). { unfold live in Hl. rewrite lookup_live_of, Hrc in Hl. cbn in Hl. unfold live_rec in Hl. destruct (r_valid rc); [|done]. by injection Hl as <-. }
      destruct (vi_deps _ _ _ _ (inv_obj _ _ HI) _ _ _ Hl Hdl) as [D _]. destruct (D _ Hpb) as [D1 D2]. split; [done|]. intros p Hp'. destruct (D2 _ Hp') as (vb & V1 & V2 & V3). by exists vb. }
    destruct HV as [Hx Hxs].
    split; [|split; [by apply ref_fit_data_set|split; [done|]]].
    - cbn. rewrite lookup_upd_on, Hx. cbn. case_decide as Hd; [|done]. destruct (Hd1 _ _ Hd Hx) as [->|[_ D]]; [congruence|].
      destruct (o_parent xb) as [v|] eqn:Ep; [destruct (D _ eq_refl) as (vb & V1 & V2); by destruct (Hr v r1 vb)|]. unfold set_obj_data. by rewrite Hp.
    - intros v r vb Hpv Hrr [V1 V2] Hin2. cbn in V1. rewrite lookup_upd_on in V1. destruct (w_objs w !! v) as [vb0|] eqn:Ev; [|done]. cbn in V1. case_decide as Hd.
      + destruct (Hd1 _ _ Hd Ev) as [->|[D _]].
        * assert (ob = vb0) as -> by congruence. assert (r1 = r) as -> by congruence. by apply (Hr o r vb0).
        * apply (inj Some) in V1. subst vb. revert V2. unfold set_obj_data. repeat case_match; cbn; congruence.
      + apply (inj Some) in V1. subst vb0. by apply (Hr v r vb). }
  destruct W1 as (W1 & F1 & R1 & N1). destruct (res_ok res1); [|by injection H as <- <-]. rewrite <- W1. eapply (IH w1); try done. destruct HV as [Hx Hxs]. split; [by rewrite W1|done].
Qed.
Lemma step_set_untouched b ord w p w' out x xb :
  fair ord -> reach b w -> allowed b w p -> step ord w p = Some (w', out) -> set_at w x xb -> (forall v, o_parent xb = Some v -> ~ concerns w p v) -> ~ names_set x p -> same_at x w w'.
Proof.
  intros Hf HR HA H HV Hn Hnm. pose proof (reach_inv _ _ HR) as HI. pose proof HV as [Hx Hxs]. assert (Hnv : forall o ob, w_objs w !! o = Some ob -> o_static_set ob = false -> x <> o) by congruence.
  assert (Hnk : o_parent xb = None -> o_keys xb = ∅) by (intros Ev; by apply (so_none _ _ _ _ _ _ (vi_set _ _ _ _ (inv_obj _ _ HI) _ _ Hx Hxs) Ev)).
  assert (Hso : forall o, o_parent xb <> Some o -> ~ set_of w o x) by (intros o Ho (sb1 & E1 & _ & E2); congruence).
  assert (Hn1 : forall v, o_parent xb = Some v -> ~ schema_op v p) by (intros v Ev ?; apply (Hn v Ev); by left). assert (Hn2 : forall v, o_parent xb = Some v -> ~ adds_to v p) by (intros v Ev ?; apply (Hn v Ev); right; by left).
  assert (Hn3 : forall v, o_parent xb = Some v -> ~ takes_from v p) by (intros v Ev ?; apply (Hn v Ev); right; right; by left).
  assert (HQ : set_or_ref_op w p -> same_at x w w') by (intros Hq; by eapply quiet_set).
  assert (HE : forall o, erases_from o p -> same_at x w w').
  { intros o Hp. destruct (w_objs w !! o) as [ob|] eqn:Ho.
    2:{ destruct p; cbn in Hp; try done; subst; cbn [step] in H; unfold is_obj in H; rewrite (bool_decide_false (is_Some (w_objs w !! o))) in H by (rewrite Ho; by intros [? ?]);
        cbn in H; injection H as <- <-; apply same_refl. }
    destruct (o_static_set ob) eqn:Hs.
    { apply HQ. destruct p; cbn in Hp; try done; subst; by exists ob. }
    assert (Hxo : x <> o) by congruence. assert (Hvo : o_parent xb <> Some o). { intros Eq. apply (Hn3 _ Eq). by destruct p. }
    destruct (erase_step _ _ _ _ _ _ _ _ Hf HR (conj Ho Hs) Hp H) as [->|(X & _ & _ & Hin & He)]; [apply same_refl|].
    pose proof (er_objs _ _ _ _ He x Hxo) as Hob. rewrite Hx in Hob. destruct (w_objs w' !! x) as [xb'|] eqn:E; [|done]. destruct Hob as (_ & Hob & _).
    unfold same_at. rewrite E, Hx. f_equal. by apply Hob, Hso. }
  destruct p; try (by apply HQ); try (by eapply HE); clear HQ HE; cbn [step allowed] in *; try done;
    (apply guard_inv in H as [(Hg & -> & _)|[Hg H]]; [apply same_refl|guards]).
  - (* ONewVault *) injection H as <- <-. unfold same_at. cbn. rewrite lookup_insert_ne; [done|congruence].
  - (* ODelVault *) apply unit_inv in H as [H _]. destruct (drop_vault ord w o) as [w1|] eqn:E1; [|done]. cbn in H. injection H as <-. assert (o_parent xb <> Some o) by (intros Eq; by apply (Hn3 _ Eq)).
    nobj o ob Ho. destruct (drop_vault_ok b ord w o ob) as (w2 & E & HI' & Hd); try done; [by eapply Some_Def|]. assert (w2 = w1) as -> by congruence.
    unfold same_at. cbn. rewrite lookup_delete_ne by congruence. apply (dr_objs _ _ _ Hd); [congruence|by apply Hso].
  - (* OAddKey *) apply res_inv in H as (res & H & _). assert (o_parent xb <> Some o) by (intros Eq; by apply (Hn1 _ Eq)). nobj o ob Ho. destruct (o_keys ob !! k) as [[t d0]|] eqn:Ek.
    + unfold add_key, add_key_local in H. rewrite Ho in H. cbn [mbind option_bind] in H. rewrite Ek in H. cbn in H. injection H as <- <-. apply same_refl.
    + destruct (add_key_plain_ok b ord w o ob k d) as (w1 & E & _ & Hka & _); try done; [by eapply Some_Def|]. rewrite (same_fst _ _ _ _ _ E H). apply (ka_objs _ _ _ _ _ _ _ _ Hka); [congruence|by apply Hso].
  - (* OAddUniqueKey *) apply res_inv in H as (res & H & _). assert (o_parent xb <> Some o) by (intros Eq; by apply (Hn1 _ Eq)). nobj o ob Ho. destruct (o_keys ob !! k) as [[t' d0]|] eqn:Ek.
    + unfold add_key, add_key_local in H. rewrite Ho in H. cbn [mbind option_bind] in H. rewrite Ek in H. cbn in H. injection H as <- <-. apply same_refl.
    + destruct (add_key_uniq_ok b ord w o ob k (vzero t) (fun _ _ _ => vzero t) true) as (w1 & res1 & E & _ & Hka); try done; [by auto|by eapply Some_Def|]. rewrite (same_fst _ _ _ _ _ E H).
      destruct (decide _); [destruct Hka as [-> _]; unfold same_at; cbn; rewrite lookup_insert_ne; [done|congruence]|].
      destruct (decide _); [|destruct Hka as [-> _]; unfold same_at; cbn; rewrite lookup_insert_ne; [done|congruence]].
      destruct Hka as (_ & V & Hka & _). apply (ka_objs _ _ _ _ _ _ _ _ Hka); [congruence|by apply Hso].
  - (* OAddUniqueKeyFn *) apply res_inv in H as (res & H & _). assert (o_parent xb <> Some o) by (intros Eq; by apply (Hn1 _ Eq)). nobj o ob Ho. destruct (o_keys ob !! k) as [[t' d0]|] eqn:Ek.
    + unfold add_key, add_key_local in H. rewrite Ho in H. cbn [mbind option_bind] in H. rewrite Ek in H. cbn in H. injection H as <- <-. apply same_refl.
    + destruct (add_key_uniq_ok b ord w o ob k (vzero t) g false) as (w1 & res1 & E & _ & Hka); try done; [by intros; right; eauto|by eapply Some_Def|]. rewrite (same_fst _ _ _ _ _ E H).
      destruct (decide _); [destruct Hka as [-> _]; unfold same_at; cbn; rewrite lookup_insert_ne; [done|congruence]|].
      destruct (decide _); [|destruct Hka as [-> _]; unfold same_at; cbn; rewrite lookup_insert_ne; [done|congruence]].
      destruct Hka as (_ & V & Hka & _). apply (ka_objs _ _ _ _ _ _ _ _ Hka); [congruence|by apply Hso].
  - (* OUpdateKey *) apply res_inv in H as (res & H & _). assert (o_parent xb <> Some o) by (intros Eq; by apply (Hn1 _ Eq)). nobj o ob Ho. destruct (update_key_ok b w o ob k d) as (w1 & E & _ & ->); try done. rewrite (same_fst _ _ _ _ _ E H).
    destruct (res_ok _); [|apply same_refl]. unfold same_at. cbn. rewrite lookup_insert_ne; [done|congruence].
  - (* ORemoveKey *) apply bool_inv in H as (res & H & _). assert (o_parent xb <> Some o) by (intros Eq; by apply (Hn1 _ Eq)). nobj o ob Ho. destruct (remove_key_ok b ord w o ob k) as (w1 & E & _ & ->); try done. rewrite (same_fst _ _ _ _ _ E H).
    destruct (decide _); [|apply same_refl]. unfold same_at. cbn. rewrite lookup_upd_on, Hx. cbn. rewrite decide_False; [done|].
    intros Hin. apply elem_of_union in Hin as [Hin|Hin]; [apply elem_of_singleton in Hin; congruence|].
    match goal with Hos : o_static_set ob = false |- _ => destruct (vi_sets _ _ _ _ (inv_obj _ _ HI) _ _ _ Ho Hos Hin) as (sb & E1 & E2 & E3) end. congruence.
  - (* OCreateRecord *) apply res_inv in H as (res & H & _). assert (o_parent xb <> Some o) by (intros Eq; by apply (Hn2 _ Eq)). nobj o ob Ho. destruct (create_record_ok b w o ob f ps) as (w1 & res1 & E & _ & Hc); try done.
    { intros f0 ->. match goal with H : is_ref _ _ = true |- _ => apply is_ref_true in H as (rf & Hrf) end. eauto. }
    rewrite (same_fst _ _ _ _ _ E H). destruct Hc as [(p1 & p & p2 & _ & _ & _ & -> & _)|[(_ & k1 & k & k2 & td & _ & _ & _ & _ & -> & _)|(_ & _ & Hw & _)]].
    + apply same_refl.
    + done.
    + assert (G : grown o w (created o ob (overlay ps (o_tmpl ob)) w)) by (by apply grown_created).
      destruct f as [f|]; [|subst w1; unfold same_at; apply (gr_objs _ _ _ G); congruence].
      destruct Hw as [Hro _]. unfold same_at. rewrite (ro_objs _ _ Hro). apply (gr_objs _ _ _ G); congruence.
  - (* OReadRows *) apply unit_inv in H as [H _]. assert (o_parent xb <> Some o) by (intros Eq; by apply (Hn2 _ Eq)). nobj o ob Ho. unfold read_rows in H. rewrite Ho in H. cbn [mbind option_bind] in H.
    assert (G : grown o w w').
    { eapply grown_trans; [by apply (grown_set o ob (ob_bad [] ob))|].
      eapply (read_rows_loop_grown b _ _ _ _ _ _ _ (ob_bad [] ob)); [by apply bad_inv|cbn; by rewrite lookup_insert|done|exact H]. }
    unfold same_at. apply (gr_objs _ _ _ G); congruence.
  - (* OSetData *) apply res_inv in H as (res & H & _). nref f rf Hrf. unfold same_at.
    eapply (set_many_set b ord f [(k, v)] x xb w rf res w' res); try done; [by apply HA| |].
    + cbn [ref_set_many_loop]. rewrite H. cbn. by destruct (res_ok res).
    + intros v0 r vb Ev Hr Hvb Hin. apply (Hn v0 Ev). right. right. right. exists f, r, vb. split; [done|]. split; [done|]. split; [by exists rf|done].
  - (* OSetMany *) apply res_inv in H as (res & H & _). nref f rf Hrf. destruct (HA _ Hrf) as [A1 A2]. unfold ref_set_many in H. rewrite Hrf in H. cbn [mbind option_bind] in H.
    destruct (f_vlt rf) as [o|]; [|done]. cbn [mbind option_bind] in H. destruct (w_objs w !! o) as [ob|] eqn:Ho; [|done]. cbn [mbind option_bind] in H.
    unfold same_at. eapply (set_many_set b); try done.
    intros v0 r vb Ev Hr Hvb Hin. apply (Hn v0 Ev). right. right. right. exists f, r, vb. split; [done|]. split; [done|]. split; [by exists rf|done].
  - (* ODropData *) apply unit_inv in H as [H _]. assert (o_parent xb <> Some o) by (intros Eq; by apply (Hn3 _ Eq)). nobj o ob Ho. destruct (drop_data_ok b ord w o ob) as (w1 & E & _ & Hd); try done; [by eapply Some_Def|]. rewrite (same_fst1 _ _ _ E H).
    unfold same_at. apply (em_objs _ _ _ Hd); [congruence|by apply Hso].
  - (* ODropVault *) apply unit_inv in H as [H _]. assert (o_parent xb <> Some o) by (intros Eq; by apply (Hn3 _ Eq)). nobj o ob Ho. destruct (drop_vault_ok b ord w o ob) as (w1 & E & _ & Hd); try done; [by eapply Some_Def|]. rewrite (same_fst1 _ _ _ E H).
    unfold same_at. apply (dr_objs _ _ _ Hd); [congruence|by apply Hso].
  - (* OCopyVault *) apply unit_inv in H as [H _]. destruct HA as [A1 A2]. nobj src sb Hsb. destruct (copy_construct_vault_ok b ord w dst src sb) as (w1 & E & Hc & _); try done; [by apply unmentioned_unused; auto|].
    rewrite (same_fst1 _ _ _ E H). unfold same_at. rewrite (cp_objs _ _ _ _ Hc) by congruence. cbn. rewrite lookup_insert_ne by congruence. done.
  - (* OAssignVault *) apply unit_inv in H as [H _]. assert (o_parent xb <> Some dst) by (intros Eq; by apply (Hn3 _ Eq)). nobj src sb Hsb. destruct (decide (dst = src)) as [->|Hne].
    + unfold copy_assign_vault in H. rewrite decide_True in H by done. injection H as <-. apply same_refl.
    + nobj dst db Hdb. destruct (copy_assign_vault_ok b ord w dst src sb db) as (w1 & w2 & E & _ & Hd & _ & Hc & _); try done; [by eapply Some_Def|]. rewrite (same_fst1 _ _ _ E H).
      unfold same_at. rewrite (cp_objs _ _ _ _ Hc) by congruence. cbn. rewrite lookup_insert_ne by congruence. apply (dr_objs _ _ _ Hd); [congruence|by apply Hso].
  - (* OMoveVault *) apply unit_inv in H as [H _]. destruct HA as [A1 A2]. assert (o_parent xb <> Some dst) by (intros Eq; apply (Hn3 _ Eq); by left). assert (o_parent xb <> Some src) by (intros Eq; apply (Hn3 _ Eq); by right). nobj src sb Hsb.
    destruct (move_construct_vault_ok b w dst src sb) as (E & _); try done; [by apply unmentioned_unused; auto|by apply unshared_lonely|].
    rewrite (same_fst1 _ _ _ E H). unfold same_at. cbn. rewrite !lookup_insert_ne by congruence; done.
  - (* OMoveAssignVault *) apply unit_inv in H as [H _]. assert (o_parent xb <> Some dst) by (intros Eq; apply (Hn3 _ Eq); by left). assert (o_parent xb <> Some src) by (intros Eq; apply (Hn3 _ Eq); by right). nobj dst db Hdb. nobj src sb Hsb.
    destruct (decide (dst = src)) as [->|Hne].
    + unfold move_assign_vault in H. rewrite decide_True in H by done. injection H as <-. apply same_refl.
    + destruct (move_assign_vault_ok b ord w dst src db sb) as (w1 & _ & Hd & HI1 & Hs1 & E & _); try done; [by apply unshared_lonely; auto|by eapply Some_Def|]. rewrite (same_fst1 _ _ _ E H).
      unfold same_at. cbn. rewrite !lookup_insert_ne by congruence. apply (dr_objs _ _ _ Hd); [congruence|by apply Hso].
Qed.

(** C67: an operation that is not about a vault leaves every set of it alone unless it names the set: same records, same keys, same answers. *)
Lemma t_C67_sets_isolated :
  forall b ord w p w' out s sb, fair ord -> reach b w -> allowed b w p -> step ord w p = Some (w', out) -> set_at w s sb ->
    (forall v, o_parent sb = Some v -> ~ concerns w p v) -> ~ names_set s p -> set_same w w' s sb.
Proof.
  intros b ord w p w' out s sb Hf HR HA H HV Hn Hnm. pose proof (reach_inv _ _ HR) as HI. pose proof HV as [Hs Hst].
  split. { split; [|done]. rewrite <- Hs. by eapply step_set_untouched. }
  destruct (o_parent sb) as [v|] eqn:Hp; [specialize (Hn _ eq_refl)|].
  2:{ destruct (so_none _ _ _ _ _ _ (vi_set _ _ _ _ (inv_obj _ _ HI) _ _ Hs Hst) Hp) as (_ & _ & _ & _ & _ & ->). intros r Hr. by apply not_elem_of_empty in Hr. }
  destruct (so_some _ _ _ _ _ _ (vi_set _ _ _ _ (inv_obj _ _ HI) _ _ Hs Hst) _ Hp) as (pb & P1 & P2 & _ & P4).
  intros r Hr. pose proof (so_brecs _ _ _ _ _ _ (vi_set _ _ _ _ (inv_obj _ _ HI) _ _ Hs Hst) _ Hr) as Hb.
  destruct (t_C27_independent_step _ _ _ _ _ _ _ _ Hf HR HA H (conj P1 P2) Hn) as (pb' & [V1 V2] & Epb & HVr).
  destruct (ef_live _ _ _ (step_effect _ _ _ _ _ _ Hf HR HA H) r Hb) as [E0|[E0 _]].
  - destruct (live w !! r) as [l|] eqn:El.
    + destruct (HVr r (sp_recs _ _ _ _ _ P4 _ Hr (mk_is_Some _ _ El))) as [K1 _]. apply valid_rec_live in K1. rewrite E0 in K1. by destruct K1.
    + split; [by rewrite !valid_rec_live, E0, El|]. intros k. rewrite !stored_val_of. unfold val_of. by rewrite E0, El.
  - destruct (HVr r (sp_recs _ _ _ _ _ P4 _ Hr E0)) as [K1 K2]. split; [|done]. rewrite !valid_rec_live in *. done.
Qed.
(** C67: the same for any number of operations. *)
Lemma t_C67_sets_stay_as_they_are :
  forall b w w' s sb, reach b w -> set_at w s sb ->
    later_while b (fun w1 p => (forall v, o_parent sb = Some v -> ~ concerns w1 p v) /\ ~ names_set s p) w w' -> set_same w w' s sb.
Proof.
  intros b w w' s sb HR HV HL. assert (reach b w' /\ set_same w w' s sb) as [_ ?]; [|done]. induction HL as [|ord w1 p w2 out HL IH Hf HA [HQ1 HQ2] H]; [done|].
  destruct IH as (HR1 & V1 & S1). split; [by eapply reach_step|]. destruct (t_C67_sets_isolated _ _ _ _ _ _ _ _ Hf HR1 HA H V1 HQ1 HQ2) as (V2 & S2).
  split; [done|]. intros r Hr. destruct (S1 r Hr) as [A1 A2], (S2 r Hr) as [B1 B2]. split; [by rewrite B1|]. intros k. by rewrite B2.
Qed.
(** C67: an operation that is not about a vault leaves its keys, records, values and all answers of its queries alone. *)
Lemma t_C67_vaults_isolated :
  forall b ord w p w' out v vb, fair ord -> reach b w -> allowed b w p -> step ord w p = Some (w', out) -> vault_at w v vb -> ~ concerns w p v -> vault_same w w' v vb.
Proof. exact t_C27_independent_step. Qed.
