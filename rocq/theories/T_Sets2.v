(** Lemmas for C24 and C45: which operations put records into a set, and which ones change its vault. *)
From Verif Require Export T_Drop.
Open Scope nat_scope.

(** ** What removal from a set does exactly *)
Definition in_set_only (s : nat) (sb : obj) (X : list nat) (w w' : world) : Prop :=
  set_only s w w' /\ exists sb', set_at w' s sb' /\ o_parent sb' = o_parent sb /\ o_recs sb' = o_recs sb ∖ list_to_set X /\ same_schema sb sb'.
Lemma in_set_only_refl s sb w : set_at w s sb -> in_set_only s sb [] w w.
Proof. intros H. split; [apply set_only_refl|]. exists sb. split; [done|]. split; [done|]. split; [clear; set_solver|done]. Qed.

Lemma erase_record_in_set ord w s sb p k v w' res :
  Inv false w -> set_at w s sb -> o_parent sb = Some p -> erase_record ord w s k v = Some (w', res) ->
  exists X, in_set_only s sb X w w' /\
    (res_ok res = true -> get_key_type sb k = Some (vty v) /\ res = okres Success k (Some (vty v)) (Some (vty v)) /\ exists r ix, X = [r] /\ o_idx sb !! k = Some ix /\ r ∈ ord (snd <$> equal_range v (ix_hash ix))) /\
    (res_ok res = false -> w' = w /\ X = [] /\ res = match get_key_type sb k with
                         | None => bad WrongKey k (Some (vty v)) None
                         | Some t => if decide (t = vty v) then bad WrongValue k (Some (vty v)) (Some t) else bad WrongType k (Some (vty v)) (Some t)
                         end /\ (get_key_type sb k = Some (vty v) -> forall ix, o_idx sb !! k = Some ix -> ord (snd <$> equal_range v (ix_hash ix)) = [])).
Proof.
  intros HI HS Hp H. pose proof HS as [Hs Hst]. unfold erase_record in H. rewrite Hs in H. cbn [mbind option_bind] in H. unfold get_key_type.
  destruct (o_keys sb !! k) as [[t d]|] eqn:Ek; cbn [fmap option_fmap option_map fst].
  2:{ injection H as <- <-. exists []. split; [by apply in_set_only_refl|]. split; [done|]. intros _. done. }
  destruct (decide (t = vty v)) as [Et|Et].
  2:{ injection H as <- <-. exists []. split; [by apply in_set_only_refl|]. split; [done|]. intros _. split; [done|]. split; [done|]. split; [done|]. congruence. }
  destruct (o_idx sb !! k) as [ix|] eqn:Eix; [|done]. cbn [mbind option_bind] in H.
  destruct (ord _) as [|r l] eqn:El.
  { injection H as <- <-. exists []. split; [by apply in_set_only_refl|]. split; [done|]. intros _. split; [done|]. split; [done|]. split; [done|]. congruence. }
  destruct (detach _ _ _ _ _) as [w1|] eqn:E; [|done]. cbn in H. injection H as <- <-. unfold dfuel in E.
  destruct (detach_set_ok _ _ _ _ _ _ _ _ HI Hs Hst Hp E) as (rc & Hrc & -> & HI1). exists [r]. split; [|split; [|done]].
  - split; [apply set_only_set|]. exists (drop_rec (r_data rc) r sb). split; [split; [cbn; by rewrite lookup_insert|done]|]. split; [done|]. split; [cbn; clear; set_solver|done].
  - intros _. split; [by rewrite Et|]. split; [by rewrite Et|]. exists r, ix. split; [done|]. split; [done|]. rewrite El. by left.
Qed.
Lemma erase_records_in_set ord w s sb p k v amt w' res :
  Inv false w -> set_at w s sb -> o_parent sb = Some p -> erase_records ord w s k v amt = Some (w', res) ->
  exists X, in_set_only s sb X w w' /\
    (res_ok res = true -> get_key_type sb k = Some (vty v) /\ res = okres Success k (Some (vty v)) (Some (vty v)) /\ X <> [] /\ exists ix, o_idx sb !! k = Some ix /\ X = limit1 amt (ord (snd <$> equal_range v (ix_hash ix)))) /\
    (res_ok res = false -> w' = w /\ X = [] /\ res = match get_key_type sb k with
                         | None => bad WrongKey k (Some (vty v)) None
                         | Some t => if decide (t = vty v) then bad WrongValue k (Some (vty v)) (Some t) else bad WrongType k (Some (vty v)) (Some t)
                         end /\ (get_key_type sb k = Some (vty v) -> forall ix, o_idx sb !! k = Some ix -> ord (snd <$> equal_range v (ix_hash ix)) = [])).
Proof.
  intros HI HS Hp H. pose proof HS as [Hs Hst]. unfold erase_records in H. rewrite Hs in H. cbn [mbind option_bind] in H. unfold get_key_type.
  destruct (o_keys sb !! k) as [[t d]|] eqn:Ek; cbn [fmap option_fmap option_map fst].
  2:{ injection H as <- <-. exists []. split; [by apply in_set_only_refl|]. split; [done|]. intros _. done. }
  destruct (decide (t = vty v)) as [Et|Et].
  2:{ injection H as <- <-. exists []. split; [by apply in_set_only_refl|]. split; [done|]. intros _. split; [done|]. split; [done|]. split; [done|]. congruence. }
  destruct (o_idx sb !! k) as [ix|] eqn:Eix; [|done]. cbn [mbind option_bind] in H.
  destruct (ord _) as [|r l] eqn:El.
  { injection H as <- <-. exists []. split; [by apply in_set_only_refl|]. split; [done|]. intros _. split; [done|]. split; [done|]. split; [done|]. congruence. }
  destruct (foldM _ _ _) as [w1|] eqn:E; [|done]. cbn in H. injection H as <- <-.
  destruct (detach_set_fold _ _ _ _ _ _ _ HI Hs Hst Hp E) as (H1 & H2 & sb' & H3 & H4 & H5). exists (limit1 amt (r :: l)). split; [|split; [|done]].
  - split; [done|]. exists sb'. split; [split; [done|by rewrite H4]|]. split; [by rewrite H4|]. split; [done|by rewrite H4].
  - intros _. split; [by rewrite Et|]. split; [by rewrite Et|]. split; [destruct amt as [[|n]|]; done|]. exists ix. split; [done|]. by rewrite El.
Qed.

Lemma remove_ref_in_set ord w s sb p r w' bb :
  Inv false w -> set_at w s sb -> o_parent sb = Some p -> remove_record ord w s r = Some (w', bb) ->
  bb = bool_decide (r ∈ o_recs sb) /\ (bb = false -> w' = w) /\ exists X, in_set_only s sb X w w' /\ X = if bb then [r] else [].
Proof.
  intros HI HS Hp H. pose proof HS as [Hs Hst]. unfold remove_record in H. rewrite Hs in H. cbn [mbind option_bind] in H.
  destruct (decide (r ∈ o_recs sb)) as [Hin|Hni].
  - destruct (detach _ _ _ _ _) as [w1|] eqn:E; [|done]. cbn in H. injection H as <- <-. unfold dfuel in E. rewrite bool_decide_true by done. split; [done|]. split; [done|].
    destruct (detach_set_ok _ _ _ _ _ _ _ _ HI Hs Hst Hp E) as (rc & Hrc & -> & HI'). exists [r]. split; [|done]. split; [apply set_only_set|].
    exists (drop_rec (r_data rc) r sb). split; [split; [cbn; by rewrite lookup_insert|done]|]. split; [done|]. split; [cbn; clear; set_solver|done].
  - injection H as <- <-. rewrite bool_decide_false by done. split; [done|]. split; [done|]. exists []. split; [by apply in_set_only_refl|done].
Qed.

(** ** The effect of every operation on a set *)
Definition set_fate (p : op) (s : nat) (sb : obj) (w' : world) : Prop :=
  exists sb', set_at w' s sb' /\ (fills s p \/ o_recs sb' ⊆ o_recs sb) /\
    (o_parent sb' = o_parent sb \/ rebinds s p \/ exists o, o_parent sb = Some o /\ ends_vault o p /\ o_parent sb' = None).
Lemma fate_same p s sb w' : set_at w' s sb -> set_fate p s sb w'.
Proof. intros H. exists sb. split; [done|]. split; [by right|by left]. Qed.
Lemma fate_only p s sb w w' t : set_at w s sb -> set_only t w w' -> t <> s -> set_fate p s sb w'.
Proof. intros HS Hso Hne. apply fate_same. eapply set_only_other; [done| |done]. congruence. Qed.
Lemma fate_objs p s sb w w' : set_at w s sb -> w_objs w' = w_objs w -> set_fate p s sb w'.
Proof. intros [HS HS'] E. apply fate_same. split; [by rewrite E|done]. Qed.
Lemma fate_obj p s sb w w' : set_at w s sb -> w_objs w' !! s = w_objs w !! s -> set_fate p s sb w'.
Proof. intros [HS HS'] E. apply fate_same. split; [by rewrite E|done]. Qed.
Lemma fate_key_added p s sb w w' o k d u V rs : set_at w s sb -> (forall ob, w_objs w !! o = Some ob -> o_static_set ob = false) -> key_added o k d u V rs w w' -> set_fate p s sb w'.
Proof.
  intros HS Ho Hka. pose proof HS as [Hs Hst]. destruct (decide (s = o)) as [->|Hne]; [rewrite (Ho _ Hs) in Hst; done|].
  destruct (decide (o_parent sb = Some o)) as [Hp|Hp].
  - destruct (ka_sets _ _ _ _ _ _ _ _ Hka s) as (xb & xb' & E1 & E2 & K). { exists sb. done. } assert (xb = sb) as -> by congruence. destruct K as (K1 & K2 & K3 & K4 & K5 & K6).
    exists xb'. split; [split; [done|by rewrite K1]|]. split; [right; by rewrite K5|by left].
  - eapply fate_obj; [done|]. apply (ka_objs _ _ _ _ _ _ _ _ Hka); [done|]. intros (xb & E1 & E2 & E3). congruence.
Qed.

Lemma set_step b ord w p w' out s sb :
  fair ord -> reach b w -> allowed b w p -> step ord w p = Some (w', out) -> set_at w s sb -> p <> ODelSet s -> set_fate p s sb w'.
Proof.
  intros Hf HR HA H HS Hnd. pose proof (reach_inv _ _ HR) as HI. pose proof HS as [Hs Hst].
  assert (HW : forall o ob, w_objs w !! o = Some ob -> o_static_set ob = false -> s <> o) by (intros o ob Ho Hob ->; congruence).
  assert (HE : forall o, erases_from o p -> set_fate p s sb w').
  { intros o Hp. destruct (w_objs w !! o) as [ob|] eqn:Ho.
    2:{ destruct p; cbn in Hp; try done; subst; cbn [step] in H; unfold is_obj in H; rewrite (bool_decide_false (is_Some (w_objs w !! o))) in H by (rewrite Ho; by intros [? ?]);
        cbn in H; injection H as <- <-; by apply fate_same. }
    destruct (o_static_set ob) eqn:Hos.
    - assert (HO : set_at w o ob) by done. destruct (o_parent ob) as [q|] eqn:Ep.
      2:{ assert (w' = w) as ->; [|by apply fate_same]. destruct p; cbn in Hp; try done; subst; cbn [step] in H; unfold is_obj in H; rewrite (bool_decide_true (is_Some (w_objs w !! o))) in H by eauto; cbn [andb guard_op] in H.
          - destruct (is_ref w f); cbn [guard_op] in H; [|by injection H]. apply bool_inv in H as (bb & H & _). unfold erase_ref in H. rewrite Ho in H. cbn [mbind option_bind] in H. destruct (w_refs w !! f); [|done]. cbn [mbind option_bind] in H. rewrite Hos, Ep in H. cbn in H. by injection H.
          - apply res_inv in H as (res & H & _). unfold set_parent_guard in H. rewrite Ho in H. cbn [mbind option_bind] in H. rewrite Hos, Ep in H. cbn in H. by injection H.
          - apply res_inv in H as (res & H & _). unfold set_parent_guard in H. rewrite Ho in H. cbn [mbind option_bind] in H. rewrite Hos, Ep in H. cbn in H. by injection H. }
      assert (HX : exists X, in_set_only o ob X w w').
      { pose proof (Inv_wide _ _ HI) as HI0. destruct p; cbn in Hp; try done; subst; cbn [step] in H; unfold is_obj in H; rewrite (bool_decide_true (is_Some (w_objs w !! o))) in H by eauto; cbn [andb guard_op] in H.
        - destruct (is_ref w f) eqn:Erf; cbn [guard_op] in H; [|injection H as <- <-; exists []; by apply in_set_only_refl]. apply bool_inv in H as (bb & H & _). unfold erase_ref in H. rewrite Ho in H. cbn [mbind option_bind] in H.
          destruct (w_refs w !! f) as [rf|]; [|done]. cbn [mbind option_bind] in H. rewrite Hos, Ep in H. rewrite bool_decide_false in H by done. cbn [andb] in H.
          destruct (f_rec rf) as [r|]; [|injection H as <- <-; exists []; by apply in_set_only_refl].
          destruct (remove_ref_in_set ord w o ob q r w' bb) as (_ & _ & X & HX & _); try done. by exists X.
        - apply res_inv in H as (res & H & _). unfold set_parent_guard in H. rewrite Ho in H. cbn [mbind option_bind] in H. rewrite Hos, Ep in H. rewrite bool_decide_false in H by done. cbn [andb] in H.
          destruct (erase_record_in_set ord w o ob q k v w' res) as (X & HX & _); try done. by exists X.
        - apply res_inv in H as (res & H & _). unfold set_parent_guard in H. rewrite Ho in H. cbn [mbind option_bind] in H. rewrite Hos, Ep in H. rewrite bool_decide_false in H by done. cbn [andb] in H.
          destruct (erase_records_in_set ord w o ob q k v amt w' res) as (X & HX & _); try done. by exists X. }
      destruct HX as (X & Hso & sb' & S1 & S2 & S3 & S4). destruct (decide (o = s)) as [->|Hne]; [|by eapply fate_only].
      assert (ob = sb) as -> by congruence. exists sb'. split; [done|]. split; [right; rewrite S3; clear; set_solver|by left].
    - destruct (erase_step _ _ _ _ _ _ _ _ Hf HR (conj Ho Hos) Hp H) as [->|(X & _ & _ & Hin & He)]; [by apply fate_same|].
      pose proof (er_objs _ _ _ _ He s (HW _ _ Ho Hos)) as E. rewrite Hs in E. destruct (w_objs w' !! s) as [sb'|] eqn:Es; [|done]. destruct E as (E1 & _ & E3).
      exists sb'. split; [split; [done|by rewrite E1]|]. split; [right; intros r Hr; by apply E3 in Hr as [? _]|left; by rewrite E1]. }
  destruct p; try (by destruct HA); try (by eapply HE); clear HE; cbn [step allowed] in *; try done;
    (apply guard_inv in H as [(Hg & -> & _)|[Hg H]]; [by apply fate_same|guards]).
  - (* ONewVault *) injection H as <- <-. eapply fate_obj; [done|]. cbn. rewrite lookup_insert_ne; [done|congruence].
  - (* ODelVault *) apply unit_inv in H as [H _]. destruct (drop_vault ord w o) as [w1|] eqn:E1; [|done]. cbn in H. injection H as <-.
    destruct (drop_vault_ok b ord w o x) as (w2 & E & HI' & Hd); try done; [by eapply Some_Def|]. assert (w2 = w1) as -> by congruence.
    assert (s <> o) by eauto. destruct (decide (o_parent sb = Some o)) as [Hp|Hp].
    + exists (reset_obj sb). split; [split; [|done]|]. { cbn. rewrite lookup_delete_ne by done. by apply (dr_sets _ _ _ Hd). } split; [right; cbn; clear; set_solver|]. right. right. exists o. done.
    + eapply fate_obj; [done|]. cbn. rewrite lookup_delete_ne by done. apply (dr_objs _ _ _ Hd); [done|]. intros (xb & X1 & X2 & X3). congruence.
  - (* ONewSet *) injection H as <- <-. eapply fate_obj; [done|]. cbn. rewrite lookup_insert_ne; [done|congruence].
  - (* ODelSet *) apply unit_inv in H as [H _]. destruct (del_set_ok b ord w s0 x) as (E & HI'); try done; [by eapply Some_Def|]. rewrite H in E. injection E as ->.
    assert (Hso : set_only s0 w (reset_result s0 x w)) by (by eapply set_only_reset_result). assert (s0 <> s) by congruence.
    apply fate_same. destruct (set_only_other _ _ _ s sb Hso) as [K1 K2]; [congruence|done|]. split; [|done]. cbn. rewrite lookup_delete_ne by done. done.
  - (* ONewRef *) injection H as <- <-. by apply fate_same.
  - (* ODelRef *) apply unit_inv in H as [H _]. destruct (reset_ref_spec w f x) as (w1 & E & Hro & Hr); [apply HI|done|]. rewrite E in H. cbn in H. injection H as <-.
    eapply fate_objs; [done|]. cbn. apply (ro_objs _ _ Hro).
  - (* OAddKey *) apply res_inv in H as (res & H & _). destruct (o_keys x !! k) as [[t d0]|] eqn:Ek.
    + unfold add_key, add_key_local in H. match goal with E : w_objs w !! o = Some x |- _ => rewrite E in H end. cbn [mbind option_bind] in H. rewrite Ek in H. cbn in H. injection H as <- <-. by apply fate_same.
    + destruct (add_key_plain_ok b ord w o x k d) as (w1 & E & _ & Hka & _); try done; [by eapply Some_Def|]. rewrite (same_fst _ _ _ _ _ E H). eapply fate_key_added; [done| |done]. congruence.
  - (* OAddUniqueKey *) apply res_inv in H as (res & H & _). destruct (o_keys x !! k) as [[t' d0]|] eqn:Ek.
    + unfold add_key, add_key_local in H. match goal with E : w_objs w !! o = Some x |- _ => rewrite E in H end. cbn [mbind option_bind] in H. rewrite Ek in H. cbn in H. injection H as <- <-. by apply fate_same.
    + destruct (add_key_uniq_ok b ord w o x k (vzero t) (fun _ _ _ => vzero t) true) as (w1 & res1 & E & _ & Hka); try done; [by auto|by eapply Some_Def|]. rewrite (same_fst _ _ _ _ _ E H).
      destruct (decide _); [destruct Hka as [-> _]; eapply fate_obj; [done|]; cbn; rewrite lookup_insert_ne; [done|apply not_eq_sym; by eapply HW]|].
      destruct (decide _); [|destruct Hka as [-> _]; eapply fate_obj; [done|]; cbn; rewrite lookup_insert_ne; [done|apply not_eq_sym; by eapply HW]].
      destruct Hka as (_ & V & Hka & _). eapply fate_key_added; [done| |done]. congruence.
  - (* OAddUniqueKeyFn *) apply res_inv in H as (res & H & _). destruct (o_keys x !! k) as [[t' d0]|] eqn:Ek.
    + unfold add_key, add_key_local in H. match goal with E : w_objs w !! o = Some x |- _ => rewrite E in H end. cbn [mbind option_bind] in H. rewrite Ek in H. cbn in H. injection H as <- <-. by apply fate_same.
    + destruct (add_key_uniq_ok b ord w o x k (vzero t) g false) as (w1 & res1 & E & _ & Hka); try done; [by intros; right; eauto|by eapply Some_Def|]. rewrite (same_fst _ _ _ _ _ E H).
      destruct (decide _); [destruct Hka as [-> _]; eapply fate_obj; [done|]; cbn; rewrite lookup_insert_ne; [done|apply not_eq_sym; by eapply HW]|].
      destruct (decide _); [|destruct Hka as [-> _]; eapply fate_obj; [done|]; cbn; rewrite lookup_insert_ne; [done|apply not_eq_sym; by eapply HW]].
      destruct Hka as (_ & V & Hka & _). eapply fate_key_added; [done| |done]. congruence.
  - (* OUpdateKey *) apply res_inv in H as (res & H & _). destruct (update_key_ok b w o x k d) as (w1 & E & _ & ->); try done. rewrite (same_fst _ _ _ _ _ E H).
    destruct (res_ok _); [|by apply fate_same]. eapply fate_obj; [done|]. cbn. rewrite lookup_insert_ne; [done|apply not_eq_sym; by eapply HW].
  - (* ORemoveKey *) apply bool_inv in H as (res & H & _). destruct (remove_key_ok b ord w o x k) as (w1 & E & _ & ->); try done. rewrite (same_fst _ _ _ _ _ E H).
    destruct (decide _); [|by apply fate_same]. eexists. split; [split; [cbn; rewrite lookup_upd_on, Hs; cbn; done|]|].
    + destruct (decide _); [|done]. unfold unkey. destruct (o_keys sb !! k); done.
    + destruct (decide _); [|split; [by right|by left]]. unfold unkey. destruct (o_keys sb !! k); (split; [by right|by left]).
  - (* OCreateRecord *) apply res_inv in H as (res & H & _). nobj o ob Ho. destruct (create_record_ok b w o ob f ps) as (w1 & res1 & E & _ & Hc); try done.
    { intros f0 ->. match goal with H : is_ref _ _ = true |- _ => apply is_ref_true in H as (rf & Hrf) end. eauto. }
    assert (s <> o) by eauto.
    rewrite (same_fst _ _ _ _ _ E H). destruct Hc as [(p1 & p & p2 & _ & _ & _ & -> & _)|[(_ & k1 & k & k2 & td & _ & _ & _ & _ & -> & _)|(_ & _ & Hw & _)]]; [by apply fate_same|by apply fate_same|].
    destruct f as [f|]; [|subst w1; eapply fate_obj; [done|]; cbn; by rewrite lookup_insert_ne].
    destruct Hw as [Hro _]. eapply fate_obj; [done|]. rewrite (ro_objs _ _ Hro). cbn. by rewrite lookup_insert_ne.
  - (* OReadRows *) apply unit_inv in H as [H _]. nobj o ob Ho. unfold read_rows in H. rewrite Ho in H. cbn [mbind option_bind] in H. assert (s <> o) by eauto.
    assert (G : grown o (set_obj o (ob_bad [] ob) w) w').
    { eapply (read_rows_loop_grown b _ _ _ _ _ _ _ (ob_bad [] ob)); [by apply bad_inv|cbn; by rewrite lookup_insert|done|exact H]. }
    eapply fate_obj; [done|]. rewrite (gr_objs _ _ _ G) by done. cbn. by rewrite lookup_insert_ne.
  - (* OGetRecord *) nobj o ob Hob. nref f rf Hrf. apply res_inv in H as (res & H & _). destruct (o_static_set ob) eqn:Hos.
    + destruct (get_record_set_ok b ord w o ob k v f rf) as (w1 & res1 & E & _ & Hc); try done; [|by eapply Some_Def|].
      { intros p pb r Hp' Hpb Hr Hl. eapply (HA ob p pb r); [done|done|done|by exists rf|by apply valid_rec_live]. }
      rewrite (same_fst _ _ _ _ _ E H). destruct (o_parent ob); [destruct Hc as (rf' & Hro & _); by eapply fate_objs; [done|apply (ro_objs _ _ Hro)]|destruct Hc as [-> _]; by apply fate_same].
    + destruct (get_record_vault_ok b ord w o ob k v f rf) as (w1 & res1 & rf' & E & _ & Hro & _); try done. rewrite (same_fst _ _ _ _ _ E H). by eapply fate_objs; [done|apply (ro_objs _ _ Hro)].
  - (* OGetRecords *) nobj o ob Hob. apply res_inv in H as (res & H & _). rewrite Hob in H. cbn [mbind option_bind] in H.
    destruct (get_records_step_ok b ord w o ob k v amt fs) as (w1 & res1 & E & _ & Hro & _); try done; [by eapply Some_Def|]. rewrite (same_fst _ _ _ _ _ E H). by eapply fate_objs; [done|apply (ro_objs _ _ Hro)].
  - (* OGetSorted *) apply unit_inv in H as [H _]. destruct (sorted_step_ok b w o x k rev amt fs) as (w1 & E & _ & Hro & _); try done; [by eapply Some_Def|]. rewrite (same_fst1 _ _ _ E H). by eapply fate_objs; [done|apply (ro_objs _ _ Hro)].
  - (* OSetData *) apply res_inv in H as (res & H & _). nref f rf Hrf. destruct (ref_set_data_ok b ord w f rf k v) as (w1 & res1 & E & _ & Hc); try done; [by apply HA|by eapply Some_Def|].
    rewrite (same_fst _ _ _ _ _ E H). destruct Hc as [[-> _]|(r & o & ob & rc & Hr & _ & _ & _ & _ & Hrc & _ & _ & ->)]; [by apply fate_same|].
    assert (Hwr : written w (data_set r k v o rc w) r [k]) by (by apply written_data_set). destruct (wr_objs _ _ _ _ Hwr s sb Hs) as (sb' & Hs' & Esb). exists sb'. rewrite Esb. split; [by split; [rewrite <- Esb|]|]. split; [by right|by left].
  - (* OSetMany *) apply res_inv in H as (res & H & _). nref f rf Hrf. destruct (HA _ Hrf) as [A1 A2]. unfold ref_set_many in H. rewrite Hrf in H. cbn [mbind option_bind] in H.
    destruct (f_vlt rf) as [o|]; [|done]. cbn [mbind option_bind] in H. destruct (w_objs w !! o) as [ob|] eqn:Ho; [|done]. cbn [mbind option_bind] in H.
    destruct (f_rec rf) as [r|] eqn:Er.
    + assert (Hwr : written w w' r (ps.*1)) by (by eapply set_many_written). destruct (wr_objs _ _ _ _ Hwr s sb Hs) as (sb' & Hs' & Esb). exists sb'. rewrite Esb. split; [by split; [rewrite <- Esb|]|]. split; [by right|by left].
    + assert (w' = w) as ->; [|by apply fate_same]. destruct ps as [|[k v] ps]; cbn [ref_set_many_loop] in H; [by injection H|].
      unfold ref_set_data in H. rewrite Hrf in H. cbn [mbind option_bind] in H. rewrite Er in H. cbn in H. by injection H.
  - (* OCopyRef *) nref dst rd Hrd. nref src rs Hrs. apply unit_inv in H as [H _]. destruct (decide (dst = src)) as [->|Hne].
    + unfold copy_ref in H. rewrite decide_True in H by done. injection H as <-. by apply fate_same.
    + destruct (copy_ref_spec w dst src rd rs) as (w1 & E & Hro & Hr); [apply HI|done|done|done|]. rewrite (same_fst1 _ _ _ E H). by eapply fate_objs; [done|apply (ro_objs _ _ Hro)].
  - (* OMoveRef *) nref dst rd Hrd. nref src rs Hrs. apply unit_inv in H as [H _]. destruct (decide (dst = src)) as [->|Hne].
    + unfold move_ref in H. rewrite decide_True in H by done. injection H as <-. by apply fate_same.
    + destruct (move_ref_spec w dst src rd rs) as (w1 & E & Hro & Hr); [apply HI|done|done|done|]. rewrite (same_fst1 _ _ _ E H). by eapply fate_objs; [done|apply (ro_objs _ _ Hro)].
  - (* OResetRef *) apply unit_inv in H as [H _]. destruct (reset_ref_spec w f x) as (w1 & E & Hro & Hr); [apply HI|done|]. rewrite (same_fst1 _ _ _ E H). by eapply fate_objs; [done|apply (ro_objs _ _ Hro)].
  - (* ORequest *) nobj o ob Hob. nobj s0 tb Htb. apply res_inv in H as (res & H & _).
    destruct (request_ok b ord w o ob rt k b0 (vcast (vty b0) e) ib ie amt p s0 tb) as (w1 & res1 & E & _ & Hso & R1 & R2 & R3); try done;
      [intros Hb pv Hpv sb0 pb Hsb0 Hpb Hne; replace sb0 with tb in * by congruence; eapply (leftovers_target_inv b); [done..|]; by eapply HA|by apply vty_vcast|by eapply Some_Def|].
    rewrite (same_fst _ _ _ _ _ E H). destruct (decide (s0 = s)) as [->|Hne]; [|by eapply fate_only].
    destruct (source_vault o ob) as [pv|] eqn:Es; [|destruct R1 as [-> _]; [done|by apply fate_same]].
    destruct (decide (o = s)) as [Eo|Eo]; [destruct R2 as [-> _]; [by eauto|done|by apply fate_same]|].
    destruct (R3 pv) as (sb' & l & _ & S1 & S2 & _); [done|done|]. exists sb'. split; [done|]. split; [by left|right; by left].
  - (* OComplex *) nobj o ob Hob. nobj s0 tb Htb. apply res_inv in H as (res & H & _). destruct HA as [A1 A2].
    destruct (complex_ok b ord w o ob q s0 tb) as (w1 & res1 & E & _ & Hso & R1 & R2 & R3); try done;
      [intros Hb pv Hpv sb0 pb Hsb0 Hpb Hne; replace sb0 with tb in * by congruence; eapply (leftovers_target_inv b); [done..|]; by eapply A1|by eapply Some_Def|].
    rewrite (same_fst _ _ _ _ _ E H). destruct (decide (s0 = s)) as [->|Hne]; [|by eapply fate_only].
    destruct (source_vault o ob) as [pv|] eqn:Es; [|destruct R1 as [-> _]; [done|by apply fate_same]].
    destruct (decide (o = s)) as [Eo|Eo]; [destruct R2 as [-> _]; [by eauto|done|by apply fate_same]|].
    destruct (R3 pv) as (sb' & l & _ & S1 & S2 & _); [done|done|]. exists sb'. split; [done|]. split; [by left|right; by left].
  - (* ODropData *) apply unit_inv in H as [H _]. destruct (drop_data_ok b ord w o x) as (w1 & E & _ & Hd); try done; [by eapply Some_Def|]. rewrite (same_fst1 _ _ _ E H).
    destruct (decide (o_parent sb = Some o)) as [Hp|Hp].
    + exists (cleared sb). split; [split; [by apply (em_sets _ _ _ Hd)|done]|]. split; [right; cbn; clear; set_solver|by left].
    + eapply fate_obj; [done|]. apply (em_objs _ _ _ Hd); [by eapply HW|]. intros (xb & X1 & X2 & X3). congruence.
  - (* ODropVault *) apply unit_inv in H as [H _]. destruct (drop_vault_ok b ord w o x) as (w1 & E & _ & Hd); try done; [by eapply Some_Def|]. rewrite (same_fst1 _ _ _ E H).
    destruct (decide (o_parent sb = Some o)) as [Hp|Hp].
    + exists (reset_obj sb). split; [split; [by apply (dr_sets _ _ _ Hd)|done]|]. split; [right; cbn; clear; set_solver|]. right. right. exists o. done.
    + eapply fate_obj; [done|]. apply (dr_objs _ _ _ Hd); [by eapply HW|]. intros (xb & X1 & X2 & X3). congruence.
  - (* OCopyVault *) apply unit_inv in H as [H _]. destruct HA as [A1 A2]. nobj src tb Htb. destruct (copy_construct_vault_ok b ord w dst src tb) as (w1 & E & Hc & _); try done; [by apply unmentioned_unused; auto|].
    rewrite (same_fst1 _ _ _ E H). eapply fate_obj; [done|]. rewrite (cp_objs _ _ _ _ Hc) by congruence. cbn. rewrite lookup_insert_ne by congruence. done.
  - (* OAssignVault *) apply unit_inv in H as [H _]. nobj src tb Htb. destruct (decide (dst = src)) as [->|Hne].
    + unfold copy_assign_vault in H. rewrite decide_True in H by done. injection H as <-. by apply fate_same.
    + nobj dst db Hdb. destruct (copy_assign_vault_ok b ord w dst src tb db) as (w1 & w2 & E & _ & Hd & _ & Hc & _); try done; [by eapply Some_Def|]. rewrite (same_fst1 _ _ _ E H).
      assert (s <> dst) by eauto. assert (Es : w_objs w2 !! s = w_objs w1 !! s). { rewrite (cp_objs _ _ _ _ Hc) by done. cbn. by rewrite lookup_insert_ne. }
      destruct (decide (o_parent sb = Some dst)) as [Hp|Hp].
      * exists (reset_obj sb). split; [split; [rewrite Es; by apply (dr_sets _ _ _ Hd)|done]|]. split; [right; cbn; clear; set_solver|]. right. right. exists dst. done.
      * eapply fate_obj; [done|]. rewrite Es. apply (dr_objs _ _ _ Hd); [done|]. intros (xb & X1 & X2 & X3). congruence.
  - (* OMoveVault *) apply unit_inv in H as [H _]. destruct HA as [A1 A2]. nobj src tb Htb. destruct (move_construct_vault_ok b w dst src tb) as (E & _); try done; [by apply unmentioned_unused; auto|by apply unshared_lonely|].
    rewrite (same_fst1 _ _ _ E H). eapply fate_obj; [done|]. cbn. rewrite !lookup_insert_ne by congruence. done.
  - (* OMoveAssignVault *) apply unit_inv in H as [H _]. nobj src tb Htb. destruct (decide (dst = src)) as [->|Hne].
    + unfold move_assign_vault in H. rewrite decide_True in H by done. injection H as <-. by apply fate_same.
    + nobj dst db Hdb. destruct (move_assign_vault_ok b ord w dst src db tb) as (w1 & _ & Hd & _ & _ & E & _); try done; [by apply unshared_lonely; auto|by eapply Some_Def|]. rewrite (same_fst1 _ _ _ E H).
      assert (s <> dst) by congruence. assert (s <> src) by congruence. assert (Es : w_objs (moved_world dst src tb w1) !! s = w_objs w1 !! s). { cbn. by rewrite !lookup_insert_ne by done. }
      destruct (decide (o_parent sb = Some dst)) as [Hp|Hp].
      * exists (reset_obj sb). split; [split; [rewrite Es; by apply (dr_sets _ _ _ Hd)|done]|]. split; [right; cbn; clear; set_solver|]. right. right. exists dst. done.
      * eapply fate_obj; [done|]. rewrite Es. apply (dr_objs _ _ _ Hd); [done|]. intros (xb & X1 & X2 & X3). congruence.
  - (* OSetAdd *) apply res_inv in H as (res & H & _). destruct (set_add_ok b w s0 x f x0) as (w1 & res1 & E & HI1 & Hso); try done. rewrite (same_fst _ _ _ _ _ E H).
    destruct (decide (s0 = s)) as [->|Hne]; [|by eapply fate_only]. assert (x = sb) as -> by congruence. clear HI1 Hso. rewrite (same_fst _ _ _ _ _ E H) in H.
    unfold set_add_record in H. nref f rf Hrf. rewrite Hs, Hrf in H. cbn [mbind option_bind] in H.
    destruct (o_parent sb) as [q|] eqn:Ep; [|injection H as <- <-; by apply fate_same].
    destruct (w_objs w !! q); [|done]. cbn [mbind option_bind] in H. destruct (ref_valid w rf) as [va|]; [|done]. cbn [mbind option_bind] in H.
    destruct (f_rec rf) as [r|]; [|injection H as <- <-; by apply fate_same]. destruct (_ && _); [|injection H as <- <-; by apply fate_same].
    destruct (decide _); [injection H as <- <-; by apply fate_same|]. unfold set_take in H. rewrite Hs in H. cbn [mbind option_bind] in H. destruct (w_recs w !! r) as [rc|] eqn:Erc; [|done].
    cbn [mbind option_bind] in H. unfold add_dep in H. cbn [set_obj w_recs] in H. rewrite Erc in H. cbn [mbind option_bind] in H. injection H as <- <-.
    exists (obj_add (r_data rc) r sb). split; [split; [cbn; by rewrite lookup_insert|done]|]. split; [by left|by left].
  - (* OSetClear *) apply unit_inv in H as [H _]. destruct (set_clear_ok b ord w s0 x) as (E & HI'); try done; [by eapply Some_Def|]. rewrite (same_fst1 _ _ _ E H).
    destruct (o_parent x) eqn:Ep; [|by apply fate_same]. destruct (decide (s0 = s)) as [->|Hne]; [|eapply fate_only; [done|apply set_only_clear|done]].
    assert (x = sb) as -> by congruence. exists (cleared sb). split; [split; [cbn; by rewrite lookup_insert|done]|]. split; [right; cbn; clear; set_solver|by left].
  - (* OSetReset *) apply unit_inv in H as [H _]. destruct (set_reset_ok b ord w s0 x) as (E & HI'); try done; [by eapply Some_Def|]. rewrite (same_fst1 _ _ _ E H).
    destruct (decide (s0 = s)) as [->|Hne]; [|eapply fate_only; [done|by eapply set_only_reset_result|done]]. assert (x = sb) as -> by congruence.
    destruct (reset_result_obj s sb w b HI Hs Hst) as (sb' & R1 & R2 & R3 & R4 & R5). exists sb'. split; [done|]. split; [right|right; by left].
    unfold reset_result in R1. destruct (o_parent sb) as [q|] eqn:Ep; [|by assert (sb' = sb) as -> by congruence]. destruct (Inv_set_facts _ _ _ _ _ HI Hs Hst Ep) as (pb & Hpb & _). rewrite Hpb in R1. cbn in R1. rewrite lookup_insert in R1. injection R1 as <-. cbn. clear; set_solver.
  - (* OJoin *) nobj s0 tb Htb. nobj a ab Hab. subst b. apply res_inv in H as (res & H & _). destruct (join_ok ord w s0 a tb ab w' res) as (_ & Hso & sb' & J1 & J2 & J3 & _); try done.
    destruct (decide (s0 = s)) as [->|Hne]; [|by eapply fate_only]. exists sb'. split; [done|]. split; [by left|left; congruence].
  - (* OExclude *) nobj s0 tb Htb. nobj a ab Hab. subst b. apply res_inv in H as (res & H & _). destruct (subtract_ok false ord w s0 a tb ab w' res) as (_ & Hso & sb' & J1 & J2 & J3 & J4); try done.
    destruct (decide (s0 = s)) as [->|Hne]; [|by eapply fate_only]. assert (tb = sb) as -> by congruence. destruct (algebra_check s a sb ab) eqn:Ec.
    { unfold set_subtract in H. rewrite Hs, Hab in H. cbn [mbind option_bind] in H. rewrite Ec in H. injection H as <- <-. by apply fate_same. }
    exists sb'. split; [done|]. split; [right|left; congruence]. rewrite J4 by done. clear. set_solver.
  - (* OIntersect *) nobj s0 tb Htb. nobj a ab Hab. subst b. apply res_inv in H as (res & H & _). destruct (subtract_ok true ord w s0 a tb ab w' res) as (_ & Hso & sb' & J1 & J2 & J3 & J4); try done.
    destruct (decide (s0 = s)) as [->|Hne]; [|by eapply fate_only]. assert (tb = sb) as -> by congruence. destruct (algebra_check s a sb ab) eqn:Ec.
    { unfold set_subtract in H. rewrite Hs, Hab in H. cbn [mbind option_bind] in H. rewrite Ec in H. injection H as <- <-. by apply fate_same. }
    exists sb'. split; [done|]. split; [right|left; congruence]. rewrite J4 by done. clear. set_solver.
  - (* OUnion *) nobj a ab Hab. nobj b0 bb Hbb. nobj res rb Hrb. destruct HA as [-> HA]. assert (HA' : allowed false w (OUnion a b0 res)) by done.
    destruct (t_C23_union_exact false ord w a b0 res ab bb rb w' out) as (rs & -> & _ & _ & U1 & U2); try done. { cbn [step]. unfold is_set. rewrite Hab, Hbb, Hrb. repeat match goal with H : o_static_set _ = true |- _ => rewrite H; clear H end. done. }
    apply res_inv in H as (rs' & H & [= <-]). destruct (union_ok ord w a b0 res ab bb rb w' rs) as (_ & Hso & _); try done; [intros p pb Hp' Hpb; eapply (leftovers_target_inv false); [done..|]; by eapply HA|].
    destruct (decide (res = s)) as [->|Hne]; [|by eapply fate_only]. destruct (res_ok rs); [|rewrite U1 by done; by apply fate_same].
    destruct U2 as (_ & _ & _ & sb' & S1 & _); [done|]. exists sb'. split; [done|]. split; [by left|right; by left].
  - (* OIntersection *) nobj a ab Hab. nobj b0 bb Hbb. nobj res rb Hrb. destruct HA as [-> HA]. assert (HA' : allowed false w (OIntersection a b0 res)) by done.
    destruct (t_C23_intersection_exact false ord w a b0 res ab bb rb w' out) as (rs & -> & _ & _ & U1 & U2); try done. { cbn [step]. unfold is_set. rewrite Hab, Hbb, Hrb. repeat match goal with H : o_static_set _ = true |- _ => rewrite H; clear H end. done. }
    apply res_inv in H as (rs' & H & [= <-]). destruct (intersection_ok ord w a b0 res ab bb rb w' rs) as (_ & Hso & _); try done; [intros p pb Hp' Hpb; eapply (leftovers_target_inv false); [done..|]; by eapply HA|].
    destruct (decide (res = s)) as [->|Hne]; [|by eapply fate_only]. destruct (res_ok rs); [|rewrite U1 by done; by apply fate_same].
    destruct U2 as (_ & _ & _ & sb' & S1 & _); [done|]. exists sb'. split; [done|]. split; [by left|right; by left].
  - (* OCopySet *) nobj src x Hsb. apply unit_inv in H as [H _]. destruct HA as [A1 A2]. destruct (o_parent x) as [q|] eqn:Ep; [|by destruct (A2 _ Hsb)].
    destruct (copy_construct_set_ok b ord w dst src x q) as (w1 & sb' & E & _ & Hso & _); try done; [by intros Hb; apply dependent_none; auto|by eapply Some_Def|]. rewrite (same_fst1 _ _ _ E H).
    eapply fate_only; [done|done|congruence].
  - (* OAssignSet *) nobj dst db Hdb. nobj src tb Htb. apply unit_inv in H as [H _]. destruct (decide (dst = src)) as [->|Hne].
    + unfold copy_assign_set in H. rewrite decide_True in H by done. injection H as <-. by apply fate_same.
    + destruct (copy_assign_set_ok b ord w dst src tb db) as (w1 & sb' & E & _ & Hso & C1 & C2 & _); try done; [intros Hb q pb Hp' Hpb; eapply (leftovers_target_inv b); [done..|]; by eapply HA|by eapply Some_Def|].
      rewrite (same_fst1 _ _ _ E H). destruct (decide (dst = s)) as [->|Hn]; [|by eapply fate_only]. exists sb'. split; [done|]. split; [by left|right; by left].
Qed.

Lemma cleared_files_none w ob : indexed w (cleared ob).
Proof.
  intros k [t Ht] v r. unfold get_key_type in Ht. change (o_keys (cleared ob)) with (o_keys ob) in Ht. unfold filed, filed_ord. rewrite lookup_cleared. cbn [o_recs cleared].
  split; (split; [intros (ix' & E & H); destruct (o_idx ob !! k) as [ix|]; [|done]; cbn in E; destruct (o_keys ob !! k); [|done]; injection E as <-; by apply elem_of_nil in H|intros [H _]; by apply not_elem_of_empty in H]).
Qed.
Lemma length_limit1 {A} n (l : list A) : length (limit1 (Some n) l) <= Nat.max 1 n.
Proof. cbn. rewrite take_length. destruct n; lia. Qed.
(** ** C24 *)
(** C24: only operations that fill the set put records into it. *)
Lemma t_C24_members_only_by_fill :
  forall b ord w p w' out s sb, fair ord -> reach b w -> allowed b w p -> step ord w p = Some (w', out) -> set_at w s sb ->
    p <> ODelSet s -> ~ fills s p -> exists sb', set_at w' s sb' /\ forall r, r ∈ o_recs sb' -> r ∈ o_recs sb.
Proof.
  intros b ord w p w' out s sb Hf HR HA H HS Hd Hn. destruct (set_step _ _ _ _ _ _ _ _ Hf HR HA H HS Hd) as (sb' & H1 & [H2|H2] & _); [done|]. exists sb'. split; [done|]. intros r Hr. by apply H2.
Qed.
(** C24: a record that is not in the set stays out of it until the set is filled again. *)
Lemma t_C24_removed_stays_out :
  forall b w w' s sb r, reach b w -> set_at w s sb -> r ∉ o_recs sb -> later_if b (fun p => p <> ODelSet s /\ ~ fills s p) w w' ->
    exists sb', set_at w' s sb' /\ r ∉ o_recs sb'.
Proof.
  intros b w w' s sb r HR HS Hr HL. assert (reach b w' /\ exists sb', set_at w' s sb' /\ r ∉ o_recs sb') as [_ ?]; [|done].
  induction HL as [|ord w1 p w2 out HL IH Hf HA [Q1 Q2] H]; [split; [done|by exists sb]|]. destruct IH as (HR1 & sb1 & HS1 & Hr1). split; [by eapply reach_step|].
  destruct (t_C24_members_only_by_fill _ _ _ _ _ _ _ _ Hf HR1 HA H HS1 Q1 Q2) as (sb' & HS' & Hin). exists sb'. split; [done|]. intros Hr'. by apply Hr1, Hin.
Qed.
(** C24: RemoveRecord by reference takes exactly that record out of the set. *)
Lemma t_C24_removeref_exact :
  forall b ord w s sb p f rf w' out, fair ord -> reach b w -> set_at w s sb -> o_parent sb = Some p -> w_refs w !! f = Some rf ->
    step ord w (OEraseRef s f) = Some (w', out) ->
    match f_rec rf with
    | Some r => if decide (r ∈ o_recs sb) then out = OBool true /\ only_set_changed s w w' /\
                  exists sb', set_at w' s sb' /\ o_parent sb' = Some p /\ same_schema sb sb' /\ o_recs sb' = o_recs sb ∖ {[r]}
                else out = OBool false /\ w' = w
    | None => out = OBool false /\ w' = w
    end.
Proof.
  intros b ord w s sb p f rf w' out Hf HR HS Hp Hrf H. pose proof (Inv_wide _ _ (reach_inv _ _ HR)) as HI. pose proof HS as [Hs Hst].
  cbn [step] in H. unfold is_obj, is_ref in H. rewrite (bool_decide_true (is_Some (w_objs w !! s))) in H by eauto. rewrite (bool_decide_true (is_Some (w_refs w !! f))) in H by eauto. cbn [andb guard_op] in H.
  apply bool_inv in H as (bb & H & ->). unfold erase_ref in H. rewrite Hs, Hrf in H. cbn [mbind option_bind] in H. rewrite Hst, Hp in H. rewrite bool_decide_false in H by done. cbn [andb] in H.
  destruct (f_rec rf) as [r|]; [|by injection H as <- <-].
  destruct (remove_ref_in_set ord w s sb p r w' bb) as (-> & Hb & X & (Hso & sb' & S1 & S2 & S3 & S4) & HX); try done.
  destruct (decide (r ∈ o_recs sb)); [rewrite bool_decide_true in * by done|rewrite bool_decide_false in * by done; auto]. subst X. split; [done|]. split; [by apply set_only_changed|].
  exists sb'. split; [done|]. split; [congruence|]. split; [done|]. rewrite S3. clear; set_solver.
Qed.
(** C24: RemoveRecord(key, value) takes one of the records found under the value out of the set. *)
Lemma t_C24_removerecord_exact :
  forall b ord w s sb p k v w' out, fair ord -> reach b w -> set_at w s sb -> o_parent sb = Some p ->
    step ord w (OEraseRecord s k v) = Some (w', out) ->
    exists res, out = ORes res /\
      if res_ok res then get_key_type sb k = Some (vty v) /\ res_code res = Success /\ only_set_changed s w w' /\
        exists r sb', filed sb k v r /\ set_at w' s sb' /\ o_parent sb' = Some p /\ same_schema sb sb' /\ o_recs sb' = o_recs sb ∖ {[r]}
      else w' = w /\ res = match get_key_type sb k with
                           | None => bad WrongKey k (Some (vty v)) None
                           | Some t => if decide (t = vty v) then bad WrongValue k (Some (vty v)) (Some t) else bad WrongType k (Some (vty v)) (Some t)
                           end /\ (get_key_type sb k = Some (vty v) -> forall r, ~ filed sb k v r).
Proof.
  intros b ord w s sb p k v w' out Hf HR HS Hp H. pose proof (Inv_wide _ _ (reach_inv _ _ HR)) as HI. pose proof HS as [Hs Hst].
  cbn [step] in H. unfold is_obj in H. rewrite (bool_decide_true (is_Some (w_objs w !! s))) in H by eauto. cbn [guard_op] in H.
  apply res_inv in H as (res & H & ->). unfold set_parent_guard in H. rewrite Hs in H. cbn [mbind option_bind] in H. rewrite Hst, Hp in H. rewrite bool_decide_false in H by done. cbn [andb] in H.
  exists res. split; [done|]. destruct (erase_record_in_set ord w s sb p k v w' res) as (X & (Hso & sb' & S1 & S2 & S3 & S4) & Hok & Hbad); try done. destruct (res_ok res).
  - destruct Hok as (K & -> & r & ix & -> & Hix & Hr); [done|]. split; [done|]. split; [done|]. split; [by apply set_only_changed|]. exists r, sb'.
    split; [|split; [done|]; split; [congruence|]; split; [done|]; rewrite S3; clear; set_solver]. exists ix. split; [done|]. apply elem_equal_range_snd. by rewrite (Hf _) in Hr.
  - destruct Hbad as (-> & _ & -> & Hno); [done|]. split; [done|]. split; [done|]. intros K r (ix & Hix & Hr). specialize (Hno K _ Hix).
    apply elem_equal_range_snd in Hr. rewrite <- (Hf _), Hno in Hr. by apply elem_of_nil in Hr.
Qed.
(** C24: RemoveRecords(key, value, amount) takes the records found under the value out of the set, at most [amount] of them (but at least one). *)
Lemma t_C24_removerecords_exact :
  forall b ord w s sb p k v amt w' out, fair ord -> reach b w -> set_at w s sb -> o_parent sb = Some p ->
    step ord w (OEraseRecords s k v amt) = Some (w', out) ->
    exists res, out = ORes res /\
      if res_ok res then get_key_type sb k = Some (vty v) /\ res_code res = Success /\ only_set_changed s w w' /\
        exists X sb', X <> [] /\ (forall r, r ∈ X -> filed sb k v r) /\
          (match amt with None => forall r, filed sb k v r -> r ∈ X | Some n => length X <= Nat.max 1 n end) /\
          set_at w' s sb' /\ o_parent sb' = Some p /\ same_schema sb sb' /\ forall r, r ∈ o_recs sb' <-> r ∈ o_recs sb /\ r ∉ X
      else w' = w /\ res = match get_key_type sb k with
                           | None => bad WrongKey k (Some (vty v)) None
                           | Some t => if decide (t = vty v) then bad WrongValue k (Some (vty v)) (Some t) else bad WrongType k (Some (vty v)) (Some t)
                           end /\ (get_key_type sb k = Some (vty v) -> forall r, ~ filed sb k v r).
Proof.
  intros b ord w s sb p k v amt w' out Hf HR HS Hp H. pose proof (Inv_wide _ _ (reach_inv _ _ HR)) as HI. pose proof HS as [Hs Hst].
  cbn [step] in H. unfold is_obj in H. rewrite (bool_decide_true (is_Some (w_objs w !! s))) in H by eauto. cbn [guard_op] in H.
  apply res_inv in H as (res & H & ->). unfold set_parent_guard in H. rewrite Hs in H. cbn [mbind option_bind] in H. rewrite Hst, Hp in H. rewrite bool_decide_false in H by done. cbn [andb] in H.
  exists res. split; [done|]. destruct (erase_records_in_set ord w s sb p k v amt w' res) as (X & (Hso & sb' & S1 & S2 & S3 & S4) & Hok & Hbad); try done. destruct (res_ok res).
  - destruct Hok as (K & -> & HX & ix & Hix & Hl); [done|]. split; [done|]. split; [done|]. split; [by apply set_only_changed|]. exists X, sb'. split; [done|].
    split; [|split; [|split; [done|]; split; [congruence|]; split; [done|]; intros r; rewrite S3, elem_of_difference, elem_of_list_to_set; done]].
    + intros r Hr. exists ix. split; [done|]. apply elem_equal_range_snd. rewrite Hl in Hr. apply limit1_elem in Hr. by rewrite (Hf _) in Hr.
    + subst X. destruct amt as [n|].
      * apply length_limit1.
      * intros r (ix' & Hix' & Hr). assert (ix' = ix) as -> by congruence. apply elem_equal_range_snd in Hr. cbn. by rewrite (Hf _).
  - destruct Hbad as (-> & _ & -> & Hno); [done|]. split; [done|]. split; [done|]. intros K r (ix & Hix & Hr). specialize (Hno K _ Hix).
    apply elem_equal_range_snd in Hr. rewrite <- (Hf _), Hno in Hr. by apply elem_of_nil in Hr.
Qed.
(** C24: Clear empties the set, which keeps its vault and keys; nothing else changes. *)
Lemma t_C24_clear_exact :
  forall b ord w s sb w' out, fair ord -> reach b w -> set_at w s sb -> step ord w (OSetClear s) = Some (w', out) ->
    only_set_changed s w w' /\ exists sb', set_at w' s sb' /\ o_parent sb' = o_parent sb /\ same_schema sb sb' /\ o_recs sb' = ∅ /\ indexed w' sb'.
Proof.
  intros b ord w s sb w' out Hf HR HS H. pose proof (reach_inv _ _ HR) as HI. pose proof HS as [Hs Hst]. cbn [step] in H. rewrite (set_guard _ _ _ HS) in H. cbn [guard_op] in H.
  apply unit_inv in H as [H _]. destruct (set_clear_ok b ord w s sb) as (E & HI'); try done; [by eapply Some_Def|]. rewrite (same_fst1 _ _ _ E H).
  destruct (o_parent sb) eqn:Ep.
  - split; [by apply set_only_changed, set_only_clear|]. exists (cleared sb). split; [split; [cbn; by rewrite lookup_insert|done]|]. split; [done|]. split; [done|]. split; [done|]. apply cleared_files_none.
  - split; [by apply set_only_changed, set_only_refl|]. exists sb. split; [done|]. split; [done|]. split; [done|].
    destruct (so_none _ _ _ _ _ _ (vi_set _ _ _ _ (inv_obj _ _ HI) _ _ Hs Hst) Ep) as (_ & N2 & N3 & _ & _ & N6). split; [done|]. intros k [t Ht]. unfold get_key_type in Ht. by rewrite N3 in Ht.
Qed.
(** C24: Reset makes the set a new one; nothing else changes. *)
Lemma t_C24_reset_exact :
  forall b ord w s sb w' out, fair ord -> reach b w -> set_at w s sb -> step ord w (OSetReset s) = Some (w', out) ->
    only_set_changed s w w' /\ exists sb', set_at w' s sb' /\ sb' = ob_bad (o_bad sb') new_set.
Proof.
  intros b ord w s sb w' out Hf HR HS H. pose proof (reach_inv _ _ HR) as HI. pose proof HS as [Hs Hst]. cbn [step] in H. rewrite (set_guard _ _ _ HS) in H. cbn [guard_op] in H.
  apply unit_inv in H as [H _]. destruct (set_reset_ok b ord w s sb) as (E & HI'); try done; [by eapply Some_Def|]. rewrite (same_fst1 _ _ _ E H).
  split; [apply set_only_changed; by eapply set_only_reset_result|]. destruct (reset_result_obj s sb w b HI Hs Hst) as (sb' & R1 & R2 & R3 & R4 & R5 & R6 & R7 & R8 & R9 & R10 & R11 & R12).
  exists sb'. split; [done|]. destruct sb'. cbn in *. by subst.
Qed.

(** ** C45 *)
(** C45: a set stays with its vault unless it is filled from another one, reset, or the vault ends, which leaves it without a vault. *)
Lemma t_C45_stays_bound :
  forall b ord w p w' out s sb, fair ord -> reach b w -> allowed b w p -> step ord w p = Some (w', out) -> set_at w s sb ->
    p <> ODelSet s -> ~ rebinds s p ->
    exists sb', set_at w' s sb' /\
      (o_parent sb' = o_parent sb \/ exists o, o_parent sb = Some o /\ ends_vault o p /\ o_parent sb' = None) /\
      ((forall o, o_parent sb = Some o -> ~ ends_vault o p) -> o_parent sb' = o_parent sb).
Proof.
  intros b ord w p w' out s sb Hf HR HA H HS Hd Hn. destruct (set_step _ _ _ _ _ _ _ _ Hf HR HA H HS Hd) as (sb' & H1 & _ & [H2|[H2|(o & H2 & H3 & H4)]]); [|done|].
  - exists sb'. split; [done|]. split; [by left|done].
  - exists sb'. split; [done|]. split; [right; by exists o|]. intros Hno. by destruct (Hno _ H2).
Qed.
