(** Lemmas for C27: operations that are not about a vault leave it as it is, indexes included; copies of vaults. *)
From Verif Require Export T_Sets3.
Open Scope nat_scope.

Definition untouched (w' : world) (x : nat) (xb : obj) : Prop := exists xb', vault_at w' x xb' /\ xb' = ob_sets (o_sets xb') xb.
Lemma untouched_objs w w' x xb : vault_at w x xb -> w_objs w' !! x = w_objs w !! x -> untouched w' x xb.
Proof. intros [H1 H2] E. exists xb. split; [split; [by rewrite E|done]|by destruct xb]. Qed.
Lemma untouched_key_added w w' x xb o ob k d u V rs : vault_at w x xb -> w_objs w !! o = Some ob -> x <> o -> key_added o k d u V rs w w' -> untouched w' x xb.
Proof.
  intros [H1 H2] Ho Hne Hka. eapply untouched_objs; [done|]. apply (ka_objs _ _ _ _ _ _ _ _ Hka); [done|]. intros (sb & E1 & E2 & E3). congruence.
Qed.
Lemma set_many_objs b ord f ps x xb : forall w rf res w' res',
  fair ord -> Inv b w -> w_refs w !! f = Some rf -> ref_fit b w rf -> ref_set_many_loop ord w f ps res = Some (w', res') ->
  vault_at w x xb -> (forall r, f_rec rf = Some r -> r ∉ o_recs xb) -> w_objs w' !! x = w_objs w !! x.
Proof.
  induction ps as [|[k v] ps IH]; intros w rf res w' res' Hf HI Hrf Hfit H HV Hr; cbn [ref_set_many_loop] in *; [by injection H as <- <-|].
  destruct (ref_set_data ord w f k v) as [[w1 res1]|] eqn:E1; [|done]. cbn [mbind option_bind] in H.
  destruct (ref_set_data_ok b ord w f rf k v) as (w2 & res2 & E & HI' & Hc); try done; [by eapply Some_Def|]. rewrite E1 in E. apply (inj Some) in E. injection E as <- <-.
  assert (W1 : w_objs w1 !! x = w_objs w !! x /\ ref_fit b w1 rf /\ w_refs w1 !! f = Some rf).
  { destruct Hc as [[-> _]|(r1 & o & ob & rc & Hr1 & _ & Ho & Hos & Hin & Hrc & _ & _ & ->)]; [done|]. split; [|split; [by apply ref_fit_data_set|done]].
    cbn. destruct HV as [Hx Hxs]. rewrite lookup_upd_on, Hx. cbn. rewrite decide_False; [done|]. intros Hd. apply elem_of_union in Hd as [Hd|Hd].
    - apply elem_of_singleton in Hd as ->. assert (ob = xb) as -> by congruence. by apply (Hr r1).
    - destruct (v_recs _ _ (vi_vault _ _ _ _ (inv_obj _ _ HI) _ _ Ho Hos) _ Hin) as (l & Hl & _).
      assert (Hdl : x ∈ l.2). { unfold live in Hl. rewrite lookup_live_of, Hrc in Hl. cbn in Hl. unfold live_rec in Hl. destruct (r_valid rc); [|done]. by injection Hl as <-. }
      destruct (vi_deps _ _ _ _ (inv_obj _ _ HI) _ _ _ Hl Hdl) as [D _]. destruct (D _ Hx) as [D1 _]. congruence. }
  destruct W1 as (W1 & F1 & R1). destruct (res_ok res1); [|by injection H as <- <-]. rewrite <- W1. eapply IH; try done. destruct HV as [Hx Hxs]. split; [by rewrite W1|done].
Qed.
Lemma step_untouched b ord w p w' out x xb :
  fair ord -> reach b w -> allowed b w p -> step ord w p = Some (w', out) -> vault_at w x xb -> ~ concerns w p x -> untouched w' x xb.
Proof.
  intros Hf HR HA H HV Hn. pose proof (reach_inv _ _ HR) as HI. pose proof HV as [Hx Hxs].
  assert (Hn1 : ~ schema_op x p) by (intros ?; apply Hn; by left). assert (Hn2 : ~ adds_to x p) by (intros ?; apply Hn; right; by left).
  assert (Hn3 : ~ takes_from x p) by (intros ?; apply Hn; right; right; by left).
  assert (HQ : set_or_ref_op w p -> untouched w' x xb).
  { intros Hq. destruct (quiet_step _ _ _ _ _ _ Hf HR HA Hq H) as [(_ & _ & K) _]. by destruct (K _ _ HV) as (xb' & K1 & K2); exists xb'. }
  assert (HE : forall o, erases_from o p -> untouched w' x xb).
  { intros o Hp. destruct (w_objs w !! o) as [ob|] eqn:Ho.
    2:{ destruct p; cbn in Hp; try done; subst; cbn [step] in H; unfold is_obj in H; rewrite (bool_decide_false (is_Some (w_objs w !! o))) in H by (rewrite Ho; by intros [? ?]);
        cbn in H; injection H as <- <-; by eapply untouched_objs. }
    destruct (o_static_set ob) eqn:Hs.
    { apply HQ. destruct p; cbn in Hp; try done; subst; by exists ob. }
    assert (Hxo : x <> o). { intros ->. apply Hn3. by destruct p. }
    destruct (erase_step _ _ _ _ _ _ _ _ Hf HR (conj Ho Hs) Hp H) as [->|(X & _ & _ & Hin & He)]; [by eapply untouched_objs|].
    pose proof (er_objs _ _ _ _ He x Hxo) as Hob. rewrite Hx in Hob. destruct (w_objs w' !! x) as [xb'|] eqn:E; [|done]. destruct Hob as (_ & Hob & _).
    eapply untouched_objs; [done|]. rewrite E, Hx. f_equal. apply Hob. intros (sb & E1 & E2 & _). congruence. }
  destruct p; try (by apply HQ); try (by eapply HE); clear HQ HE; cbn [step allowed] in *; try done;
    (apply guard_inv in H as [(Hg & -> & _)|[Hg H]]; [by eapply untouched_objs|guards]).
  - (* ONewVault *) injection H as <- <-. eapply untouched_objs; [done|]. cbn. rewrite lookup_insert_ne; [done|congruence].
  - (* ODelVault *) apply unit_inv in H as [H _]. destruct (drop_vault ord w o) as [w1|] eqn:E1; [|done]. cbn in H. injection H as <-. assert (x <> o) by (intros ->; by apply Hn3).
    nobj o ob Ho. destruct (drop_vault_ok b ord w o ob) as (w2 & E & HI' & Hd); try done; [by eapply Some_Def|]. assert (w2 = w1) as -> by congruence.
    eapply untouched_objs; [done|]. cbn. rewrite lookup_delete_ne by done. apply (dr_objs _ _ _ Hd); [done|]. intros (sb & E1' & E2 & _). congruence.
  - (* OAddKey *) apply res_inv in H as (res & H & _). assert (x <> o) by (intros ->; by apply Hn1). nobj o ob Ho. destruct (o_keys ob !! k) as [[t d0]|] eqn:Ek.
    + unfold add_key, add_key_local in H. rewrite Ho in H. cbn [mbind option_bind] in H. rewrite Ek in H. cbn in H. injection H as <- <-. by eapply untouched_objs.
    + destruct (add_key_plain_ok b ord w o ob k d) as (w1 & E & _ & Hka & _); try done; [by eapply Some_Def|]. rewrite (same_fst _ _ _ _ _ E H). eapply untouched_key_added; [exact HV|exact Ho|done|exact Hka].
  - (* OAddUniqueKey *) apply res_inv in H as (res & H & _). assert (x <> o) by (intros ->; by apply Hn1). nobj o ob Ho. destruct (o_keys ob !! k) as [[t' d0]|] eqn:Ek.
    + unfold add_key, add_key_local in H. rewrite Ho in H. cbn [mbind option_bind] in H. rewrite Ek in H. cbn in H. injection H as <- <-. by eapply untouched_objs.
    + destruct (add_key_uniq_ok b ord w o ob k (vzero t) (fun _ _ _ => vzero t) true) as (w1 & res1 & E & _ & Hka); try done; [by auto|by eapply Some_Def|]. rewrite (same_fst _ _ _ _ _ E H).
      destruct (decide _); [destruct Hka as [-> _]; eapply untouched_objs; [done|]; cbn; by rewrite lookup_insert_ne|].
      destruct (decide _); [|destruct Hka as [-> _]; eapply untouched_objs; [done|]; cbn; by rewrite lookup_insert_ne].
      destruct Hka as (_ & V & Hka & _). eapply untouched_key_added; [exact HV|exact Ho|done|exact Hka].
  - (* OAddUniqueKeyFn *) apply res_inv in H as (res & H & _). assert (x <> o) by (intros ->; by apply Hn1). nobj o ob Ho. destruct (o_keys ob !! k) as [[t' d0]|] eqn:Ek.
    + unfold add_key, add_key_local in H. rewrite Ho in H. cbn [mbind option_bind] in H. rewrite Ek in H. cbn in H. injection H as <- <-. by eapply untouched_objs.
    + destruct (add_key_uniq_ok b ord w o ob k (vzero t) g false) as (w1 & res1 & E & _ & Hka); try done; [by intros; right; eauto|by eapply Some_Def|]. rewrite (same_fst _ _ _ _ _ E H).
      destruct (decide _); [destruct Hka as [-> _]; eapply untouched_objs; [done|]; cbn; by rewrite lookup_insert_ne|].
      destruct (decide _); [|destruct Hka as [-> _]; eapply untouched_objs; [done|]; cbn; by rewrite lookup_insert_ne].
      destruct Hka as (_ & V & Hka & _). eapply untouched_key_added; [exact HV|exact Ho|done|exact Hka].
  - (* OUpdateKey *) apply res_inv in H as (res & H & _). assert (x <> o) by (intros ->; by apply Hn1). nobj o ob Ho. destruct (update_key_ok b w o ob k d) as (w1 & E & _ & ->); try done. rewrite (same_fst _ _ _ _ _ E H).
    destruct (res_ok _); [|by eapply untouched_objs]. eapply untouched_objs; [done|]. cbn. by rewrite lookup_insert_ne.
  - (* ORemoveKey *) apply bool_inv in H as (res & H & _). assert (x <> o) by (intros ->; by apply Hn1). nobj o ob Ho. destruct (remove_key_ok b ord w o ob k) as (w1 & E & _ & ->); try done. rewrite (same_fst _ _ _ _ _ E H).
    destruct (decide _); [|by eapply untouched_objs]. eapply untouched_objs; [done|]. cbn. rewrite lookup_upd_on, Hx. cbn. rewrite decide_False; [done|].
    intros Hin. apply elem_of_union in Hin as [Hin|Hin]; [by apply elem_of_singleton in Hin|].
    match goal with Hos : o_static_set ob = false |- _ => destruct (vi_sets _ _ _ _ (inv_obj _ _ HI) _ _ _ Ho Hos Hin) as (sb & E1 & E2 & _) end. congruence.
  - (* OCreateRecord *) apply res_inv in H as (res & H & _). assert (x <> o) by (intros ->; by apply Hn2). nobj o ob Ho. destruct (create_record_ok b w o ob f ps) as (w1 & res1 & E & _ & Hc); try done.
    { intros f0 ->. match goal with H : is_ref _ _ = true |- _ => apply is_ref_true in H as (rf & Hrf) end. eauto. }
    rewrite (same_fst _ _ _ _ _ E H). destruct Hc as [(p1 & p & p2 & _ & _ & _ & -> & _)|[(_ & k1 & k & k2 & td & _ & _ & _ & _ & -> & _)|(_ & _ & Hw & _)]].
    + by eapply untouched_objs.
    + by eapply untouched_objs.
    + assert (G : grown o w (created o ob (overlay ps (o_tmpl ob)) w)) by (by apply grown_created).
      destruct f as [f|]; [|subst w1; eapply untouched_objs; [done|by apply (gr_objs _ _ _ G)]].
      destruct Hw as [Hro _]. eapply untouched_objs; [done|]. rewrite (ro_objs _ _ Hro). by apply (gr_objs _ _ _ G).
  - (* OReadRows *) apply unit_inv in H as [H _]. assert (x <> o) by (intros ->; by apply Hn2). nobj o ob Ho. unfold read_rows in H. rewrite Ho in H. cbn [mbind option_bind] in H.
    assert (G : grown o w w').
    { eapply grown_trans; [by apply (grown_set o ob (ob_bad [] ob))|].
      eapply (read_rows_loop_grown b _ _ _ _ _ _ _ (ob_bad [] ob)); [by apply bad_inv|cbn; by rewrite lookup_insert|done|exact H]. }
    eapply untouched_objs; [done|]. by apply (gr_objs _ _ _ G).
  - (* OSetData *) apply res_inv in H as (res & H & _). nref f rf Hrf. eapply untouched_objs; [done|].
    eapply (set_many_objs b ord f [(k, v)] x xb w rf res w' res); try done; [by apply HA| |].
    + cbn [ref_set_many_loop]. rewrite H. cbn. by destruct (res_ok res).
    + intros r Hr Hin. apply Hn. right. right. right. exists f, r, xb. split; [done|]. split; [done|]. split; [by exists rf|done].
  - (* OSetMany *) apply res_inv in H as (res & H & _). nref f rf Hrf. destruct (HA _ Hrf) as [A1 A2]. unfold ref_set_many in H. rewrite Hrf in H. cbn [mbind option_bind] in H.
    destruct (f_vlt rf) as [o|]; [|done]. cbn [mbind option_bind] in H. destruct (w_objs w !! o) as [ob|] eqn:Ho; [|done]. cbn [mbind option_bind] in H.
    eapply untouched_objs; [done|]. eapply (set_many_objs b); try done.
    intros r Hr Hin. apply Hn. right. right. right. exists f, r, xb. split; [done|]. split; [done|]. split; [by exists rf|done].
  - (* ODropData *) apply unit_inv in H as [H _]. assert (x <> o) by (intros ->; by apply Hn3). nobj o ob Ho. destruct (drop_data_ok b ord w o ob) as (w1 & E & _ & Hd); try done; [by eapply Some_Def|]. rewrite (same_fst1 _ _ _ E H).
    eapply untouched_objs; [done|]. apply (em_objs _ _ _ Hd); [done|]. intros (sb & E1 & E2 & _). congruence.
  - (* ODropVault *) apply unit_inv in H as [H _]. assert (x <> o) by (intros ->; by apply Hn3). nobj o ob Ho. destruct (drop_vault_ok b ord w o ob) as (w1 & E & _ & Hd); try done; [by eapply Some_Def|]. rewrite (same_fst1 _ _ _ E H).
    eapply untouched_objs; [done|]. apply (dr_objs _ _ _ Hd); [done|]. intros (sb & E1 & E2 & _). congruence.
  - (* OCopyVault *) apply unit_inv in H as [H _]. destruct HA as [A1 A2]. nobj src sb Hsb. destruct (copy_construct_vault_ok b ord w dst src sb) as (w1 & E & Hc & _); try done; [by apply unmentioned_unused; auto|].
    rewrite (same_fst1 _ _ _ E H). eapply untouched_objs; [done|]. rewrite (cp_objs _ _ _ _ Hc) by congruence. cbn. rewrite lookup_insert_ne by congruence. done.
  - (* OAssignVault *) apply unit_inv in H as [H _]. assert (x <> dst) by (intros ->; by apply Hn3). nobj src sb Hsb. destruct (decide (dst = src)) as [->|Hne].
    + unfold copy_assign_vault in H. rewrite decide_True in H by done. injection H as <-. by eapply untouched_objs.
    + nobj dst db Hdb. destruct (copy_assign_vault_ok b ord w dst src sb db) as (w1 & w2 & E & _ & Hd & _ & Hc & _); try done; [by eapply Some_Def|]. rewrite (same_fst1 _ _ _ E H).
      eapply untouched_objs; [done|]. rewrite (cp_objs _ _ _ _ Hc) by done. cbn. rewrite lookup_insert_ne by done. apply (dr_objs _ _ _ Hd); [done|]. intros (s1 & E1 & E2 & _). congruence.
  - (* OMoveVault *) apply unit_inv in H as [H _]. destruct HA as [A1 A2]. assert (x <> dst) by (intros ->; apply Hn3; by left). assert (x <> src) by (intros ->; apply Hn3; by right). nobj src sb Hsb.
    destruct (move_construct_vault_ok b w dst src sb) as (E & _); try done; [by apply unmentioned_unused; auto|by apply unshared_lonely|].
    rewrite (same_fst1 _ _ _ E H). eapply untouched_objs; [done|]. cbn. by rewrite !lookup_insert_ne.
  - (* OMoveAssignVault *) apply unit_inv in H as [H _]. assert (x <> dst) by (intros ->; apply Hn3; by left). assert (x <> src) by (intros ->; apply Hn3; by right). nobj dst db Hdb. nobj src sb Hsb.
    destruct (decide (dst = src)) as [->|Hne].
    + unfold move_assign_vault in H. rewrite decide_True in H by done. injection H as <-. by eapply untouched_objs.
    + destruct (move_assign_vault_ok b ord w dst src db sb) as (w1 & _ & Hd & HI1 & Hs1 & E & _); try done; [by apply unshared_lonely; auto|by eapply Some_Def|]. rewrite (same_fst1 _ _ _ E H).
      eapply untouched_objs; [done|]. cbn. rewrite !lookup_insert_ne by done. apply (dr_objs _ _ _ Hd); [done|]. intros (s1 & E1 & E2 & _). congruence.
Qed.

(** C27: an operation that is not about a vault leaves it as it is, queries included. *)
Lemma t_C27_independent_step :
  forall b ord w p w' out o ob, fair ord -> reach b w -> allowed b w p -> step ord w p = Some (w', out) -> vault_at w o ob -> ~ concerns w p o ->
    vault_same w w' o ob.
Proof.
  intros b ord w p w' out o ob Hf HR HA H HV Hn. destruct (step_untouched _ _ _ _ _ _ _ _ Hf HR HA H HV Hn) as (ob' & HV' & E). exists ob'. split; [done|]. split; [done|].
  pose proof (reach_step _ _ _ _ _ _ HR Hf HA H) as HR'. intros r Hr. assert (HL : valid_rec w' r). { eapply (vault_valid b w' HR'); [exact HV'|]. by rewrite E. } split; [done|].
  pose proof (vault_valid b w HR _ _ _ HV Hr) as HL0. intros k. rewrite !stored_val_of.
  destruct (ef_live _ _ _ (step_effect _ _ _ _ _ _ Hf HR HA H) r) as [E0|[_ E0]].
  - apply (inv_heap _ _ (reach_inv _ _ HR)). destruct HL0 as (rc & Hrc & _). eauto.
  - apply valid_rec_live in HL as [? HL]. congruence.
  - apply E0. intros Hw. apply Hn.
    assert (HD : forall o1, (exists ob1, vault_at w o1 ob1 /\ r ∈ o_recs ob1) -> o1 = o). { intros o1 (ob1 & [V1 V2] & Hr1). destruct HV. by eapply (vi_disj _ _ _ _ (inv_obj _ _ (reach_inv _ _ HR))). }
    destruct p; cbn in Hw; try done; try (destruct Hw as [_ Hw]; apply HD in Hw; by left); destruct Hw as [_ Hw]; right; right; right; exists f, r, ob; done.
Qed.
(** C27: as long as no operation is about a vault, it stays as it is, whatever happens to others (such as the vault it was copied from). *)
Lemma t_C27_independent :
  forall b w w' o ob, reach b w -> vault_at w o ob -> later_while b (fun w1 p => ~ concerns w1 p o) w w' -> vault_same w w' o ob.
Proof.
  intros b w w' o ob HR HV HL. assert (reach b w' /\ vault_same w w' o ob) as [_ ?]; [|done].
  induction HL as [|ord w1 p w2 out HL IH Hf HA HQ H].
  - split; [done|]. exists ob. split; [done|]. split; [by destruct ob|]. intros r Hr. split; [by eapply (vault_valid b w HR)|done].
  - destruct IH as (HR1 & ob1 & V1 & E1 & S1). split; [by eapply reach_step|]. destruct (t_C27_independent_step _ _ _ _ _ _ _ _ Hf HR1 HA H V1 HQ) as (ob2 & V2 & E2 & S2).
    exists ob2. split; [done|]. split; [rewrite E2 at 1; rewrite E1; done|]. intros r Hr. destruct (S1 r Hr) as [_ K1]. destruct (S2 r) as [K2 K3]; [by rewrite E1|]. split; [done|]. intros k. by rewrite K3, K1.
Qed.
