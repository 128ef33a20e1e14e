(** C58: threads calling the functions of one vault at the same time behave as if they took turns. *)
From Verif Require Import MutexProofs MutexProofs2 MutexProofs3 LockProofs.
From Verif Require Import T_Base T_Frame T_Query T_RefOps T_Refs InvLookup.
From Verif Require Import ConcProofs.
From Verif Require Export ConcModel ConcSpec.
Open Scope nat_scope.

(** Any number of threads, any interleaving of the steps of locking, reading, writing in pieces, and unlocking: the calls and their answers
    are those of a sequential history in which each call takes effect once, at a moment between its beginning and its return; and when no
    thread is inside a call, the memory is what that history leaves. *)
Lemma t_C58_linearizable :
  forall b V own n w0 s, reach b w0 -> lruns b V own (l_init n w0) s ->
    exists L w, explains b V w0 (l_log s) L w /\ ((forall t ph, l_phase s !! t = Some ph -> ph = Outside) -> l_mem s = w).
Proof.
  intros b V own n w0 s HR H. destruct (lruns_inv b V own w0 _ _ H) as (L & w & HI); [eexists _, _; by apply l_init_inv|].
  exists L, w. split.
  - split; [apply HI|]. split; [|apply HI]. intros t. destruct (decide (t < length (l_phase s))) as [Hlt|Hge].
    + apply lookup_lt_is_Some in Hlt as [ph Hph]. assert (is_Some (s_threads (l_lock s) !! t)) as [th Hth] by (apply lookup_lt_is_Some; rewrite <- (li_len _ _ _ _ _ _ _ HI); by eapply lookup_lt_Some).
      destruct (li_thread _ _ _ _ _ _ _ HI t ph th Hph Hth) as (hist & Hf & Hph2). destruct ph as [|c|c ? ? ?|c r].
      * destruct Hph2 as [-> _]. rewrite <- (app_nil_r hist). by apply (full_regular t).
      * destruct Hph2 as [-> _]. by apply (full_regular t).
      * destruct Hph2 as [-> _]. by apply (full_regular t).
      * destruct Hph2 as [-> _]. by apply (full_regular t).
    + rewrite (li_out _ _ _ _ _ _ _ HI t) by lia. done.
  - intros Hidle. destruct (li_mem _ _ _ _ _ _ _ HI) as [Hm|(t & ph & Hph & Hw)]; [done|]. by rewrite (Hidle t ph Hph) in Hw.
Qed.

Lemma set_record_refs w f mr v w' : set_record w f mr v = Some w' -> w_refs w' = <[f := Ref mr (Some v)]> (w_refs w).
Proof.
  unfold set_record. destruct (w_refs w !! f) as [rf|]; [|done]. cbn [mbind option_bind]. intros E.
  assert (forall w1 w2 r, add_ref w1 r = Some w2 -> w_refs w2 = w_refs w1) as Ha.
  { intros w1 w2 r. unfold add_ref. destruct (w_recs w1 !! r); [|done]. cbn [mbind option_bind]. by intros [= <-]. }
  assert (forall w1 w2 r, remove_ref w1 r = Some w2 -> w_refs w2 = w_refs w1) as Hr.
  { intros w1 w2 r. unfold remove_ref. destruct (w_recs w1 !! r) as [rc|]; [|done]. cbn [mbind option_bind]. destruct (r_refs rc); [done|]. destruct (negb (r_valid rc) && (n =? 0)); by intros [= <-]. }
  destruct (match mr with Some r => add_ref w r | None => Some w end) as [w1|] eqn:E1; [|done]. cbn [mbind option_bind] in E.
  assert (w_refs w1 = w_refs w) as H1 by (destruct mr; [by eapply Ha|by injection E1 as <-]).
  destruct (match f_rec rf with Some r => remove_ref w1 r | None => Some w1 end) as [w2|] eqn:E2; [|done]. cbn [mbind option_bind] in E.
  assert (w_refs w2 = w_refs w1) as H2 by (destruct (f_rec rf); [by eapply Hr|by injection E2 as <-]).
  injection E as <-. cbn [set_ref w_refs]. by rewrite H2, H1.
Qed.
Lemma assign_refs_same (P : nat -> Prop) v l : forall fs w1 w2 w1' w2', (forall f, P f -> w_refs w2 !! f = w_refs w1 !! f) -> (forall f, f ∈ fs -> P f) ->
  assign_refs w1 v l fs = Some w1' -> assign_refs w2 v l fs = Some w2' -> forall f, P f -> w_refs w2' !! f = w_refs w1' !! f.
Proof.
  induction l as [|r l IH]; intros [|g fs] w1 w2 w1' w2' Hsame Hfs E1 E2 f Hf; cbn [assign_refs] in E1, E2;
    try (injection E1 as <-; injection E2 as <-; by apply Hsame).
  rewrite (Hsame g) in E2 by (apply Hfs; by left). destruct (w_refs w1 !! g).
  - destruct (set_record w1 g (Some r) v) as [w3|] eqn:E3; [|done]. destruct (set_record w2 g (Some r) v) as [w4|] eqn:E4; [|done]. cbn [mbind option_bind] in E1, E2.
    eapply (IH fs w3 w4); [|intros h Hh; apply Hfs; by right|done|done|done].
    intros h Hh. rewrite (set_record_refs _ _ _ _ _ E3), (set_record_refs _ _ _ _ _ E4). destruct (decide (h = g)) as [->|]; [by rewrite !lookup_insert|]. rewrite !lookup_insert_ne by done. by apply Hsame.
  - eapply (IH fs w1 w2); [done|intros h Hh; apply Hfs; by right|done|done|done].
Qed.
(** The answer of a reading call, and what it puts into its reference variables, do not depend on what other threads do to theirs at the same
    time: in two states of the memory that are the same to the thread it is the same. *)
Lemma t_C58_answers_stable :
  forall b V own t c w1 w2 w1' r, reach b w1 -> reach b w2 -> same_for own t w1 w2 -> mode V c = Some KRead -> (forall f, f ∈ refs_of c -> own f = t) ->
    proper b V w1 c -> perform V w1 c = Some (w1', r) ->
    exists w2', perform V w2 c = Some (w2', r) /\ forall f, own f = t -> w_refs w2' !! f = w_refs w1' !! f.
Proof.
  intros b V own t c w1 w2 w1' r HR1 HR2 [(So & Sv & Sd) Sr] Hm Hrefs ((ob & HV) & Hthr & HP) E.
  pose proof (reach_inv _ _ HR2) as HI2. destruct HV as [Ho Hst]. assert (w_objs w2 !! V = Some ob) as Ho2 by (by rewrite So).
  assert (forall f, own f = t -> is_ref w2 f = is_ref w1 f) as Hir by (intros f Hf; unfold is_ref; by rewrite (Sr f Hf)).
  destruct c as [ord p|a]; cbn [perform] in *.
  - destruct HP as [Hf HA]. destruct (step ord w1 p) as [[wx x]|] eqn:Es; [|done]. cbn [mbind option_bind] in E. injection E as <- <-.
    assert (exists w2', step ord w2 p = Some (w2', x) /\ forall f, own f = t -> w_refs w2' !! f = w_refs wx !! f) as (w2' & E2 & H2); [|exists w2'; rewrite E2; done].
    destruct p; cbn [mode] in Hm; unfold on_vault in Hm; try done; try (destruct (decide (o = V)); done); destruct (decide (o = V)) as [->|]; try done; cbn [refs_of] in Hrefs.
    + cbn [step] in Es |- *. unfold is_obj in Es |- *. rewrite So, Hir by (apply Hrefs; by left). unfold guard_op in Es |- *.
      destruct (bool_decide (is_Some (w_objs w1 !! V)) && is_ref w1 f) eqn:G; [|injection Es as <- <-; eauto].
      apply andb_true_iff in G as [_ G]. apply bool_decide_eq_true in G as [rf Hrf]. assert (w_refs w2 !! f = Some rf) as Hrf2 by (rewrite Sr; [done|apply Hrefs; by left]).
      destruct (get_record_vault_ok b ord w2 V ob k v f rf) as (w2' & res & rf' & E2 & _ & _ & Er & _); try done. rewrite E2. cbn.
      apply res_inv in Es as (res1 & Es & ->). unfold get_record, vault_get_record in Es, E2. rewrite Ho in Es. rewrite Ho2 in E2. cbn [mbind option_bind] in Es, E2. rewrite Hst in Es, E2.
      destruct (o_keys ob !! k) as [[t0 d]|]; [|injection Es as <- <-; injection E2 as <- <-; eauto].
      destruct (decide (t0 = vty v)); [|injection Es as <- <-; injection E2 as <- <-; eauto].
      destruct (o_idx ob !! k) as [ix|]; [|done]. cbn [mbind option_bind] in Es, E2.
      destruct (ord (snd <$> equal_range v (ix_hash ix))) as [|r0 rest].
      * destruct (set_record w1 f None V) as [w3|] eqn:E3; [|done]. destruct (set_record w2 f None V) as [w4|] eqn:E4; [|done]. cbn [mbind option_bind] in Es, E2. injection Es as <- <-. injection E2 as <- <-.
        eexists. split; [done|]. intros g Hg. rewrite (set_record_refs _ _ _ _ _ E3), (set_record_refs _ _ _ _ _ E4). destruct (decide (g = f)) as [->|]; [by rewrite !lookup_insert|]. rewrite !lookup_insert_ne by done. by apply Sr.
      * destruct (set_record w1 f (Some r0) V) as [w3|] eqn:E3; [|done]. destruct (set_record w2 f (Some r0) V) as [w4|] eqn:E4; [|done]. cbn [mbind option_bind] in Es, E2. injection Es as <- <-. injection E2 as <- <-.
        eexists. split; [done|]. intros g Hg. rewrite (set_record_refs _ _ _ _ _ E3), (set_record_refs _ _ _ _ _ E4). destruct (decide (g = f)) as [->|]; [by rewrite !lookup_insert|]. rewrite !lookup_insert_ne by done. by apply Sr.
    + cbn [step] in Es |- *. unfold is_obj in Es |- *. rewrite So. unfold guard_op in Es |- *. rewrite bool_decide_true in Es |- * by eauto.
      apply res_inv in Es as (res1 & Es & ->). rewrite Ho in Es |- *. cbn [mbind option_bind] in Es |- *.
      assert (get_records ord w2 V k v amt = get_records ord w1 V k v amt) as Eg by (unfold get_records; by rewrite So). rewrite Eg.
      destruct (get_records ord w1 V k v amt) as [[res l]|] eqn:Eg1; [|done]. cbn [mbind option_bind] in Es |- *.
      destruct (assign_refs w1 (default V (source_vault V ob)) l fs) as [w3|] eqn:E3; [|done]. cbn [mbind option_bind] in Es. injection Es as <- <-.
      assert (source_vault V ob = Some V) as Hsv by (unfold source_vault; by rewrite Hst). rewrite Hsv in E3 |- *. change (default V (Some V)) with V in E3 |- *.
      destruct (get_records_spec ord w2 V ob k v amt) as (res'' & l' & E' & Hl & Hp); [done|done|left; rewrite Eg; eauto|]. rewrite Eg in E'. injection E' as <- <-.
      destruct (assign_refs_ok b V l fs w2 HI2) as (w4 & E4 & _); [|right; intros r0 Hr0; destruct (Hl _ Hr0) as [Hfd Hk]; assert (Hne : l <> []) by (intros ->; by apply elem_of_nil in Hr0); specialize (Hp Hne); destruct (index_lists b w2 V ob k r0 l HI2 Ho2) as (_ & _ & H3); [eauto|done|rewrite Hst; done|]; by apply H3|].
      { intros r0 ob0 Hr0 Hob0 Hs0 Hl0. assert (ob0 = ob) as -> by congruence. destruct (Hl _ Hr0) as [Hfd Hk]. assert (Hne : l <> []) by (intros ->; by apply elem_of_nil in Hr0).
        specialize (Hp Hne). destruct (index_lists b w2 V ob k r0 l HI2 Ho2) as (_ & H2 & _); [eauto|done|done|]. by eapply H2. }
      rewrite E4. cbn. eexists. split; [done|]. intros f Hf0. eapply (assign_refs_same (fun f => own f = t) V l fs w1 w2); eauto.
    + cbn [step] in Es |- *. unfold is_obj in Es |- *. rewrite So. unfold guard_op in Es |- *. rewrite bool_decide_true in Es |- * by eauto.
      apply unit_inv in Es as [Es ->].
      assert (sorted_records w2 V k rev amt = sorted_records w1 V k rev amt) as Eg by (unfold sorted_records; by rewrite So). rewrite Eg.
      destruct (sorted_records w1 V k rev amt) as [l|] eqn:Eg1; [|done]. cbn [mbind option_bind] in Es |- *.
      destruct (sorted_records_spec w2 V ob k rev amt) as (l' & E' & Hl & Hp); [done|left; rewrite Eg; eauto|]. rewrite Eg in E'. injection E' as <-.
      destruct (assign_refs_ok b V l fs w2 HI2) as (w4 & E4 & _); [|right; intros r0 Hr0; destruct (Hl _ Hr0) as [Hfd Hk]; destruct (index_lists b w2 V ob k r0 l HI2 Ho2) as (_ & _ & H3); [eauto|done|rewrite Hst; done|]; by apply H3|].
      { intros r0 ob0 Hr0 Hob0 Hs0 Hl0. assert (ob0 = ob) as -> by congruence. destruct (Hl _ Hr0) as [Hfd Hk].
        destruct (index_lists b w2 V ob k r0 l HI2 Ho2) as (_ & H2 & _); [eauto|done|congruence|]. eapply (H2 V); [|done|done|done]. unfold source_vault. by rewrite Hst. }
      rewrite E4. cbn. eexists. split; [done|]. intros f Hf0. eapply (assign_refs_same (fun f => own f = t) V l fs w1 w2); eauto.
  - destruct (reply_to V w1 a) as [r1|] eqn:Ea; [|done]. cbn [mbind option_bind] in E. injection E as <- <-.
    assert (reply_to V w2 a = Some r1) as E2; [|rewrite E2; eauto].
    unfold reply_to in Ea |- *. rewrite Ho in Ea. rewrite Ho2. cbn [mbind option_bind] in Ea |- *. destruct a as [k|k| | | |k t0|f k t0]; try done.
    rewrite (Sr f) by (apply Hrefs; by left). destruct (w_refs w1 !! f) as [rf|] eqn:Erf; [|done]. cbn [mbind option_bind] in Ea |- *.
    assert (ref_get_data w2 rf k t0 = ref_get_data w1 rf k t0) as ->; [|done].
    unfold ref_get_data. destruct (f_rec rf) as [r0|] eqn:Er; [|done]. destruct (f_vlt rf) as [o|]; [|done]. cbn [mbind option_bind]. rewrite So. destruct (w_objs w1 !! o) as [ob1|]; [|done]. cbn [mbind option_bind].
    assert (forall w, reach b w -> w_refs w !! f = Some rf -> exists rc, w_recs w !! r0 = Some rc) as Hal.
    { intros w HR Hrf. exact (proj2 (proj1 (t_C18_allocated_iff_used b w r0 HR)) (or_intror (ex_intro _ f (ex_intro _ rf (conj Hrf Er))))). }
    destruct (Hal w1 HR1 Erf) as [rc1 Hrc1]. destruct (Hal w2 HR2) as [rc2 Hrc2]; [rewrite (Sr f); [done|apply Hrefs; by left]|].
    rewrite Hrc1, Hrc2. cbn [mbind option_bind]. specialize (Sv r0). specialize (Sd r0 k). unfold stored in Sd. rewrite Hrc1, Hrc2 in Sd. cbn in Sd.
    assert (r_valid rc2 = r_valid rc1) as Ev.
    { destruct (r_valid rc1) eqn:E1, (r_valid rc2) eqn:E2; try done.
      - destruct (proj2 Sv) as (rc & Hx & Hy); [by exists rc1|]. congruence.
      - destruct (proj1 Sv) as (rc & Hx & Hy); [by exists rc2|]. congruence. }
    rewrite Ev in Sd |- *. destruct (r_valid rc1); [|done]. rewrite Sd. done.
Qed.
