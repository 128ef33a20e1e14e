(** Progress of the readers-writer mutex. *)
From Verif Require Import MutexModel MutexSpec MutexProofs.
Open Scope nat_scope.

(** A waiting writer will be notified. *)
Definition notifier (p : pc) : bool := match p with RU35 | RU36 | RU37 => true | _ => false end.
Definition blocked (p : pc) : bool := match p with WL54w | Waiting => true | _ => false end.
Definition wake_ok (s : mstate) : Prop :=
  forall v p, m_pcs s !! v = Some p -> blocked p = true -> (0 < m_count s)%Z \/ exists u p, m_pcs s !! u = Some p /\ notifier p = true.

Lemma wake_goto s t p q wm' rm' c' f' : wake_ok s -> m_pcs s !! t = Some p ->
  (blocked q = true -> blocked p = true \/ (0 < c')%Z) ->
  (c' = m_count s \/ (0 < c')%Z \/ notifier q = true) ->
  (notifier p = true -> notifier q = true \/ (0 < c')%Z \/ forall v r, m_pcs s !! v = Some r -> blocked r = false) ->
  wake_ok (MState (<[t := q]> (m_pcs s)) wm' rm' c' f').
Proof.
  intros HW Ht Hq Hc Hn v r0. cbn [m_pcs m_count]. intros Hv Hb. pose proof (lookup_lt_Some _ _ _ Ht) as Hl.
  assert ((0 < c')%Z \/ exists v r, m_pcs s !! v = Some r /\ blocked r = true) as [?|(v' & r' & Hv' & Hb')]; [|by left|].
  { apply (lookup_go _ _ _ _ _ Hl) in Hv as [[-> ->]|[Hne Hv]]; [destruct (Hq Hb)|]; eauto 6. }
  assert (notifier q = true -> exists u p, <[t := q]> (m_pcs s) !! u = Some p /\ notifier p = true) as Hself.
  { intros H. exists t, q. by rewrite list_lookup_insert. }
  destruct (HW v' r' Hv' Hb') as [H0|(u & r & Hu & Hr)].
  - destruct Hc as [->|[?|?]]; auto.
  - destruct (decide (u = t)) as [->|Hut].
    + assert (r = p) as -> by congruence. destruct (Hn Hr) as [?|[?|Hno]]; auto. by rewrite (Hno v' r' Hv') in Hb'.
    + right. exists u, r. by rewrite list_lookup_insert_ne.
Qed.

Lemma go_wake sp s t s' : MInv sp s -> wake_ok s -> go s t = Some s' -> wake_ok s'.
Proof.
  intros HI HW. unfold go. destruct (m_pcs s !! t) as [p|] eqn:Ht; [|done]. cbn [mbind option_bind].
  destruct p; try done.
  - destruct (m_wm s) eqn:E; [done|]. intros [= <-]. eapply (wake_goto s t _ RL21); auto; done.
  - destruct (m_rm s) eqn:E; [done|]. intros [= <-]. eapply (wake_goto s t _ RL22); auto; done.
  - intros [= <-]. pose proof (mi_count sp s HI). eapply (wake_goto s t _ RL23); try done. right; left. cbn in *. lia.
  - intros [= <-]. eapply (wake_goto s t _ RL24); auto; done.
  - intros [= <-]. eapply (wake_goto s t _ Reading); auto; done.
  - destruct (m_rm s) eqn:E; [done|]. intros [= <-]. eapply (wake_goto s t _ RU33); auto; done.
  - intros [= <-]. eapply (wake_goto s t _ RU35); auto; done.
  - intros [= <-]. destruct (decide (m_count s = 0%Z)).
    + eapply (wake_goto s t _ RU36); auto; done.
    + pose proof (mi_count sp s HI). eapply (wake_goto s t _ RU39); [done|done|done|by left|]. intros _. right; left. cbn in *. lia.
  - intros [= <-]. destruct (m_flag s) eqn:E.
    + eapply (wake_goto s t _ RU37); auto; done.
    + eapply (wake_goto s t _ RU39); [done|done|done|by left|]. intros _. right; right. intros v r Hv. destruct (blocked r) eqn:Hb; [|done].
      assert (m_flag s = true) as Hf by (apply (mi_flag sp s HI); exists v, r; split; [done|by destruct r]). congruence.
  - intros [= <-]. intros v r. cbn [goto notify m_pcs m_count]. intros _ _. right. exists t, RU36. split; [|done].
    apply list_lookup_insert. rewrite fmap_length. by eapply lookup_lt_Some.
  - intros [= <-]. eapply (wake_goto s t _ Out); auto; done.
  - destruct (m_wm s) eqn:E; [done|]. intros [= <-]. eapply (wake_goto s t _ WL52); auto; done.
  - intros [= <-]. eapply (wake_goto s t _ WL54); auto; done.
  - intros [= <-]. destruct (0 <? m_count s)%Z eqn:E.
    + apply Z.ltb_lt in E. eapply (wake_goto s t _ WL54w); auto; done.
    + eapply (wake_goto s t _ WL56); auto; done.
  - intros [= <-]. eapply (wake_goto s t WL54w Waiting); [done|done|by left|by left|done].
  - intros [= <-]. eapply (wake_goto s t _ Writing); auto; done.
  - intros [= <-]. eapply (wake_goto s t _ Out); auto; done.
Qed.
Lemma call_wake s t c s' : wake_ok s -> call s t c = Some s' -> wake_ok s'.
Proof.
  intros HW. unfold call. destruct (m_pcs s !! t) as [p|] eqn:Ht; [|done]. cbn [mbind option_bind].
  destruct (entry c p) as [q|] eqn:E; [|done]. intros [= <-].
  eapply (wake_goto s t p q); auto; destruct c, p; try done; by injection E as <-.
Qed.
Record MInv2 (sp : bool) (s : mstate) : Prop := { m2_inv : MInv sp s; m2_wake : wake_ok s }.
Lemma m_init_inv2 sp n : MInv2 sp (m_init n).
Proof. split; [apply m_init_inv|]. intros v p Hv. cbn in Hv. by apply lookup_replicate in Hv as [-> _]. Qed.
Lemma go_inv2 sp s t s' : MInv2 sp s -> go s t = Some s' -> MInv2 sp s'.
Proof. intros [HI HW] E. split; [by eapply go_inv|by eapply go_wake]. Qed.
Lemma call_inv2 sp s t c s' : MInv2 sp s -> call s t c = Some s' -> MInv2 sp s'.
Proof. intros [HI HW] E. split; [by eapply call_inv|by eapply call_wake]. Qed.
Lemma mrun_inv2 sp l : forall s s', MInv2 sp s -> mrun sp s l = Some s' -> MInv2 sp s'.
Proof.
  induction l as [|a l IH]; intros s s' HI; cbn; [by intros [= <-]|]. destruct (mstep sp s a) as [s1|] eqn:E; [|done]. cbn.
  apply IH. destruct a as [t|t c|t]; cbn in E; [by eapply go_inv2|by eapply call_inv2|]. destruct HI as [HI HW]. split; [by eapply (mstep_inv sp s (MSpurious t))|].
  destruct sp; [|done]. unfold spurious_wake in E. destruct (m_pcs s !! t) as [p|] eqn:Ht; [|done]. cbn [mbind option_bind] in E.
  destruct (decide (p = Waiting)) as [->|]; [|done]. injection E as <-. eapply (wake_goto s t _ WL56); auto; done.
Qed.
Lemma mrun_app sp l1 l2 s : mrun sp s (l1 ++ l2) = (s' ← mrun sp s l1; mrun sp s' l2).
Proof. revert s. induction l1 as [|a l1 IH]; intros s; cbn; [done|]. destruct (mstep sp s a); cbn; [apply IH|done]. Qed.

(** How much a thread still has to do until it holds nothing. *)
Definition cost (p : pc) : nat :=
  match p with
  | Out => 0 | RL20 => 20 | RL21 => 19 | RL22 => 18 | RL23 => 17 | RL24 => 16 | Reading => 15
  | RU32 => 8 | RU33 => 7 | RU35 => 6 | RU36 => 4 | RU37 => 3 | RU39 => 1
  | WL50 => 21 | WL52 => 20 | WL54 => 19 | WL54w => 18 | Waiting => 17 | WL56 => 14 | Writing => 13 | WU64 => 1
  end.
Definition work (s : mstate) : nat := sum_list_with cost (m_pcs s).
Lemma sum_insert {A} (c : A -> nat) l t p q : l !! t = Some p -> sum_list_with c (<[t := q]> l) + c p = sum_list_with c l + c q.
Proof.
  revert t. induction l as [|x l IH]; intros [|t] H; try done.
  - injection H as ->. change (<[0 := q]> (p :: l)) with (q :: l). cbn [sum_list_with]. lia.
  - change (l !! t = Some p) in H. specialize (IH t H). change (<[S t := q]> (x :: l)) with (x :: <[t := q]> l). cbn [sum_list_with]. lia.
Qed.
Lemma work_wake l : sum_list_with cost (wake <$> l) <= sum_list_with cost l.
Proof. induction l as [|x l IH]; [done|]. destruct x; cbn [fmap list_fmap sum_list_with wake cost] in *; lia. Qed.
Lemma work_wake_lt l v : l !! v = Some Waiting -> sum_list_with cost (wake <$> l) + 3 <= sum_list_with cost l.
Proof.
  revert v. induction l as [|x l IH]; intros [|v] H; try done.
  - injection H as ->. pose proof (work_wake l). cbn [fmap list_fmap sum_list_with wake cost] in *. lia.
  - change (l !! v = Some Waiting) in H. specialize (IH v H). destruct x; cbn [fmap list_fmap sum_list_with wake cost] in *; lia.
Qed.
Lemma readers_some l : 0 < readers l -> exists t p, l !! t = Some p /\ counted p = true.
Proof.
  unfold readers. induction l as [|x l IH]; cbn; [lia|]. intros H. destruct (counted x) eqn:E; [by exists 0, x|].
  destruct IH as (t & p & Ht & Hp); [lia|]. by exists (S t), p.
Qed.

(** Steps inside calls alone. *)
Definition inside (a : mact) : Prop := match a with MGo _ => True | _ => False end.

Lemma go_down s t p s' : go s t = Some s' -> m_pcs s !! t = Some p -> p <> RU37 -> work s' < work s.
Proof.
  intros E Ht Hp. unfold go in E. rewrite Ht in E. cbn [mbind option_bind] in E.
  pose proof (fun q => sum_insert cost (m_pcs s) t p q Ht) as Hs.
  destruct p; try done; try (destruct (m_wm s); [done|]); try (destruct (m_rm s); [done|]);
    [..|destruct (decide (m_count s = 0%Z))|destruct (m_flag s)| | | |destruct (0 <? m_count s)%Z| | |];
    injection E as <-; unfold work; cbn [goto with_wm with_rm with_count with_flag m_pcs];
    match goal with |- sum_list_with _ (<[_ := ?q]> _) < _ => specialize (Hs q); cbn [cost] in Hs; lia end.
Qed.

(** If no thread holds a lock and some thread is inside a call, threads inside calls can do part of the remaining work. *)
Lemma progress sp s : MInv2 sp s -> (forall t, m_pcs s !! t <> Some Reading /\ m_pcs s !! t <> Some Writing) ->
  (exists t p, m_pcs s !! t = Some p /\ p <> Out) ->
  exists l s', Forall inside l /\ mrun sp s l = Some s' /\ work s' < work s.
Proof.
  intros [HI HW] Hno (t0 & p0 & Ht0 & Hp0).
  assert (forall t p s', m_pcs s !! t = Some p -> p <> RU37 -> go s t = Some s' ->
    exists l s', Forall inside l /\ mrun sp s l = Some s' /\ work s' < work s) as Hgo.
  { intros t p s' Ht Hp E. exists [MGo t], s'. split; [by repeat constructor|]. cbn. rewrite E. split; [done|]. by eapply go_down. }
  destruct (m_rm s) as [t|] eqn:Er.
  { destruct (mi_rm_in sp s HI t Er) as [p Ht]. pose proof (proj2 (mi_rm sp s HI t p Ht) Er) as Hh.
    destruct (decide (p = RU37)) as [->|Hp].
    - destruct (m_flag s) eqn:Ef.
      + destruct (proj1 (mi_flag sp s HI) Ef) as (u & q & Hu & Hq). destruct (decide (q = Waiting)) as [->|Hqw].
        * exists [MGo t], (goto t RU36 (notify s)). split; [by repeat constructor|]. split; [cbn; unfold go; by rewrite Ht|].
          unfold work. cbn [goto notify m_pcs]. pose proof (work_wake_lt _ _ Hu) as Hlt.
          pose proof (sum_insert cost (wake <$> m_pcs s) t RU37 RU36) as Hs. rewrite list_lookup_fmap, Ht in Hs. specialize (Hs eq_refl). cbn [cost] in Hs. lia.
        * assert (is_Some (go s u)) as [s' E] by (unfold go; rewrite Hu; destruct q; try done; cbn; eauto).
          eapply (Hgo u q); [done| |done]. by intros ->.
      + exists [MGo t; MGo t], (goto t RU39 (goto t RU36 (notify s))). split; [by repeat constructor|].
        pose proof (lookup_lt_Some _ _ _ Ht) as Hl.
        split.
        * assert (go s t = Some (goto t RU36 (notify s))) as E1 by (unfold go; by rewrite Ht).
          assert (go (goto t RU36 (notify s)) t = Some (goto t RU39 (goto t RU36 (notify s)))) as E2.
          { unfold go. cbn [goto notify m_pcs m_flag]. rewrite list_lookup_insert by (by rewrite fmap_length). cbn [mbind option_bind]. by rewrite Ef. }
          cbn [mrun mstep]. rewrite E1. cbn [mbind option_bind mrun]. by rewrite E2.
        * unfold work. cbn [goto notify m_pcs]. rewrite list_insert_insert. pose proof (work_wake (m_pcs s)).
          pose proof (sum_insert cost (wake <$> m_pcs s) t RU37 RU39) as Hs. rewrite list_lookup_fmap, Ht in Hs. specialize (Hs eq_refl). cbn [cost] in Hs. lia.
    - assert (is_Some (go s t)) as [s' E] by (unfold go; rewrite Ht; destruct p; try done; cbn; eauto). by eapply (Hgo t p). }
  destruct (m_wm s) as [t|] eqn:Ew.
  { destruct (mi_wm_in sp s HI t Ew) as [p Ht]. pose proof (proj2 (mi_wm sp s HI t p Ht) Ew) as Hh.
    destruct (decide (p = Waiting)) as [->|Hp].
    - destruct (HW t _ Ht eq_refl) as [Hc|(u & q & Hu & Hq)].
      + rewrite (mi_count sp s HI) in Hc. destruct (readers_some (m_pcs s)) as (u & q & Hu & Hq); [lia|].
        assert (q = RU32) as ->.
        { destruct q; try done.
          - pose proof (proj1 (mi_rm sp s HI u _ Hu) eq_refl). congruence.
          - pose proof (proj1 (mi_wm sp s HI u _ Hu) eq_refl). assert (u = t) by congruence. subst. congruence.
          - destruct (Hno u) as [H _]. by destruct H.
          - pose proof (proj1 (mi_rm sp s HI u _ Hu) eq_refl). congruence. }
        eapply (Hgo u RU32); [done..|]. unfold go. rewrite Hu. cbn [mbind option_bind]. by rewrite Er.
      + assert (holds_rm q = true) as Hr by (by destruct q). apply (mi_rm sp s HI u q Hu) in Hr. congruence.
    - assert (is_Some (go s t)) as [s' E].
      { unfold go. rewrite Ht. destruct p; try done; cbn [mbind option_bind]; rewrite ?Er; eauto. destruct (Hno t) as [_ H]. by destruct H. }
      eapply (Hgo t p); [done| |done]. by intros ->. }
  assert (is_Some (go s t0)) as [s' E].
  { unfold go. rewrite Ht0. cbn [mbind option_bind]. pose proof (mi_wm sp s HI t0 p0 Ht0) as [H1 _]. pose proof (mi_rm sp s HI t0 p0 Ht0) as [H2 _].
    destruct (Hno t0) as [Hn1 Hn2].
    destruct p0; try done; try (specialize (H1 eq_refl); congruence); try (specialize (H2 eq_refl); congruence); rewrite ?Ew, ?Er; eauto. }
  eapply (Hgo t0 p0); [done| |done]. intros ->. pose proof (proj1 (mi_rm sp s HI t0 _ Ht0) eq_refl). congruence.
Qed.

Lemma finish sp s : MInv2 sp s -> exists l s', Forall finishing l /\ mrun sp s l = Some s' /\ forall t p, m_pcs s' !! t = Some p -> p = Out.
Proof.
  remember (work s) as n eqn:En. revert s En. induction n as [n IH] using lt_wf_ind. intros s -> HI.
  assert (forall l s', Forall finishing l -> mrun sp s l = Some s' -> work s' < work s ->
    exists l s', Forall finishing l /\ mrun sp s l = Some s' /\ forall t p, m_pcs s' !! t = Some p -> p = Out) as Hstep.
  { intros l s' Hl E Hw. destruct (IH (work s') Hw s' eq_refl) as (l2 & s2 & Hl2 & E2 & H2); [by eapply mrun_inv2|].
    exists (l ++ l2), s2. split; [by apply Forall_app|]. split; [|done]. rewrite mrun_app, E. done. }
  destruct (decide (Exists (fun p => p = Reading \/ p = Writing) (m_pcs s))) as [Hx|Hx].
  - apply Exists_exists in Hx as (p & Hp & Hpp). apply elem_of_list_lookup_1 in Hp as [t Ht]. destruct Hpp as [->| ->].
    + eapply (Hstep [MCall t CReadUnlock]); [by repeat constructor|cbn; unfold call; by rewrite Ht|].
      unfold work. cbn [goto m_pcs]. pose proof (sum_insert cost (m_pcs s) t _ RU32 Ht) as Hs. cbn [cost] in Hs. lia.
    + eapply (Hstep [MCall t CWriteUnlock]); [by repeat constructor|cbn; unfold call; by rewrite Ht|].
      unfold work. cbn [goto m_pcs]. pose proof (sum_insert cost (m_pcs s) t _ WU64 Ht) as Hs. cbn [cost] in Hs. lia.
  - destruct (decide (Exists (fun p => p <> Out) (m_pcs s))) as [Hy|Hy].
    + apply Exists_exists in Hy as (p & Hp & Hpp). apply elem_of_list_lookup_1 in Hp as [t Ht].
      destruct (progress sp s HI) as (l & s' & Hl & E & Hw).
      * intros u. split; intros Hu; apply Hx, Exists_exists; eexists; (split; [by eapply elem_of_list_lookup_2|]); auto.
      * eauto.
      * eapply Hstep; [|done..]. eapply Forall_impl; [done|]. by intros [].
    + exists [], s. split; [done|]. split; [done|]. intros t p Ht. destruct (decide (p = Out)); [done|]. exfalso. apply Hy, Exists_exists.
      exists p. split; [by eapply elem_of_list_lookup_2|done].
Qed.
