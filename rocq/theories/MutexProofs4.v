(** A writer and a reader at the same time: only after a spurious wake-up of that writer while that reader was reading (C39). *)
From Verif Require Import MutexModel MutexSpec MutexProofs.
Open Scope nat_scope.

(** Past the wait of WriteLock. *)
Definition past (p : pc) : bool := match p with WL56 | Writing => true | _ => false end.
Lemma past_holds p : past p = true -> holds_wm p = true.
Proof. by destruct p. Qed.
(** A step other than the spurious wake-up of [t]: if [t] is past the wait and [u] is counted afterwards, so they were before. *)
Lemma past_counted_back s a s' t u p q : MInv true s -> mstep true s a = Some s' -> a <> MSpurious t ->
  m_pcs s' !! t = Some p -> past p = true -> m_pcs s' !! u = Some q -> counted q = true ->
  exists p0 q0, m_pcs s !! t = Some p0 /\ past p0 = true /\ m_pcs s !! u = Some q0 /\ counted q0 = true.
Proof.
  intros HI E Ha Ht Hp Hu Hq. pose proof (mstep_inv _ _ _ _ HI E) as HI'.
  assert (Hpos : 0 < readers (m_pcs s')) by (by eapply readers_pos).
  pose proof (proj1 (mi_wm _ _ HI' t p Ht) (past_holds p Hp)) as Hwt.
  destruct a as [v|v c|v]; cbn in E.
  - unfold go in E. destruct (m_pcs s !! v) as [r|] eqn:Hv; [|done]. cbn [mbind option_bind] in E. pose proof (lookup_lt_Some _ _ _ Hv) as Hl.
    assert (Hgo : forall x, (past x = true -> past r = true) -> (counted x = true -> counted r = true) -> m_pcs s' = <[v := x]> (m_pcs s) ->
      exists p0 q0, m_pcs s !! t = Some p0 /\ past p0 = true /\ m_pcs s !! u = Some q0 /\ counted q0 = true).
    { intros x H1 H2 E'. rewrite E' in Ht, Hu. apply (lookup_go _ _ _ _ _ Hl) in Ht, Hu.
      destruct Ht as [[-> ->]|[_ Ht]], Hu as [[-> ->]|[_ Hu]]; eexists _, _; (split; [eassumption|]); (split; [auto|]); (split; [eassumption|auto]). }
    destruct r; try done;
      repeat match type of E with match ?x with _ => _ end = _ => destruct x eqn:?; try done end;
      try (injection E as <-; eapply Hgo; [| |reflexivity]; by cbn).
    + (* RL22 *) injection E as <-. destruct (decide (v = t)) as [->|Hn].
      { cbn in Ht. apply (lookup_go _ _ _ _ _ Hl) in Ht as [[_ ->]|[? _]]; done. }
      pose proof (proj1 (mi_wm _ _ HI v _ Hv) eq_refl) as Hwv. cbn in Hwt. congruence.
    + (* RU35 *) injection E as <-. eapply Hgo; [| |reflexivity]; destruct (decide _); done.
    + (* RU36 *) injection E as <-. eapply Hgo; [| |reflexivity]; destruct (m_flag s); done.
    + (* RU37: notify *) injection E as <-. pose proof (mi_none _ _ HI v _ Hv eq_refl) as H0.
      cbn [goto notify m_pcs] in Hpos. pose proof (readers_insert (wake <$> m_pcs s) v RU37 RU36) as R. rewrite list_lookup_fmap, Hv in R. specialize (R eq_refl). rewrite readers_wake in R. cbn [counted] in R.
      rewrite (mi_count _ _ HI) in H0. lia.
    + (* WL54 *) injection E as <-. destruct (0 <? m_count s)%Z eqn:Ec; [eapply Hgo; [| |reflexivity]; done|]. apply Z.ltb_ge in Ec.
      cbn [goto m_pcs] in Hpos. pose proof (readers_insert (m_pcs s) v WL54 WL56 Hv) as R. cbn [counted] in R. rewrite (mi_count _ _ HI) in Ec. lia.
  - unfold call in E. destruct (m_pcs s !! v) as [r|] eqn:Hv; [|done]. cbn [mbind option_bind] in E. destruct (entry c r) as [x|] eqn:Ee; [|done]. injection E as <-.
    pose proof (lookup_lt_Some _ _ _ Hv) as Hl. cbn [goto m_pcs] in Ht, Hu. apply (lookup_go _ _ _ _ _ Hl) in Ht, Hu.
    assert (H1 : past x = true -> past r = true) by (destruct c, r; try done; by injection Ee as <-).
    assert (H2 : counted x = true -> counted r = true) by (destruct c, r; try done; by injection Ee as <-).
    destruct Ht as [[-> ->]|[_ Ht]], Hu as [[-> ->]|[_ Hu]]; eexists _, _; (split; [eassumption|]); (split; [auto|]); (split; [eassumption|auto]).
  - unfold spurious_wake in E. destruct (m_pcs s !! v) as [r|] eqn:Hv; [|done]. cbn [mbind option_bind] in E. destruct (decide (r = Waiting)) as [->|]; [|done]. injection E as <-.
    pose proof (lookup_lt_Some _ _ _ Hv) as Hl. cbn [goto m_pcs] in Ht, Hu. apply (lookup_go _ _ _ _ _ Hl) in Ht as [[-> _]|[_ Ht]]; [done|].
    apply (lookup_go _ _ _ _ _ Hl) in Hu as [[_ ->]|[_ Hu]]; [done|]. by exists p, q.
Qed.
Lemma mrun_snoc sp s l a s' : mrun sp s (l ++ [a]) = Some s' -> exists s1, mrun sp s l = Some s1 /\ mstep sp s1 a = Some s'.
Proof.
  revert s. induction l as [|b l IH]; intros s; cbn [app mrun].
  - destruct (mstep sp s a) as [s1|] eqn:E; cbn; [|done]. intros [= <-]. by exists s.
  - destruct (mstep sp s b) as [s1|]; cbn [mbind option_bind]; [apply IH|done].
Qed.
Lemma no_new_readers :
  forall sp n l s t p a s' u, mrun sp (m_init n) l = Some s -> m_pcs s !! t = Some p -> p ∈ [WL52; WL54; WL54w; Waiting; WL56; Writing] ->
    mstep sp s a = Some s' -> m_pcs s' !! u = Some Reading -> m_pcs s !! u = Some Reading.
Proof.
  intros sp n l s t p a s' u E Ht Hp Es Hu. pose proof (mrun_inv _ l _ _ (m_init_inv _ n) E) as HI.
  assert (holds_wm p = true) as Hw by (repeat (apply elem_of_cons in Hp as [->|Hp]; [done|]); by apply elem_of_nil in Hp).
  apply (mi_wm _ s HI t p Ht) in Hw.
  destruct a as [v|v c|v]; cbn in Es.
  - unfold go in Es. destruct (m_pcs s !! v) as [q|] eqn:Hv; [|done]. cbn [mbind option_bind] in Es. pose proof (lookup_lt_Some _ _ _ Hv) as Hl.
    assert (forall x, x <> Reading -> <[v := x]> (m_pcs s) !! u = Some Reading -> m_pcs s !! u = Some Reading) as Hx.
    { intros x Hx H. apply (lookup_go _ _ _ _ _ Hl) in H as [[-> ?]|[_ H]]; [congruence|done]. }
    destruct q; try done; try (destruct (m_wm s); [done|]); try (destruct (m_rm s); [done|]);
      [..|destruct (decide (m_count s = 0%Z))|destruct (m_flag s)| | | | |destruct (0 <? m_count s)%Z| | |];
      injection Es as <-; cbn [goto with_wm with_rm with_count with_flag m_pcs] in Hu; try (eapply Hx, Hu; done).
    + pose proof (proj1 (mi_wm _ s HI v _ Hv) eq_refl) as Hv'. assert (v = t) by congruence. subst v. assert (p = RL24) as -> by congruence.
      repeat (apply elem_of_cons in Hp as [?|Hp]; [done|]). by apply elem_of_nil in Hp.
    + cbn [notify m_pcs] in Hu. apply lookup_go in Hu as [[_ ?]|[_ Hu]]; [done| |by rewrite fmap_length].
      rewrite list_lookup_fmap in Hu. destruct (m_pcs s !! u) as [q|]; [|done]. injection Hu as Hu. by destruct q.
  - unfold call in Es. destruct (m_pcs s !! v) as [q|] eqn:Hv; [|done]. cbn [mbind option_bind] in Es. destruct (entry c q) as [q'|] eqn:Ee; [|done].
    injection Es as <-. cbn [goto m_pcs] in Hu. apply lookup_go in Hu as [[-> ?]|[_ Hu]]; [|done|by eapply lookup_lt_Some].
    destruct c, q; try done; injection Ee as <-; done.
  - destruct sp; [|done]. unfold spurious_wake in Es. destruct (m_pcs s !! v) as [q|] eqn:Hv; [|done]. cbn [mbind option_bind] in Es.
    destruct (decide (q = Waiting)) as [->|]; [|done]. injection Es as <-. cbn [goto m_pcs] in Hu. apply lookup_go in Hu as [[-> ?]|[_ Hu]]; [done|done|by eapply lookup_lt_Some].
Qed.

(** With the spurious wake-ups the C++ standard allows, a writer gets in while a reader is still reading. *)
Lemma only_spurious n t u l : forall s p q, mrun true (m_init n) l = Some s -> m_pcs s !! t = Some p -> past p = true -> m_pcs s !! u = Some q -> counted q = true ->
  exists l1 l2 s1 q1, (q = Reading -> q1 = Reading) /\ l = l1 ++ MSpurious t :: l2 /\ mrun true (m_init n) l1 = Some s1 /\ m_pcs s1 !! t = Some Waiting /\ m_pcs s1 !! u = Some q1 /\ counted q1 = true.
Proof.
  induction l as [|a l IH] using rev_ind; intros s p q E Ht Hp Hu Hq.
  - injection E as <-. cbn in Ht. apply lookup_replicate in Ht as [-> _]. done.
  - apply mrun_snoc in E as (s0 & E0 & Es). pose proof (mrun_inv _ _ _ _ (m_init_inv _ n) E0) as HI.
    assert (a = MSpurious t \/ a <> MSpurious t) as [->|Ha] by (destruct a as [v|v c|v]; [by right..|]; destruct (decide (v = t)) as [->|]; [by left|right; congruence]).
    + assert (t <> u) as Hne by (intros <-; rewrite Ht in Hu; injection Hu as <-; by destruct p).
      cbn in Es. unfold spurious_wake in Es. destruct (m_pcs s0 !! t) as [r|] eqn:Hr; [|done]. cbn [mbind option_bind] in Es. destruct (decide (r = Waiting)) as [->|]; [|done]. injection Es as <-.
      cbn [goto m_pcs] in Hu. rewrite list_lookup_insert_ne in Hu by done. by exists l, [], s0, q.
    + destruct (past_counted_back _ _ _ _ _ _ _ HI Es Ha Ht Hp Hu Hq) as (p0 & q0 & H1 & H2 & H3 & H4).
      destruct (IH s0 p0 q0 E0 H1 H2 H3 H4) as (l1 & l2 & s1 & q1 & F0 & -> & F1 & F2 & F3 & F4). exists l1, (l2 ++ [a]), s1, q1. split; [|by rewrite <- app_assoc]. intros ->. apply F0.
      assert (p0 ∈ [WL52; WL54; WL54w; Waiting; WL56; Writing]) as Hin by (apply elem_of_list_In; destruct p0; try done; cbn; tauto).
      pose proof (no_new_readers true n _ s0 t p0 a s u E0 H1 Hin Es Hu). congruence.
Qed.
Lemma writer_and_reader n t u l s : mrun true (m_init n) l = Some s -> m_pcs s !! t = Some Writing -> m_pcs s !! u = Some Reading ->
  exists l1 l2 s1, l = l1 ++ MSpurious t :: l2 /\ mrun true (m_init n) l1 = Some s1 /\ m_pcs s1 !! t = Some Waiting /\ m_pcs s1 !! u = Some Reading.
Proof.
  intros E Ht Hu. destruct (only_spurious n t u l s Writing Reading E Ht eq_refl Hu eq_refl) as (l1 & l2 & s1 & q & F0 & -> & F1 & F2 & F3 & F4).
  rewrite (F0 eq_refl) in F3. by exists l1, l2, s1.
Qed.
Lemma spurious_breaks n t u l s : mrun true (m_init n) l = Some s -> m_pcs s !! t = Some Waiting -> m_pcs s !! u = Some Reading ->
  exists s', mrun true s [MSpurious t; MGo t] = Some s' /\ m_pcs s' !! t = Some Writing /\ m_pcs s' !! u = Some Reading.
Proof.
  intros _ Ht Hu. assert (t <> u) as Hne by (intros <-; congruence). pose proof (lookup_lt_Some _ _ _ Ht) as Hl.
  destruct s as [pcs wm rm c f]. cbn [m_pcs] in *. cbn [mrun mstep]. unfold spurious_wake. cbn [m_pcs]. rewrite Ht. cbn [mbind option_bind]. rewrite decide_True by done. cbn [mbind option_bind].
  unfold go. cbn [goto m_pcs]. rewrite list_lookup_insert by done. cbn [mbind option_bind]. eexists. split; [reflexivity|]. cbn [goto with_flag m_pcs].
  rewrite list_insert_insert. by rewrite list_lookup_insert, list_lookup_insert_ne by done.
Qed.
