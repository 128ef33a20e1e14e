(** Invariants of LifeModel.v. *)
From Verif Require Export LifeModel.
From Coq Require Import Lia.
Open Scope nat_scope.

Definition extra (p : lpc) : nat :=
  match p with LWant KDrop | LIn KDrop => 1 | LDone c _ | LFree c _ => gained c | _ => 0 end.
Definition wt (th : lthread) : nat := lt_refs th + extra (lt_pc th).
Definition total (l : list lthread) : nat := sum_list_with wt l.
Definition ends (p : lpc) : Prop := match p with LDone _ true | LFree _ true => True | _ => False end.
Definition holds (p : lpc) : Prop := match p with LIn _ | LDone _ _ => True | _ => False end.
Definition before (p : lpc) (c : lcall) : Prop := p = LWant c \/ p = LIn c.
Definition locked (s : life) (t : nat) : Prop := t ∈ lf_readers s \/ lf_writer s = Some t.
Record thread_ok (s : life) (t : nat) (th : lthread) : Prop := {
  to_own : holds (lt_pc th) <-> lf_owner s = Some t;
  to_get : before (lt_pc th) KGet -> lf_listed s = true /\ locked s t;
  to_add : before (lt_pc th) KAdd -> 0 < lt_refs th;
  to_look : before (lt_pc th) KLook -> 0 < lt_refs th \/ (lf_listed s = true /\ locked s t);
  to_inv : before (lt_pc th) KInv -> lf_valid s = true /\ lf_listed s = false;
  to_end : ends (lt_pc th) -> lf_valid s = false /\ lf_count s = 0 /\ lf_freed s = false;
  to_done : forall c, lt_pc th = LDone c false -> lf_valid s = false -> lf_count s = 0 -> False }.
Record LInv (s : life) : Prop := {
  lv_count : lf_count s = total (lf_threads s);
  lv_thread : forall t th, lf_threads s !! t = Some th -> thread_ok s t th;
  lv_owner : forall t, lf_owner s = Some t -> is_Some (lf_threads s !! t);
  lv_inv1 : forall t u th uh, lf_threads s !! t = Some th -> lf_threads s !! u = Some uh -> before (lt_pc th) KInv -> before (lt_pc uh) KInv -> t = u;
  lv_ends1 : forall t u th uh, lf_threads s !! t = Some th -> lf_threads s !! u = Some uh -> ends (lt_pc th) -> ends (lt_pc uh) -> t = u;
  lv_listed : lf_listed s = true -> lf_valid s = true;
  lv_unlisted : lf_listed s = false -> lf_valid s = true -> exists t th, lf_threads s !! t = Some th /\ before (lt_pc th) KInv;
  lv_freed : lf_freed s = true -> lf_valid s = false /\ lf_count s = 0;
  lv_dead : lf_valid s = false -> lf_count s = 0 -> lf_freed s = false -> exists t th, lf_threads s !! t = Some th /\ ends (lt_pc th);
  lv_writer : forall t, lf_writer s = Some t -> lf_readers s = [] }.

Lemma total_cons x l : total (x :: l) = wt x + total l.
Proof. done. Qed.
Lemma total_insert l t th th' : l !! t = Some th -> total (<[t := th']> l) + wt th = total l + wt th'.
Proof.
  revert t. induction l as [|x l IH]; intros [|t] H; try done.
  - injection H as ->. change (<[0 := th']> (th :: l)) with (th' :: l). rewrite !total_cons. lia.
  - specialize (IH t H). change (<[S t := th']> (x :: l)) with (x :: <[t := th']> l). rewrite !total_cons. lia.
Qed.
Lemma total_ge l t th : l !! t = Some th -> wt th <= total l.
Proof.
  revert t. induction l as [|x l IH]; intros [|t] H; try done.
  - injection H as ->. rewrite total_cons. lia.
  - specialize (IH t H). rewrite total_cons. lia.
Qed.
Lemma life_init_inv n : LInv (life_init n).
Proof.
  assert (forall t th, replicate n (LThread LIdle 0) !! t = Some th -> th = LThread LIdle 0) as Hr by (intros t th H; by apply lookup_replicate in H as [-> _]).
  split; cbn; try done.
  - clear Hr. change (0 = total (replicate n (LThread LIdle 0))). induction n as [|n IH]; [done|]. cbn [replicate]. rewrite total_cons. by rewrite <- IH.
  - intros t th H. apply Hr in H as ->. split; cbn; try done; intros; unfold before in *; intuition discriminate.
  - intros t u th uh H1 H2. apply Hr in H1 as ->. unfold before. cbn. intuition discriminate.
  - intros t u th uh H1 H2. apply Hr in H1 as ->. done.
Qed.

Lemma keep s s' t th th' :
  LInv s -> lf_threads s !! t = Some th -> lf_threads s' = <[t := th']> (lf_threads s) -> lf_count s' + wt th = lf_count s + wt th' ->
  thread_ok s' t th' -> (forall u uh, u <> t -> lf_threads s !! u = Some uh -> thread_ok s u uh -> thread_ok s' u uh) ->
  (forall u, lf_owner s' = Some u -> u = t \/ lf_owner s = Some u) ->
  (before (lt_pc th') KInv -> before (lt_pc th) KInv \/ lf_listed s = true) ->
  (ends (lt_pc th') -> ends (lt_pc th) \/ forall u uh, u <> t -> lf_threads s !! u = Some uh -> ~ ends (lt_pc uh)) ->
  (lf_listed s' = true -> lf_valid s' = true) ->
  (lf_listed s' = false -> lf_valid s' = true -> before (lt_pc th') KInv \/ (lf_listed s = false /\ lf_valid s = true /\ ~ before (lt_pc th) KInv)) ->
  (lf_freed s' = true -> lf_valid s' = false /\ lf_count s' = 0) ->
  (lf_valid s' = false -> lf_count s' = 0 -> lf_freed s' = false -> ends (lt_pc th') \/ (lf_valid s = false /\ lf_count s = 0 /\ lf_freed s = false /\ ~ ends (lt_pc th))) ->
  (forall u, lf_writer s' = Some u -> lf_readers s' = []) -> LInv s'.
Proof.
  intros HI Ht Hth Hc Hok Hother Howner Hinv Hends Hl Hun Hf Hd Hw.
  assert (Hlt : t < length (lf_threads s)) by (by eapply lookup_lt_Some).
  assert (Ht' : lf_threads s' !! t = Some th') by (rewrite Hth; by apply list_lookup_insert).
  assert (Hu' : forall u, u <> t -> lf_threads s' !! u = lf_threads s !! u) by (intros u Hu; rewrite Hth; by apply list_lookup_insert_ne).
  split; try done.
  - rewrite Hth. pose proof (total_insert _ _ _ th' Ht). pose proof (lv_count _ HI). lia.
  - intros u uh Hu. destruct (decide (u = t)) as [->|Hne]; [congruence|]. rewrite Hu' in Hu by done. apply Hother; [done..|]. by apply (lv_thread _ HI).
  - intros u Hu. destruct (decide (u = t)) as [->|Hne]; [by exists th'|]. rewrite Hu' by done. destruct (Howner u Hu); [done|]. by apply (lv_owner _ HI).
  - assert (forall u uh, u <> t -> lf_threads s !! u = Some uh -> before (lt_pc th') KInv -> before (lt_pc uh) KInv -> False) as Hx.
    { intros u uh Hne Hu H1 H2. destruct (Hinv H1) as [H3|H3]; [by apply Hne, (lv_inv1 _ HI u t uh th)|]. destruct (to_inv _ _ _ (lv_thread _ HI u uh Hu) H2). congruence. }
    intros u v uh vh Hu Hv H1 H2. destruct (decide (u = t)) as [->|Hne], (decide (v = t)) as [->|Hne2]; try done.
    + assert (uh = th') as -> by congruence. rewrite Hu' in Hv by done. exfalso. by apply (Hx v vh).
    + assert (vh = th') as -> by congruence. rewrite Hu' in Hu by done. exfalso. by apply (Hx u uh).
    + rewrite Hu' in Hu, Hv by done. by apply (lv_inv1 _ HI u v uh vh).
  - assert (forall u uh, u <> t -> lf_threads s !! u = Some uh -> ends (lt_pc th') -> ends (lt_pc uh) -> False) as Hx.
    { intros u uh Hne Hu H1 H2. destruct (Hends H1) as [H3|H3]; [by apply Hne, (lv_ends1 _ HI u t uh th)|]. by apply (H3 u uh). }
    intros u v uh vh Hu Hv H1 H2. destruct (decide (u = t)) as [->|Hne], (decide (v = t)) as [->|Hne2]; try done.
    + assert (uh = th') as -> by congruence. rewrite Hu' in Hv by done. exfalso. by apply (Hx v vh).
    + assert (vh = th') as -> by congruence. rewrite Hu' in Hu by done. exfalso. by apply (Hx u uh).
    + rewrite Hu' in Hu, Hv by done. by apply (lv_ends1 _ HI u v uh vh).
  - intros H1 H2. destruct (Hun H1 H2) as [H3|(H3 & H4 & H5)]; [eauto|]. destruct (lv_unlisted _ HI H3 H4) as (u & uh & Hu & Hb). exists u, uh. split; [|done].
    rewrite Hu'; [done|]. intros ->. congruence.
  - intros H1 H2 H3. destruct (Hd H1 H2 H3) as [H4|(H4 & H5 & H6 & H7)]; [eauto|]. destruct (lv_dead _ HI H4 H5 H6) as (u & uh & Hu & Hb). exists u, uh. split; [|done].
    rewrite Hu'; [done|]. intros ->. congruence.
Qed.

Lemma not_dead s t th c : LInv s -> lf_threads s !! t = Some th -> before (lt_pc th) c -> lf_valid s = false -> lf_count s = 0 -> False.
Proof.
  intros HI Ht Hb Hv Hc. pose proof (lv_thread _ HI t th Ht) as Hok. pose proof (total_ge _ _ _ Ht) as Hw. rewrite <- (lv_count _ HI), Hc in Hw. unfold wt in Hw.
  assert (lf_listed s = true -> False) as Hl by (intros H; apply (lv_listed _ HI) in H; congruence).
  destruct c.
  - apply (to_add _ _ _ Hok) in Hb. lia.
  - apply (to_get _ _ _ Hok) in Hb as [Hb _]. auto.
  - destruct Hb as [Hb|Hb]; rewrite Hb in Hw; cbn in Hw; lia.
  - apply (to_inv _ _ _ Hok) in Hb. destruct Hb. congruence.
  - apply (to_look _ _ _ Hok) in Hb as [Hb|[Hb _]]; [lia|auto].
Qed.
Definition touches (p : lpc) : Prop := match p with LWant _ | LIn _ | LDone _ _ | LFree _ true => True | _ => False end.
Lemma alive s t th : LInv s -> lf_threads s !! t = Some th -> touches (lt_pc th) -> lf_freed s = false.
Proof.
  intros HI Ht Hp. pose proof (lv_thread _ HI t th Ht) as Hok. destruct (lf_freed s) eqn:Hf; [|done]. destruct (lv_freed _ HI Hf) as [Hv Hc]. exfalso.
  destruct (lt_pc th) as [|c|c|c e|c e] eqn:Ep; try done.
  - eapply (not_dead s t th c); eauto. left. done.
  - eapply (not_dead s t th c); eauto. right. done.
  - destruct e; [|by eapply (to_done _ _ _ Hok)]. destruct (to_end _ _ _ Hok) as (_ & _ & ?); [by rewrite Ep|congruence].
  - destruct e; [|done]. destruct (to_end _ _ _ Hok) as (_ & _ & ?); [by rewrite Ep|congruence].
Qed.
Lemma idle_before c : ~ before LIdle c.
Proof. by intros [?|?]. Qed.
(** Changes of the vault's lock, made by a thread outside. *)
Lemma relock s t n rd wr : LInv s -> lf_threads s !! t = Some (LThread LIdle n) ->
  (forall u, u <> t -> locked s u -> u ∈ rd \/ wr = Some u) -> (forall u, wr = Some u -> rd = []) ->
  LInv (Life (lf_freed s) (lf_valid s) (lf_count s) (lf_owner s) (lf_listed s) rd wr (lf_threads s)).
Proof.
  intros HI Ht Hl Hw. eapply (keep s _ t _ (LThread LIdle n) HI Ht); cbn; try done; try (by apply HI); auto.
  - symmetry. by apply list_insert_id.
  - destruct (lv_thread _ HI t _ Ht) as [H1 _ _ _ _ _ _]. split; cbn; auto; try (intros Hx; by apply idle_before in Hx); done.
  - intros u uh Hne Hu [H1 H2 H3 H4 H5 H6 H7]. split; cbn; auto.
    + intros Hb. destruct (H2 Hb) as [? Hlk]. split; [done|]. apply (Hl u Hne Hlk).
    + intros Hb. destruct (H4 Hb) as [?|[? Hlk]]; [auto|]. right. split; [done|]. apply (Hl u Hne Hlk).
  - intros H1 H2. right. split; [done|]. split; [done|]. apply idle_before.
  - intros H1 H2 H3. right. auto.
Qed.
(** A thread outside begins a call. *)
Lemma begins s t n m c : LInv s -> lf_threads s !! t = Some (LThread LIdle n) -> c <> KInv ->
  n = m + extra (LWant c) -> (c = KGet -> lf_listed s = true /\ locked s t) -> (c = KAdd -> 0 < m) -> (c = KLook -> 0 < m \/ (lf_listed s = true /\ locked s t)) ->
  LInv (put s t (LThread (LWant c) m)).
Proof.
  intros HI Ht Hc Hn Hg Ha Hl. pose proof (lv_thread _ HI t _ Ht) as Hok. eapply (keep s _ t _ (LThread (LWant c) m) HI Ht); cbn [put lf_threads lf_count lf_owner lf_listed lf_valid lf_freed lf_readers lf_writer]; try done; try (by apply HI); auto.
  - unfold wt. cbn [lt_refs lt_pc]. unfold extra at 1. lia.
  - assert (forall c', before (LWant c) c' -> c' = c) as Hb by (intros c' [H|H]; congruence). destruct Hok as [H1 _ _ _ _ _ _]. cbn in H1.
    split; cbn [lt_pc lt_refs put lf_owner lf_listed lf_valid]; try done; intros H; apply Hb in H; try (symmetry in H; by auto).
  - intros u uh Hne Hu [H1 H2 H3 H4 H5 H6 H7]. split; auto.
  - unfold before; cbn [lt_pc]; intros [H|H]; congruence.
  - intros H1 H2. right. split; [done|]. split; [done|]. apply idle_before.
  - intros H1 H2 H3. right. auto.
Qed.

Ltac idle s t n E := destruct (lf_threads s !! t) as [[[|?|?|? ?|? ?] n]|] eqn:E; try done.
Lemma thread_same s s' u uh : thread_ok s u uh -> lf_owner s' = lf_owner s -> lf_listed s' = lf_listed s -> lf_readers s' = lf_readers s -> lf_writer s' = lf_writer s ->
  lf_valid s' = lf_valid s -> lf_count s' = lf_count s -> lf_freed s' = lf_freed s -> thread_ok s' u uh.
Proof.
  intros [H1 H2 H3 H4 H5 H6 H7] E1 E2 E3 E4 E5 E6 E7. split; unfold locked in *; rewrite ?E1, ?E2, ?E3, ?E4, ?E5, ?E6, ?E7; auto.
Qed.
Lemma lcall_inv c : c = KInv \/ c <> KInv.
Proof. destruct c; auto. Qed.
Lemma gives s t u m p k : LInv s -> t <> u -> lf_threads s !! t = Some (LThread LIdle (S m)) -> lf_threads s !! u = Some (LThread p k) ->
  LInv (put (put s t (LThread LIdle m)) u (LThread p (S k))).
Proof.
  intros HI Hne Ht Hu. set (l' := <[u := LThread p (S k)]> (<[t := LThread LIdle m]> (lf_threads s))).
  assert (forall v vh', l' !! v = Some vh' -> exists vh, lf_threads s !! v = Some vh /\ lt_pc vh' = lt_pc vh /\ (lt_refs vh <= lt_refs vh' \/ lt_pc vh = LIdle)) as Hback.
  { intros v vh' Hv. unfold l' in Hv. destruct (decide (v = u)) as [->|Hvu].
    - rewrite list_lookup_insert in Hv by (rewrite insert_length; by eapply lookup_lt_Some). injection Hv as <-. eexists. split; [done|]. split; [done|]. left. cbn. lia.
    - rewrite list_lookup_insert_ne in Hv by done. destruct (decide (v = t)) as [->|Hvt].
      + rewrite list_lookup_insert in Hv by (by eapply lookup_lt_Some). injection Hv as <-. eexists. split; [done|]. split; [done|]. by right.
      + rewrite list_lookup_insert_ne in Hv by done. eauto. }
  assert (forall v vh, lf_threads s !! v = Some vh -> exists vh', l' !! v = Some vh' /\ lt_pc vh' = lt_pc vh) as Hforth.
  { intros v vh Hv. assert (is_Some (l' !! v)) as [vh' Hv'] by (apply lookup_lt_is_Some; unfold l'; rewrite !insert_length; by eapply lookup_lt_Some).
    exists vh'. split; [done|]. destruct (Hback v vh' Hv') as (vh2 & H1 & H2 & _). congruence. }
  split; cbn [put lf_threads lf_count lf_owner lf_listed lf_valid lf_freed lf_readers lf_writer]; fold l'; try (by apply HI).
  - rewrite (lv_count _ HI). assert (<[t := LThread LIdle m]> (lf_threads s) !! u = Some (LThread p k)) as Hu1 by (by rewrite list_lookup_insert_ne).
    pose proof (total_insert _ _ _ (LThread LIdle m) Ht) as H1. pose proof (total_insert _ _ _ (LThread p (S k)) Hu1) as H2. fold l' in H2. unfold wt in H1, H2. cbn in H1, H2. lia.
  - intros v vh' Hv. destruct (Hback v vh' Hv) as (vh & Hs & Hp & Hr). pose proof (lv_thread _ HI v vh Hs) as [H1 H2 H3 H4 H5 H6 H7].
    split; rewrite Hp; cbn; auto; intros Hb; destruct Hr as [Hr|Hr]; try (rewrite Hr in Hb; by apply idle_before in Hb).
    + specialize (H3 Hb). lia.
    + destruct (H4 Hb) as [?|?]; [left; lia|by right].
  - intros v Hv. destruct (lv_owner _ HI v Hv) as [vh Hs]. destruct (Hforth v vh Hs) as (vh' & H1 & _). eauto.
  - intros v x vh xh Hv Hx H1 H2. destruct (Hback v vh Hv) as (vh1 & ? & Hp & _), (Hback x xh Hx) as (xh1 & ? & Hp' & _). rewrite Hp in H1. rewrite Hp' in H2. by eapply (lv_inv1 _ HI v x).
  - intros v x vh xh Hv Hx H1 H2. destruct (Hback v vh Hv) as (vh1 & ? & Hp & _), (Hback x xh Hx) as (xh1 & ? & Hp' & _). rewrite Hp in H1. rewrite Hp' in H2. by eapply (lv_ends1 _ HI v x).
  - intros H1 H2. destruct (lv_unlisted _ HI H1 H2) as (v & vh & Hv & Hb). destruct (Hforth v vh Hv) as (vh' & ? & Hp). exists v, vh'. by rewrite Hp.
  - intros H1 H2 H3. destruct (lv_dead _ HI H1 H2 H3) as (v & vh & Hv & Hb). destruct (Hforth v vh Hv) as (vh' & ? & Hp). exists v, vh'. by rewrite Hp.
Qed.
Lemma life_step_inv s a : LInv s -> life_step s a <> Crash /\ forall s', life_step s a = Next s' -> LInv s'.
Proof.
  intros HI. destruct a as [t|t|t|t|t|t|t|t|t|t|t u|t]; cbn [life_step].
  - idle s t n E. destruct (lf_writer s) as [|] eqn:Ew; [done|]. split; [done|]. intros s' [= <-]. eapply relock; eauto; [|done].
    intros u _ [Hu|Hu]; [left; by right|congruence].
  - idle s t n E. destruct (decide (t ∈ lf_readers s)); [|done]. split; [done|]. intros s' [= <-]. eapply relock; eauto.
    + intros u Hne [Hu|Hu]; [left|by right]. by apply elem_of_list_filter.
    + intros u Hu. by rewrite (lv_writer _ HI u Hu).
  - idle s t n E. destruct (lf_writer s) as [|] eqn:Ew; [done|]. destruct (lf_readers s) as [|] eqn:Er; [|done]. split; [done|]. intros s' [= <-]. eapply relock; eauto.
    intros u _ [Hu|Hu]; [rewrite Er in Hu; by apply elem_of_nil in Hu|congruence].
  - idle s t n E. destruct (decide (lf_writer s = Some t)) as [Ew|]; [|done]. split; [done|]. intros s' [= <-]. eapply relock; eauto; [|done].
    intros u Hne [Hu|Hu]; [by left|congruence].
  - idle s t n E. destruct (in_vault_lock s t && lf_listed s) eqn:Ec; [|done]. split; [done|]. intros s' [= <-]. apply andb_true_iff in Ec as [Ec El].
    assert (locked s t) as Hl by (unfold in_vault_lock in Ec; apply orb_true_iff in Ec as [Ec|Ec]; apply bool_decide_eq_true in Ec; [by left|by right]).
    eapply begins; eauto; try done; cbn; lia.
  - idle s t n E. destruct (in_vault_lock s t && lf_listed s) eqn:Ec; [|done]. split; [done|]. intros s' [= <-]. apply andb_true_iff in Ec as [Ec El].
    assert (locked s t) as Hl by (unfold in_vault_lock in Ec; apply orb_true_iff in Ec as [Ec|Ec]; apply bool_decide_eq_true in Ec; [by left|by right]).
    eapply begins; eauto; try done; cbn; lia.
  - idle s t n E. destruct (bool_decide (lf_writer s = Some t) && lf_listed s) eqn:Ec; [|done]. split; [done|]. intros s' [= <-]. apply andb_true_iff in Ec as [Ec El]. apply bool_decide_eq_true in Ec.
    pose proof (lv_thread _ HI t _ E) as Hok. pose proof (lv_listed _ HI El) as Hv. pose proof (lv_writer _ HI t Ec) as Hr.
    assert (forall u, u <> t -> locked s u -> False) as Hlk by (intros u Hne [Hu|Hu]; [rewrite Hr in Hu; by apply elem_of_nil in Hu|congruence]).
    eapply (keep s _ t _ (LThread (LWant KInv) n) HI E); cbn [put lf_threads lf_count lf_owner lf_listed lf_valid lf_freed lf_readers lf_writer]; try done; try (by apply HI); auto.
    + destruct Hok as [H1 _ _ _ _ _ _]. cbn in H1. assert (forall c', before (LWant KInv) c' -> c' = KInv) as Hb by (intros c' [H|H]; congruence).
      split; cbn [lt_pc lt_refs put lf_owner lf_listed lf_valid]; try done; intros H; apply Hb in H; done.
    + intros u uh Hne Hu [H1 H2 H3 H4 H5 H6 H7]. split; cbn; auto.
      * intros Hb. destruct (H2 Hb) as [_ Hx]. by destruct (Hlk u Hne).
      * intros Hb. destruct (H4 Hb) as [?|[_ Hx]]; [auto|]. by destruct (Hlk u Hne).
    + intros _ _. left. by left.
    + congruence.
  - idle s t n E. destruct n as [|m]; [done|]. split; [done|]. intros s' [= <-]. eapply begins; eauto; try done; cbn; lia.
  - idle s t n E. destruct n as [|m]; [done|]. split; [done|]. intros s' [= <-]. eapply begins; eauto; try done; cbn; lia.
  - idle s t n E. destruct n as [|m]; [done|]. split; [done|]. intros s' [= <-]. eapply begins; eauto; try done; cbn; try lia; intros _; left; lia.
  - idle s t n E. destruct n as [|m]; [done|]. destruct (decide (t = u)) as [|Hne]; [done|]. destruct (lf_threads s !! u) as [[p k]|] eqn:Eu; [|done].
    split; [done|]. intros s' [= <-]. eapply gives; eauto.
  - destruct (lf_threads s !! t) as [[p n]|] eqn:E; [|done]. pose proof (lv_thread _ HI t _ E) as Hok. destruct p as [|c|c|c e|c e]; [done| | | |].
    + (* lock *)
      rewrite (alive _ _ _ HI E) by done. destruct (lf_owner s) eqn:Eo; [done|]. split; [done|]. intros s' [= <-].
      pose proof (alive _ _ _ HI E ltac:(done)) as Hnf.
      eapply (keep s _ t _ (LThread (LIn c) n) HI E); cbn [lf_threads lf_count lf_owner lf_listed lf_valid lf_freed lf_readers lf_writer lt_pc]; try done; try (by apply HI).
      * destruct Hok as [H1 H2 H3 H4 H5 H6 H7]. cbn [lt_pc lt_refs] in *. assert (forall c', before (LIn c) c' -> before (LWant c) c') as Hb by (intros c' [H|H]; [congruence|left; congruence]).
        split; cbn [lt_pc lt_refs lf_owner lf_listed lf_valid]; try done; auto.
      * intros u uh Hne Hu [H1 H2 H3 H4 H5 H6 H7]. split; cbn; auto; [|intros He; destruct (H6 He) as (? & ? & ?); auto]. split; [intros Hh; apply H1 in Hh; congruence|intros [= <-]; done].
      * intros u [= <-]. by left.
      * intros [H|H]; [congruence|]. injection H as ->. left. by left.
      * intros H1 H2. destruct (lcall_inv c) as [->|Hc]; [left; by right|right]. split; [done|]. split; [done|]. intros [H|H]; congruence.
      * intros H1 H2 _. right. auto.
    + (* the critical section *)
      rewrite (alive _ _ _ HI E) by done. pose proof (alive _ _ _ HI E ltac:(done)) as Hnf.
      assert (lf_valid s = false -> lf_count s = 0 -> False) as Hnd by (eapply (not_dead s t _ c HI E); by right).
      assert (lf_owner s = Some t) as Ho by (by apply (to_own _ _ _ Hok)).
      assert (forall u uh, lf_threads s !! u = Some uh -> ~ ends (lt_pc uh)) as Hne by (intros u uh Hu He; destruct (to_end _ _ _ (lv_thread _ HI u uh Hu) He) as (? & ? & _); auto).
      destruct (critical c (lf_valid s) (lf_count s)) as [[[v k] e]|] eqn:Ec.
      2:{ exfalso. destruct c; try done. cbn in Ec. pose proof (total_ge _ _ _ E) as Hw. rewrite <- (lv_count _ HI) in Hw. unfold wt in Hw. cbn in Hw. destruct (lf_count s); [lia|done]. }
      split; [done|]. intros s' [= <-].
      assert ((e = true <-> v = false /\ k = 0) /\ (v = true -> lf_valid s = true /\ c <> KInv) /\ (c <> KInv -> v = lf_valid s) /\ k + wt (LThread (LIn c) n) = lf_count s + wt (LThread (LDone c e) n)) as (Hend & Hv & Hvc & Hk).
      { unfold wt. cbn [lt_refs lt_pc]. destruct c; cbn in Ec |- *.
        - injection Ec as <- <- <-. repeat split; try done; try lia; intros [? ?]; lia.
        - injection Ec as <- <- <-. repeat split; try done; try lia; intros [? ?]; lia.
        - destruct (lf_count s) as [|k1]; [done|]. injection Ec as <- <- <-. split; [|repeat split; try done; lia]. destruct (lf_valid s), k1; cbn; intuition (try done; try lia).
        - injection Ec as <- <- <-. split; [|repeat split; try done; lia]. destruct (lf_count s); cbn; intuition (try done; try lia).
        - injection Ec as <- <- <-. split; [|repeat split; try done; lia]. split; [done|]. intros [? ?]. exfalso. auto. }
      eapply (keep s _ t _ (LThread (LDone c e) n) HI E); cbn [lf_threads lf_count lf_owner lf_listed lf_valid lf_freed lf_readers lf_writer lt_pc]; try done; try (by apply HI).
      * destruct Hok as [H1 H2 H3 H4 H5 H6 H7]. cbn [lt_pc lt_refs] in *. split; cbn [lt_pc lt_refs lf_owner lf_listed lf_valid lf_freed lf_count]; try done; try (intros [H|H]; congruence).
        -- intros He. destruct e; [|done]. destruct Hend as [Hend _]. destruct (Hend eq_refl). auto.
        -- intros c' [= <- ->] H8 H9. assert (false = true) by (by apply Hend). done.
      * intros u uh Hu1 Hu [H1 H2 H3 H4 H5 H6 H7]. split; cbn; auto.
        -- intros Hb. destruct (H5 Hb). split; [|done]. assert (c <> KInv) as Hc; [|by rewrite (Hvc Hc)]. intros ->. apply Hu1. eapply (lv_inv1 _ HI u t); eauto. by right.
        -- intros He. by destruct (Hne u uh Hu).
        -- intros c' Hc. assert (lf_owner s = Some u) by (apply H1; by rewrite Hc). congruence.
      * intros u Hu. by right.
      * intros [H|H]; congruence.
      * intros _. right. intros u uh _ Hu. by eapply Hne.
      * intros Hl. destruct (lcall_inv c) as [->|Hc]; [|rewrite (Hvc Hc); by apply (lv_listed _ HI)]. destruct (to_inv _ _ _ Hok) as [_ ?]; [by right|congruence].
      * intros H1 H2. destruct (Hv H2) as [H3 H4]. right. split; [done|]. split; [done|]. intros [H|H]; congruence.
      * intros H1 H2 _. left. assert (e = true) as -> by (by apply Hend). done.
    + (* unlock *)
      rewrite (alive _ _ _ HI E) by done. split; [done|]. intros s' [= <-]. pose proof (alive _ _ _ HI E ltac:(done)) as Hnf.
      eapply (keep s _ t _ (LThread (LFree c e) n) HI E); cbn [lf_threads lf_count lf_owner lf_listed lf_valid lf_freed lf_readers lf_writer lt_pc]; try done; try (by apply HI).
      * destruct Hok as [H1 H2 H3 H4 H5 H6 H7]. cbn [lt_pc lt_refs] in *. split; cbn [lt_pc lt_refs lf_owner lf_listed lf_valid lf_freed lf_count]; try done; try (intros [H|H]; congruence).
        intros He. assert (ends (LDone c e)) as Hx by (by destruct e). apply H6 in Hx. tauto.
      * intros u uh Hne Hu [H1 H2 H3 H4 H5 H6 H7]. split; cbn; auto; [|intros He; destruct (H6 He) as (? & ? & ?); auto].
        assert (lf_owner s = Some t) as Ho by (by apply (to_own _ _ _ Hok)). split; [intros Hh; apply H1 in Hh; congruence|done].
      * intros [H|H]; congruence.
      * intros He. left. by destruct e.
      * intros H1 H2. right. split; [done|]. split; [done|]. intros [H|H]; congruence.
      * intros H1 H2 _. destruct e; [by left|right]. auto.
    + destruct e.
      * (* delete *)
        rewrite (alive _ _ _ HI E) by done. split; [done|]. intros s' [= <-]. pose proof (alive _ _ _ HI E ltac:(done)) as Hnf.
        destruct (to_end _ _ _ Hok) as (Hv & Hc & _); [done|].
        eapply (keep s _ t _ (LThread LIdle (gained c + n)) HI E); cbn [lf_threads lf_count lf_owner lf_listed lf_valid lf_freed lf_readers lf_writer lt_pc]; try done; try (by apply HI); auto.
        -- unfold wt. cbn. lia.
        -- destruct Hok as [H1 H2 H3 H4 H5 H6 H7]. cbn [lt_pc lt_refs] in *. split; cbn [lt_pc lt_refs lf_owner lf_listed lf_valid lf_freed lf_count]; try done; try (intros [H|H]; congruence).
        -- intros u uh Hne Hu [H1 H2 H3 H4 H5 H6 H7]. split; cbn; auto. intros He. exfalso. apply Hne. eapply (lv_ends1 _ HI u t); eauto. done.
        -- intros [H|H]; congruence.
        -- intros H1 H2. congruence.
      * (* return *)
        split; [done|]. intros s' [= <-].
        eapply (keep s _ t _ (LThread LIdle (gained c + n)) HI E); cbn [put lf_threads lf_count lf_owner lf_listed lf_valid lf_freed lf_readers lf_writer lt_pc]; try done; try (by apply HI); auto.
        -- unfold wt. cbn. lia.
        -- destruct Hok as [H1 H2 H3 H4 H5 H6 H7]. cbn [lt_pc lt_refs] in *. split; cbn [put lt_pc lt_refs lf_owner lf_listed lf_valid lf_freed lf_count]; try done; try (intros [H|H]; congruence).
        -- intros u uh Hne Hu H. eapply thread_same; eauto.
        -- intros [H|H]; congruence.
        -- intros H1 H2. right. split; [done|]. split; [done|]. intros [H|H]; cbn in H; congruence.
        -- intros H1 H2 H3. right. auto.
Qed.
Lemma life_run_inv l : forall s, LInv s -> life_run s l <> Crash /\ forall s', life_run s l = Next s' -> LInv s'.
Proof.
  induction l as [|a l IH]; intros s HI; cbn [life_run]; [split; [done|by intros s' [= <-]]|].
  destruct (life_step_inv s a HI) as [H1 H2]. destruct (life_step s a) as [| |s1] eqn:E; [done|by apply IH|]. apply IH. by apply H2.
Qed.
