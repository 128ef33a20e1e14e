(** C39-C41: the readers-writer mutexes, for any number of threads and every interleaving of their steps. *)
From Verif Require Export MutexModel MutexSpec.
From Verif Require Import MutexProofs MutexProofs2 MutexProofs3 MutexProofs4.
Open Scope nat_scope.

(** While one thread is between WriteLock and WriteUnlock, no other thread is between a lock and an unlock of either kind
    (the condition variable returns from wait only when notified; see C39_spurious_wakeup_refuted). *)
Lemma t_C39_exclusion_partial :
  forall n l s t u, mrun false (m_init n) l = Some s -> m_pcs s !! t = Some Writing -> u <> t ->
    m_pcs s !! u <> Some Reading /\ m_pcs s !! u <> Some Writing.
Proof.
  intros n l s t u E Ht Hne. pose proof (mrun_inv _ l _ _ (m_init_inv _ n) E) as HI. split; intros Hu.
  - pose proof (mi_none _ s HI t _ Ht eq_refl) as H0. pose proof (readers_pos _ u _ Hu eq_refl). rewrite (mi_count _ s HI) in H0. lia.
  - pose proof (proj1 (mi_wm _ s HI t _ Ht) eq_refl). pose proof (proj1 (mi_wm _ s HI u _ Hu) eq_refl). congruence.
Qed.

(** Two writers exclude each other even with spurious wake-ups. *)
Lemma t_C39_writers_exclude :
  forall sp n l s t u, mrun sp (m_init n) l = Some s -> m_pcs s !! t = Some Writing -> m_pcs s !! u = Some Writing -> u = t.
Proof.
  intros sp n l s t u E Ht Hu. pose proof (mrun_inv _ l _ _ (m_init_inv _ n) E) as HI.
  pose proof (proj1 (mi_wm _ s HI t _ Ht) eq_refl). pose proof (proj1 (mi_wm _ s HI u _ Hu) eq_refl). congruence.
Qed.
(** Readers do not exclude each other: while all other threads are reading or outside, a thread that calls ReadLock gets through by its own steps. *)
Lemma t_C39_readers_share :
  forall sp n l s t, mrun sp (m_init n) l = Some s -> m_pcs s !! t = Some Out -> (forall u p, m_pcs s !! u = Some p -> p = Out \/ p = Reading) ->
    exists s', mrun sp s [MCall t CReadLock; MGo t; MGo t; MGo t; MGo t; MGo t] = Some s' /\ m_pcs s' = <[t := Reading]> (m_pcs s).
Proof.
  intros sp n l s t E Ht Hall. pose proof (mrun_inv _ l _ _ (m_init_inv _ n) E) as HI. pose proof (lookup_lt_Some _ _ _ Ht) as Hl.
  assert (m_wm s = None) as Hw.
  { destruct (m_wm s) as [u|] eqn:Eu; [|done]. destruct (mi_wm_in _ s HI u Eu) as [p Hp]. pose proof (proj2 (mi_wm _ s HI u p Hp) Eu). by destruct (Hall u p Hp) as [-> | ->]. }
  assert (m_rm s = None) as Hr.
  { destruct (m_rm s) as [u|] eqn:Eu; [|done]. destruct (mi_rm_in _ s HI u Eu) as [p Hp]. pose proof (proj2 (mi_rm _ s HI u p Hp) Eu). by destruct (Hall u p Hp) as [-> | ->]. }
  destruct s as [pcs wm rm c f]. cbn in *. subst wm rm. unfold call. cbn [m_pcs]. rewrite Ht. cbn [mbind option_bind entry].
  change (goto t RL20 (MState pcs None None c f)) with (MState (<[t := RL20]> pcs) None None c f).
  assert (forall q, <[t := q]> pcs !! t = Some q) as Hq by (intros q; by rewrite list_lookup_insert).
  assert (go (MState (<[t := RL20]> pcs) None None c f) t = Some (MState (<[t := RL21]> pcs) (Some t) None c f)) as E1 by (unfold go; cbn; rewrite Hq; cbn; unfold goto; cbn; by rewrite list_insert_insert).
  assert (go (MState (<[t := RL21]> pcs) (Some t) None c f) t = Some (MState (<[t := RL22]> pcs) (Some t) (Some t) c f)) as E2 by (unfold go; cbn; rewrite Hq; cbn; unfold goto; cbn; by rewrite list_insert_insert).
  assert (go (MState (<[t := RL22]> pcs) (Some t) (Some t) c f) t = Some (MState (<[t := RL23]> pcs) (Some t) (Some t) (c + 1) f)) as E3 by (unfold go; cbn; rewrite Hq; cbn; unfold goto; cbn; by rewrite list_insert_insert).
  assert (go (MState (<[t := RL23]> pcs) (Some t) (Some t) (c + 1) f) t = Some (MState (<[t := RL24]> pcs) (Some t) None (c + 1) f)) as E4 by (unfold go; cbn; rewrite Hq; cbn; unfold goto; cbn; by rewrite list_insert_insert).
  assert (go (MState (<[t := RL24]> pcs) (Some t) None (c + 1) f) t = Some (MState (<[t := Reading]> pcs) None None (c + 1) f)) as E5 by (unfold go; cbn; rewrite Hq; cbn; unfold goto; cbn; by rewrite list_insert_insert).
  rewrite E1. cbn [mbind option_bind]. rewrite E2. cbn [mbind option_bind]. rewrite E3. cbn [mbind option_bind]. rewrite E4. cbn [mbind option_bind]. rewrite E5. cbn [mbind option_bind].
  eexists. split; [done|]. done.
Qed.

(** At most one thread is ever blocked in the condition variable (waiting with different mutexes at the same time would be undefined). *)
Lemma t_C39_one_waiter :
  forall sp n l s t u, mrun sp (m_init n) l = Some s -> m_pcs s !! t = Some Waiting -> m_pcs s !! u = Some Waiting -> u = t.
Proof.
  intros sp n l s t u E Ht Hu. pose proof (mrun_inv _ l _ _ (m_init_inv _ n) E) as HI.
  pose proof (proj1 (mi_wm _ s HI t _ Ht) eq_refl). pose proof (proj1 (mi_wm _ s HI u _ Hu) eq_refl). congruence.
Qed.

(** Writers take precedence: from the moment a writer got hold of the mutex until it unlocks, no further thread starts reading. *)
Lemma t_C39_no_new_readers :
  forall sp n l s t p a s' u, mrun sp (m_init n) l = Some s -> m_pcs s !! t = Some p -> p ∈ [WL52; WL54; WL54w; Waiting; WL56; Writing] ->
    mstep sp s a = Some s' -> m_pcs s' !! u = Some Reading -> m_pcs s !! u = Some Reading.
Proof. exact no_new_readers. Qed.
(** With spurious wake-ups (which the C++ standard allows) a writer and a reader can be inside at the same time, but in one way only: the writer woke up
    spuriously while that very reader was inside, and has not unlocked since ... *)
Lemma t_C39_only_after_spurious_wakeup_partial :
  forall n l s t u, mrun true (m_init n) l = Some s -> m_pcs s !! t = Some Writing -> m_pcs s !! u = Some Reading ->
    exists l1 l2 s1, l = l1 ++ MSpurious t :: l2 /\ mrun true (m_init n) l1 = Some s1 /\ m_pcs s1 !! t = Some Waiting /\ m_pcs s1 !! u = Some Reading.
Proof. intros n l s t u. apply writer_and_reader. Qed.
(** ... and every such wake-up lets the writer in. *)
Lemma t_C39_spurious_wakeup_breaks_partial :
  forall n l s t u, mrun true (m_init n) l = Some s -> m_pcs s !! t = Some Waiting -> m_pcs s !! u = Some Reading ->
    exists s', mrun true s [MSpurious t; MGo t] = Some s' /\ m_pcs s' !! t = Some Writing /\ m_pcs s' !! u = Some Reading.
Proof. intros n l s t u. apply spurious_breaks. Qed.
Lemma t_C39_spurious_wakeup_refuted :
  exists n l s, mrun true (m_init n) l = Some s /\ m_pcs s !! 0 = Some Reading /\ m_pcs s !! 1 = Some Writing.
Proof.
  exists 2, ([MCall 0 CReadLock; MGo 0; MGo 0; MGo 0; MGo 0; MGo 0] ++ [MCall 1 CWriteLock; MGo 1; MGo 1; MGo 1; MGo 1; MSpurious 1; MGo 1]). eexists. vm_compute. done.
Qed.

(** The mutex never deadlocks, with and without spurious wake-ups ([sp]): in every reachable state in which some thread is inside a call or holds a lock, threads can go on, without
    further calls of lock, until no thread holds or waits for anything. *)
Lemma t_C40_can_always_finish :
  forall sp n l s, mrun sp (m_init n) l = Some s ->
    exists l' s', Forall finishing l' /\ mrun sp s l' = Some s' /\ forall t p, m_pcs s' !! t = Some p -> p = Out.
Proof. intros sp n l s E. apply finish. by eapply mrun_inv2; [apply m_init_inv2|]. Qed.
Lemma t_C40_some_thread_can_move :
  forall sp n l s t p, mrun sp (m_init n) l = Some s -> m_pcs s !! t = Some p -> p <> Out ->
    exists a, finishing a /\ is_Some (mstep sp s a).
Proof.
  intros sp n l s t p E Ht Hp. destruct (t_C40_can_always_finish sp n l s E) as (l' & s' & Hl & E' & Hout). destruct l' as [|a l'].
  - cbn in E'. injection E' as <-. by destruct Hp, (Hout t p).
  - inversion Hl; subst. exists a. split; [done|]. cbn in E'. destruct (mstep sp s a); [eauto|done].
Qed.

(** A thread between two calls holds the underlying lock for writing exactly if one of the locks it has nested is a write lock, for reading
    exactly if it has nested only read locks, and not at all exactly if it has undone all of them. *)
Lemma t_C41_holds_exactly :
  forall n l s t th p, rrun (rs_init n) l = Some s -> s_threads s !! t = Some th -> m_pcs (s_base s) !! t = Some p -> t_todo th = [] -> resting p = true ->
    (p = Writing <-> KWrite ∈ t_stack th) /\ (p = Out <-> t_stack th = []) /\ (p = Reading <-> t_stack th <> [] /\ KWrite ∉ t_stack th).
Proof.
  intros n l s t th p E Ht Hp Htd Hr. pose proof (rrun_inv l _ _ (rs_init_inv n) E) as HI. pose proof (quiet_target s t th p HI Ht Hp Htd Hr) as Hq.
  pose proof (target_write (t_stack th)) as Hw. pose proof (count_zero (t_stack th)) as Hz. rewrite <- Hq in Hw, Hz. split; [done|]. split; [done|].
  rewrite <- Hw, <- Hz. destruct p; try done; intuition done.
Qed.
(** Hence a write lock of one thread excludes all locks of all others. *)
Lemma t_C41_exclusion :
  forall n l s t th p u uh q, rrun (rs_init n) l = Some s ->
    s_threads s !! t = Some th -> m_pcs (s_base s) !! t = Some p -> t_todo th = [] -> resting p = true -> KWrite ∈ t_stack th ->
    s_threads s !! u = Some uh -> m_pcs (s_base s) !! u = Some q -> t_todo uh = [] -> resting q = true -> u <> t ->
    t_stack uh = [].
Proof.
  intros n l s t th p u uh q E Ht Hp Htd Hr Hk Hu Hq Hutd Hur Hne. pose proof (rrun_inv l _ _ (rs_init_inv n) E) as HI.
  destruct (t_C41_holds_exactly n l s t th p) as (H1 & _); [done..|]. apply H1 in Hk. subst p.
  destruct (t_C41_holds_exactly n l s u uh q) as (_ & H2 & _); [done..|]. apply H2.
  pose proof (m2_inv _ _ (r3_base s HI)) as HM. destruct q; try done.
  - pose proof (mi_none _ _ HM t _ Hp eq_refl) as H0. pose proof (readers_pos _ u _ Hq eq_refl). rewrite (mi_count _ _ HM) in H0. lia.
  - pose proof (proj1 (mi_wm _ _ HM t _ Hp) eq_refl). pose proof (proj1 (mi_wm _ _ HM u _ Hq) eq_refl). congruence.
Qed.
(** A thread between two calls can always begin to lock, and to undo its innermost lock; a call on the underlying mutex is never out of turn. *)
Lemma t_C41_operations_defined :
  forall n l s t th p, rrun (rs_init n) l = Some s -> s_threads s !! t = Some th -> m_pcs (s_base s) !! t = Some p -> resting p = true ->
    match t_todo th with
    | [] => (forall k, is_Some (rstep s (RLock t k))) /\ (t_stack th <> [] -> is_Some (rstep s (RUnlock t)))
    | _ => is_Some (rstep s (RNext t))
    end.
Proof.
  intros n l s t th p E Ht Hp Hr. pose proof (rrun_inv l _ _ (rs_init_inv n) E) as HI. destruct (r3_thread s HI t th p Ht Hp) as [Hc Hpl].
  destruct (t_todo th) as [|c todo] eqn:Etd.
  - split.
    + intros k. cbn [rstep]. rewrite Ht. cbn [mbind option_bind]. rewrite Hp. cbn [mbind option_bind]. rewrite Hr, bool_decide_true by done. cbn [andb].
      destruct (rlock k (t_count th)). eauto.
    + intros Hs. destruct (t_stack th) as [|k st] eqn:Es; [done|]. destruct (runlock_spec k st) as (todo & H1 & _).
      cbn [rstep]. rewrite Ht. cbn [mbind option_bind]. rewrite Hp. cbn [mbind option_bind]. rewrite Hr, bool_decide_true by done. cbn [andb].
      rewrite Es, Hc, H1. cbn [mbind option_bind]. eauto.
  - destruct (plan_entry p c todo _ Hpl Hr) as [q Eq]. cbn [rstep]. rewrite Ht. cbn [mbind option_bind]. rewrite Etd. unfold call. rewrite Hp. cbn [mbind option_bind].
    rewrite Eq. cbn [mbind option_bind]. eauto.
Qed.
(** Any number of threads that nest locks of one recursive mutex can always undo all of them. *)
Lemma t_C41_can_always_finish :
  forall n l s, rrun (rs_init n) l = Some s -> exists l' s', Forall rfinishing l' /\ rrun s l' = Some s' /\ all_free s'.
Proof. intros n l s E. apply rfinish. by eapply rrun_inv; [apply rs_init_inv|]. Qed.

(** Locks on different mutexes are not independent: while a thread holds one recursive mutex, locking another one does not lock it. *)
Lemma t_C41_other_mutex_refuted :
  exists c1 c2, two_step (RCount 0 0) (TLock false KRead) = Some ([(false, CReadLock)], c1) /\ two_step c1 (TLock true KRead) = Some ([], c2).
Proof. eexists _, _. split; reflexivity. Qed.
(** Unlocking in another order than the reverse one leaves the underlying mutex locked for reading forever (the counter stays at 1). *)
Lemma t_C41_not_nested_refuted :
  exists c1 c2 c3 c4, rlock KRead (RCount 0 0) = ([CReadLock], c1) /\ rlock KWrite c1 = ([CReadUnlock; CWriteLock], c2) /\
    runlock KRead c2 = Some ([], c3) /\ runlock KWrite c3 = Some ([CWriteUnlock; CReadLock], c4) /\ c_read c4 = 1.
Proof. eexists _, _, _, _. repeat split; reflexivity. Qed.
