(** Generated by tools/gen_p.py from T_Mutex.v: the property theorems, nothing else. *)
From Verif Require Import T_Mutex Ex_Base Ex_Mutex.
Open Scope nat_scope.

(** While one thread is between WriteLock and WriteUnlock, no other thread is between a lock and an unlock of either kind
    (the condition variable returns from wait only when notified; see C39_spurious_wakeup_refuted). *)
Theorem C39_exclusion_partial :
  forall n l s t u, mrun false (m_init n) l = Some s -> m_pcs s !! t = Some Writing -> u <> t ->
    m_pcs s !! u <> Some Reading /\ m_pcs s !! u <> Some Writing.
Proof. exact t_C39_exclusion_partial. Qed.
Print Assumptions C39_exclusion_partial.
Example ex_C39_exclusion_partial :
  exists n l s t u,
    mrun false (m_init n) l = Some s /\
    m_pcs s !! t = Some Writing /\
    u <> t.
Proof. exact tex_C39_exclusion_partial. Qed.

(** Two writers exclude each other even with spurious wake-ups. *)
Theorem C39_writers_exclude :
  forall sp n l s t u, mrun sp (m_init n) l = Some s -> m_pcs s !! t = Some Writing -> m_pcs s !! u = Some Writing -> u = t.
Proof. exact t_C39_writers_exclude. Qed.
Print Assumptions C39_writers_exclude.
Example ex_C39_writers_exclude :
  exists sp n l s t u,
    mrun sp (m_init n) l = Some s /\
    m_pcs s !! t = Some Writing /\
    m_pcs s !! u = Some Writing /\
    m_pcs s = [Reading; Writing].
Proof. exact tex_C39_writers_exclude. Qed.

(** Readers do not exclude each other: while all other threads are reading or outside, a thread that calls ReadLock gets through by its own steps. *)
Theorem C39_readers_share :
  forall sp n l s t, mrun sp (m_init n) l = Some s -> m_pcs s !! t = Some Out -> (forall u p, m_pcs s !! u = Some p -> p = Out \/ p = Reading) ->
    exists s', mrun sp s [MCall t CReadLock; MGo t; MGo t; MGo t; MGo t; MGo t] = Some s' /\ m_pcs s' = <[t := Reading]> (m_pcs s).
Proof. exact t_C39_readers_share. Qed.
Print Assumptions C39_readers_share.
Example ex_C39_readers_share :
  exists sp n l s t,
    mrun sp (m_init n) l = Some s /\
    m_pcs s !! t = Some Out /\
    (forall u p, m_pcs s !! u = Some p -> p = Out \/ p = Reading).
Proof. exact tex_C39_readers_share. Qed.

(** At most one thread is ever blocked in the condition variable (waiting with different mutexes at the same time would be undefined). *)
Theorem C39_one_waiter :
  forall sp n l s t u, mrun sp (m_init n) l = Some s -> m_pcs s !! t = Some Waiting -> m_pcs s !! u = Some Waiting -> u = t.
Proof. exact t_C39_one_waiter. Qed.
Print Assumptions C39_one_waiter.
Example ex_C39_one_waiter :
  exists sp n l s t u,
    mrun sp (m_init n) l = Some s /\
    m_pcs s !! t = Some Waiting /\
    m_pcs s !! u = Some Waiting.
Proof. exact tex_C39_one_waiter. Qed.

(** Writers take precedence: from the moment a writer got hold of the mutex until it unlocks, no further thread starts reading. *)
Theorem C39_no_new_readers :
  forall sp n l s t p a s' u, mrun sp (m_init n) l = Some s -> m_pcs s !! t = Some p -> p ∈ [WL52; WL54; WL54w; Waiting; WL56; Writing] ->
    mstep sp s a = Some s' -> m_pcs s' !! u = Some Reading -> m_pcs s !! u = Some Reading.
Proof. exact t_C39_no_new_readers. Qed.
Print Assumptions C39_no_new_readers.
Example ex_C39_no_new_readers :
  exists sp n l s t p a s' u,
    mrun sp (m_init n) l = Some s /\
    m_pcs s !! t = Some p /\
    p ∈ [WL52; WL54; WL54w; Waiting; WL56; Writing] /\
    mstep sp s a = Some s' /\
    m_pcs s' !! u = Some Reading.
Proof. exact tex_C39_no_new_readers. Qed.

(** With spurious wake-ups (which the C++ standard allows) a writer and a reader can be inside at the same time, but in one way only: the writer woke up
    spuriously while that very reader was inside, and has not unlocked since ... *)
Theorem C39_only_after_spurious_wakeup_partial :
  forall n l s t u, mrun true (m_init n) l = Some s -> m_pcs s !! t = Some Writing -> m_pcs s !! u = Some Reading ->
    exists l1 l2 s1, l = l1 ++ MSpurious t :: l2 /\ mrun true (m_init n) l1 = Some s1 /\ m_pcs s1 !! t = Some Waiting /\ m_pcs s1 !! u = Some Reading.
Proof. exact t_C39_only_after_spurious_wakeup_partial. Qed.
Print Assumptions C39_only_after_spurious_wakeup_partial.
Example ex_C39_only_after_spurious_wakeup_partial :
  exists n l s t u,
    mrun true (m_init n) l = Some s /\
    m_pcs s !! t = Some Writing /\
    m_pcs s !! u = Some Reading.
Proof. exact tex_C39_only_after_spurious_wakeup_partial. Qed.

(** ... and every such wake-up lets the writer in. *)
Theorem C39_spurious_wakeup_breaks_partial :
  forall n l s t u, mrun true (m_init n) l = Some s -> m_pcs s !! t = Some Waiting -> m_pcs s !! u = Some Reading ->
    exists s', mrun true s [MSpurious t; MGo t] = Some s' /\ m_pcs s' !! t = Some Writing /\ m_pcs s' !! u = Some Reading.
Proof. exact t_C39_spurious_wakeup_breaks_partial. Qed.
Print Assumptions C39_spurious_wakeup_breaks_partial.
Example ex_C39_spurious_wakeup_breaks_partial :
  exists n l s t u,
    mrun true (m_init n) l = Some s /\
    m_pcs s !! t = Some Waiting /\
    m_pcs s !! u = Some Reading.
Proof. exact tex_C39_spurious_wakeup_breaks_partial. Qed.

Theorem C39_spurious_wakeup_refuted :
  exists n l s, mrun true (m_init n) l = Some s /\ m_pcs s !! 0 = Some Reading /\ m_pcs s !! 1 = Some Writing.
Proof. exact t_C39_spurious_wakeup_refuted. Qed.
Print Assumptions C39_spurious_wakeup_refuted.

(** The mutex never deadlocks, with and without spurious wake-ups ([sp]): in every reachable state in which some thread is inside a call or holds a lock, threads can go on, without
    further calls of lock, until no thread holds or waits for anything. *)
Theorem C40_can_always_finish :
  forall sp n l s, mrun sp (m_init n) l = Some s ->
    exists l' s', Forall finishing l' /\ mrun sp s l' = Some s' /\ forall t p, m_pcs s' !! t = Some p -> p = Out.
Proof. exact t_C40_can_always_finish. Qed.
Print Assumptions C40_can_always_finish.
Example ex_C40_can_always_finish :
  exists sp n l s,
    mrun sp (m_init n) l = Some s /\
    m_pcs s = [Reading; Waiting; RL20].
Proof. exact tex_C40_can_always_finish. Qed.

Theorem C40_some_thread_can_move :
  forall sp n l s t p, mrun sp (m_init n) l = Some s -> m_pcs s !! t = Some p -> p <> Out ->
    exists a, finishing a /\ is_Some (mstep sp s a).
Proof. exact t_C40_some_thread_can_move. Qed.
Print Assumptions C40_some_thread_can_move.
Example ex_C40_some_thread_can_move :
  exists sp n l s t p,
    mrun sp (m_init n) l = Some s /\
    m_pcs s !! t = Some p /\
    p <> Out.
Proof. exact tex_C40_some_thread_can_move. Qed.

(** A thread between two calls holds the underlying lock for writing exactly if one of the locks it has nested is a write lock, for reading
    exactly if it has nested only read locks, and not at all exactly if it has undone all of them. *)
Theorem C41_holds_exactly :
  forall n l s t th p, rrun (rs_init n) l = Some s -> s_threads s !! t = Some th -> m_pcs (s_base s) !! t = Some p -> t_todo th = [] -> resting p = true ->
    (p = Writing <-> KWrite ∈ t_stack th) /\ (p = Out <-> t_stack th = []) /\ (p = Reading <-> t_stack th <> [] /\ KWrite ∉ t_stack th).
Proof. exact t_C41_holds_exactly. Qed.
Print Assumptions C41_holds_exactly.
Example ex_C41_holds_exactly :
  exists n l s t th p,
    rrun (rs_init n) l = Some s /\
    s_threads s !! t = Some th /\
    m_pcs (s_base s) !! t = Some p /\
    t_todo th = [] /\
    resting p = true.
Proof. exact tex_C41_holds_exactly. Qed.
Example ex_C41_holds_exactly__write :
  exists n l s t th p,
    rrun (rs_init n) l = Some s /\
    s_threads s !! t = Some th /\
    m_pcs (s_base s) !! t = Some p /\
    t_todo th = [] /\
    resting p = true.
Proof. exact tex_C41_holds_exactly__write. Qed.

(** Hence a write lock of one thread excludes all locks of all others. *)
Theorem C41_exclusion :
  forall n l s t th p u uh q, rrun (rs_init n) l = Some s ->
    s_threads s !! t = Some th -> m_pcs (s_base s) !! t = Some p -> t_todo th = [] -> resting p = true -> KWrite ∈ t_stack th ->
    s_threads s !! u = Some uh -> m_pcs (s_base s) !! u = Some q -> t_todo uh = [] -> resting q = true -> u <> t ->
    t_stack uh = [].
Proof. exact t_C41_exclusion. Qed.
Print Assumptions C41_exclusion.
Example ex_C41_exclusion :
  exists n l s t th p u uh q,
    rrun (rs_init n) l = Some s /\
    s_threads s !! t = Some th /\
    m_pcs (s_base s) !! t = Some p /\
    t_todo th = [] /\
    resting p = true /\
    KWrite ∈ t_stack th /\
    s_threads s !! u = Some uh /\
    m_pcs (s_base s) !! u = Some q /\
    t_todo uh = [] /\
    resting q = true /\
    u <> t.
Proof. exact tex_C41_exclusion. Qed.

(** A thread between two calls can always begin to lock, and to undo its innermost lock; a call on the underlying mutex is never out of turn. *)
Theorem C41_operations_defined :
  forall n l s t th p, rrun (rs_init n) l = Some s -> s_threads s !! t = Some th -> m_pcs (s_base s) !! t = Some p -> resting p = true ->
    match t_todo th with
    | [] => (forall k, is_Some (rstep s (RLock t k))) /\ (t_stack th <> [] -> is_Some (rstep s (RUnlock t)))
    | _ => is_Some (rstep s (RNext t))
    end.
Proof. exact t_C41_operations_defined. Qed.
Print Assumptions C41_operations_defined.
Example ex_C41_operations_defined :
  exists n l s t th p,
    rrun (rs_init n) l = Some s /\
    s_threads s !! t = Some th /\
    m_pcs (s_base s) !! t = Some p /\
    resting p = true.
Proof. exact tex_C41_operations_defined. Qed.

(** Any number of threads that nest locks of one recursive mutex can always undo all of them. *)
Theorem C41_can_always_finish :
  forall n l s, rrun (rs_init n) l = Some s -> exists l' s', Forall rfinishing l' /\ rrun s l' = Some s' /\ all_free s'.
Proof. exact t_C41_can_always_finish. Qed.
Print Assumptions C41_can_always_finish.
Example ex_C41_can_always_finish :
  exists n l s,
    rrun (rs_init n) l = Some s /\
    length (s_threads s) = 2.
Proof. exact tex_C41_can_always_finish. Qed.

(** Locks on different mutexes are not independent: while a thread holds one recursive mutex, locking another one does not lock it. *)
Theorem C41_other_mutex_refuted :
  exists c1 c2, two_step (RCount 0 0) (TLock false KRead) = Some ([(false, CReadLock)], c1) /\ two_step c1 (TLock true KRead) = Some ([], c2).
Proof. exact t_C41_other_mutex_refuted. Qed.
Print Assumptions C41_other_mutex_refuted.

(** Unlocking in another order than the reverse one leaves the underlying mutex locked for reading forever (the counter stays at 1). *)
Theorem C41_not_nested_refuted :
  exists c1 c2 c3 c4, rlock KRead (RCount 0 0) = ([CReadLock], c1) /\ rlock KWrite c1 = ([CReadUnlock; CWriteLock], c2) /\
    runlock KRead c2 = Some ([], c3) /\ runlock KWrite c3 = Some ([CWriteUnlock; CReadLock], c4) /\ c_read c4 = 1.
Proof. exact t_C41_not_nested_refuted. Qed.
Print Assumptions C41_not_nested_refuted.
