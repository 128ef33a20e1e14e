(** Generated by tools/gen_ex.py from tools/examples.txt. *)
From Verif Require Import T_Mutex Ex_Base.
Open Scope nat_scope.

Lemma tex_C39_exclusion_partial :
  exists n l s t u,
    mrun false (m_init n) l = Some s /\
    m_pcs s !! t = Some Writing /\
    u <> t.
Proof. exists (3), ([MCall 0 CReadLock; MGo 0; MGo 0; MGo 0; MGo 0; MGo 0; MCall 1 CWriteLock; MGo 1; MGo 1; MGo 1; MGo 1; MCall 0 CReadUnlock; MGo 0; MGo 0; MGo 0; MGo 0; MGo 0; MGo 1]), (default (m_init 0) (mrun false (m_init (3)) ([MCall 0 CReadLock; MGo 0; MGo 0; MGo 0; MGo 0; MGo 0; MCall 1 CWriteLock; MGo 1; MGo 1; MGo 1; MGo 1; MCall 0 CReadUnlock; MGo 0; MGo 0; MGo 0; MGo 0; MGo 0; MGo 1]))), (1), (0); mx. Qed.

Lemma tex_C39_writers_exclude :
  exists sp n l s t u,
    mrun sp (m_init n) l = Some s /\
    m_pcs s !! t = Some Writing /\
    m_pcs s !! u = Some Writing /\
    m_pcs s = [Reading; Writing].
Proof. exists (true), (2), ([MCall 0 CReadLock; MGo 0; MGo 0; MGo 0; MGo 0; MGo 0; MCall 1 CWriteLock; MGo 1; MGo 1; MGo 1; MGo 1; MSpurious 1; MGo 1]), (default (m_init 0) (mrun (true) (m_init (2)) ([MCall 0 CReadLock; MGo 0; MGo 0; MGo 0; MGo 0; MGo 0; MCall 1 CWriteLock; MGo 1; MGo 1; MGo 1; MGo 1; MSpurious 1; MGo 1]))), (1), (1); mx. Qed.

Lemma tex_C39_readers_share :
  exists sp n l s t,
    mrun sp (m_init n) l = Some s /\
    m_pcs s !! t = Some Out /\
    (forall u p, m_pcs s !! u = Some p -> p = Out \/ p = Reading).
Proof. exists (true), (2), ([MCall 0 CReadLock; MGo 0; MGo 0; MGo 0; MGo 0; MGo 0]), (default (m_init 0) (mrun (true) (m_init (2)) ([MCall 0 CReadLock; MGo 0; MGo 0; MGo 0; MGo 0; MGo 0]))), (1); split; [mx|split; [mx|intros [|[|u]] p H; vm_compute in H; [injection H as <-; by right|injection H as <-; by left|discriminate]]]. Qed.

Lemma tex_C39_one_waiter :
  exists sp n l s t u,
    mrun sp (m_init n) l = Some s /\
    m_pcs s !! t = Some Waiting /\
    m_pcs s !! u = Some Waiting.
Proof. exists (true), (2), ([MCall 0 CReadLock; MGo 0; MGo 0; MGo 0; MGo 0; MGo 0; MCall 1 CWriteLock; MGo 1; MGo 1; MGo 1; MGo 1]), (default (m_init 0) (mrun (true) (m_init (2)) ([MCall 0 CReadLock; MGo 0; MGo 0; MGo 0; MGo 0; MGo 0; MCall 1 CWriteLock; MGo 1; MGo 1; MGo 1; MGo 1]))), (1), (1); mx. Qed.

Lemma tex_C39_no_new_readers :
  exists sp n l s t p a s' u,
    mrun sp (m_init n) l = Some s /\
    m_pcs s !! t = Some p /\
    p ∈ [WL52; WL54; WL54w; Waiting; WL56; Writing] /\
    mstep sp s a = Some s' /\
    m_pcs s' !! u = Some Reading.
Proof. exists (true), (2), ([MCall 0 CReadLock; MGo 0; MGo 0; MGo 0; MGo 0; MGo 0; MCall 1 CWriteLock; MGo 1; MGo 1]), (default (m_init 0) (mrun (true) (m_init (2)) ([MCall 0 CReadLock; MGo 0; MGo 0; MGo 0; MGo 0; MGo 0; MCall 1 CWriteLock; MGo 1; MGo 1]))), (1), (WL54), (MGo 1), (default (m_init 0) (mstep (true) (default (m_init 0) (mrun (true) (m_init (2)) ([MCall 0 CReadLock; MGo 0; MGo 0; MGo 0; MGo 0; MGo 0; MCall 1 CWriteLock; MGo 1; MGo 1]))) (MGo 1))), (0); mx. Qed.

Lemma tex_C39_only_after_spurious_wakeup_partial :
  exists n l s t u,
    mrun true (m_init n) l = Some s /\
    m_pcs s !! t = Some Writing /\
    m_pcs s !! u = Some Reading.
Proof. exists (2), ([MCall 0 CReadLock; MGo 0; MGo 0; MGo 0; MGo 0; MGo 0; MCall 1 CWriteLock; MGo 1; MGo 1; MGo 1; MGo 1; MSpurious 1; MGo 1]), (default (m_init 0) (mrun true (m_init (2)) ([MCall 0 CReadLock; MGo 0; MGo 0; MGo 0; MGo 0; MGo 0; MCall 1 CWriteLock; MGo 1; MGo 1; MGo 1; MGo 1; MSpurious 1; MGo 1]))), (1), (0); mx. Qed.

Lemma tex_C39_spurious_wakeup_breaks_partial :
  exists n l s t u,
    mrun true (m_init n) l = Some s /\
    m_pcs s !! t = Some Waiting /\
    m_pcs s !! u = Some Reading.
Proof. exists (2), ([MCall 0 CReadLock; MGo 0; MGo 0; MGo 0; MGo 0; MGo 0; MCall 1 CWriteLock; MGo 1; MGo 1; MGo 1; MGo 1]), (default (m_init 0) (mrun true (m_init (2)) ([MCall 0 CReadLock; MGo 0; MGo 0; MGo 0; MGo 0; MGo 0; MCall 1 CWriteLock; MGo 1; MGo 1; MGo 1; MGo 1]))), (1), (0); mx. Qed.

Lemma tex_C40_can_always_finish :
  exists sp n l s,
    mrun sp (m_init n) l = Some s /\
    m_pcs s = [Reading; Waiting; RL20].
Proof. exists (true), (3), ([MCall 0 CReadLock; MGo 0; MGo 0; MGo 0; MGo 0; MGo 0; MCall 1 CWriteLock; MGo 1; MGo 1; MGo 1; MGo 1; MCall 2 CReadLock]), (default (m_init 0) (mrun (true) (m_init (3)) ([MCall 0 CReadLock; MGo 0; MGo 0; MGo 0; MGo 0; MGo 0; MCall 1 CWriteLock; MGo 1; MGo 1; MGo 1; MGo 1; MCall 2 CReadLock]))); mx. Qed.

Lemma tex_C40_some_thread_can_move :
  exists sp n l s t p,
    mrun sp (m_init n) l = Some s /\
    m_pcs s !! t = Some p /\
    p <> Out.
Proof. exists (true), (3), ([MCall 0 CReadLock; MGo 0; MGo 0; MGo 0; MGo 0; MGo 0; MCall 1 CWriteLock; MGo 1; MGo 1; MGo 1; MGo 1; MCall 2 CReadLock]), (default (m_init 0) (mrun (true) (m_init (3)) ([MCall 0 CReadLock; MGo 0; MGo 0; MGo 0; MGo 0; MGo 0; MCall 1 CWriteLock; MGo 1; MGo 1; MGo 1; MGo 1; MCall 2 CReadLock]))), (1), (Waiting); mx. Qed.

Lemma tex_C41_holds_exactly :
  exists n l s t th p,
    rrun (rs_init n) l = Some s /\
    s_threads s !! t = Some th /\
    m_pcs (s_base s) !! t = Some p /\
    t_todo th = [] /\
    resting p = true.
Proof. exists (2), ([RLock 0 KRead; RNext 0; RGo 0; RGo 0; RGo 0; RGo 0; RGo 0; RLock 0 KRead; RLock 1 KRead; RNext 1; RGo 1; RGo 1; RGo 1; RGo 1; RGo 1]), (default (rs_init 0) (rrun (rs_init (2)) ([RLock 0 KRead; RNext 0; RGo 0; RGo 0; RGo 0; RGo 0; RGo 0; RLock 0 KRead; RLock 1 KRead; RNext 1; RGo 1; RGo 1; RGo 1; RGo 1; RGo 1]))), (0), (RThread [KRead; KRead] (RCount 2 0) []), (Reading); mx. Qed.

Lemma tex_C41_holds_exactly__write :
  exists n l s t th p,
    rrun (rs_init n) l = Some s /\
    s_threads s !! t = Some th /\
    m_pcs (s_base s) !! t = Some p /\
    t_todo th = [] /\
    resting p = true.
Proof. exists (2), ([RLock 0 KRead; RNext 0; RGo 0; RGo 0; RGo 0; RGo 0; RGo 0; RLock 0 KWrite; RNext 0; RGo 0; RGo 0; RGo 0; RGo 0; RGo 0; RNext 0; RGo 0; RGo 0; RGo 0; RGo 0]), (default (rs_init 0) (rrun (rs_init (2)) ([RLock 0 KRead; RNext 0; RGo 0; RGo 0; RGo 0; RGo 0; RGo 0; RLock 0 KWrite; RNext 0; RGo 0; RGo 0; RGo 0; RGo 0; RGo 0; RNext 0; RGo 0; RGo 0; RGo 0; RGo 0]))), (0), (RThread [KWrite; KRead] (RCount 1 1) []), (Writing); mx. Qed.

Lemma tex_C41_exclusion :
  exists n l s t th p u uh q,
    rrun (rs_init n) l = Some s /\
    s_threads s !! t = Some th /\
    m_pcs (s_base s) !! t = Some p /\
    t_todo th = [] /\
    resting p = true /\
    KWrite ∈ t_stack th /\
    s_threads s !! u = Some uh /\
    m_pcs (s_base s) !! u = Some q /\
    t_todo uh = [] /\
    resting q = true /\
    u <> t.
Proof. exists (2), ([RLock 0 KRead; RNext 0; RGo 0; RGo 0; RGo 0; RGo 0; RGo 0; RLock 0 KWrite; RNext 0; RGo 0; RGo 0; RGo 0; RGo 0; RGo 0; RNext 0; RGo 0; RGo 0; RGo 0; RGo 0]), (default (rs_init 0) (rrun (rs_init (2)) ([RLock 0 KRead; RNext 0; RGo 0; RGo 0; RGo 0; RGo 0; RGo 0; RLock 0 KWrite; RNext 0; RGo 0; RGo 0; RGo 0; RGo 0; RGo 0; RNext 0; RGo 0; RGo 0; RGo 0; RGo 0]))), (0), (RThread [KWrite; KRead] (RCount 1 1) []), (Writing), (1), (RThread [] (RCount 0 0) []), (Out); mx. Qed.

Lemma tex_C41_operations_defined :
  exists n l s t th p,
    rrun (rs_init n) l = Some s /\
    s_threads s !! t = Some th /\
    m_pcs (s_base s) !! t = Some p /\
    resting p = true.
Proof. exists (2), ([RLock 0 KRead; RNext 0; RGo 0; RGo 0; RGo 0; RGo 0; RGo 0; RLock 0 KWrite]), (default (rs_init 0) (rrun (rs_init (2)) ([RLock 0 KRead; RNext 0; RGo 0; RGo 0; RGo 0; RGo 0; RGo 0; RLock 0 KWrite]))), (0), (RThread [KWrite; KRead] (RCount 1 1) [CReadUnlock; CWriteLock]), (Reading); mx. Qed.

Lemma tex_C41_can_always_finish :
  exists n l s,
    rrun (rs_init n) l = Some s /\
    length (s_threads s) = 2.
Proof. exists (2), ([RLock 0 KRead; RNext 0; RGo 0; RGo 0; RGo 0; RGo 0; RGo 0; RLock 0 KWrite]), (default (rs_init 0) (rrun (rs_init (2)) ([RLock 0 KRead; RNext 0; RGo 0; RGo 0; RGo 0; RGo 0; RGo 0; RLock 0 KWrite]))); mx. Qed.
