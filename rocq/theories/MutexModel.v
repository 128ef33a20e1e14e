(** Model of ReadWriteMutex and RecursiveReadWriteMutex (Source/ReadWriteMutex.cpp) under every interleaving of any number of threads.

    Each thread is a program counter; one step of the machine is one step of one thread: a std::mutex operation, an operation on one of
    the two atomics, or an operation on the condition variable. The atomics are used with their default order, so an interleaving of
    steps is what C++ gives. std::mutex is a lock that one thread holds at a time. [Cv.wait] blocks until the condition variable is
    notified; with [spurious = true] it may also return at any time, as the C++ standard allows. The [IsActive] switch is not modelled
    (a disabled mutex does nothing). *)
From Verif Require Export Values.
From Coq Require Export ZArith Lia.
Open Scope nat_scope.

(** Where a thread is. The comments give the line of Source/ReadWriteMutex.cpp that the next step executes. *)
Inductive pc :=
  | Out                (* holds nothing, may call ReadLock or WriteLock *)
  | RL20 | RL21 | RL22 | RL23 | RL24
  | Reading            (* between ReadLock and ReadUnlock *)
  | RU32 | RU33 | RU35 | RU36 | RU37 | RU39
  | WL50 | WL52 | WL54
  | WL54w              (* line 54, about to block in Cv.wait *)
  | Waiting            (* blocked in Cv.wait, line 54 *)
  | WL56
  | Writing            (* between WriteLock and WriteUnlock *)
  | WU64.
Global Instance pc_eq_dec : EqDecision pc.
Proof. solve_decision. Defined.

(** Source/ReadWriteMutex.h 21-24: the two mutexes (with the thread that holds them), ReadCounter, IsCondVarWaiting. *)
Record mstate := MState { m_pcs : list pc; m_wm : option nat; m_rm : option nat; m_count : Z; m_flag : bool }.
(** Source/ReadWriteMutex.cpp 5-9. *)
Definition m_init (n : nat) : mstate := MState (replicate n Out) None None 0 false.

Definition goto (t : nat) (p : pc) (s : mstate) : mstate := MState (<[t := p]> (m_pcs s)) (m_wm s) (m_rm s) (m_count s) (m_flag s).
Definition with_wm (x : option nat) (s : mstate) : mstate := MState (m_pcs s) x (m_rm s) (m_count s) (m_flag s).
Definition with_rm (x : option nat) (s : mstate) : mstate := MState (m_pcs s) (m_wm s) x (m_count s) (m_flag s).
Definition with_count (x : Z) (s : mstate) : mstate := MState (m_pcs s) (m_wm s) (m_rm s) x (m_flag s).
Definition with_flag (x : bool) (s : mstate) : mstate := MState (m_pcs s) (m_wm s) (m_rm s) (m_count s) x.
(** Cv.notify_all: every waiting thread wakes up. *)
Definition wake (p : pc) : pc := match p with Waiting => WL56 | _ => p end.
Definition notify (s : mstate) : mstate := MState (wake <$> m_pcs s) (m_wm s) (m_rm s) (m_count s) (m_flag s).

(** One step of thread [t] inside a call: Source/ReadWriteMutex.cpp 16-66. [None]: the thread cannot move. *)
Definition go (s : mstate) (t : nat) : option mstate :=
  p ← m_pcs s !! t;
  match p with
  | RL20 => match m_wm s with None => Some (goto t RL21 (with_wm (Some t) s)) | Some _ => None end
  | RL21 => match m_rm s with None => Some (goto t RL22 (with_rm (Some t) s)) | Some _ => None end
  | RL22 => Some (goto t RL23 (with_count (m_count s + 1) s))
  | RL23 => Some (goto t RL24 (with_rm None s))
  | RL24 => Some (goto t Reading (with_wm None s))
  | RU32 => match m_rm s with None => Some (goto t RU33 (with_rm (Some t) s)) | Some _ => None end
  | RU33 => Some (goto t RU35 (with_count (m_count s - 1) s))
  | RU35 => Some (goto t (if decide (m_count s = 0%Z) then RU36 else RU39) s)
  | RU36 => Some (goto t (if m_flag s then RU37 else RU39) s)
  | RU37 => Some (goto t RU36 (notify s))
  | RU39 => Some (goto t Out (with_rm None s))
  | WL50 => match m_wm s with None => Some (goto t WL52 (with_wm (Some t) s)) | Some _ => None end
  | WL52 => Some (goto t WL54 (with_flag true s))
  | WL54 => Some (goto t (if (0 <? m_count s)%Z then WL54w else WL56) s)
  | WL54w => Some (goto t Waiting s)
  | WL56 => Some (goto t Writing (with_flag false s))
  | WU64 => Some (goto t Out (with_wm None s))
  | Out | Reading | Waiting | Writing => None
  end.

(** Calls of the client: each thread locks and unlocks in matching pairs. *)
Inductive mcall := CReadLock | CReadUnlock | CWriteLock | CWriteUnlock.
Global Instance mcall_eq_dec : EqDecision mcall.
Proof. solve_decision. Defined.
Definition entry (c : mcall) (p : pc) : option pc :=
  match c, p with
  | CReadLock, Out => Some RL20
  | CReadUnlock, Reading => Some RU32
  | CWriteLock, Out => Some WL50
  | CWriteUnlock, Writing => Some WU64
  | _, _ => None
  end.
Definition call (s : mstate) (t : nat) (c : mcall) : option mstate :=
  p ← m_pcs s !! t; p' ← entry c p; Some (goto t p' s).
(** Cv.wait returning without having been notified. *)
Definition spurious_wake (s : mstate) (t : nat) : option mstate :=
  p ← m_pcs s !! t; if decide (p = Waiting) then Some (goto t WL56 s) else None.

Inductive mact := MGo (t : nat) | MCall (t : nat) (c : mcall) | MSpurious (t : nat).
Definition mstep (spurious : bool) (s : mstate) (a : mact) : option mstate :=
  match a with
  | MGo t => go s t
  | MCall t c => call s t c
  | MSpurious t => if spurious then spurious_wake s t else None
  end.
Fixpoint mrun (spurious : bool) (s : mstate) (l : list mact) : option mstate :=
  match l with [] => Some s | a :: l' => s' ← mstep spurious s a; mrun spurious s' l' end.

(** ** RecursiveReadWriteMutex *)

Inductive rkind := KRead | KWrite.
Global Instance rkind_eq_dec : EqDecision rkind.
Proof. solve_decision. Defined.

(** The thread-local counters, Source/ReadWriteMutex.cpp 68-69. They are global to the thread: one pair for all mutexes. *)
Record rcount := RCount { c_read : nat; c_write : nat }.
(** Lock and unlock: the calls on the underlying mutex and the new counters, Source/ReadWriteMutex.cpp 76-132. An unlock that would
    decrement a counter below 0 is treated as a fault (size_t wraps around). *)
Definition rlock (k : rkind) (c : rcount) : list mcall * rcount :=
  match k with
  | KRead => if c_write c =? 0 then ((if c_read c =? 0 then [CReadLock] else []), RCount (S (c_read c)) (c_write c)) else ([], c)
  | KWrite => ((if c_write c =? 0 then (if 0 <? c_read c then [CReadUnlock] else []) ++ [CWriteLock] else []), RCount (c_read c) (S (c_write c)))
  end.
Definition runlock (k : rkind) (c : rcount) : option (list mcall * rcount) :=
  match k with
  | KRead => if c_write c =? 0 then
               match c_read c with O => None | S n => Some ((if c_read c =? 1 then [CReadUnlock] else []), RCount n (c_write c)) end
             else Some ([], c)
  | KWrite => match c_write c with
              | O => None
              | S n => Some ((if c_write c =? 1 then [CWriteUnlock] ++ (if 0 <? c_read c then [CReadLock] else []) else []), RCount (c_read c) n)
              end
  end.

(** Several threads using one recursive mutex: each has the locks it holds (innermost first), its counters, and the calls on the
    underlying mutex that its current operation still has to make. *)
Record rthread := RThread { t_stack : list rkind; t_count : rcount; t_todo : list mcall }.
Record rstate := RState { s_threads : list rthread; s_base : mstate }.
Definition rs_init (n : nat) : rstate := RState (replicate n (RThread [] (RCount 0 0) [])) (m_init n).

Inductive ract :=
  | RLock (t : nat) (k : rkind)      (* the thread begins ReadLock or WriteLock *)
  | RUnlock (t : nat)                (* the thread begins to undo its innermost lock *)
  | RNext (t : nat)                  (* the thread makes its next call on the underlying mutex *)
  | RGo (t : nat).                   (* one step inside that call *)
(** The thread is not inside a call on the underlying mutex. *)
Definition resting (p : pc) : bool := match p with Out | Reading | Writing => true | _ => false end.
Definition rstep (s : rstate) (a : ract) : option rstate :=
  match a with
  | RLock t k =>
      th ← s_threads s !! t; p ← m_pcs (s_base s) !! t;
      if resting p && bool_decide (t_todo th = []) then
        let '(todo, c) := rlock k (t_count th) in Some (RState (<[t := RThread (k :: t_stack th) c todo]> (s_threads s)) (s_base s))
      else None
  | RUnlock t =>
      th ← s_threads s !! t; p ← m_pcs (s_base s) !! t;
      if resting p && bool_decide (t_todo th = []) then
        match t_stack th with
        | [] => None
        | k :: st => '(todo, c) ← runlock k (t_count th); Some (RState (<[t := RThread st c todo]> (s_threads s)) (s_base s))
        end
      else None
  | RNext t =>
      th ← s_threads s !! t;
      match t_todo th with
      | [] => None
      | c :: todo => b ← call (s_base s) t c; Some (RState (<[t := RThread (t_stack th) (t_count th) todo]> (s_threads s)) b)
      end
  | RGo t => b ← go (s_base s) t; Some (RState (s_threads s) b)
  end.
Fixpoint rrun (s : rstate) (l : list ract) : option rstate :=
  match l with [] => Some s | a :: l' => s' ← rstep s a; rrun s' l' end.

(** One thread using two recursive mutexes [false] and [true]: the same counters serve both (they are not members). *)
Inductive two_op := TLock (m : bool) (k : rkind) | TUnlock (m : bool) (k : rkind).
Definition two_step (c : rcount) (o : two_op) : option (list (bool * mcall) * rcount) :=
  match o with
  | TLock m k => let '(l, c') := rlock k c in Some (map (pair m) l, c')
  | TUnlock m k => '(l, c') ← runlock k c; Some (map (pair m) l, c')
  end.
