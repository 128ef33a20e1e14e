(** Threads using any number of vaults. Every vault has its own RecursiveReadWriteMutex, but the two counters of the recursion belong to the
    thread, one pair for all mutexes (Source/ReadWriteMutex.cpp 68-69): a call on a second vault made from inside a call on a first one (a
    callback, the assignment of vaults) finds them not 0.

    The steps inside a lock are those of MutexModel.v ([go], without spurious wake-ups), the calls of a recursive lock those of [rlock] and
    [runlock], the calls on one vault those of LockModel.v ([skeleton]). Unlike in MutexModel.v, a thread may call ReadUnlock on a mutex it
    has not locked for reading, as the code does. *)
From Verif Require Export LockModel.
Open Scope nat_scope.

(** Source/ReadWriteMutex.h 21-24, without the program counters. *)
Record vmutex := VMutex { x_wm : option nat; x_rm : option nat; x_count : Z; x_flag : bool }.
(** A thread: its locks, innermost first, with the vault; its two counters; the calls on mutexes that its current lock or unlock still has to
    make; the call on a mutex it is in, with the vault and the next line. *)
Record vthread := VThread { h_stack : list (nat * rkind); h_count : rcount; h_calls : list (nat * mcall); h_at : option (nat * pc) }.
(** The mutexes of the vaults, the threads, who holds the mutexes of the records (vault, record) and how often, what each thread still has to do. *)
Record vstate := VState { v_mutex : nat -> vmutex; v_threads : list vthread; v_recs : gmap (nat * nat) (nat * nat); v_acts : list (list (nat * cact)) }.
Definition v_init (ps : list (list (nat * cact))) : vstate :=
  VState (fun _ => VMutex None None 0 false) (replicate (length ps) (VThread [] (RCount 0 0) [] None)) ∅ ps.

(** The mutex of vault [v] as a state of MutexModel.v: threads that are not in a call on it are outside. *)
Definition at_pc (v : nat) (th : vthread) : pc := match h_at th with Some (v', p) => if decide (v' = v) then p else Out | None => Out end.
Definition put_pc (v : nat) (th : vthread) (p : pc) : vthread :=
  match h_at th with
  | Some (v', _) => if decide (v' = v) then VThread (h_stack th) (h_count th) (h_calls th) (if resting p then None else Some (v, p)) else th
  | None => th
  end.
Definition view (s : vstate) (v : nat) : mstate :=
  let x := v_mutex s v in MState (at_pc v <$> v_threads s) (x_wm x) (x_rm x) (x_count x) (x_flag x).
Definition put_view (s : vstate) (v : nat) (b : mstate) : vstate :=
  VState (fun w => if decide (w = v) then VMutex (m_wm b) (m_rm b) (m_count b) (m_flag b) else v_mutex s w) (zip_with (put_pc v) (v_threads s) (m_pcs b)) (v_recs s) (v_acts s).
(** The first line of a call, Source/ReadWriteMutex.cpp 16-66. *)
Definition start (c : mcall) : pc := match c with CReadLock => RL20 | CReadUnlock => RU32 | CWriteLock => WL50 | CWriteUnlock => WU64 end.

Definition set_thread (s : vstate) (t : nat) (th : vthread) (acts : list (list (nat * cact))) : vstate :=
  VState (v_mutex s) (<[t := th]> (v_threads s)) (v_recs s) acts.
Definition set_recs (s : vstate) (m : gmap (nat * nat) (nat * nat)) (acts : list (list (nat * cact))) : vstate :=
  VState (v_mutex s) (v_threads s) m acts.
(** One step of thread [t]. [None]: it is finished or cannot move now. *)
Definition vstep (s : vstate) (t : nat) : option vstate :=
  th ← v_threads s !! t; acts ← v_acts s !! t;
  match h_at th with
  | Some (v, _) => b ← go (view s v) t; Some (put_view s v b)
  | None =>
      match h_calls th with
      | (v, c) :: calls => Some (set_thread s t (VThread (h_stack th) (h_count th) calls (Some (v, start c))) (v_acts s))
      | [] =>
          match acts with
          | [] => None
          | (v, a) :: rest =>
              let todo := <[t := rest]> (v_acts s) in
              match a with
              | ALock k => let '(l, c) := rlock k (h_count th) in Some (set_thread s t (VThread ((v, k) :: h_stack th) c (map (pair v) l) None) todo)
              | AUnlock =>   (* the innermost lock: blocks end in reverse order *)
                  match h_stack th with
                  | [] => None
                  | (w, k) :: st => '(l, c) ← runlock k (h_count th); Some (set_thread s t (VThread st c (map (pair w) l) None) todo)
                  end
              | ARec r =>
                  match v_recs s !! (v, r) with
                  | None => Some (set_recs s (<[(v, r) := (t, 1)]> (v_recs s)) todo)
                  | Some (u, n) => if decide (u = t) then Some (set_recs s (<[(v, r) := (t, S n)]> (v_recs s)) todo) else None
                  end
              | ARecEnd r =>
                  match v_recs s !! (v, r) with
                  | Some (u, S n) => if decide (u = t) then
                      Some (set_recs s (if decide (n = 0) then delete (v, r) (v_recs s) else <[(v, r) := (t, n)]> (v_recs s)) todo) else None
                  | _ => None
                  end
              | ARead _ | AWrite _ => Some (VState (v_mutex s) (v_threads s) (v_recs s) todo)
              end
          end
      end
  end.
Fixpoint vrun (s : vstate) (l : list nat) : option vstate :=
  match l with [] => Some s | t :: l' => s' ← vstep s t; vrun s' l' end.

(** The calls: those of LockModel.v on one vault, those that involve two vaults, and those whose callback makes further calls. [nkeys] is the
    number of keys, [rs] are records, [ss] record sets. *)
Inductive vcall :=
  | VOn (v : nat) (c : capi)
  | VCopy (new from nkeys : nat) (rs : list nat)        (* Vault new(from) *)
  | VAssign (to from : nat) (old : list nat) (ss : list (nat * list nat)) (nkeys : nat) (rs : list nat)   (* to = from *)
  | VMove (new from : nat)                              (* Vault new(std::move(from)) *)
  | VMoveAssign (to from : nat) (old : list nat) (ss : list (nat * list nat))                             (* to = std::move(from) *)
  | VSortBy (v : nat) (rs : list (nat * list vcall))    (* SortBy; for each record the calls its callback makes *)
  | VGenerate (v : nat) (rs : list (nat * list vcall)) (ss : list nat).   (* AddUniqueKey; for each record the calls of the generator function *)

Definition on (v : nat) (l : list cact) : list (nat * cact) := map (pair v) l.
(** [ReadLock lock(vault)], [WriteLock lock(vault)] until the end of the block. *)
Definition vsec (v : nat) (k : rkind) (body : list (nat * cact)) : list (nat * cact) := (v, ALock k) :: body ++ [(v, AUnlock)].
(** Source/Vault.cpp 197-218, 234-255: the keys and records of vault [from] are copied to vault [to]; AddKey on [to] takes its lock for
    writing (Vault.hpp 519-522, 325-542), the records are copied under their mutex (VaultRecord.cpp 12-20). *)
Definition copy_content (to from nkeys : nat) (rs : list nat) : list (nat * cact) :=
  (from, ARead LVault) :: concat (replicate nkeys (on to (skeleton (KAddKey [] [])))) ++ (to, AWrite LVault) ::
  concat ((fun r => on from (rsec r [ARead (LData r)]) ++ [(to, AWrite LVault)]) <$> rs).
Fixpoint vskeleton (c : vcall) : list (nat * cact) :=
  match c with
  | VOn v c => on v (skeleton c)
  (* Source/Vault.cpp 189-219 *)
  | VCopy new from nkeys rs => vsec from KRead (copy_content new from nkeys rs)
  (* Source/Vault.cpp 221-259 *)
  | VAssign to from old ss nkeys rs => on to (skeleton (KDropVault old ss)) ++ vsec to KRead (vsec from KRead (copy_content to from nkeys rs))
  (* Source/Vault.cpp 261-283: the other vault is emptied under a lock for reading *)
  | VMove new from => vsec from KRead ([(from, ARead LVault); (new, AWrite LVault)] ++ on from [AWrite LVault; AWrite LSets; AWrite LErrors])
  (* Source/Vault.cpp 285-314 *)
  | VMoveAssign to from old ss => on to (skeleton (KDropVault old ss)) ++
      vsec from KRead ([(from, ARead LVault); (to, AWrite LVault)] ++ on from [AWrite LVault; AWrite LSets; AWrite LErrors])
  (* Source/Vault.cpp 651-675, Vault.hpp 490-516 *)
  | VSortBy v rs => vsec v KRead ((v, ARead LVault) ::
      concat ((fun e : nat * list vcall => on v (set_record (Some e.1) None) ++ concat (map vskeleton e.2) ++ on v (touch e.1)) <$> rs))
  (* Source/Vault.hpp 325-542: the generator function is called with a reference to each record (lines 375-413) *)
  | VGenerate v rs ss => vsec v KWrite (on v [ARead LVault; AWrite LVault] ++
      concat ((fun e : nat * list vcall => on v (set_record (Some e.1) None) ++ concat (map vskeleton e.2) ++ on v (touch e.1) ++ [(v, AWrite (LData e.1))]) <$> rs) ++
      (v, ARead LSets) :: concat ((fun s => on v [ARead (LSet s); AWrite (LSet s)]) <$> ss))
  end.
Definition vprogram (cs : list vcall) : list (nat * cact) := concat (map vskeleton cs).
