(** The life of one record among many threads: who may touch its memory, and who frees it.

    Source/VaultRecord.cpp 67-117 (AddRef, RemoveRef, Invalidate, GetIsValid), VaultRecordRef.cpp 7-20 (SetRecord), 48-98 (assignment, moving),
    253-262 (Reset), the destructor; Vault.cpp 9-38 (RemoveRecord), 541-620 (DropVault, DropData), Vault.hpp 970-1000, 1050-1075 (EraseRecord, EraseRecords).

    Every step of AddRef, RemoveRef, Invalidate and GetIsValid is a step of its own: to lock the record's mutex, to change and test the counter and
    the flag, to unlock, to delete. A step that touches the record after its memory was freed, a second delete, or a counter counted below zero ends
    the run with [Crash].
    Simplified: one record, the other records of the vault live the same way independently of it; the lock of the vault is an abstract
    readers-writer lock (C39-C45 show that the implementation is one), reference variables are only counted, per thread. *)
From stdpp Require Export prelude list.
Open Scope nat_scope.

(** What a thread is doing to the record. [KAdd]: AddRef when a reference is copied; [KGet]: AddRef when a function of the vault hands out a reference;
    [KDrop]: RemoveRef; [KInv]: Invalidate; [KLook]: GetIsValid or reading the data. *)
Inductive lcall := KAdd | KGet | KDrop | KInv | KLook.
Inductive lpc :=
  | LIdle
  | LWant (c : lcall)              (* before VaultRecordMutex.lock() *)
  | LIn (c : lcall)                (* the mutex is held *)
  | LDone (c : lcall) (e : bool)   (* counter and flag are changed; [e] is isEnd *)
  | LFree (c : lcall) (e : bool).  (* after VaultRecordMutex.unlock(): if (isEnd) delete this *)
Record lthread := LThread { lt_pc : lpc; lt_refs : nat (* reference variables of the thread that hold the record *) }.
Record life := Life {
  lf_freed : bool; lf_valid : bool; lf_count : nat;   (* the record: Source/VaultRecord.h *)
  lf_owner : option nat;                              (* VaultRecordMutex *)
  lf_listed : bool;                                   (* the record is in RecordsSet of its vault *)
  lf_readers : list nat; lf_writer : option nat;      (* who holds the lock of the vault *)
  lf_threads : list lthread }.
(** The vault has just created the record, nobody holds a reference to it. *)
Definition life_init (n : nat) : life := Life false true 0 None true [] None (replicate n (LThread LIdle 0)).

Inductive lact :=
  | AReadLock (t : nat) | AReadUnlock (t : nat) | AWriteLock (t : nat) | AWriteUnlock (t : nat)   (* the vault's lock *)
  | AGet (t : nat)      (* GetRecord, GetRecords, CreateRecord, ...: VaultRecordRef.cpp 7-20, under the vault's lock *)
  | ASee (t : nat)      (* a function of the vault reads the record, under the vault's lock *)
  | AErase (t : nat)    (* EraseRecord, EraseRecords, DropData, DropVault, ~Vault, under the vault's write lock *)
  | ACopy (t : nat)     (* a reference is copied *)
  | ADrop (t : nat)     (* a reference is reset, assigned or destroyed *)
  | ALook (t : nat)     (* a function of a reference *)
  | AGive (t u : nat)   (* a reference variable is passed to another thread *)
  | AStep (t : nat).    (* the next step of the call under way *)
Inductive outcome (A : Type) := Crash | Blocked | Next (s : A).
Arguments Crash {A}. Arguments Blocked {A}. Arguments Next {A} s.

Definition put (s : life) (t : nat) (th : lthread) : life :=
  Life (lf_freed s) (lf_valid s) (lf_count s) (lf_owner s) (lf_listed s) (lf_readers s) (lf_writer s) (<[t := th]> (lf_threads s)).
Definition in_vault_lock (s : life) (t : nat) : bool := bool_decide (t ∈ lf_readers s) || bool_decide (lf_writer s = Some t).

(** The critical section of the call: VaultRecord.cpp 67-117. [None]: the counter is counted below zero. *)
Definition critical (c : lcall) (valid : bool) (count : nat) : option (bool * nat * bool) :=
  match c with
  | KAdd | KGet => Some (valid, S count, false)
  | KDrop => match count with 0 => None | S n => Some (valid, n, negb valid && (n =? 0)) end
  | KInv => Some (false, count, count =? 0)
  | KLook => Some (valid, count, false)
  end.
Definition gained (c : lcall) : nat := match c with KAdd | KGet => 1 | _ => 0 end.

Definition life_step (s : life) (a : lact) : outcome life :=
  let thread t k := match lf_threads s !! t with Some (LThread LIdle n) => k n | _ => Blocked end in
  match a with
  | AReadLock t => thread t (fun _ => match lf_writer s with
      | None => Next (Life (lf_freed s) (lf_valid s) (lf_count s) (lf_owner s) (lf_listed s) (t :: lf_readers s) None (lf_threads s)) | Some _ => Blocked end)
  | AReadUnlock t => thread t (fun _ => if decide (t ∈ lf_readers s) then
      Next (Life (lf_freed s) (lf_valid s) (lf_count s) (lf_owner s) (lf_listed s) (filter (fun u => u <> t) (lf_readers s)) (lf_writer s) (lf_threads s)) else Blocked)
  | AWriteLock t => thread t (fun _ => match lf_writer s, lf_readers s with
      | None, [] => Next (Life (lf_freed s) (lf_valid s) (lf_count s) (lf_owner s) (lf_listed s) [] (Some t) (lf_threads s)) | _, _ => Blocked end)
  | AWriteUnlock t => thread t (fun _ => if decide (lf_writer s = Some t) then
      Next (Life (lf_freed s) (lf_valid s) (lf_count s) (lf_owner s) (lf_listed s) (lf_readers s) None (lf_threads s)) else Blocked)
  | AGet t => thread t (fun n => if in_vault_lock s t && lf_listed s then Next (put s t (LThread (LWant KGet) n)) else Blocked)
  | ASee t => thread t (fun n => if in_vault_lock s t && lf_listed s then Next (put s t (LThread (LWant KLook) n)) else Blocked)
  | AErase t => thread t (fun n => if bool_decide (lf_writer s = Some t) && lf_listed s then
      Next (Life (lf_freed s) (lf_valid s) (lf_count s) (lf_owner s) false (lf_readers s) (lf_writer s) (<[t := LThread (LWant KInv) n]> (lf_threads s))) else Blocked)
  | ACopy t => thread t (fun n => match n with 0 => Blocked | S _ => Next (put s t (LThread (LWant KAdd) n)) end)
  | ADrop t => thread t (fun n => match n with 0 => Blocked | S m => Next (put s t (LThread (LWant KDrop) m)) end)
  | ALook t => thread t (fun n => match n with 0 => Blocked | S _ => Next (put s t (LThread (LWant KLook) n)) end)
  | AGive t u => thread t (fun n => match n with 0 => Blocked | S m =>
      if decide (t = u) then Blocked else
      match lf_threads s !! u with Some (LThread p k) => Next (put (put s t (LThread LIdle m)) u (LThread p (S k))) | None => Blocked end end)
  | AStep t =>
      match lf_threads s !! t with
      | None | Some (LThread LIdle _) => Blocked
      | Some (LThread (LWant c) n) =>
          if lf_freed s then Crash else
          match lf_owner s with
          | Some _ => Blocked
          | None => Next (Life false (lf_valid s) (lf_count s) (Some t) (lf_listed s) (lf_readers s) (lf_writer s) (<[t := LThread (LIn c) n]> (lf_threads s)))
          end
      | Some (LThread (LIn c) n) =>
          if lf_freed s then Crash else
          match critical c (lf_valid s) (lf_count s) with
          | None => Crash
          | Some (v, k, e) => Next (Life false v k (lf_owner s) (lf_listed s) (lf_readers s) (lf_writer s) (<[t := LThread (LDone c e) n]> (lf_threads s)))
          end
      | Some (LThread (LDone c e) n) =>
          if lf_freed s then Crash else
          Next (Life false (lf_valid s) (lf_count s) None (lf_listed s) (lf_readers s) (lf_writer s) (<[t := LThread (LFree c e) n]> (lf_threads s)))
      | Some (LThread (LFree c e) n) =>
          if e then (if lf_freed s then Crash else
            Next (Life true (lf_valid s) (lf_count s) (lf_owner s) (lf_listed s) (lf_readers s) (lf_writer s) (<[t := LThread LIdle (gained c + n)]> (lf_threads s))))
          else Next (put s t (LThread LIdle (gained c + n)))
      end
  end.
(** A schedule; an action that is not possible now is passed over. *)
Fixpoint life_run (s : life) (l : list lact) : outcome life :=
  match l with
  | [] => Next s
  | a :: l => match life_step s a with Crash => Crash | Blocked => life_run s l | Next s' => life_run s' l end
  end.
