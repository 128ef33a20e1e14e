(** Threads that call the functions of one vault at the same time: what they read and write there, and what they answer.

    The lock of the vault is the RecursiveReadWriteMutex of MutexModel.v, step by step. Inside its lock a call works in many small steps:
    - a writing call (WriteLock) looks at the memory and changes it to anything at all, as often as it likes, before it leaves it in the
      final state; if, at every step, it finds the memory as it left it, its final effect is the one of [step] (VaultModel.v) on the
      memory it began with; otherwise the effect is arbitrary;
    - a reading call (ReadLock) looks at the memory as often as it likes; if everything it sees is the same to it (same keys, indexes,
      valid records and data, same reference variables of its own), its answer is the one the code gives when it runs alone; otherwise
      it is arbitrary. GetRecord, GetRecords and GetSortedRecords assign their reference variables in one step.
    Simplified: the calls of one vault only, which lock that vault; record sets depending on it are part of the memory, but calls of their
    own functions are not modelled here (LockModel.v has them), nor are the functions of references that take no lock of the vault
    (copy, assign, Reset, IsValid; see LifeModel.v). *)
From Verif Require Export VaultModel.
From Verif Require Export MutexModel LockModel.
From Verif Require Export Spec.
Open Scope nat_scope.

(** Questions: Source/Vault.cpp 316-368, 639-649, Vault.hpp 624-669; VaultRecordRef.hpp 45-95. *)
Inductive ask :=
  | AKeyExist (k : string) | AKeyType (k : string) | AKeys | AUniqueKeys | ASize | AKeyValue (k : string) (t : vtype)
  | AGetData (f : nat) (k : string) (t : vtype).
Inductive ccall := COp (ord : order) (p : op) | CAsk (a : ask).
Inductive reply :=
  | RpOp (x : out) | RpBool (b : bool) | RpType (t : option vtype) | RpKeys (ks : list string) | RpNum (n : nat) | RpData (d : opres * option value).
Definition reply_to (V : nat) (w : world) (a : ask) : option reply :=
  ob ← w_objs w !! V;
  match a with
  | AKeyExist k => Some (RpBool (is_key_exist ob k))
  | AKeyType k => Some (RpType (get_key_type ob k))
  | AKeys => Some (RpKeys (get_keys ob))
  | AUniqueKeys => Some (RpKeys (get_unique_keys ob))
  | ASize => Some (RpNum (vault_size ob))
  | AKeyValue k t => Some (RpData (get_key_value ob k t))
  | AGetData f k t => rf ← w_refs w !! f; d ← ref_get_data w rf k t; Some (RpData d)
  end.
(** The call made alone. *)
Definition perform (V : nat) (w : world) (c : ccall) : option (world * reply) :=
  match c with
  | COp ord p => '(w', x) ← step ord w p; Some (w', RpOp x)
  | CAsk a => r ← reply_to V w a; Some (w, r)
  end.

(** The lock a call takes: Source/Vault.hpp and Vault.cpp (WriteLock/ReadLock at the beginning of each function), VaultRecordRef.hpp 9-95,
    VaultRecordRef.cpp 150-167. [None]: not a call on vault [V] in this model. *)
Definition on_vault (V o : nat) (k : rkind) : option rkind := if decide (o = V) then Some k else None.
Definition mode (V : nat) (c : ccall) : option rkind :=
  match c with
  | CAsk _ => Some KRead
  | COp _ (OGetRecord o _ _ _) | COp _ (OGetRecords o _ _ _ _) | COp _ (OGetSorted o _ _ _ _) => on_vault V o KRead
  | COp _ (OAddKey o _ _) | COp _ (OAddUniqueKey o _ _) | COp _ (OAddUniqueKeyFn o _ _ _) | COp _ (OUpdateKey o _ _) | COp _ (ORemoveKey o _)
  | COp _ (OCreateRecord o _ _) | COp _ (OReadRows o _ _ _ _) | COp _ (OEraseRef o _) | COp _ (OEraseRecord o _ _) | COp _ (OEraseRecords o _ _ _)
  | COp _ (ODropData o) | COp _ (ODropVault o) => on_vault V o KWrite
  | COp _ (OSetData _ _ _) | COp _ (OSetMany _ _) => Some KWrite
  | COp _ _ => None
  end.
(** The reference variables a call uses. *)
Definition refs_of (c : ccall) : list nat :=
  match c with
  | CAsk (AGetData f _ _) => [f]
  | COp _ (OGetRecord _ _ _ f) | COp _ (OEraseRef _ f) | COp _ (OSetData f _ _) | COp _ (OSetMany f _) => [f]
  | COp _ (OGetRecords _ _ _ _ fs) | COp _ (OGetSorted _ _ _ _ fs) => fs
  | COp _ (OCreateRecord _ (Some f) _) => [f]
  | _ => []
  end.
(** The reference variable through which a call finds the vault it locks. *)
Definition through (c : ccall) : option nat :=
  match c with CAsk (AGetData f _ _) | COp _ (OSetData f _ _) | COp _ (OSetMany f _) => Some f | _ => None end.
(** What the client must keep to: the restrictions of class [b] (Spec.v), the vault exists, references are bound to it. *)
Definition proper (b : bool) (V : nat) (w : world) (c : ccall) : Prop :=
  (exists ob, vault_at w V ob) /\ (forall f, through c = Some f -> bound_to w f V) /\
  match c with COp ord p => fair ord /\ allowed b w p | CAsk _ => True end.

(** Two states of the memory that are the same to thread [t], if [own] says which thread each reference variable belongs to. *)
Definition same_for (own : nat -> nat) (t : nat) (w w' : world) : Prop :=
  only_refs_changed w w' /\ forall f, own f = t -> w_refs w' !! f = w_refs w !! f.

(** Where a thread is: outside; waiting for the lock; inside, with the memory it began with, the memory as it left it last, and for each of its
    steps what it had left and what it found; unlocking, with its answer. *)
Inductive phase :=
  | Outside
  | Entering (c : ccall)
  | Inside (c : ccall) (w0 kept : world) (ps : list (world * world))
  | Leaving (c : ccall) (r : reply).
(** What can be observed: calls and their returns. [EEff] does not occur in the log of the machine; it marks the moment a call takes effect in the
    sequential history that explains the log (ConcSpec.v). *)
Inductive event := ECall (t : nat) (c : ccall) | EEff (t : nat) (c : ccall) (r : reply) | ERet (t : nat) (c : ccall) (r : reply).
Record lstate := LState { l_lock : rstate; l_mem : world; l_phase : list phase; l_log : list event }.
Definition l_init (n : nat) (w : world) : lstate := LState (rs_init n) w (replicate n Outside) [].

(** Nobody else interfered, as far as thread [t] can tell. *)
Definition undisturbed (own : nat -> nat) (V t : nat) (c : ccall) (ps : list (world * world)) : Prop :=
  forall x y, (x, y) ∈ ps -> match mode V c with Some KWrite => x = y | _ => same_for own t x y end.

Inductive lstep (b : bool) (V : nat) (own : nat -> nat) : lstate -> lstate -> Prop :=
  (* the call begins and asks for its lock *)
  | ls_call t c k l w ph log l' : ph !! t = Some Outside -> mode V c = Some k -> (forall f, f ∈ refs_of c -> own f = t) ->
      rstep l (RLock t k) = Some l' -> lstep b V own (LState l w ph log) (LState l' w (<[t := Entering c]> ph) (log ++ [ECall t c]))
  (* the steps of locking and unlocking *)
  | ls_lock t a l w ph log l' : a = RNext t \/ a = RGo t -> rstep l a = Some l' -> lstep b V own (LState l w ph log) (LState l' w ph log)
  (* the lock is held *)
  | ls_begin t c l w ph log : ph !! t = Some (Entering c) -> at_rest l t = true ->
      lstep b V own (LState l w ph log) (LState l w (<[t := Inside c w w []]> ph) log)
  (* a look at the memory *)
  | ls_look t c w0 kept ps l w ph log : ph !! t = Some (Inside c w0 kept ps) ->
      lstep b V own (LState l w ph log) (LState l w (<[t := Inside c w0 kept ((kept, w) :: ps)]> ph) log)
  (* a writing call changes the memory in some way *)
  | ls_write t c w0 kept ps l w ph log w1 : ph !! t = Some (Inside c w0 kept ps) -> mode V c = Some KWrite ->
      lstep b V own (LState l w ph log) (LState l w1 (<[t := Inside c w0 w1 ((kept, w) :: ps)]> ph) log)
  (* nested locks of the same vault *)
  | ls_nest t k c w0 kept ps l w ph log l' : ph !! t = Some (Inside c w0 kept ps) -> mode V c = Some KWrite \/ k = KRead ->
      rstep l (RLock t k) = Some l' -> lstep b V own (LState l w ph log) (LState l' w ph log)
  | ls_unnest t th k1 k2 st c w0 kept ps l w ph log l' : ph !! t = Some (Inside c w0 kept ps) -> s_threads l !! t = Some th -> t_stack th = k1 :: k2 :: st ->
      rstep l (RUnlock t) = Some l' -> lstep b V own (LState l w ph log) (LState l' w ph log)
  (* the call completes its work and begins to unlock *)
  | ls_finish t th k c w0 kept ps l w ph log l' w' r : ph !! t = Some (Inside c w0 kept ps) -> s_threads l !! t = Some th -> t_stack th = [k] ->
      rstep l (RUnlock t) = Some l' ->
      (undisturbed own V t c ((kept, w) :: ps) -> let base := match mode V c with Some KWrite => w0 | _ => w end in
         proper b V base c /\ perform V base c = Some (w', r)) ->
      lstep b V own (LState l w ph log) (LState l' w' (<[t := Leaving c r]> ph) log)
  (* the call returns *)
  | ls_return t c r l w ph log : ph !! t = Some (Leaving c r) -> at_rest l t = true ->
      lstep b V own (LState l w ph log) (LState l w (<[t := Outside]> ph) (log ++ [ERet t c r])).
Inductive lruns (b : bool) (V : nat) (own : nat -> nat) : lstate -> lstate -> Prop :=
  | lruns_refl s : lruns b V own s s
  | lruns_step s1 s2 s3 : lruns b V own s1 s2 -> lstep b V own s2 s3 -> lruns b V own s1 s3.
