(** Threads calling the API of one vault, its records, references and record sets: which locks each call takes, in which order, and what
    it touches while holding them. This is the locking skeleton of the code; the values are in VaultModel.v.

    The vault's lock is the RecursiveReadWriteMutex of MutexModel.v itself, step by step (without spurious wake-ups, see
    C39_spurious_wakeup_refuted); VaultRecord::VaultRecordMutex is a std::recursive_mutex. The mutexes of record sets are disabled
    (Source/VaultRecordSet.cpp 41, 74, 82) and do nothing. One vault here; several vaults, whose locks are not independent in one
    thread (C41_other_mutex_refuted), in MultiModel.v. Left out: variables only one thread uses (references, vectors, the CSV file), memory
    allocation, and everything user callbacks do except reading the record they are given. *)
From Verif Require Export MutexModel.
Open Scope nat_scope.

(** What calls of different threads can have in common. *)
Inductive loc :=
  | LVault          (* Source/Vault.h 40-93: template, indexes, keys, adders, ..., the set of records *)
  | LSets           (* Vault::RecordSetsSet: the record sets that depend on the vault *)
  | LErrors         (* Vault::InvalidFileRecords *)
  | LData (r : nat) (* VaultRecord::Container of record r *)
  | LLife (r : nat) (* VaultRecord: IsValid, RefCounter, dependentVaultRecordSets of record r (Source/VaultRecord.h 29-36) *)
  | LSet (s : nat)  (* records, keys and indexes of record set s *)
  | LParent (s : nat).  (* VaultRecordSet::ParentVault of record set s *)
Global Instance loc_eq_dec : EqDecision loc.
Proof. solve_decision. Defined.

(** One action of a thread: lock the vault, undo the innermost lock of the vault, lock or unlock the mutex of a record, read or write. *)
Inductive cact := ALock (k : rkind) | AUnlock | ARec (r : nat) | ARecEnd (r : nat) | ARead (x : loc) | AWrite (x : loc).
Global Instance cact_eq_dec : EqDecision cact.
Proof. solve_decision. Defined.

(** [ReadLock lock(...)], [WriteLock lock(...)] until the end of the block (Source/ReadWriteMutex.h 139-255). *)
Definition sec (k : rkind) (body : list cact) : list cact := ALock k :: body ++ [AUnlock].
(** [VaultRecordMutex.lock() ... unlock()]. *)
Definition rsec (r : nat) (body : list cact) : list cact := ARec r :: body ++ [ARecEnd r].
(** Source/VaultRecord.cpp 103-111: GetIsValid. *)
Definition get_is_valid (r : nat) : list cact := rsec r [ARead (LLife r)].
(** Source/VaultRecord.cpp 67-101, 124-140: AddRef, RemoveRef, Invalidate, AddToDependentSets, EraseDependentSet. *)
Definition touch (r : nat) : list cact := rsec r [ARead (LLife r); AWrite (LLife r)].
Definition touches (rs : list nat) : list cact := concat (touch <$> rs).
Definition touch_opt (r : option nat) : list cact := match r with Some r => touch r | None => [] end.
Definition read_data (rs : list nat) : list cact := (fun r => ARead (LData r)) <$> rs.
Definition write_data (rs : list nat) : list cact := (fun r => AWrite (LData r)) <$> rs.
(** Source/VaultRecordRef.cpp 7-20: SetRecord with the new and the old record. *)
Definition set_record (new old : option nat) : list cact := sec KRead (touch_opt new ++ touch_opt old).
(** Source/Vault.cpp 326-340: GetKeyType. *)
Definition get_key_type_locks : list cact := sec KRead [ARead LVault].
(** A temporary reference is made for a record and destroyed again (Source/VaultRecordRef.cpp 29-34, 369-373). *)
Definition with_ref (body : list cact) (r : nat) : list cact := set_record (Some r) None ++ body ++ touch r.
(** Source/VaultRecordRef.cpp 169-213, VaultRecordRef.hpp 45-95: GetDataAsString, GetData on a reference to record r. *)
Definition ref_get (r : nat) : list cact := sec KRead (get_is_valid r ++ get_key_type_locks ++ [ARead (LData r)]).
(** Source/VaultRecordSet.cpp 254-271: Clear of set s holding records rs (no lock of its own). *)
Definition set_clear (s : nat) (rs : list nat) : list cact := [ARead (LParent s); ARead (LSet s)] ++ touches rs ++ [AWrite (LSet s)].
(** Source/VaultRecordSet.cpp 244-259: Reset. *)
Definition set_reset (s : nat) (rs : list nat) : list cact :=
  ARead (LParent s) :: sec KWrite (set_clear s rs ++ [AWrite (LSet s); AWrite LSets; AWrite (LParent s)]).
(** Source/Vault.cpp 9-37, Vault.hpp 983-997: one record r leaves the vault; ss: the sets it is registered with
    (RemoveFromDependentSets, Source/VaultRecord.cpp 113-122). *)
Definition erase_one (r : nat) (ss : list nat) : list cact :=
  [ARead LVault; ARead (LData r); AWrite LVault] ++
  rsec r (ARead (LLife r) :: concat ((fun s => [ARead (LSet s); ARead (LData r); AWrite (LSet s)]) <$> ss)) ++ touch r.
(** Source/Vault.hpp 12-125: SetDataToRecord; ss: the sets the record is registered with (Source/VaultRecord.hpp 9-19). *)
Definition set_data_to_record (r : nat) (ss : list nat) : list cact :=
  sec KWrite (get_is_valid r ++ get_key_type_locks ++ [ARead LVault; ARead (LData r); AWrite LVault] ++
    rsec r (ARead (LLife r) :: concat ((fun s => get_is_valid r ++ [ARead (LSet s); ARead (LData r); AWrite (LSet s)]) <$> ss)) ++ [AWrite (LData r)]).
(** Source/VaultRecordRef.hpp 9-43: SetData through a reference to record r. *)
Definition ref_set (r : nat) (ss : list nat) : list cact := sec KWrite (get_is_valid r ++ set_data_to_record r ss).

(** The calls. Lists of records and sets are what the call happens to meet; they are arbitrary. *)
Inductive capi :=
  | KGet                                            (* Vault: IsKeyExist, GetKeys, GetUniqueKeys, Size, GetKeyType; VaultRecordRef::IsKeyExist *)
  | KGetKeyValue
  | KGetRecord (found old : option nat)             (* Vault::GetRecord into a reference to record old *)
  | KGetRecords (rs olds : list nat)
  | KSortBy (rs : list nat)                         (* Vault: SortBy, GetSortedRecords, Print; the callback reads each record *)
  | KDumpVault (rs : list nat)                      (* Vault: ToJson, ToStrings, SaveToFile *)
  | KAddKey (rs : list nat) (ss : list (nat * list nat))
  | KAddUniqueKey (rs : list nat) (ss : list (nat * list nat))
  | KUpdateKey
  | KRemoveKey (rs : list nat) (ss : list nat)
  | KCreate (r : nat) (old : option nat) (ok : bool)
  | KErase (rs : list (nat * list nat))             (* Vault: EraseRecord, EraseRecords *)
  | KDropData (rs : list nat) (ss : list (nat * list nat))
  | KDropVault (rs : list nat) (ss : list (nat * list nat))
  | KReadFile (rs : list nat)
  | KErrors                                         (* Vault::GetErrorsInLastReadedFile *)
  | KRefSet (r : nat) (sss : list (list nat))       (* VaultRecordRef::SetData; a list: the form with several values *)
  | KRefGet (r : nat)                               (* VaultRecordRef: GetData, GetDataAsString *)
  | KRefValid (r : nat)                             (* VaultRecordRef: IsValid, ==, !=, GetRecordUniqueId *)
  | KRefKeys (r : nat)                              (* VaultRecordRef::GetKeys *)
  | KRefAssign (new old : option nat)               (* VaultRecordRef: copy, assign, move, Reset, destroy *)
  | KRefDump (r : nat)                              (* VaultRecordRef: ToJson, ToStrings, PrintRecord *)
  | KSetGet (s : nat) (rs : list nat)               (* VaultRecordSet: Size, GetKeyType, GetKeyValue, CheckRecord, ToJson, ToStrings, SaveToFile *)
  | KSetKeys (s : nat)                              (* VaultRecordSet: IsKeyExist, GetKeys, GetUniqueKeys *)
  | KSetRecords (s : nat) (rs olds : list nat)      (* VaultRecordSet: GetRecord, GetRecords, SortBy, GetSortedRecords, Print *)
  | KSetAdd (s r : nat)
  | KSetRemove (s : nat) (rs : list nat)            (* VaultRecordSet: RemoveRecord, RemoveRecords *)
  | KSetJoin (s a : nat) (rs : list nat)            (* VaultRecordSet: Join, Exclude, Intersect *)
  | KSetCopy (d s : nat) (rs : list nat)
  | KSetReset (s : nat) (rs : list nat)
  | KSetClear (s : nat) (rs : list nat)
  | KSetSame (s a : nat)                            (* == and != of record sets *)
  | KSetIntersect (d a b : nat) (rs : list nat)     (* Intersection(a, b, d); Union(a, b, d) is KSetReset d if it was bound, KSetCopy d a, KSetJoin d b *)
  | KRequest (s : nat) (old rs : list nat).         (* Vault: RequestRecords, Request into set s that held records old *)

Definition skeleton (c : capi) : list cact :=
  match c with
  (* Source/Vault.cpp 316-368, 639-649 *)
  | KGet => sec KRead [ARead LVault]
  (* Source/Vault.hpp 624-669 *)
  | KGetKeyValue => sec KRead (get_key_type_locks ++ [ARead LVault])
  (* Source/Vault.hpp 671-725 *)
  | KGetRecord found old => sec KRead (get_key_type_locks ++ [ARead LVault] ++ set_record found old)
  (* Source/Vault.hpp 727-786 *)
  | KGetRecords rs olds => touches olds ++ sec KRead (get_key_type_locks ++ [ARead LVault] ++ concat ((fun r => set_record (Some r) None) <$> rs))
  (* Source/Vault.cpp 651-700, 771-943; the sorters: Vault.hpp 490-506 *)
  | KSortBy rs => sec KRead (ARead LVault :: concat ((fun r => with_ref (ref_get r) r) <$> rs))
  (* Source/Vault.cpp 702-769, 945-1031 *)
  | KDumpVault rs => sec KRead (ARead LVault :: read_data rs)
  (* Source/Vault.hpp 325-542, not unique; the sets: lines 514-524 and again 325-542 *)
  | KAddKey rs ss => sec KWrite ([ARead LVault; AWrite LVault] ++ write_data rs ++ ARead LSets ::
      concat ((fun e : nat * list nat => [ARead (LSet e.1); AWrite (LSet e.1)] ++ write_data e.2) <$> ss))
  (* the same with a generator function, called with a reference to each record (lines 375-413) *)
  | KAddUniqueKey rs ss => sec KWrite ([ARead LVault; AWrite LVault] ++ concat ((fun r => with_ref (ref_get r) r) <$> rs) ++ write_data rs ++ ARead LSets ::
      concat ((fun e : nat * list nat => [ARead (LSet e.1); AWrite (LSet e.1)] ++ concat ((fun r => with_ref (ref_get r) r) <$> e.2)) <$> ss))
  (* Source/Vault.hpp 573-622 *)
  | KUpdateKey => sec KWrite [ARead LVault; AWrite LVault]
  (* Source/Vault.cpp 370-427 *)
  | KRemoveKey rs ss => sec KWrite ([ARead LVault; AWrite LVault] ++ write_data rs ++ ARead LSets :: concat ((fun s => [ARead (LSet s); AWrite (LSet s)]) <$> ss))
  (* Source/Vault.cpp 429-538 *)
  | KCreate r old ok => sec KWrite ([ARead LVault; AWrite (LData r); AWrite LVault] ++ if ok then set_record (Some r) old else [])
  (* Source/Vault.cpp 9-37, 626-637, Vault.hpp 936-1088 *)
  | KErase rs => sec KWrite (sec KWrite [ARead LVault] ++ concat ((fun e : nat * list nat => erase_one e.1 e.2) <$> rs))
  (* Source/Vault.cpp 603-624 *)
  | KDropData rs ss => sec KWrite (ARead LSets :: concat ((fun e : nat * list nat => set_clear e.1 e.2) <$> ss) ++ touches rs ++ [ARead LVault; AWrite LVault])
  (* Source/Vault.cpp 540-601 *)
  | KDropVault rs ss => sec KWrite (ARead LSets :: concat ((fun e : nat * list nat => set_reset e.1 e.2) <$> ss) ++ [AWrite LErrors] ++ touches rs ++ [ARead LVault; AWrite LVault; AWrite LSets])
  (* Source/Vault.cpp 39-180 *)
  | KReadFile rs => sec KWrite ([AWrite LErrors; ARead LVault] ++ concat ((fun r => [AWrite (LData r); AWrite LVault; AWrite LErrors]) <$> rs))
  (* Source/Vault.cpp 1047-1052: no lock *)
  | KErrors => [ARead LErrors]
  (* Source/VaultRecordRef.cpp 150-167, VaultRecordRef.hpp 9-43 *)
  | KRefSet r sss => sec KWrite (concat (ref_set r <$> sss))
  (* Source/VaultRecordRef.cpp 169-213, VaultRecordRef.hpp 45-95 *)
  | KRefGet r => ref_get r
  (* Source/VaultRecordRef.cpp 96-148, 215-224 *)
  | KRefValid r => get_is_valid r
  (* Source/VaultRecordRef.cpp 226-251 *)
  | KRefKeys r => get_is_valid r ++ sec KRead [ARead LVault]
  (* Source/VaultRecordRef.cpp 36-94, 282-292, 369-373 *)
  | KRefAssign new old => touch_opt old ++ touch_opt new
  (* Source/VaultRecordRef.cpp 253-280, 294-367: the mutex of the record first, then the vault's lock *)
  | KRefDump r => rsec r (get_is_valid r ++ sec KRead [ARead LVault; ARead (LData r)])
  (* Source/VaultRecordSet.cpp 163-178, 232-242, 288-301, 341-367, 513-525; VaultRecordSet.hpp 62-87 *)
  | KSetGet s rs => ARead (LParent s) :: sec KRead (ARead (LSet s) :: read_data rs)
  (* Source/VaultRecordSet.cpp 151-161, 303-327 *)
  | KSetKeys s => ARead (LParent s) :: sec KRead [ARead LVault]
  (* Source/VaultRecordSet.hpp 89-133, 306-316; VaultRecordSet.cpp 329-339, 369-381: references are made through the set, whose own lock does
     nothing; the callback reads the record through it *)
  | KSetRecords s rs olds => touches olds ++ ARead (LParent s) :: sec KRead (ARead (LSet s) ::
      concat ((fun r => touch r ++ get_is_valid r ++ [ARead (LSet s); ARead (LData r)] ++ touch r) <$> rs))
  (* Source/VaultRecordSet.cpp 180-230 *)
  | KSetAdd s r => ARead (LParent s) :: sec KRead (get_is_valid r ++ [ARead (LSet s); AWrite (LSet s); ARead (LData r)] ++ touch r)
  (* Source/VaultRecordSet.cpp 278-286, VaultRecordSet.hpp 251-304; the record stays registered with the set *)
  | KSetRemove s rs => ARead (LParent s) :: sec KRead ([ARead (LSet s); AWrite (LSet s)] ++ read_data rs)
  (* Source/VaultRecordSet.cpp 383-511 *)
  | KSetJoin s a rs => [ARead (LParent s); ARead (LParent a)] ++ sec KRead ([ARead (LSet a); ARead (LSet s); AWrite (LSet s)] ++ read_data rs)
  (* Source/VaultRecordSet.cpp 13-42, 86-105: the copy of set s in d (a new variable, or one that was Reset before) *)
  | KSetCopy d s rs => ARead (LParent s) :: sec KWrite ([AWrite (LParent d); ARead (LSet s); AWrite (LSet d); AWrite LSets] ++ read_data rs ++ touches rs)
  | KSetReset s rs => set_reset s rs
  | KSetClear s rs => set_clear s rs
  (* Source/VaultRecordSet.cpp 616-700; a variable d that was bound is Reset first, which is a KSetReset of its own *)
  | KSetIntersect d a b rs => [ARead (LParent a); ARead (LParent b); ARead (LParent d)] ++
      sec KRead ([AWrite (LParent d); ARead (LSet a); AWrite (LSet d); AWrite LSets; ARead (LSet b); AWrite (LSet d)] ++ read_data rs)
  (* Source/VaultRecordSet.cpp 534-556: no lock *)
  | KSetSame s a => [ARead (LParent s); ARead (LParent a); ARead (LSet s); ARead (LSet a)]
  (* Source/Vault.hpp 268-322, 872-934 *)
  | KRequest s old rs => sec KRead ([AWrite LSets; ARead (LParent s)] ++ set_clear s old ++ [AWrite (LParent s)] ++
      sec KRead (get_key_type_locks ++ [ARead LVault]) ++ read_data rs ++ [AWrite (LSet s)] ++ touches rs)
  end.
(** A thread's program. *)
Definition program (cs : list capi) : list cact := concat (skeleton <$> cs).

(** All threads: the state of the vault's lock, who holds the mutexes of the records (and how often), what each thread still has to do. *)
Record cstate := CState { c_lock : rstate; c_recs : gmap nat (nat * nat); c_todo : list (list cact) }.
Definition c_init (ps : list (list cact)) : cstate := CState (rs_init (length ps)) ∅ ps.

(** The thread is not inside a lock or unlock of the vault. *)
Definition at_rest (l : rstate) (t : nat) : bool :=
  match s_threads l !! t, m_pcs (s_base l) !! t with
  | Some th, Some p => resting p && bool_decide (t_todo th = [])
  | _, _ => false
  end.
Definition lock_step (s : cstate) (a : ract) (todo : list (list cact)) : option cstate :=
  l ← rstep (c_lock s) a; Some (CState l (c_recs s) todo).
(** One step of thread t. [None]: it is finished or cannot move now. *)
Definition cstep (s : cstate) (t : nat) : option cstate :=
  th ← s_threads (c_lock s) !! t; p ← m_pcs (s_base (c_lock s)) !! t; acts ← c_todo s !! t;
  if negb (resting p) then lock_step s (RGo t) (c_todo s)
  else match t_todo th with
       | _ :: _ => lock_step s (RNext t) (c_todo s)
       | [] =>
           match acts with
           | [] => None
           | a :: rest =>
               let todo := <[t := rest]> (c_todo s) in
               match a with
               | ALock k => lock_step s (RLock t k) todo
               | AUnlock => lock_step s (RUnlock t) todo
               | ARec r =>
                   match c_recs s !! r with
                   | None => Some (CState (c_lock s) (<[r := (t, 1)]> (c_recs s)) todo)
                   | Some (u, n) => if decide (u = t) then Some (CState (c_lock s) (<[r := (t, S n)]> (c_recs s)) todo) else None
                   end
               | ARecEnd r =>
                   match c_recs s !! r with
                   | Some (u, S n) => if decide (u = t) then
                       Some (CState (c_lock s) (if decide (n = 0) then delete r (c_recs s) else <[r := (t, n)]> (c_recs s)) todo) else None
                   | _ => None
                   end
               | ARead _ | AWrite _ => Some (CState (c_lock s) (c_recs s) todo)
               end
           end
       end.
Fixpoint crun (s : cstate) (l : list nat) : option cstate :=
  match l with [] => Some s | t :: l' => s' ← cstep s t; crun s' l' end.
