(** Vocabulary of the theorems about threads (C56, C57). *)
From Verif Require Export LockModel.
Open Scope nat_scope.

(** Thread [t] has something left to do: calls, or the end of a lock or unlock. *)
Definition busy (s : cstate) (t : nat) : Prop :=
  exists acts, c_todo s !! t = Some acts /\ (acts <> [] \/ at_rest (c_lock s) t = false).
(** Every thread has returned from all its calls. *)
Definition finished (s : cstate) : Prop := forall t, ~ busy s t.
(** Nobody can move although somebody is not finished. *)
Definition deadlock (s : cstate) : Prop := (exists t, busy s t) /\ forall t, cstep s t = None.
(** The next thing thread [t] does is to read or write [x]. *)
Definition about_to (s : cstate) (t : nat) (a : cact) : Prop :=
  at_rest (c_lock s) t = true /\ exists rest, c_todo s !! t = Some (a :: rest).
(** Two threads are about to access the same thing at the same time, one of them writing: a data race. *)
Definition race (s : cstate) : Prop :=
  exists t u x a, t <> u /\ about_to s t (AWrite x) /\ about_to s u a /\ (a = ARead x \/ a = AWrite x).

(** The calls that take the mutex of a record before the lock of the vault. *)
Definition dumps (c : capi) : Prop := match c with KRefDump _ => True | _ => False end.
(** A discipline for threads sharing a vault: every record set belongs to one thread; a set may be kept [alone], so that only the calls of its
    own thread ever come across it (erase, update or add keys to its records); only one thread fills sets by requests or intersections; if the list of file
    errors is read, then by the one thread that also reads the files and drops the vault. *)
Record rules := Rules { u_owner : nat -> nat; u_alone : nat -> bool; u_requester : nat; u_files : option nat }.
(** The record sets a call on the vault or on a record comes across. *)
Definition meets (c : capi) : list nat :=
  match c with
  | KAddKey _ ss | KAddUniqueKey _ ss | KDropData _ ss | KDropVault _ ss => fst <$> ss
  | KRemoveKey _ ss => ss
  | KErase rs => concat (snd <$> rs)
  | KRefSet _ sss => concat sss
  | _ => []
  end.
(** Call [c] of thread [t] keeps to the discipline. *)
Definition clean (R : rules) (t : nat) (c : capi) : Prop :=
  (forall s, s ∈ meets c -> u_alone R s = true -> u_owner R s = t) /\
  match c with
  | KErrors => u_files R = Some t
  | KReadFile _ => u_files R = None \/ u_files R = Some t
  | KDropVault _ ss => (u_files R = None \/ u_files R = Some t) /\ Forall (fun e : nat * list nat => u_owner R e.1 = t) ss
  | KSetClear s _ => u_owner R s = t /\ u_alone R s = true
  | KSetSame s a => (u_owner R s = t /\ u_alone R s = true) /\ (u_owner R a = t /\ u_alone R a = true)
  | KRequest s _ _ => u_owner R s = t /\ u_requester R = t
  | KSetIntersect d a b _ => (u_owner R d = t /\ u_owner R a = t /\ u_owner R b = t) /\ u_requester R = t
  | KSetGet s _ | KSetKeys s | KSetRecords s _ _ | KSetAdd s _ | KSetRemove s _ | KSetReset s _ => u_owner R s = t
  | KSetJoin s a _ | KSetCopy s a _ => u_owner R s = t /\ u_owner R a = t
  | _ => True
  end.
