(** Vocabulary of the theorems about threads that use several vaults (C63-C65). *)
From Verif Require Export MultiModel LockSpec.
Open Scope nat_scope.

(** The thread is not inside a lock or unlock. *)
Definition v_rest (th : vthread) : Prop := h_calls th = [] /\ h_at th = None.
(** Thread [t] has something left to do. *)
Definition v_busy (s : vstate) (t : nat) : Prop :=
  exists th acts, v_threads s !! t = Some th /\ v_acts s !! t = Some acts /\ (acts <> [] \/ ~ v_rest th).
(** Every thread has returned from all its calls. *)
Definition v_finished (s : vstate) : Prop := forall t, ~ v_busy s t.
(** Nobody can move although somebody is not finished. *)
Definition v_deadlock (s : vstate) : Prop := (exists t, v_busy s t) /\ forall t, vstep s t = None.
(** The next thing thread [t] does is [a] on vault [v]. *)
Definition v_about (s : vstate) (t : nat) (v : nat) (a : cact) : Prop :=
  exists th rest, v_threads s !! t = Some th /\ v_rest th /\ v_acts s !! t = Some ((v, a) :: rest).
(** Two threads are about to access the same thing of the same vault at the same time, one of them writing: a data race. *)
Definition v_race (s : vstate) : Prop :=
  exists t u v x a, t <> u /\ v_about s t v (AWrite x) /\ v_about s u v a /\ (a = ARead x \/ a = AWrite x).
(** Nobody holds the mutex of any vault or record, and every thread's counters are 0. *)
Definition v_all_free (s : vstate) : Prop :=
  (forall v, v_mutex s v = VMutex None None 0 false) /\ v_recs s = ∅ /\
  forall t th, v_threads s !! t = Some th -> h_stack th = [] /\ h_count th = RCount 0 0.

(** ToJson, ToStrings or PrintRecord of a record reference is called somewhere, perhaps in a callback (see C56). *)
Fixpoint v_dumps (c : vcall) : Prop :=
  match c with
  | VOn _ c => dumps c
  | VSortBy _ rs | VGenerate _ rs _ => (fix any l := match l with [] => False | e :: l => (fix some k := match k with [] => False | c :: k => v_dumps c \/ some k end) (snd e) \/ any l end) rs
  | _ => False
  end.
(** Call [c] of thread [t] on a vault that nobody changes at the moment: it changes neither the vault nor the values of its records, and only
    record sets of the thread. *)
Definition harmless (R : rules) (t : nat) (c : capi) : Prop :=
  match c with
  | KGet | KGetKeyValue | KGetRecord _ _ | KGetRecords _ _ | KSortBy _ | KDumpVault _ | KErrors => True
  | KRefGet _ | KRefValid _ | KRefKeys _ | KRefAssign _ _ | KRefDump _ => True
  | KSetGet s _ | KSetKeys s | KSetRecords s _ _ | KSetAdd s _ | KSetRemove s _ | KSetClear s _ => u_owner R s = t
  | KSetJoin s a _ | KSetSame s a => u_owner R s = t /\ u_owner R a = t
  | KRequest s _ _ | KSetReset s _ => u_owner R s = t /\ u_requester R = t
  | KSetIntersect d a b _ => (u_owner R d = t /\ u_owner R a = t /\ u_owner R b = t) /\ u_requester R = t
  | KSetCopy s a _ => (u_owner R s = t /\ u_owner R a = t) /\ u_requester R = t
  | KAddKey _ _ | KAddUniqueKey _ _ | KUpdateKey | KRemoveKey _ _ | KCreate _ _ _ | KErase _ | KDropData _ _ | KDropVault _ _ | KReadFile _ | KRefSet _ _ => False
  end.
(** How the threads use a vault: only thread [t] does; or all of them do; or all of them do and none changes it. *)
Inductive usage := Mine (t : nat) | Shared | Frozen.
(** Thread [t], inside calls on the vaults [inside], may call vault [v]: a vault shared by threads that change it only when it is not inside a
    call on another vault. *)
Definition may (use : nat -> usage) (t : nat) (inside : list nat) (v : nat) : Prop :=
  use v = Mine t \/ use v = Frozen \/ (use v = Shared /\ Forall (eq v) inside).
(** Call [c] of thread [t], made from inside calls on the vaults [inside], keeps to the discipline; [R v] are the rules for vault [v]. *)
Fixpoint apart (use : nat -> usage) (R : nat -> rules) (t : nat) (inside : list nat) (c : vcall) : Prop :=
  match c with
  | VOn v c => may use t inside v /\ (use v = Shared -> clean (R v) t c) /\ (use v = Frozen -> harmless (R v) t c)
  | VCopy new from _ _ => may use t inside from /\ use new = Mine t
  | VAssign to from _ _ _ _ => use to = Mine t /\ (use from = Mine t \/ use from = Frozen)
  | VMove to from | VMoveAssign to from _ _ => use to = Mine t /\ use from = Mine t
  | VSortBy v rs => may use t inside v /\
      (fix all l := match l with [] => True | e :: l => (fix every k := match k with [] => True | c :: k => apart use R t (v :: inside) c /\ every k end) (snd e) /\ all l end) rs
  | VGenerate v rs ss => may use t inside v /\ use v <> Frozen /\ (forall s, use v = Shared -> s ∈ ss -> u_alone (R v) s = true -> u_owner (R v) s = t) /\
      (fix all l := match l with [] => True | e :: l => (fix every k := match k with [] => True | c :: k => apart use R t (v :: inside) c /\ every k end) (snd e) /\ all l end) rs
  end.
