(** Vocabulary of the theorems about printing records while other threads work (C56). *)
From Verif Require Export LockModel LockSpec.
Open Scope nat_scope.

(** The calls that take the lock of the vault for writing. *)
Definition writes (c : capi) : Prop :=
  match c with
  | KAddKey _ _ | KAddUniqueKey _ _ | KUpdateKey | KRemoveKey _ _ | KCreate _ _ _ | KErase _ | KDropData _ _ | KDropVault _ _ | KReadFile _
  | KRefSet _ _ | KSetCopy _ _ _ | KSetReset _ _ => True
  | _ => False
  end.
Definition some_of {A} (x : option A) : list A := match x with Some x => [x] | None => [] end.
(** The records whose mutex a call takes while it holds the lock of the vault. *)
Definition takes (c : capi) : list nat :=
  match c with
  | KGetRecord found old => some_of found ++ some_of old
  | KGetRecords rs _ | KSortBy rs | KSetRecords _ rs _ | KSetCopy _ _ rs | KSetReset _ rs => rs
  | KAddUniqueKey rs ss => rs ++ concat (snd <$> ss)
  | KCreate r old ok => if ok then r :: some_of old else []
  | KErase rs => fst <$> rs
  | KDropData rs ss | KDropVault rs ss => rs ++ concat (snd <$> ss)
  | KRefSet r sss => match sss with [] => [] | _ => [r] end
  | KRefGet r | KSetAdd _ r => [r]
  | KRequest _ old rs => old ++ rs
  | _ => []
  end.
(** Thread [t] makes call [c] at some time. *)
Definition calls (cs : list (list capi)) (t : nat) (c : capi) : Prop := exists cl, cs !! t = Some cl /\ c ∈ cl.
(** One thread prints record [r] (or calls ToJson or ToStrings on it), another calls something that takes the mutex of [r] inside the lock of
    the vault, and that call writes, or some third thread writes. *)
Definition standoff (cs : list (list capi)) : Prop :=
  exists t u r c, t <> u /\ calls cs t (KRefDump r) /\ calls cs u c /\ r ∈ takes c /\
    (writes c \/ exists v w, v <> t /\ v <> u /\ calls cs v w /\ writes w).
