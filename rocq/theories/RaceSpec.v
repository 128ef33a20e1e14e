(** Vocabulary of the exact theorems about data races (C57): what a call shares with other threads without enough protection. *)
From Verif Require Export LockSpec DumpSpec.
Open Scope nat_scope.

(** Under which lock of the vault something is accessed: none, the shared one, the exclusive one. *)
Inductive prot := GNone | GRead | GWrite.
Global Instance prot_eq_dec : EqDecision prot.
Proof. solve_decision. Defined.
Definition used : Type := loc * bool * prot.
Definition rd (g : prot) (x : loc) : used := (x, false, g).
Definition wt (g : prot) (x : loc) : used := (x, true, g).
(** What a call reads ([rd]) or writes ([wt]) among the record sets, the vault's list of them and its list of file errors, and under which
    lock. Something read and then written under the same lock is listed once, as written. *)
Definition uses (c : capi) : list used :=
  match c with
  | KAddKey _ ss | KAddUniqueKey _ ss => rd GWrite LSets :: ((fun e : nat * list nat => wt GWrite (LSet e.1)) <$> ss)
  | KRemoveKey _ ss => rd GWrite LSets :: ((fun s => wt GWrite (LSet s)) <$> ss)
  | KErase rs => (fun s => wt GWrite (LSet s)) <$> concat (snd <$> rs)
  | KRefSet _ sss => (fun s => wt GWrite (LSet s)) <$> concat sss
  | KDropData _ ss => rd GWrite LSets :: ((fun e : nat * list nat => rd GWrite (LParent e.1)) <$> ss) ++ ((fun e : nat * list nat => wt GWrite (LSet e.1)) <$> ss)
  | KDropVault _ ss => wt GWrite LErrors :: wt GWrite LSets ::
      ((fun e : nat * list nat => wt GWrite (LParent e.1)) <$> ss) ++ ((fun e : nat * list nat => wt GWrite (LSet e.1)) <$> ss)
  | KReadFile _ => [wt GWrite LErrors]
  | KErrors => [rd GNone LErrors]
  | KSetGet s _ | KSetRecords s _ _ => [rd GNone (LParent s); rd GRead (LSet s)]
  | KSetKeys s => [rd GNone (LParent s)]
  | KSetAdd s _ | KSetRemove s _ => [rd GNone (LParent s); wt GRead (LSet s)]
  | KSetJoin s a _ => [rd GNone (LParent s); rd GNone (LParent a); rd GRead (LSet a); wt GRead (LSet s)]
  | KSetCopy d s _ => [rd GNone (LParent s); wt GWrite (LParent d); rd GWrite (LSet s); wt GWrite (LSet d); wt GWrite LSets]
  | KSetReset s _ => [rd GNone (LParent s); wt GWrite (LParent s); wt GWrite (LSet s); wt GWrite LSets]
  | KSetClear s _ => [rd GNone (LParent s); wt GNone (LSet s)]
  | KSetSame s a => [rd GNone (LParent s); rd GNone (LParent a); rd GNone (LSet s); rd GNone (LSet a)]
  | KSetIntersect d a b _ => [rd GNone (LParent a); rd GNone (LParent b); rd GNone (LParent d);
      wt GRead (LParent d); rd GRead (LSet a); rd GRead (LSet b); wt GRead (LSet d); wt GRead LSets]
  | KRequest s _ _ => [wt GRead LSets; wt GRead (LParent s); wt GRead (LSet s)]
  | _ => []
  end.
(** The exclusive lock keeps out whoever holds the vault's lock in any way; nothing else keeps anybody out. *)
Definition excludes (g h : prot) : Prop := (g = GWrite /\ h <> GNone) \/ (h = GWrite /\ g <> GNone).
(** Two calls can come across the same thing at the same time, one of them writing it. *)
Definition can_race (c d : capi) : Prop :=
  exists x w g w' g', (x, w, g) ∈ uses c /\ (x, w', g') ∈ uses d /\ (w = true \/ w' = true) /\ ~ excludes g g'.
(** Two threads make such calls. *)
Definition racy (cs : list (list capi)) : Prop := exists t u c d, t <> u /\ calls cs t c /\ calls cs u d /\ can_race c d.
(** Calls that use the vault and its records but no record set, and not the list of file errors. *)
Definition on_vault_or_record (c : capi) : Prop :=
  match c with
  | KErrors | KSetGet _ _ | KSetKeys _ | KSetRecords _ _ _ | KSetAdd _ _ | KSetRemove _ _ | KSetJoin _ _ _ | KSetCopy _ _ _ | KSetReset _ _ | KSetClear _ _
  | KSetSame _ _ | KSetIntersect _ _ _ _ | KRequest _ _ _ => False
  | _ => True
  end.
(** Calls that fill a record set from the vault under the shared lock. *)
Definition fills_set (c : capi) : Prop := match c with KRequest _ _ _ | KSetIntersect _ _ _ _ => True | _ => False end.
