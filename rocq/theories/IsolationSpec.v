(** Vocabulary of C67: what an operation is about. *)
From Verif Require Export Spec.
Open Scope nat_scope.

(** The operation names set [s] as the set to be changed. *)
Definition names_set (s : nat) (p : op) : Prop :=
  match p with
  | ODelSet x | ORequest _ _ _ _ _ _ _ _ _ x | OComplex _ _ x | OSetAdd x _ | OSetClear x | OSetReset x | OJoin x _ | OExclude x _ | OIntersect x _
  | OUnion _ _ x | OIntersection _ _ x | OAssignSet x _ | OEraseRef x _ | OEraseRecord x _ _ | OEraseRecords x _ _ _ => x = s
  | OMoveSet x y | OMoveAssignSet x y => x = s \/ y = s
  | _ => False
  end.
(** The set is as it was: same vault, keys, records, indexes, and its records have the same values. *)
Definition set_same (w w' : world) (s : nat) (sb : obj) : Prop :=
  set_at w' s sb /\ forall r, r ∈ o_recs sb -> (valid_rec w' r <-> valid_rec w r) /\ forall k, stored w' r k = stored w r k.
