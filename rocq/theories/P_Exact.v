(** Generated by tools/gen_p.py from T_Exact.v: the property theorems, nothing else. *)
From Verif Require Import T_Exact Ex_Base Ex_Exact.
Open Scope nat_scope.

(** C10: a request is undefined behaviour exactly when it comes to an interval whose ends have different types. *)
Theorem C10_undefined_iff :
  forall ord w o ob pv q s sb, fair ord -> reach true w -> source_at true w o ob pv -> set_at w s sb -> o <> s ->
    (step ord w (OComplex o q s) = None <-> mixes ob q).
Proof. exact t_C10_undefined_iff. Qed.
Print Assumptions C10_undefined_iff.
Example ex_C10_undefined_iff :
  exists ord w o ob pv q s sb,
    fair ord /\
    reach true w /\
    source_at true w o ob pv /\
    set_at w s sb /\
    o <> s /\
    mixes ob q.
Proof. exact tex_C10_undefined_iff. Qed.

(** C32: reading what was written gives the value back exactly for the types with a FromString and all values but the least int32 and int64 ... *)
Theorem C32_roundtrip_iff :
  forall v, in_range v -> (from_string (vty v) (to_string v) = FsOk v <-> readable (vty v) = true /\ v <> VInt I32 (imin I32) /\ v <> VInt I64 (imin I64)).
Proof. exact t_C32_roundtrip_iff. Qed.
Print Assumptions C32_roundtrip_iff.
Example ex_C32_roundtrip_iff :
  exists v,
    in_range v /\
    from_string (vty v) (to_string v) = FsOk v.
Proof. exact tex_C32_roundtrip_iff. Qed.

(** ... is undefined behaviour for these two, and is rejected for the other types. *)
Theorem C32_otherwise :
  forall v, in_range v -> (from_string (vty v) (to_string v) = FsUB <-> v = VInt I32 (imin I32) \/ v = VInt I64 (imin I64)) /\
    (from_string (vty v) (to_string v) = FsFail <-> readable (vty v) = false).
Proof. exact t_C32_otherwise. Qed.
Print Assumptions C32_otherwise.
Example ex_C32_otherwise :
  exists v,
    in_range v /\
    from_string (vty v) (to_string v) = FsUB.
Proof. exact tex_C32_otherwise. Qed.
