(** Generated by tools/gen_ex.py from tools/examples.txt. *)
From Verif Require Import T_Exact Ex_Base.
Open Scope nat_scope.

Lemma tex_C10_undefined_iff :
  exists ord w o ob pv q s sb,
    fair ord /\
    reach true w /\
    source_at true w o ob pv /\
    set_at w s sb /\
    o <> s /\
    mixes ob q.
Proof. exists (id_order), (W), (0), (ob_at (W) (0)), ((0)), (QAnd (QLeaf LGreater "age" (VInt I32 18) (fun _ _ => true)) (QLeaf LLess "age" (VInt I64 40) (fun _ _ => true))), (12), (ob_at (W) (12)); ex. Qed.

Lemma tex_C32_roundtrip_iff :
  exists v,
    in_range v /\
    from_string (vty v) (to_string v) = FsOk v.
Proof. exists (VInt I64 (-9223372036854775807)); mx. Qed.

Lemma tex_C32_otherwise :
  exists v,
    in_range v /\
    from_string (vty v) (to_string v) = FsUB.
Proof. exists (VInt I64 (-9223372036854775808)); mx. Qed.
