(** Generated by tools/gen_ex.py from tools/examples.txt. *)
From Verif Require Import T_Strings Ex_Base.
Open Scope Z_scope.

Lemma tex_C32_roundtrip_partial :
  exists v,
    readable (vty v) = true /\
    in_range v /\
    v <> VInt I32 (imin I32) /\
    v <> VInt I64 (imin I64).
Proof. exists (VInt I32 (-2147483647)); mx. Qed.

Lemma tex_C32_roundtrip_partial__u64 :
  exists v,
    readable (vty v) = true /\
    in_range v /\
    v <> VInt I32 (imin I32) /\
    v <> VInt I64 (imin I64).
Proof. exists (VInt U64 18446744073709551615); mx. Qed.

Lemma tex_C32_texts_differ :
  exists v1 v2,
    vty v1 = vty v2 /\
    (forall n, vty v1 <> TOther n) /\
    to_string v1 = to_string v2.
Proof. exists (VInt I8 (-128)), (VInt I8 (-128)); repeat split; discriminate. Qed.

Lemma tex_C32_integer_text :
  exists t z,
    to_string (VInt t z) = tx "-40".
Proof. exists (I32), ((-40)%Z); mx. Qed.

Lemma tex_C33_accepts_exactly_numerals_partial :
  exists t s,
    readable (TInt t) = true /\
    from_string (TInt t) s <> FsUB /\
    from_string (TInt t) s = FsOk (VInt U16 61072).
Proof. exists (U16), (tx "-70000"); mx. Qed.

Lemma tex_C33_accepts_exactly_numerals_partial__reject :
  exists t s,
    readable (TInt t) = true /\
    from_string (TInt t) s <> FsUB /\
    from_string (TInt t) s = FsFail.
Proof. exists (U16), (tx "12a"); mx. Qed.

Lemma tex_C33_value :
  exists t s neg ds v,
    readable (TInt t) = true /\
    numeral s neg ds /\
    from_string (TInt t) s = FsOk v.
Proof. exists (I16), (tx "40000"), (false), ([4;0;0;0;0]%Z), (VInt I16 (-25536)); repeat split; try (vm_compute; reflexivity); [repeat constructor; lia|discriminate]. Qed.

Lemma tex_C33_undefined_iff :
  exists t s,
    readable (TInt t) = true /\
    from_string (TInt t) s = FsUB.
Proof. exists (I64), (tx "9223372036854775808"); mx. Qed.

Lemma tex_C33_bool :
  exists s,
    from_string TBool s = FsOk (VBool true).
Proof. exists (tx "true"); mx. Qed.
