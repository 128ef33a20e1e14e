(** Generated by tools/gen_ex.py from tools/examples.txt. *)
From Verif Require Import T_Float Ex_Base FloatEx.
Open Scope Z_scope.

Lemma tex_C60_accepts_exactly_decimals_partial :
  exists (k : fkind) s,
    float_of_text k s <> FpUB /\
    (exists x, float_of_text k s = FpOk x).
Proof. exists (F64), (tx "-12.50"); flx; eexists; vm_compute; reflexivity. Qed.

Lemma tex_C60_accepts_exactly_decimals_partial__rejected :
  exists (k : fkind) s,
    float_of_text k s <> FpUB /\
    float_of_text k s = FpFail.
Proof. exists (F64), (tx "1e5"); flx. Qed.

Lemma tex_C60_value_partial :
  exists (k : fkind) s neg ds fs x,
    decimal s neg ds fs /\
    float_of_text k s = FpOk x /\
    (length fs <= 37)%nat.
Proof. exists (F64), (tx "-12.50"), (true), ([1; 2]), ([5; 0]), (neg12); flx. Qed.

Lemma tex_C60_whole_numbers_exact :
  exists (k : fkind) s neg ds fs x,
    decimal s neg ds fs /\
    float_of_text k s = FpOk x /\
    (length fs <= 37)%nat /\
    number fs = 0 /\
    number ds <= 2 ^ fprec k.
Proof. exists (F32), (tx "-16777216.0"), (true), ([1; 6; 7; 7; 7; 2; 1; 6]), ([0]), (read F32 (tx "-16777216.0")); flx. Qed.

Lemma tex_C61_text_is_nearest :
  exists x,
    finite x = true /\
    text_of_float x = tx "-12.500000".
Proof. exists (neg12); flx. Qed.

Lemma tex_C61_special :
  exists x,
    finite x = false /\
    text_of_float x = tx "-inf".
Proof. exists (S754_infinity true); flx. Qed.

Lemma tex_C61_same_text_iff :
  exists x y,
    finite x = true /\
    finite y = true /\
    text_of_float x = text_of_float y.
Proof. exists (pi32), (pi64); flx. Qed.

Lemma tex_C62_unreadable_iff :
  exists (k : fkind) x,
    finite x = true /\
    float_of_text k (text_of_float x) <> FpUB.
Proof. exists (F32), (pi32); flx. Qed.

Lemma tex_C62_whole_numbers :
  exists (k : fkind) x z,
    is_float k x /\
    finite x = true /\
    fvalue x = IZR z /\
    (Rabs (fvalue x) < 2147483648)%R.
Proof. exists (F32), (neg20), (-20); flx. Qed.

Lemma tex_C62_double_partial :
  exists x,
    is_float F64 x /\
    finite x = true /\
    (Rabs (fvalue x) < 2147483648 - / 2000000)%R /\
    text_of_float x = tx "-12.500000".
Proof. exists (neg12); flx. Qed.

Lemma tex_C62_double_partial__fraction :
  exists x,
    is_float F64 x /\
    finite x = true /\
    (Rabs (fvalue x) < 2147483648 - / 2000000)%R /\
    text_of_float x = tx "3.140000".
Proof. exists (pi64); flx. Qed.

Lemma tex_C62_float_partial :
  exists x,
    is_float F32 x /\
    finite x = true /\
    (Rabs (fvalue x) < 2147483648 - / 2000000)%R /\
    text_of_float x = tx "3.140000".
Proof. exists (pi32); flx. Qed.
