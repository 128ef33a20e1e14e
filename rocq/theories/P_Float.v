(** Generated by tools/gen_p.py from T_Float.v: the property theorems, nothing else. *)
From Verif Require Import T_Float Ex_Base Ex_Float FloatEx.
Open Scope Z_scope.

(** C60: FromString for float and double accepts exactly the decimal fractions and rejects every other text (unless it overflows an int). *)
Theorem C60_accepts_exactly_decimals_partial :
  forall k s, float_of_text k s <> FpUB ->
    ((exists x, float_of_text k s = FpOk x) <-> exists neg ds fs, decimal s neg ds fs) /\
    (float_of_text k s = FpFail <-> forall neg ds fs, ~ decimal s neg ds fs).
Proof. exact t_C60_accepts_exactly_decimals_partial. Qed.
Print Assumptions C60_accepts_exactly_decimals_partial.
Example ex_C60_accepts_exactly_decimals_partial :
  exists (k : fkind) s,
    float_of_text k s <> FpUB /\
    (exists x, float_of_text k s = FpOk x).
Proof. exact tex_C60_accepts_exactly_decimals_partial. Qed.
Example ex_C60_accepts_exactly_decimals_partial__rejected :
  exists (k : fkind) s,
    float_of_text k s <> FpUB /\
    float_of_text k s = FpFail.
Proof. exact tex_C60_accepts_exactly_decimals_partial__rejected. Qed.

(** C60: it runs into signed overflow exactly if the digits before the point, or those after it, make a number greater than INT_MAX. *)
Theorem C60_undefined_iff :
  forall k s, float_of_text k s = FpUB <-> overflows s.
Proof. exact t_C60_undefined_iff. Qed.
Print Assumptions C60_undefined_iff.

(** C60: the value read is a finite number of the type with the sign of the text, and it is the decimal value up to a relative error of (digits after the point + 4) / 2^precision. *)
Theorem C60_value_partial :
  forall k s neg ds fs x, decimal s neg ds fs -> float_of_text k s = FpOk x -> (length fs <= 37)%nat ->
    is_float k x /\ finite x = true /\ negative x = neg /\
    (Rabs (fvalue x - decimal_value neg ds fs) <= (INR (length fs) + 4) * powerRZ 2 (- fprec k) * Rabs (decimal_value neg ds fs))%R.
Proof. exact t_C60_value_partial. Qed.
Print Assumptions C60_value_partial.
Example ex_C60_value_partial :
  exists (k : fkind) s neg ds fs x,
    decimal s neg ds fs /\
    float_of_text k s = FpOk x /\
    (length fs <= 37)%nat.
Proof. exact tex_C60_value_partial. Qed.

(** C60: whole numbers that the type can represent (up to 2^24 for float, all ints for double) are read exactly. *)
Theorem C60_whole_numbers_exact :
  forall k s neg ds fs x, decimal s neg ds fs -> float_of_text k s = FpOk x -> (length fs <= 37)%nat -> number fs = 0 -> number ds <= 2 ^ fprec k ->
    fvalue x = (if neg then - IZR (number ds) else IZR (number ds))%R /\ negative x = neg.
Proof. exact t_C60_whole_numbers_exact. Qed.
Print Assumptions C60_whole_numbers_exact.
Example ex_C60_whole_numbers_exact :
  exists (k : fkind) s neg ds fs x,
    decimal s neg ds fs /\
    float_of_text k s = FpOk x /\
    (length fs <= 37)%nat /\
    number fs = 0 /\
    number ds <= 2 ^ fprec k.
Proof. exact tex_C60_whole_numbers_exact. Qed.

(** C60: the value read is in general not the nearest number of the type: for "0.3" there is a double nearer to 0.3 than the one read. *)
Theorem C60_nearest_refuted :
  exists s x y, decimal s false [0] [3] /\ float_of_text F64 s = FpOk x /\ is_float F64 y /\
    (Rabs (fvalue y - decimal_value false [0%Z] [3%Z]) < Rabs (fvalue x - decimal_value false [0%Z] [3%Z]))%R.
Proof. exact t_C60_nearest_refuted. Qed.
Print Assumptions C60_nearest_refuted.

(** C60: decimal fractions with a whole part of 2147483648 or more, or with digits after the point that exceed INT_MAX as a number, are neither rejected nor read. *)
Theorem C60_overflow_refuted :
  exists s1 ds1 s2 ds2 fs2, decimal s1 false ds1 [] /\ decimal s2 false ds2 fs2 /\ number ds2 = 0 /\ (length fs2 = 10)%nat /\ forall k, float_of_text k s1 = FpUB /\ float_of_text k s2 = FpUB.
Proof. exact t_C60_overflow_refuted. Qed.
Print Assumptions C60_overflow_refuted.

(** C61: the text of a finite number is an optional '-', the whole part without leading zeros, a point and six digits, and the number shown is the multiple of a millionth nearest to the value, the even one of two. *)
Theorem C61_text_is_nearest :
  forall x, finite x = true -> exists ds fs, text_of_float x = sign (negative x) ++ map digit_char ds ++ point :: map digit_char fs /\ digits ds /\ digits fs /\
    ds <> [] /\ (ds = [0] \/ hd 0 ds <> 0) /\ length fs = 6%nat /\
    (Rabs (10 ^ 6 * Rabs (fvalue x) - IZR (number (ds ++ fs))) <= / 2)%R /\
    ((Rabs (10 ^ 6 * Rabs (fvalue x) - IZR (number (ds ++ fs))) = / 2)%R -> Z.Even (number (ds ++ fs))).
Proof. exact t_C61_text_is_nearest. Qed.
Print Assumptions C61_text_is_nearest.
Example ex_C61_text_is_nearest :
  exists x,
    finite x = true /\
    text_of_float x = tx "-12.500000".
Proof. exact tex_C61_text_is_nearest. Qed.

(** C61: the other numbers have texts that FromString rejects. *)
Theorem C61_special :
  forall k x, finite x = false -> text_of_float x <> [] /\ float_of_text k (text_of_float x) = FpFail.
Proof. exact t_C61_special. Qed.
Print Assumptions C61_special.
Example ex_C61_special :
  exists x,
    finite x = false /\
    text_of_float x = tx "-inf".
Proof. exact tex_C61_special. Qed.

(** C61: different signs and different numbers of millionths have different texts, equal ones the same. *)
Theorem C61_same_text_iff :
  forall x y, finite x = true -> finite y = true ->
    (text_of_float x = text_of_float y <-> negative x = negative y /\ exists n, (Rabs (10 ^ 6 * Rabs (fvalue x) - IZR n) <= / 2)%R /\ (Rabs (10 ^ 6 * Rabs (fvalue y) - IZR n) <= / 2)%R /\
      ((Rabs (10 ^ 6 * Rabs (fvalue x) - IZR n) = / 2)%R \/ (Rabs (10 ^ 6 * Rabs (fvalue y) - IZR n) = / 2)%R -> Z.Even n)).
Proof. exact t_C61_same_text_iff. Qed.
Print Assumptions C61_same_text_iff.
Example ex_C61_same_text_iff :
  exists x y,
    finite x = true /\
    finite y = true /\
    text_of_float x = text_of_float y.
Proof. exact tex_C61_same_text_iff. Qed.

(** C62: the text of a finite number can be read back exactly if the whole part shown fits an int; beyond that reading it is undefined. *)
Theorem C62_unreadable_iff :
  forall k x, finite x = true -> (float_of_text k (text_of_float x) = FpUB <-> (2147483648 - / 2000000 <= Rabs (fvalue x))%R) /\ float_of_text k (text_of_float x) <> FpFail.
Proof. exact t_C62_unreadable_iff. Qed.
Print Assumptions C62_unreadable_iff.
Example ex_C62_unreadable_iff :
  exists (k : fkind) x,
    finite x = true /\
    float_of_text k (text_of_float x) <> FpUB.
Proof. exact tex_C62_unreadable_iff. Qed.

(** C62: whole numbers are read back exactly. *)
Theorem C62_whole_numbers :
  forall k x z, is_float k x -> finite x = true -> fvalue x = IZR z -> (Rabs (fvalue x) < 2147483648)%R -> float_of_text k (text_of_float x) = FpOk x.
Proof. exact t_C62_whole_numbers. Qed.
Print Assumptions C62_whole_numbers.
Example ex_C62_whole_numbers :
  exists (k : fkind) x z,
    is_float k x /\
    finite x = true /\
    fvalue x = IZR z /\
    (Rabs (fvalue x) < 2147483648)%R.
Proof. exact tex_C62_whole_numbers. Qed.

(** C62: a double is read back within 7/10^7, and writing the result gives the same text again. *)
Theorem C62_double_partial :
  forall x, is_float F64 x -> finite x = true -> (Rabs (fvalue x) < 2147483648 - / 2000000)%R ->
    exists y, float_of_text F64 (text_of_float x) = FpOk y /\ is_float F64 y /\ finite y = true /\ (Rabs (fvalue y - fvalue x) <= 7 / 10 ^ 7)%R /\ text_of_float y = text_of_float x.
Proof. exact t_C62_double_partial. Qed.
Print Assumptions C62_double_partial.
Example ex_C62_double_partial :
  exists x,
    is_float F64 x /\
    finite x = true /\
    (Rabs (fvalue x) < 2147483648 - / 2000000)%R /\
    text_of_float x = tx "-12.500000".
Proof. exact tex_C62_double_partial. Qed.
Example ex_C62_double_partial__fraction :
  exists x,
    is_float F64 x /\
    finite x = true /\
    (Rabs (fvalue x) < 2147483648 - / 2000000)%R /\
    text_of_float x = tx "3.140000".
Proof. exact tex_C62_double_partial__fraction. Qed.

(** C62: a float is read back within 12/10^7; from 16 on exactly; below 8 writing the result gives the same text again. *)
Theorem C62_float_partial :
  forall x, is_float F32 x -> finite x = true -> (Rabs (fvalue x) < 2147483648 - / 2000000)%R ->
    exists y, float_of_text F32 (text_of_float x) = FpOk y /\ is_float F32 y /\ finite y = true /\ (Rabs (fvalue y - fvalue x) <= 12 / 10 ^ 7)%R /\
      ((16 <= Rabs (fvalue x))%R -> y = x) /\ ((Rabs (fvalue x) < 8)%R -> text_of_float y = text_of_float x).
Proof. exact t_C62_float_partial. Qed.
Print Assumptions C62_float_partial.
Example ex_C62_float_partial :
  exists x,
    is_float F32 x /\
    finite x = true /\
    (Rabs (fvalue x) < 2147483648 - / 2000000)%R /\
    text_of_float x = tx "3.140000".
Proof. exact tex_C62_float_partial. Qed.

(** C62: between 8 and 16 the text of a float can change when it is read and written again. *)
Theorem C62_float_text_changes_refuted :
  exists x y, is_float F32 x /\ finite x = true /\ text_of_float x = tx "15.726790" /\ float_of_text F32 (text_of_float x) = FpOk y /\ text_of_float y = tx "15.726789".
Proof. exact t_C62_float_text_changes_refuted. Qed.
Print Assumptions C62_float_text_changes_refuted.

(** C62: small numbers are lost, and large ones cannot be read back at all. *)
Theorem C62_not_identity_refuted :
  exists x y, is_float F64 x /\ finite x = true /\ (0 < fvalue x)%R /\ float_of_text F64 (text_of_float x) = FpOk (S754_zero false) /\
    is_float F64 y /\ finite y = true /\ text_of_float y = tx "3000000000.000000" /\ float_of_text F64 (text_of_float y) = FpUB.
Proof. exact t_C62_not_identity_refuted. Qed.
Print Assumptions C62_not_identity_refuted.
