(** Vocabulary of the theorems about texts of floating-point numbers (C60-C62). *)
From Coq Require Import Ascii.
From Verif Require Export FloatModel StringsSpec.
From Coq Require Export SpecFloat Reals.
Open Scope Z_scope.

(** The decimal point. *)
Definition point : ascii := "."%char.
(** [s] is a decimal fraction: an optional '-', digits, and optionally a point and more digits. There may be no digits on either side of the point, but something must follow the '-'. *)
Definition decimal (s : text) (neg : bool) (ds fs : list Z) : Prop :=
  exists tail, s = sign neg ++ map digit_char ds ++ tail /\ ((tail = [] /\ fs = []) \/ tail = point :: map digit_char fs) /\
    digits ds /\ digits fs /\ (ds <> [] \/ tail <> []).
(** The number it denotes. *)
Definition decimal_value (neg : bool) (ds fs : list Z) : R :=
  ((if neg then -1 else 1) * (IZR (number ds) + IZR (number fs) / 10 ^ length fs))%R.
(** The greatest int. *)
Definition int_max : Z := 2147483647.
(** The digits before the point, or those after it, are a number too large for int; what follows them does not matter. *)
Definition overflows (s : text) : Prop :=
  (exists (neg : bool) ds rest, s = sign neg ++ map digit_char ds ++ rest /\ digits ds /\ int_max < number ds) \/
  (exists (neg : bool) ds fs rest, s = sign neg ++ map digit_char ds ++ point :: map digit_char fs ++ rest /\ digits ds /\ digits fs /\ int_max < number fs).

(** The floats (doubles): the numbers representable in the format, infinities and NaN. *)
Definition is_float (k : fkind) (x : spec_float) : Prop := valid_binary (fprec k) (femax k) x = true.
Definition finite (x : spec_float) : bool := match x with S754_zero _ | S754_finite _ _ _ => true | _ => false end.
Definition negative (x : spec_float) : bool := match x with S754_zero s | S754_infinity s | S754_finite s _ _ => s | S754_nan => false end.
(** The value of a finite one. *)
Definition fvalue (x : spec_float) : R :=
  match x with S754_finite s m e => ((if s then -1 else 1) * (IZR (Zpos m) * powerRZ 2 e))%R | _ => 0%R end.
