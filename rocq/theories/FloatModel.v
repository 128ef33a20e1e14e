(** Model of ToString and FromString for float and double: Source/Strings/ToString.h 232-260, Source/Strings/FromString.h 80-167.
    Numbers are the IEEE numbers of the standard library's SpecFloat (one NaN; its sign is not modelled). Assumed of the platform: [int] has 32 bits, float and double are
    binary32 and binary64, every operation rounds to nearest, ties to even, in the type it is written in (FLT_EVAL_METHOD 0, no contraction to fma), and printf is exact. *)
From Coq Require Import Ascii.
From Verif Require Export StringsModel.
From Coq Require Import SpecFloat.
Open Scope Z_scope.

(** The template argument T: float or double. *)
Inductive fkind := F32 | F64.
Definition fprec (k : fkind) : Z := match k with F32 => 24 | F64 => 53 end.
Definition femax (k : fkind) : Z := match k with F32 => 128 | F64 => 1024 end.
Definition f_add (k : fkind) : spec_float -> spec_float -> spec_float := SFadd (fprec k) (femax k).
Definition f_mul (k : fkind) : spec_float -> spec_float -> spec_float := SFmul (fprec k) (femax k).
Definition f_div (k : fkind) : spec_float -> spec_float -> spec_float := SFdiv (fprec k) (femax k).
(** static_cast<T> of an int. *)
Definition f_int (k : fkind) (z : Z) : spec_float := binary_normalize (fprec k) (femax k) z 0 false.

(** Results of the two loops: the characters were read, an invalid character returned false, or signed overflow. *)
Inductive part_result (A : Type) := POk (a : A) | PFail | PUB.
Arguments POk {A}. Arguments PFail {A}. Arguments PUB {A}.
(** [acc *= 10; acc += c - '0';] in int: FromString.h 117-118, 126-127. *)
Definition push_digit (acc : Z) (c : ascii) : option Z := a ← arith I32 (acc * 10); arith I32 (a + (byte c - 48)).
(** The loop over the integer part: FromString.h 108-119; the rest of the text begins after the point. *)
Fixpoint read_integer (acc : Z) (s : text) : part_result (Z * text) :=
  match s with
  | [] => POk (acc, [])
  | c :: s =>
      if decide (c = "."%char) then POk (acc, s)
      else if is_digit c then match push_digit acc c with Some acc => read_integer acc s | None => PUB end
      else PFail
  end.
(** The loop over the fractional part: FromString.h 121-128. *)
Fixpoint read_fraction (k : fkind) (coeff : spec_float) (acc : Z) (s : text) : part_result (spec_float * Z) :=
  match s with
  | [] => POk (coeff, acc)
  | c :: s =>
      if is_digit c then match push_digit acc c with Some acc => read_fraction k (f_div k coeff (f_int k 10)) acc s | None => PUB end
      else PFail
  end.
Inductive fp_result := FpOk (x : spec_float) | FpFail | FpUB.
(** [FromStringDoubleAndFloat]: FromString.h 92-135, called by FromString<float> 147-151 and FromString<double> 163-167. *)
Definition float_of_text (k : fkind) (s : text) : fp_result :=
  match s with
  | [] => FpFail
  | c :: s' =>
      let neg := bool_decide (c = "-"%char) && negb (bool_decide (s' = [])) in
      match read_integer 0 (if neg then s' else s) with
      | PFail => FpFail
      | PUB => FpUB
      | POk (integer, rest) =>
          match read_fraction k (f_int k 1) 0 rest with
          | PFail => FpFail
          | PUB => FpUB
          | POk (coeff, fractional) =>
              let data := f_add k (f_int k integer) (f_mul k (f_int k fractional) coeff) in
              FpOk (if neg then f_mul k data (f_int k (-1)) else data)
          end
      end
  end.

(** The integer nearest to [a / b], ties to even. *)
Definition nearest_even (a b : Z) : Z :=
  let q := a / b in let r := a mod b in
  if 2 * r <? b then q else if b <? 2 * r then q + 1 else if Z.even q then q else q + 1.
(** The number of millionths printed for [m * 2^e]. *)
Definition millionths (m : positive) (e : Z) : Z :=
  if 0 <=? e then Zpos m * 2 ^ e * 10 ^ 6 else nearest_even (Zpos m * 10 ^ 6) (2 ^ (- e)).
(** The six digits of a number below a million. *)
Definition six_digits (n : Z) : text := (fun i => digit_char (n / 10 ^ i mod 10)) <$> [5; 4; 3; 2; 1; 0].
(** std::to_string of a float or double is printf's "%f" (a float is converted to double, which is exact): ToString.h 242-245, 257-260. *)
Definition text_of_float (x : spec_float) : text :=
  let sg (s : bool) := if s then ["-"%char] else [] in
  match x with
  | S754_zero s => sg s ++ tx "0.000000"
  | S754_infinity s => sg s ++ tx "inf"
  | S754_nan => tx "nan"
  | S754_finite s m e => let n := millionths m e in sg s ++ dec_nonneg (n / 10 ^ 6) ++ tx "." ++ six_digits (n mod 10 ^ 6)
  end.
