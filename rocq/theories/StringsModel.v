(** Model of Source/Strings/ToString.h and Source/Strings/FromString.h for bool, std::string and the
    integer types. Text is a [list ascii]. *)
From Verif Require Export Values.
From Coq Require Import Ascii String.
From Coq Require Export ZArith.

Open Scope Z_scope.

Notation text := (list ascii).
Definition tx (s : string) : text := list_ascii_of_string s.
Definition st (l : text) : string := string_of_list_ascii l.

(** The digit character of [d]. *)
Definition digit_char (d : Z) : ascii := ascii_of_nat (48 + Z.to_nat d).

(** std::to_string for a non-negative integer; the fuel is never exhausted (lemma [digits_spec]). *)
Fixpoint digits_fuel (fuel : nat) (n : Z) (acc : text) : text :=
  match fuel with
  | O => acc
  | S fuel => let acc := digit_char (n mod 10) :: acc in
              if n <? 10 then acc else digits_fuel fuel (n / 10) acc
  end.
Definition dec_nonneg (n : Z) : text := digits_fuel (S (Z.to_nat (Z.log2 n))) n [].

(** std::to_string: Source/Strings/ToString.h 91-199 (8-bit types are widened first, 183, 198). *)
Definition dec (n : Z) : text := if n <? 0 then "-"%char :: dec_nonneg (- n) else dec_nonneg n.

(** [ToString]: Source/Strings/ToString.h 75-230. Types without an overload give "" (76-79).
    Simplification: in the model of the vault, float and double fall under [VOther]; their texts (242-260) are modelled on their own in FloatModel.v. *)
Definition to_string (v : value) : text :=
  match v with
  | VInt _ z => dec z
  | VBool b => if b then tx "true" else tx "false"
  | VStr s => tx s
  | VOther _ _ => []
  end.

(** Result of [FromString]: accepted with a value, rejected (destination untouched), or signed overflow. *)
Inductive fs_result := FsOk (v : value) | FsFail | FsUB.

(** Conversion to an integer type, modulo 2^bits (two's complement for signed types). *)
Definition wrap (t : ity) (z : Z) : Z :=
  if isigned t then (z + 2 ^ (ibits t - 1)) mod 2 ^ ibits t - 2 ^ (ibits t - 1)
  else z mod 2 ^ ibits t.

(** The value of an arithmetic result [z] stored in a variable of type [t]. 8 and 16 bit types compute in
    [int] and are converted back; unsigned types wrap; overflow of int32/int64 is undefined. *)
Definition arith (t : ity) (z : Z) : option Z :=
  match t with
  | I32 | I64 => if decide (imin t <= z <= imax t) then Some z else None
  | _ => Some (wrap t z)
  end.

(** '0' <= c <= '9' : Source/Strings/FromString.h 200. *)
Definition is_digit (c : ascii) : bool := (48 <=? byte c) && (byte c <=? 57).

Inductive loop_result := LOk (z : Z) | LFail | LUB.

(** The digit loop of [FromStringSignedInt]: Source/Strings/FromString.h 198-203. *)
Fixpoint from_digits (t : ity) (res : Z) (s : text) : loop_result :=
  match s with
  | [] => LOk res
  | c :: s' =>
      if is_digit c then
        match arith t (res * 10) with
        | None => LUB
        | Some res1 =>
            match arith t (res1 + (byte c - 48)) with
            | None => LUB
            | Some res2 => from_digits t res2 s'
            end
        end
      else LFail
  end.

(** [FromStringSignedInt]: Source/Strings/FromString.h 182-210. *)
Definition from_string_int (t : ity) (s : text) : fs_result :=
  match s with
  | [] => FsFail
  | c :: s' =>
      let neg := bool_decide (c = "-"%char) && negb (bool_decide (s' = [])) in
      match from_digits t 0 (if neg then s' else s) with
      | LFail => FsFail
      | LUB => FsUB
      | LOk z => if neg then match arith t (z * -1) with Some z' => FsOk (VInt t z') | None => FsUB end
                 else FsOk (VInt t z)
      end
  end.

(** [FromString] by destination type: Source/Strings/FromString.h 30-31 (default: false), 43-48, 64-78,
    222-258, 302-338. There is no overload for 8 bit integers, and the unsigned ones use the signed parser. *)
Definition from_string (t : vtype) (s : text) : fs_result :=
  match t with
  | TStr => FsOk (VStr (st s))
  | TBool => if decide (s = tx "true") then FsOk (VBool true)
             else if decide (s = tx "false") then FsOk (VBool false) else FsFail
  | TInt I8 | TInt U8 => FsFail
  | TInt t => from_string_int t s
  | TOther _ => FsFail
  end.
