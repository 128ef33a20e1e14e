(** Vocabulary of the theorems about texts of values (C32, C33). *)
From Verif Require Export StringsModel.
From Coq Require Import Ascii String.
Open Scope Z_scope.

(** The digits 0..9 and the number that a sequence of them denotes. *)
Definition digits (ds : list Z) : Prop := Forall (fun d => 0 <= d <= 9) ds.
Definition number (ds : list Z) : Z := foldl (fun a d => 10 * a + d) 0 ds.
Definition sign (neg : bool) : text := if neg then ["-"%char] else [].
(** [s] is a decimal numeral: an optional '-' and at least one digit. *)
Definition numeral (s : text) (neg : bool) (ds : list Z) : Prop :=
  s = sign neg ++ map digit_char ds /\ digits ds /\ ds <> [].
(** The value of a numeral. *)
Definition numeral_value (neg : bool) (ds : list Z) : Z := if neg then - number ds else number ds.
(** The representative of [z] modulo 2^bits in the range of the type. *)
Definition reduced (t : ity) (z z' : Z) : Prop := imin t <= z' <= imax t /\ exists k, z' = z + k * 2 ^ ibits t.
(** Integer types whose arithmetic is not done modulo 2^bits (overflow is undefined). *)
Definition no_wrap (t : ity) : bool := match t with I32 | I64 => true | _ => false end.
(** A value a variable of its type can have. *)
Definition in_range (v : value) : Prop := match v with VInt t z => imin t <= z <= imax t | _ => True end.
(** Types with a FromString. *)
Definition readable (t : vtype) : bool := match t with TInt I8 | TInt U8 | TOther _ => false | _ => true end.
