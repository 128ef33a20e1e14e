(** Generated by tools/gen_p.py from T_Strings.v: the property theorems, nothing else. *)
From Verif Require Import T_Strings Ex_Base Ex_Strings.
Open Scope Z_scope.

(** FromString gives back what ToString wrote, for the types that have a FromString and all values except the least int32 and int64. *)
Theorem C32_roundtrip_partial :
  forall v, readable (vty v) = true -> in_range v -> v <> VInt I32 (imin I32) -> v <> VInt I64 (imin I64) ->
    from_string (vty v) (to_string v) = FsOk v.
Proof. exact t_C32_roundtrip_partial. Qed.
Print Assumptions C32_roundtrip_partial.
Example ex_C32_roundtrip_partial :
  exists v,
    readable (vty v) = true /\
    in_range v /\
    v <> VInt I32 (imin I32) /\
    v <> VInt I64 (imin I64).
Proof. exact tex_C32_roundtrip_partial. Qed.
Example ex_C32_roundtrip_partial__u64 :
  exists v,
    readable (vty v) = true /\
    in_range v /\
    v <> VInt I32 (imin I32) /\
    v <> VInt I64 (imin I64).
Proof. exact tex_C32_roundtrip_partial__u64. Qed.

Theorem C32_min_refuted : exists v, readable (vty v) = true /\ in_range v /\ from_string (vty v) (to_string v) = FsUB.
Proof. exact t_C32_min_refuted. Qed.
Print Assumptions C32_min_refuted.

Theorem C32_eight_bit_refuted : exists v, in_range v /\ to_string v = tx "5" /\ from_string (vty v) (to_string v) = FsFail.
Proof. exact t_C32_eight_bit_refuted. Qed.
Print Assumptions C32_eight_bit_refuted.

(** Different values of one type have different texts (the least integers and the 8 bit types included). *)
Theorem C32_texts_differ :
  forall v1 v2, vty v1 = vty v2 -> (forall n, vty v1 <> TOther n) -> to_string v1 = to_string v2 -> v1 = v2.
Proof. exact t_C32_texts_differ. Qed.
Print Assumptions C32_texts_differ.
Example ex_C32_texts_differ :
  exists v1 v2,
    vty v1 = vty v2 /\
    (forall n, vty v1 <> TOther n) /\
    to_string v1 = to_string v2.
Proof. exact tex_C32_texts_differ. Qed.

(** An integer is written as the decimal numeral of its value, with '-' exactly if it is negative and no leading zeros. *)
Theorem C32_integer_text :
  forall t z, exists ds, numeral (to_string (VInt t z)) (z <? 0) ds /\ numeral_value (z <? 0) ds = z /\ (z <> 0 -> hd 0 ds <> 0) /\ (z = 0 -> ds = [0]).
Proof. exact t_C32_integer_text. Qed.
Print Assumptions C32_integer_text.
Example ex_C32_integer_text :
  exists t z,
    to_string (VInt t z) = tx "-40".
Proof. exact tex_C32_integer_text. Qed.

(** What FromString accepts for an integer type (unless it overflows): exactly the numerals; and it gives their value reduced to the type. *)
Theorem C33_accepts_exactly_numerals_partial :
  forall t s, readable (TInt t) = true -> from_string (TInt t) s <> FsUB ->
    ((exists v, from_string (TInt t) s = FsOk v) <-> exists neg ds, numeral s neg ds) /\
    (from_string (TInt t) s = FsFail <-> forall neg ds, ~ numeral s neg ds).
Proof. exact t_C33_accepts_exactly_numerals_partial. Qed.
Print Assumptions C33_accepts_exactly_numerals_partial.
Example ex_C33_accepts_exactly_numerals_partial :
  exists t s,
    readable (TInt t) = true /\
    from_string (TInt t) s <> FsUB /\
    from_string (TInt t) s = FsOk (VInt U16 61072).
Proof. exact tex_C33_accepts_exactly_numerals_partial. Qed.
Example ex_C33_accepts_exactly_numerals_partial__reject :
  exists t s,
    readable (TInt t) = true /\
    from_string (TInt t) s <> FsUB /\
    from_string (TInt t) s = FsFail.
Proof. exact tex_C33_accepts_exactly_numerals_partial__reject. Qed.

Theorem C33_value :
  forall t s neg ds v, readable (TInt t) = true -> numeral s neg ds -> from_string (TInt t) s = FsOk v ->
    exists z, v = VInt t z /\ reduced t (numeral_value neg ds) z.
Proof. exact t_C33_value. Qed.
Print Assumptions C33_value.
Example ex_C33_value :
  exists t s neg ds v,
    readable (TInt t) = true /\
    numeral s neg ds /\
    from_string (TInt t) s = FsOk v.
Proof. exact tex_C33_value. Qed.

(** It overflows exactly for int32 and int64, if the text begins, after an optional '-', with digits whose number exceeds the maximum. *)
Theorem C33_undefined_iff :
  forall t s, readable (TInt t) = true ->
    (from_string (TInt t) s = FsUB <->
     no_wrap t = true /\ exists (neg : bool) ds s', s = sign neg ++ map digit_char ds ++ s' /\ digits ds /\ imax t < number ds).
Proof. exact t_C33_undefined_iff. Qed.
Print Assumptions C33_undefined_iff.
Example ex_C33_undefined_iff :
  exists t s,
    readable (TInt t) = true /\
    from_string (TInt t) s = FsUB.
Proof. exact tex_C33_undefined_iff. Qed.

(** A number that does not fit is neither rejected nor reduced (int32, int64); nor is a malformed text that begins with one rejected. *)
Theorem C33_overflow_refuted :
  exists t s neg ds s', readable (TInt t) = true /\ numeral s neg ds /\ from_string (TInt t) s = FsUB /\
    (forall neg ds, ~ numeral s' neg ds) /\ from_string (TInt t) s' = FsUB.
Proof. exact t_C33_overflow_refuted. Qed.
Print Assumptions C33_overflow_refuted.

(** Texts of bool and strings. *)
Theorem C33_bool :
  forall s, match from_string TBool s with
            | FsOk v => (v = VBool true /\ s = tx "true") \/ (v = VBool false /\ s = tx "false")
            | FsFail => s <> tx "true" /\ s <> tx "false"
            | FsUB => False
            end.
Proof. exact t_C33_bool. Qed.
Print Assumptions C33_bool.
Example ex_C33_bool :
  exists s,
    from_string TBool s = FsOk (VBool true).
Proof. exact tex_C33_bool. Qed.
