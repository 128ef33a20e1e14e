(** C32, C33: values as text. *)
From Verif Require Export StringsSpec.
From Verif Require Import StringsProofs.
From Coq Require Import Ascii String.
Open Scope Z_scope.

(** FromString gives back what ToString wrote, for the types that have a FromString and all values except the least int32 and int64. *)
Lemma t_C32_roundtrip_partial :
  forall v, readable (vty v) = true -> in_range v -> v <> VInt I32 (imin I32) -> v <> VInt I64 (imin I64) ->
    from_string (vty v) (to_string v) = FsOk v.
Proof.
  intros [t z|b|s|n z] Hr Hi H32 H64; cbn [vty to_string] in *.
  - destruct (dec_spec z) as (neg & ds & Hn & Hv & Hneg & _). destruct (from_int_ok t _ neg ds Hr Hn) as (z' & E & Hz).
    + destruct (no_wrap t) eqn:Et; [right|by left]. cbn in Hi. unfold numeral_value in Hv. destruct neg; [|lia].
      assert (z <> imin t) by (destruct t; try done; congruence). assert (imin t = - imax t - 1) by (by destruct t). lia.
    + rewrite E, Hv in *. do 2 f_equal. eapply reduced_unique; [done|]. by apply reduced_small.
  - destruct b; reflexivity.
  - cbn [from_string]. do 2 f_equal. apply string_of_list_ascii_of_string.
  - done.
Qed.
Lemma t_C32_min_refuted : exists v, readable (vty v) = true /\ in_range v /\ from_string (vty v) (to_string v) = FsUB.
Proof. exists (VInt I32 (-2147483648)). split; [done|]. split; [done|]. vm_compute. done. Qed.
Lemma t_C32_eight_bit_refuted : exists v, in_range v /\ to_string v = tx "5" /\ from_string (vty v) (to_string v) = FsFail.
Proof. exists (VInt U8 5). split; [done|]. vm_compute. done. Qed.

(** Different values of one type have different texts (the least integers and the 8 bit types included). *)
Lemma t_C32_texts_differ :
  forall v1 v2, vty v1 = vty v2 -> (forall n, vty v1 <> TOther n) -> to_string v1 = to_string v2 -> v1 = v2.
Proof.
  intros [t z|b|s|n z] [t' z'|b'|s'|n' z'] Ht Ho E; try done; cbn [to_string vty] in *.
  - injection Ht as <-. f_equal. destruct (dec_spec z) as (neg & ds & Hn & Hv & _). destruct (dec_spec z') as (neg' & ds' & Hn' & Hv' & _).
    rewrite E in Hn. destruct (numeral_unique _ _ _ _ _ Hn Hn') as [-> ->]. congruence.
  - by destruct b, b'.
  - f_equal. rewrite <- (string_of_list_ascii_of_string s), <- (string_of_list_ascii_of_string s'). by f_equal.
  - by destruct (Ho n).
Qed.
(** An integer is written as the decimal numeral of its value, with '-' exactly if it is negative and no leading zeros. *)
Lemma t_C32_integer_text :
  forall t z, exists ds, numeral (to_string (VInt t z)) (z <? 0) ds /\ numeral_value (z <? 0) ds = z /\ (z <> 0 -> hd 0 ds <> 0) /\ (z = 0 -> ds = [0]).
Proof. intros t z. destruct (dec_spec z) as (neg & ds & H1 & H2 & -> & H3). by exists ds. Qed.

(** What FromString accepts for an integer type (unless it overflows): exactly the numerals; and it gives their value reduced to the type. *)
Lemma t_C33_accepts_exactly_numerals_partial :
  forall t s, readable (TInt t) = true -> from_string (TInt t) s <> FsUB ->
    ((exists v, from_string (TInt t) s = FsOk v) <-> exists neg ds, numeral s neg ds) /\
    (from_string (TInt t) s = FsFail <-> forall neg ds, ~ numeral s neg ds).
Proof.
  intros t s Hr Hu. pose proof (from_int_inv t s Hr) as H. destruct (from_string (TInt t) s) as [v| |]; [| |done].
  - split; [split; eauto|]. split; [done|]. intros Hn. destruct H as (neg & ds & H). by destruct (Hn neg ds).
  - split; [|done]. split; [intros [? ?]; done|]. intros (neg & ds & Hn). by destruct (H neg ds).
Qed.
Lemma t_C33_value :
  forall t s neg ds v, readable (TInt t) = true -> numeral s neg ds -> from_string (TInt t) s = FsOk v ->
    exists z, v = VInt t z /\ reduced t (numeral_value neg ds) z.
Proof.
  intros t s neg ds v Hr Hn E. destruct (no_wrap t) eqn:Et.
  - destruct (decide (number ds <= imax t)) as [Hl|Hl].
    + destruct (from_int_ok t s neg ds Hr Hn) as (z & E' & Hz); [by right|]. rewrite E in E'. injection E' as ->. eauto.
    + rewrite (from_int_ub t s Hr Et) in E; [done|]. destruct Hn as (-> & Hd & _). exists neg, ds, []. rewrite app_nil_r. split; [done|]. split; [done|lia].
  - destruct (from_int_ok t s neg ds Hr Hn) as (z & E' & Hz); [by left|]. rewrite E in E'. injection E' as ->. eauto.
Qed.
(** It overflows exactly for int32 and int64, if the text begins, after an optional '-', with digits whose number exceeds the maximum. *)
Lemma t_C33_undefined_iff :
  forall t s, readable (TInt t) = true ->
    (from_string (TInt t) s = FsUB <->
     no_wrap t = true /\ exists (neg : bool) ds s', s = sign neg ++ map digit_char ds ++ s' /\ digits ds /\ imax t < number ds).
Proof.
  intros t s Hr. split.
  - intros E. pose proof (from_int_inv t s Hr) as H. by rewrite E in H.
  - intros [Ht H]. by apply from_int_ub.
Qed.
(** A number that does not fit is neither rejected nor reduced (int32, int64); nor is a malformed text that begins with one rejected. *)
Lemma t_C33_overflow_refuted :
  exists t s neg ds s', readable (TInt t) = true /\ numeral s neg ds /\ from_string (TInt t) s = FsUB /\
    (forall neg ds, ~ numeral s' neg ds) /\ from_string (TInt t) s' = FsUB.
Proof.
  exists I32, (tx "2147483648"), false, [2; 1; 4; 7; 4; 8; 3; 6; 4; 8], (tx "2147483648x"). split; [done|]. split; [|split; [vm_compute; done|split; [|vm_compute; done]]].
  - split; [vm_compute; done|]. split; [|done]. repeat (apply Forall_cons; split; [lia|]). by apply Forall_nil.
  - intros neg ds (E & Hd & _). assert (is_digit "x"%char = true) as H; [|vm_compute in H; done].
    assert (Forall (fun c => is_digit c = true \/ c = "-"%char) (tx "2147483648x")) as HF.
    { rewrite E. apply Forall_app. split; [destruct neg; repeat constructor; by right|]. eapply Forall_impl; [apply digits_all, Hd|]. by left. }
    rewrite Forall_forall in HF. destruct (HF "x"%char) as [?|?]; [|done|done]. apply (bool_decide_eq_true_1 _). vm_compute. done.
Qed.
(** Texts of bool and strings. *)
Lemma t_C33_bool :
  forall s, match from_string TBool s with
            | FsOk v => (v = VBool true /\ s = tx "true") \/ (v = VBool false /\ s = tx "false")
            | FsFail => s <> tx "true" /\ s <> tx "false"
            | FsUB => False
            end.
Proof. intros s. cbn [from_string]. destruct (decide (s = tx "true")); [by left|]. destruct (decide (s = tx "false")); [by right|done]. Qed.
