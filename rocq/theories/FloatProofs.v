(** Lemmas about the parser of floating-point numbers. *)
From Coq Require Import Ascii.
From Verif Require Export FloatModel StringsSpec FloatSpec.
From Verif Require Import StringsProofs.
From Coq Require Import SpecFloat.
Open Scope Z_scope.

Notation push := (foldl (fun a d => 10 * a + d)).
Lemma push_ge a ds : 0 <= a -> digits ds -> a <= push a ds.
Proof. revert a. induction ds as [|d ds IH]; intros a Ha Hd; cbn [foldl]; [lia|]. apply Forall_cons in Hd as [Hd1 Hd2]. specialize (IH (10 * a + d) ltac:(lia) Hd2). lia. Qed.
Lemma push_digit_ok a c : 0 <= a <= int_max -> is_digit c = true ->
  push_digit a c = if decide (10 * a + (byte c - 48) <= int_max) then Some (10 * a + (byte c - 48)) else None.
Proof.
  intros Ha Hc. destruct (is_digit_inv c Hc) as [_ Hd]. unfold push_digit. generalize dependent (byte c - 48). intros d Hd.
  assert (In : forall z, 0 <= z <= int_max -> arith I32 z = Some z) by (intros z Hz; apply arith_in; [reflexivity|]; change (imin I32) with (-2147483648); change (imax I32) with int_max; lia).
  assert (Out : forall z, int_max < z -> arith I32 z = None) by (intros z Hz; apply arith_out; [reflexivity|]; change (imax I32) with int_max; lia).
  clear Hc. destruct (decide (10 * a + d <= int_max)) as [Hl|Hl].
  - rewrite In by lia. cbn [mbind option_bind]. rewrite In by lia. f_equal. lia.
  - destruct (decide (a * 10 <= int_max)).
    + rewrite In by lia. cbn [mbind option_bind]. by rewrite Out by lia.
    + by rewrite Out by lia.
Qed.
Lemma digit_not_point d : 0 <= d <= 9 -> digit_char d <> "."%char.
Proof. intros Hd E. pose proof (is_digit_char d Hd) as H. rewrite E in H. by vm_compute in H. Qed.
Lemma push_digit_char a d : 0 <= a <= int_max -> 0 <= d <= 9 -> push_digit a (digit_char d) = if decide (10 * a + d <= int_max) then Some (10 * a + d) else None.
Proof. intros Ha Hd. rewrite push_digit_ok by first [assumption|by apply is_digit_char]. rewrite byte_digit by done. replace (48 + d - 48) with d by lia. done. Qed.

Lemma integer_app ds t : digits ds -> forall a, 0 <= a <= int_max ->
  read_integer a (map digit_char ds ++ t) = if decide (push a ds <= int_max) then read_integer (push a ds) t else PUB.
Proof.
  induction ds as [|d ds IH]; intros Hd a Ha; cbn [map app foldl]; [by rewrite decide_True by lia|]. apply Forall_cons in Hd as [Hd1 Hd2]. cbn [read_integer].
  rewrite decide_False by (by apply digit_not_point). rewrite is_digit_char, push_digit_char by done. destruct (decide (10 * a + d <= int_max)) as [Hl|Hl].
  - rewrite IH by first [assumption|lia]. done.
  - rewrite decide_False; [done|]. pose proof (push_ge (10 * a + d) ds ltac:(lia) Hd2). lia.
Qed.
Lemma integer_inv s : forall a, 0 <= a <= int_max ->
  match read_integer a s with
  | POk (n, rest) => exists ds tail, s = map digit_char ds ++ tail /\ digits ds /\ n = push a ds /\ 0 <= n <= int_max /\ ((tail = [] /\ rest = []) \/ tail = "."%char :: rest)
  | PFail => exists ds c rest, s = map digit_char ds ++ c :: rest /\ digits ds /\ is_digit c = false /\ c <> "."%char
  | PUB => exists ds rest, s = map digit_char ds ++ rest /\ digits ds /\ int_max < push a ds
  end.
Proof.
  induction s as [|c s IH]; intros a Ha; cbn [read_integer].
  - exists [], []. split_and!; try done; try lia; [constructor|by left].
  - destruct (decide (c = "."%char)) as [->|Hc]; [exists [], ("."%char :: s); split_and!; try done; try lia; [constructor|by right]|].
    destruct (is_digit c) eqn:Ec; [|exists [], c, s; split_and!; try done; constructor]. destruct (is_digit_inv c Ec) as [Ed Hd]. rewrite push_digit_ok by done. set (d := byte c - 48) in *.
    destruct (decide (10 * a + d <= int_max)) as [Hl|Hl].
    + specialize (IH (10 * a + d) ltac:(lia)). destruct (read_integer _ s) as [[n rest]| |].
      * destruct IH as (ds & tail & -> & Hds & Hz & Hr & Ht). exists (d :: ds), tail. split; [cbn [map app]; by rewrite <- Ed|]. split; [by constructor|done].
      * destruct IH as (ds & c' & rest & -> & Hds & Hz). exists (d :: ds), c', rest. split; [cbn [map app]; by rewrite <- Ed|]. split; [by constructor|done].
      * destruct IH as (ds & rest & -> & Hds & Hz). exists (d :: ds), rest. split; [cbn [map app]; by rewrite <- Ed|]. split; [by constructor|done].
    + exists [d], s. split; [cbn [map app]; by rewrite <- Ed|]. split; [by repeat constructor; lia|]. cbn. lia.
Qed.
(** The coefficient after [n] digits. *)
Definition tenth (k : fkind) (c : spec_float) : spec_float := f_div k c (f_int k 10).
Lemma fraction_app k ds t : digits ds -> forall c a, 0 <= a <= int_max ->
  read_fraction k c a (map digit_char ds ++ t) = if decide (push a ds <= int_max) then read_fraction k (Nat.iter (length ds) (tenth k) c) (push a ds) t else PUB.
Proof.
  induction ds as [|d ds IH]; intros Hd c a Ha; cbn [map app foldl length]; [by rewrite decide_True by lia|]. apply Forall_cons in Hd as [Hd1 Hd2]. cbn [read_fraction].
  rewrite is_digit_char, push_digit_char by done. destruct (decide (10 * a + d <= int_max)) as [Hl|Hl].
  - rewrite IH by first [assumption|lia]. fold (tenth k c). by rewrite Nat.iter_succ_r.
  - rewrite decide_False; [done|]. pose proof (push_ge (10 * a + d) ds ltac:(lia) Hd2). lia.
Qed.
Lemma fraction_inv k s : forall c a, 0 <= a <= int_max ->
  match read_fraction k c a s with
  | POk (c', n) => exists ds, s = map digit_char ds /\ digits ds /\ n = push a ds /\ 0 <= n <= int_max /\ c' = Nat.iter (length ds) (tenth k) c
  | PFail => exists ds x rest, s = map digit_char ds ++ x :: rest /\ digits ds /\ is_digit x = false
  | PUB => exists ds rest, s = map digit_char ds ++ rest /\ digits ds /\ int_max < push a ds
  end.
Proof.
  induction s as [|c s IH]; intros co a Ha; cbn [read_fraction].
  - exists []. split_and!; try done; try lia. constructor.
  - destruct (is_digit c) eqn:Ec; [|exists [], c, s; split_and!; try done; constructor]. destruct (is_digit_inv c Ec) as [Ed Hd]. rewrite push_digit_ok by done. set (d := byte c - 48) in *.
    destruct (decide (10 * a + d <= int_max)) as [Hl|Hl].
    + specialize (IH (tenth k co) (10 * a + d) ltac:(lia)). fold (tenth k co). destruct (read_fraction _ _ _ s) as [[c' n]| |].
      * destruct IH as (ds & -> & Hds & Hz & Hr & ->). exists (d :: ds). split; [cbn [map app]; by rewrite <- Ed|]. split; [by constructor|]. split; [done|]. split; [done|]. cbn [length]. by rewrite Nat.iter_succ_r.
      * destruct IH as (ds & c' & rest & -> & Hds & Hz). exists (d :: ds), c', rest. split; [cbn [map app]; by rewrite <- Ed|]. split; [by constructor|done].
      * destruct IH as (ds & rest & -> & Hds & Hz). exists (d :: ds), rest. split; [cbn [map app]; by rewrite <- Ed|]. split; [by constructor|done].
    + exists [d], s. split; [cbn [map app]; by rewrite <- Ed|]. split; [by repeat constructor; lia|]. cbn. lia.
Qed.

(** What is read from a decimal. *)
Definition read_value (k : fkind) (neg : bool) (ds fs : list Z) : spec_float :=
  let data := f_add k (f_int k (number ds)) (f_mul k (f_int k (number fs)) (Nat.iter (length fs) (tenth k) (f_int k 1))) in
  if neg then f_mul k data (f_int k (-1)) else data.
Definition parts (k : fkind) (neg : bool) (s : text) : fp_result :=
  match read_integer 0 s with
  | PFail => FpFail
  | PUB => FpUB
  | POk (integer, rest) =>
      match read_fraction k (f_int k 1) 0 rest with
      | PFail => FpFail
      | PUB => FpUB
      | POk (coeff, fractional) =>
          let data := f_add k (f_int k integer) (f_mul k (f_int k fractional) coeff) in
          FpOk (if neg then f_mul k data (f_int k (-1)) else data)
      end
  end.
Lemma parts_neg k s : s <> [] -> float_of_text k ("-"%char :: s) = parts k true s.
Proof. intros Hs. unfold float_of_text. rewrite bool_decide_true, (bool_decide_false (s = [])) by done. done. Qed.
Lemma parts_pos k c s : c <> "-"%char -> float_of_text k (c :: s) = parts k false (c :: s).
Proof. intros Hs. unfold float_of_text. by rewrite bool_decide_false by done. Qed.
Lemma parts_sign k neg s : s <> [] -> hd "0"%char s <> "-"%char -> float_of_text k (sign neg ++ s) = parts k neg s.
Proof. intros Hs Hh. destruct neg; cbn [sign app]; [by apply parts_neg|]. destruct s as [|c s]; [done|]. by apply parts_pos. Qed.
Lemma head_digits ds t : digits ds -> (ds = [] -> hd "0"%char t <> "-"%char) -> hd "0"%char (map digit_char ds ++ t) <> "-"%char.
Proof. intros Hd Ht. destruct ds as [|d ds]; [by apply Ht|]. cbn. apply digit_not_minus. by apply Forall_cons in Hd as [? _]. Qed.

Lemma read_decimal k s neg ds fs : decimal s neg ds fs ->
  float_of_text k s = if decide (number ds <= int_max /\ number fs <= int_max) then FpOk (read_value k neg ds fs) else FpUB.
Proof.
  intros (tail & -> & Ht & Hd & Hf & Hne). rewrite parts_sign.
  - unfold parts. rewrite integer_app by first [assumption|unfold int_max; lia]. fold (number ds). destruct (decide (number ds <= int_max)) as [Hl|Hl]; [|rewrite decide_False; [done|tauto]].
    assert (E : read_integer (number ds) tail = POk (number ds, map digit_char fs)). { destruct Ht as [[-> ->]| ->]; [done|]. cbn [read_integer]. by rewrite decide_True. }
    rewrite E. pose proof (fraction_app k fs [] Hf (f_int k 1) 0 ltac:(unfold int_max; lia)) as F. rewrite app_nil_r in F. rewrite F. fold (number fs).
    destruct (decide (number fs <= int_max)) as [Hl2|Hl2]; [|rewrite decide_False; [done|tauto]]. rewrite decide_True by done. cbn [read_fraction]. done.
  - destruct Hne as [Hne|Hne]; [by destruct ds|]. destruct ds; [done|done].
  - apply head_digits; [done|]. intros ->. destruct Ht as [[-> ->]| ->]; done.
Qed.
Lemma parts_inv k neg s : s <> [] ->
  match parts k neg s with
  | FpOk x => exists ds fs, decimal (sign neg ++ s) neg ds fs
  | FpFail => True
  | FpUB => overflows (sign neg ++ s)
  end.
Proof.
  intros Hs. unfold parts. pose proof (integer_inv s 0 ltac:(unfold int_max; lia)) as I. destruct (read_integer 0 s) as [[n rest]| |]; [|done|].
  - destruct I as (ds & tail & -> & Hds & Hz & Hr & Ht). pose proof (fraction_inv k rest (f_int k 1) 0 ltac:(unfold int_max; lia)) as J. destruct (read_fraction _ _ _ rest) as [[c' m]| |]; [|done|].
    + destruct J as (fs & -> & Hfs & Hy & _). exists ds, fs, tail. split; [done|]. split; [|split; [done|split; [done|]]].
      * destruct Ht as [[-> E]| ->]; [left|by right]. split; [done|]. by apply map_eq_nil in E.
      * destruct tail; [|by right]. rewrite app_nil_r in Hs. left. by intros ->.
    + destruct J as (fs & r & -> & Hfs & Hy). right. destruct Ht as [[-> E]| ->].
      * exfalso. apply app_nil in E as [E ->]. apply map_eq_nil in E as ->. unfold int_max in Hy. cbn in Hy. lia.
      * exists neg, ds, fs, r. done.
  - destruct I as (ds & rest & -> & Hds & Hy). left. exists neg, ds, rest. done.
Qed.
Lemma float_inv k s : match float_of_text k s with FpOk x => exists neg ds fs, decimal s neg ds fs | FpFail => True | FpUB => overflows s end.
Proof.
  destruct s as [|c s]; [done|]. destruct (decide (c = "-"%char)) as [->|Hc].
  - destruct s as [|c s]; [done|]. rewrite parts_neg by done. pose proof (parts_inv k true (c :: s) ltac:(done)) as H. destruct (parts _ _ _); [|done|done]. destruct H as (ds & fs & H). by exists true, ds, fs.
  - rewrite parts_pos by done. pose proof (parts_inv k false (c :: s) ltac:(done)) as H. destruct (parts _ _ _); [|done|done]. destruct H as (ds & fs & H). by exists false, ds, fs.
Qed.
Lemma float_ub k s : overflows s -> float_of_text k s = FpUB \/ (float_of_text k s = FpFail /\ False).
Proof.
  intros [(neg & ds & rest & -> & Hd & Ho)|(neg & ds & fs & rest & -> & Hd & Hf & Ho)]; left.
  - assert (ds <> []) by (intros ->; cbn in Ho; unfold int_max in Ho; lia). rewrite parts_sign; [|by destruct ds|by apply head_digits].
    unfold parts. rewrite integer_app by first [assumption|unfold int_max; lia]. fold (number ds). by rewrite decide_False by lia.
  - rewrite parts_sign; [|by destruct ds|by apply head_digits]. unfold parts. rewrite integer_app by first [assumption|unfold int_max; lia]. destruct (decide _); [|done].
    cbn [read_integer]. rewrite decide_True by done. rewrite fraction_app by first [assumption|unfold int_max; lia]. fold (number fs). by rewrite decide_False by lia.
Qed.
