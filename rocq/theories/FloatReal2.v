(** Bounds on rounding errors, and the texts of floating-point numbers. *)
From Coq Require Import Ascii.
From Verif Require Export FloatReal.
From Verif Require Import StringsProofs FloatProofs.
From Coq Require Import SpecFloat Reals Lra.
From Flocq Require Import Core.Core.
From Flocq Require Import Relative.
From Flocq Require IEEE754.BinarySingleNaN.
Open Scope Z_scope.

Lemma fx_FLT k : fx k = FLT_exp (3 - femax k - fprec k) (fprec k).
Proof. reflexivity. Qed.
#[global] Instance fx_valid k : Valid_exp (fx k).
Proof. rewrite fx_FLT. apply FLT_exp_valid. apply hprec. Qed.
#[global] Instance fx_monotone k : Monotone_exp (fx k).
Proof. rewrite fx_FLT. apply FLT_exp_monotone. Qed.
Lemma prec_pos k : 0 < fprec k. Proof. by destruct k. Qed.

Lemma rnd_err k (s : R) e : (Rabs s < bpow radix2 e)%R -> 3 - femax k - fprec k <= e - fprec k -> (Rabs (rnd k s - s) <= / 2 * bpow radix2 (e - fprec k))%R.
Proof.
  intros Hs He. destruct (Req_dec s 0) as [->|Hn]; [rewrite round_0 by apply _; rewrite Rminus_0_r, Rabs_R0; pose proof (bpow_ge_0 radix2 (e - fprec k)); lra|].
  pose proof (error_le_half_ulp radix2 (fx k) (fun n => negb (Z.even n)) s) as H. eapply Rle_trans; [apply H|]. apply Rmult_le_compat_l; [lra|]. rewrite ulp_neq_0 by done. apply bpow_le. unfold cexp, SpecFloat.fexp, SpecFloat.emin.
  pose proof (mag_le_bpow radix2 s e Hn Hs). lia.
Qed.
Lemma rnd_rel k (s : R) : s = 0%R \/ (bpow radix2 (-125) <= Rabs s)%R -> (Rabs (rnd k s - s) <= bpow radix2 (- fprec k) * Rabs s)%R.
Proof.
  intros [->|Hs]; [rewrite round_0 by apply _; rewrite Rminus_0_r, Rabs_R0; lra|]. pose proof (relative_error_N_FLT radix2 (3 - femax k - fprec k) (fprec k) (prec_pos k) (fun n => negb (Z.even n)) s) as H.
  eapply Rle_trans; [apply H|].
  - eapply Rle_trans; [apply bpow_le|exact Hs]. by destruct k.
  - apply Req_le. f_equal. replace (- fprec k + 1) with (1 + - fprec k) by lia. rewrite bpow_plus. change (bpow radix2 1) with 2%R. field.
Qed.
Lemma bpow_format k e : 3 - femax k - fprec k <= e -> generic_format radix2 (fx k) (bpow radix2 e).
Proof. intros He. rewrite fx_FLT. apply generic_format_FLT_bpow; [apply hprec|done]. Qed.
Lemma small_le k (r : R) : (Rabs r <= bpow radix2 100)%R -> small k r.
Proof.
  intros H. unfold small. apply Rle_lt_trans with (bpow radix2 100); [|apply bpow_lt; by destruct k]. apply abs_round_le_generic; try apply _; [apply bpow_format; by destruct k|done].
Qed.
Lemma rnd_ge0 k (r : R) : (0 <= r)%R -> (0 <= rnd k r)%R.
Proof. intros H. rewrite <- (round_0 radix2 (fx k) ZnearestE). apply round_le; try apply _. done. Qed.
Lemma int_format k z : Z.abs z <= 2 ^ fprec k -> generic_format radix2 (fx k) (IZR z).
Proof.
  intros Hz. destruct (Z.eq_dec (Z.abs z) (2 ^ fprec k)) as [E|E].
  - assert (G : generic_format radix2 (fx k) (IZR (Z.abs z))). { rewrite E. rewrite (IZR_Zpower radix2) by (destruct k; done). apply bpow_format. by destruct k. }
    destruct (Z.abs_eq_or_opp z) as [A|A]; rewrite A in G; [done|]. rewrite opp_IZR in G. rewrite <- (Ropp_involutive (IZR z)). by apply generic_format_opp.
  - rewrite fx_FLT. apply generic_format_FLT. apply FLT_spec with (Float radix2 z 0); cbn.
    + unfold F2R. cbn. ring.
    + lia.
    + by destruct k.
Qed.
Lemma rnd_int k z : Z.abs z <= 2 ^ fprec k -> rnd k (IZR z) = IZR z.
Proof. intros Hz. apply round_generic; [apply _|]. by apply int_format. Qed.
Lemma num_format k x r s : fnum k x r s -> generic_format radix2 (fx k) r.
Proof. intros H. apply num_lift in H as (b & _ & _ & <- & _). apply BinarySingleNaN.generic_format_B2R. Qed.
Lemma num_opp k x r s : fnum k x r s -> (Rabs r <= bpow radix2 100)%R -> fnum k (f_mul k x (f_int k (-1))) (- r) (negb s).
Proof.
  intros H Hr. assert (R1 : rnd k (-1) = (-1)%R) by (apply (rnd_int k (-1)); by destruct k).
  assert (M : fnum k (f_int k (-1)) (-1) true).
  { assert (S : small k (IZR (-1))) by (apply small_le; rewrite Rabs_left by lra; replace (- -1)%R with (bpow radix2 0) by (cbn; lra); by apply bpow_le). pose proof (num_int k (-1) S) as M. by rewrite R1 in M. }
  replace (- r)%R with (r * -1)%R by ring. rewrite <- (round_generic radix2 (fx k) ZnearestE (r * -1)) at 1.
  - rewrite <- (xorb_true_r s). apply num_mul; [done|done|]. apply small_le. rewrite Rabs_mult, (Rabs_left (-1)) by lra. lra.
  - replace (r * -1)%R with (- r)%R by ring. apply generic_format_opp. by eapply num_format.
Qed.

(** ** Texts *)
Lemma nearest_even_spec a b : 0 <= a -> 0 < b -> 0 <= nearest_even a b /\ 2 * Z.abs (a - nearest_even a b * b) <= b /\ (2 * Z.abs (a - nearest_even a b * b) = b -> Z.Even (nearest_even a b)).
Proof.
  intros Ha Hb. unfold nearest_even. pose proof (Z.div_mod a b ltac:(lia)) as E. pose proof (Z.mod_pos_bound a b Hb) as M. pose proof (Z.div_pos a b Ha Hb) as Q. set (q := a / b) in *. set (r := a mod b) in *. clearbody q r.
  destruct (Z.ltb_spec (2 * r) b); [replace (a - q * b) with r by lia; lia|]. destruct (Z.ltb_spec b (2 * r)); [replace (a - (q + 1) * b) with (r - b) by lia; lia|].
  destruct (Z.even q) eqn:Ev; [apply Z.even_spec in Ev; replace (a - q * b) with r by lia; split; [lia|]; split; [lia|done]|]. replace (a - (q + 1) * b) with (r - b) by lia. split; [lia|]. split; [lia|]. intros _. apply Z.even_spec. rewrite Z.even_add, Ev. done.
Qed.
(** The number of millionths that the text of a finite number shows. *)
Definition shown (x : spec_float) : Z := match x with S754_finite _ m e => millionths m e | _ => 0 end.
Lemma powerRZ_IZR e : 0 <= e -> powerRZ 2 e = IZR (2 ^ e).
Proof. intros He. change 2%R with (IZR radix2). rewrite <- bpow_powerRZ. rewrite <- IZR_Zpower by done. done. Qed.
Lemma shown_spec x : 0 <= shown x /\ (Rabs (10 ^ 6 * Rabs (fvalue x) - IZR (shown x)) <= / 2)%R /\ (Rabs (10 ^ 6 * Rabs (fvalue x) - IZR (shown x)) = / 2 -> Z.Even (shown x))%R.
Proof.
  destruct x as [s|s| |s m e]; cbn [shown fvalue]; try (rewrite Rabs_R0, Rmult_0_r, Rminus_0_r, Rabs_R0; split; [lia|]; split; [lra|intros; lra]).
  assert (Ea : Rabs ((if s then -1 else 1) * (IZR (Z.pos m) * powerRZ 2 e)) = (IZR (Z.pos m) * powerRZ 2 e)%R).
  { assert (0 < IZR (Z.pos m) * powerRZ 2 e)%R by (apply Rmult_lt_0_compat; [by apply IZR_lt|apply powerRZ_lt; lra]). rewrite Rabs_mult, (Rabs_right (IZR _ * _)) by lra. destruct s; [rewrite Rabs_left by lra|rewrite Rabs_right by lra]; ring. }
  rewrite Ea. clear Ea s. unfold millionths. destruct (Z.leb_spec 0 e) as [He|He].
  - rewrite powerRZ_IZR by done. rewrite <- !mult_IZR. change (10 ^ 6)%R with (IZR 10 ^ 6)%R. rewrite (pow_IZR 10 6), <- mult_IZR, <- minus_IZR. replace (10 ^ Z.of_nat 6 * (Z.pos m * 2 ^ e) - Z.pos m * 2 ^ e * 10 ^ 6) with 0 by (change (10 ^ Z.of_nat 6) with (10 ^ 6); ring).
    rewrite Rabs_R0. split; [|split; [lra|intros; lra]]. pose proof (Z.pow_nonneg 2 e). lia.
  - pose proof (Z.pow_pos_nonneg 2 (- e) ltac:(lia) ltac:(lia)) as Hp. destruct (nearest_even_spec (Z.pos m * 10 ^ 6) (2 ^ (- e)) ltac:(lia) Hp) as (H1 & H2 & H3). set (n := nearest_even _ _) in *. clearbody n. split; [done|].
    assert (Hb : (0 < IZR (2 ^ (- e)))%R) by (by apply IZR_lt).
    assert (Ep : powerRZ 2 e = (/ IZR (2 ^ (- e)))%R). { rewrite <- powerRZ_IZR by lia. replace e with (- - e) at 1 by lia. apply powerRZ_neg'. }
    assert (E : (10 ^ 6 * (IZR (Z.pos m) * powerRZ 2 e) - IZR n = IZR (Z.pos m * 10 ^ 6 - n * 2 ^ (- e)) / IZR (2 ^ (- e)))%R).
    { rewrite Ep, minus_IZR, !mult_IZR. change (IZR (10 ^ 6)) with (IZR (10 ^ Z.of_nat 6)). rewrite <- (pow_IZR 10 6). field. lra. }
    rewrite E. unfold Rdiv. rewrite Rabs_mult, Rabs_Zabs, (Rabs_right (/ _)) by (left; by apply Rinv_0_lt_compat). split.
    + apply Rmult_le_reg_r with (IZR (2 ^ (- e))); [done|]. rewrite Rmult_assoc, Rinv_l, Rmult_1_r by lra. apply IZR_le in H2. rewrite mult_IZR in H2. lra.
    + intros Hh. apply H3. apply eq_IZR. rewrite mult_IZR. apply (f_equal (fun z => z * IZR (2 ^ (- e)))%R) in Hh. rewrite Rmult_assoc, Rinv_l, Rmult_1_r in Hh by lra. lra.
Qed.
Definition fixed (s : bool) (n : Z) : text := sign s ++ dec_nonneg (n / 10 ^ 6) ++ tx "." ++ six_digits (n mod 10 ^ 6).
Lemma text_fixed x : finite x = true -> text_of_float x = fixed (negative x) (shown x).
Proof. destruct x as [s|s| |s m e]; try done; intros _. Qed.
Lemma six_spec n : 0 <= n < 10 ^ 6 -> exists fs, six_digits n = map digit_char fs /\ digits fs /\ length fs = 6%nat /\ number fs = n.
Proof.
  intros Hn. exists ((fun i => n / 10 ^ i mod 10) <$> [5; 4; 3; 2; 1; 0]). split; [done|]. split; [|split; [done|]].
  - unfold digits. apply Forall_fmap. apply Forall_forall. intros i _. cbn. pose proof (Z.mod_pos_bound (n / 10 ^ i) 10 ltac:(lia)). lia.
  - cbn [fmap list_fmap]. unfold number. cbn [foldl]. change (10 ^ 0) with 1. change (10 ^ 1) with 10. change (10 ^ 2) with 100. change (10 ^ 3) with 1000. change (10 ^ 4) with 10000. change (10 ^ 5) with 100000. change (10 ^ 6) with 1000000 in Hn.
    Z.to_euclidean_division_equations. lia.
Qed.
Lemma fixed_decimal s n : 0 <= n -> exists ds fs, decimal (fixed s n) s ds fs /\ number ds = n / 10 ^ 6 /\ number fs = n mod 10 ^ 6 /\ length fs = 6%nat /\ ds <> [] /\ (ds = [0] \/ hd 0 ds <> 0).
Proof.
  intros Hn. destruct (dec_nonneg_spec (n / 10 ^ 6)) as (ds & E1 & Hd & Hne & Hv & H0 & H1); [by apply Z.div_pos|]. destruct (six_spec (n mod 10 ^ 6)) as (fs & E2 & Hf & Hl & Hw); [by apply Z.mod_pos_bound|].
  exists ds, fs. split; [|split_and!; try done]. 2:{ destruct (decide (n / 10 ^ 6 = 0)) as [E|E]; [left; by apply H1|right; by apply H0]. }
  exists ("."%char :: map digit_char fs). split; [unfold fixed; by rewrite E1, E2|]. split; [by right|]. split; [done|]. split; [done|by left].
Qed.
