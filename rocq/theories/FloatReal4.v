(** The accuracy of reading a decimal fraction. *)
From Coq Require Import Ascii.
From Verif Require Export FloatReal3.
From Verif Require Import StringsProofs FloatProofs.
From Coq Require Import SpecFloat Reals Lra.
From Flocq Require Import Core.Core.
Open Scope R_scope.

Definition uu (k : fkind) : R := bpow radix2 (- fprec k).
Lemma uu_bound k : 0 < uu k <= / 16777216.
Proof. split; [apply bpow_gt_0|]. change (/ 16777216) with (bpow radix2 (-24)). apply bpow_le. by destruct k. Qed.
Lemma pow_low k q : 1 - INR q * uu k <= (1 - uu k) ^ q.
Proof.
  pose proof (uu_bound k) as B. induction q as [|q IH]; [cbn; lra|]. rewrite S_INR. cbn [pow]. pose proof (pos_INR q). assert ((1 - uu k) * (1 - INR q * uu k) <= (1 - uu k) * (1 - uu k) ^ q)%R by (apply Rmult_le_compat_l; lra).
  assert (0 <= uu k * (INR q * uu k)) by (apply Rmult_le_pos; [lra|apply Rmult_le_pos; lra]). lra.
Qed.
Lemma pow_high k q : (q <= 50)%nat -> (1 + uu k) ^ q <= 1 + INR q * uu k + INR q * INR q * (uu k * uu k).
Proof.
  pose proof (uu_bound k) as B. induction q as [|q IH]; intros Hq; [cbn; lra|]. specialize (IH ltac:(lia)). rewrite S_INR. cbn [pow]. pose proof (pos_INR q). assert (Hq' : INR q <= 50) by (replace 50 with (INR 50) by (cbn; lra); apply le_INR; lia).
  assert ((1 + uu k) * (1 + uu k) ^ q <= (1 + uu k) * (1 + INR q * uu k + INR q * INR q * (uu k * uu k))) by (apply Rmult_le_compat_l; lra).
  set (t := INR q) in *. set (u := uu k) in *. assert (0 <= u * u) by (apply Rmult_le_pos; lra). assert (t * t * u <= t + 1). { assert (t * t <= 2500) by (apply Rle_trans with (50 * 50); [apply Rmult_le_compat; lra|lra]). assert (t * t * u <= 2500 * / 16777216) by (apply Rmult_le_compat; [apply Rmult_le_pos; lra|lra|lra|lra]). lra. }
  assert (t * t * u * (u * u) <= (t + 1) * (u * u)) by (apply Rmult_le_compat_r; lra). nra.
Qed.
(** [a] is [b] up to [q] roundings. *)
Definition near (k : fkind) (a b : R) (q : nat) : Prop := 0 <= b /\ (1 - uu k) ^ q * b <= a <= (1 + uu k) ^ q * b.
Lemma low_pos k q : 0 < (1 - uu k) ^ q.
Proof. apply pow_lt. pose proof (uu_bound k). lra. Qed.
Lemma high_pos k q : 0 < (1 + uu k) ^ q.
Proof. apply pow_lt. pose proof (uu_bound k). lra. Qed.
Lemma near_nonneg k a b q : near k a b q -> 0 <= a.
Proof. intros (Hb & Hl & _). pose proof (low_pos k q). apply Rle_trans with ((1 - uu k) ^ q * b); [apply Rmult_le_pos; lra|done]. Qed.
Lemma near_refl k b : 0 <= b -> near k b b 0.
Proof. intros Hb. split; [done|]. cbn. lra. Qed.
Lemma near_S k a b q : near k a b q -> near k a b (S q).
Proof.
  intros (Hb & Hl & Hh). pose proof (uu_bound k) as B. split; [done|]. cbn [pow]. pose proof (low_pos k q). pose proof (high_pos k q). split.
  - eapply Rle_trans; [|exact Hl]. apply Rmult_le_compat_r; [done|]. rewrite <- (Rmult_1_l ((1 - uu k) ^ q)) at 2. apply Rmult_le_compat_r; lra.
  - eapply Rle_trans; [exact Hh|]. apply Rmult_le_compat_r; [done|]. rewrite <- (Rmult_1_l ((1 + uu k) ^ q)) at 1. apply Rmult_le_compat_r; lra.
Qed.
Lemma near_weaken k a b q r : (q <= r)%nat -> near k a b q -> near k a b r.
Proof. intros Hq. induction Hq as [|r Hq IH]; [done|]. intros H. by apply near_S, IH. Qed.
Lemma near_mul k a b c d q r : near k a b q -> near k c d r -> near k (a * c) (b * d) (q + r).
Proof.
  intros Ha Hc. pose proof (near_nonneg _ _ _ _ Ha) as A0. pose proof (near_nonneg _ _ _ _ Hc) as C0. destruct Ha as (Hb & Hl & Hh), Hc as (Hd & Kl & Kh). pose proof (low_pos k q). pose proof (low_pos k r). split; [by apply Rmult_le_pos|]. rewrite !pow_add. split.
  - replace ((1 - uu k) ^ q * (1 - uu k) ^ r * (b * d)) with (((1 - uu k) ^ q * b) * ((1 - uu k) ^ r * d)) by ring. apply Rmult_le_compat; try done; apply Rmult_le_pos; lra.
  - replace ((1 + uu k) ^ q * (1 + uu k) ^ r * (b * d)) with (((1 + uu k) ^ q * b) * ((1 + uu k) ^ r * d)) by ring. by apply Rmult_le_compat.
Qed.
Lemma near_add k a b c d q : near k a b q -> near k c d q -> near k (a + c) (b + d) q.
Proof. intros (Hb & Hl & Hh) (Hd & Kl & Kh). split; [lra|]. rewrite !Rmult_plus_distr_l. lra. Qed.
Definition tiny : R := / 10 ^ 37.
Lemma tiny_bound : 2 * bpow radix2 (-125) <= tiny.
Proof.
  assert (E : 2 * bpow radix2 (-125) = / IZR (2 ^ 124)). { rewrite (IZR_Zpower radix2) by lia. rewrite <- bpow_opp. change 2 with (bpow radix2 1). rewrite <- bpow_plus. done. }
  rewrite E. unfold tiny. change (10 ^ 37) with (IZR 10 ^ 37). rewrite pow_IZR. apply Rinv_le; [apply IZR_lt; vm_compute; reflexivity|]. apply IZR_le. vm_compute. discriminate.
Qed.
Lemma half_low k q : (q <= 50)%nat -> / 2 <= (1 - uu k) ^ q.
Proof.
  intros Hq. pose proof (pow_low k q) as P. pose proof (uu_bound k) as B. assert (INR q <= 50) by (replace 50 with (INR 50) by (cbn; lra); apply le_INR; lia). pose proof (pos_INR q).
  assert (INR q * uu k <= 50 * / 16777216) by (apply Rmult_le_compat; lra). lra.
Qed.
Lemma two_high k q : (q <= 50)%nat -> (1 + uu k) ^ q <= 2.
Proof.
  intros Hq. pose proof (pow_high k q Hq) as P. pose proof (uu_bound k) as B. assert (INR q <= 50) by (replace 50 with (INR 50) by (cbn; lra); apply le_INR; lia). pose proof (pos_INR q).
  assert (INR q * uu k <= 50 * / 16777216) by (apply Rmult_le_compat; lra). assert (0 <= INR q * uu k) by (apply Rmult_le_pos; lra). assert (INR q * uu k * (INR q * uu k) <= 50 * / 16777216 * (50 * / 16777216)) by (apply Rmult_le_compat; lra). lra.
Qed.
Lemma near_range k a b q : (q <= 50)%nat -> near k a b q -> b = 0 \/ tiny <= b -> a = 0 \/ bpow radix2 (-125) <= a.
Proof.
  intros Hq (Hb & Hl & Hh) [->|Ht]; [left; lra|right]. pose proof tiny_bound. pose proof (half_low k q Hq). assert (/ 2 * b <= (1 - uu k) ^ q * b) by (apply Rmult_le_compat_r; lra). lra.
Qed.
Lemma near_rnd k a b q : (q <= 50)%nat -> near k a b q -> b = 0 \/ tiny <= b -> near k (rnd k a) b (S q).
Proof.
  intros Hq H Ht. pose proof (near_range k a b q Hq H Ht) as R. pose proof (near_nonneg _ _ _ _ H) as A0. destruct H as (Hb & Hl & Hh). pose proof (uu_bound k) as B.
  assert (E : Rabs (rnd k a - a) <= uu k * Rabs a). { apply rnd_rel. destruct R as [->|R]; [by left|right]. rewrite Rabs_right by lra. done. }
  rewrite (Rabs_right a) in E by lra. apply Rabs_le_inv in E. split; [done|]. cbn [pow]. split.
  - rewrite Rmult_assoc. apply Rle_trans with ((1 - uu k) * a); [apply Rmult_le_compat_l; lra|lra].
  - rewrite Rmult_assoc. apply Rle_trans with ((1 + uu k) * a); [lra|apply Rmult_le_compat_l; lra].
Qed.
Lemma near_small k a b q : (q <= 50)%nat -> near k a b q -> b <= 2 ^ 90 -> small k a.
Proof.
  intros Hq H Hb. pose proof (near_nonneg _ _ _ _ H) as A0. destruct H as (Hb0 & _ & Hh). apply small_le. rewrite Rabs_right by lra. pose proof (two_high k q Hq).
  apply Rle_trans with (2 * b); [eapply Rle_trans; [exact Hh|apply Rmult_le_compat_r; lra]|]. apply Rle_trans with (2 * 2 ^ 90); [lra|]. replace (2 * 2 ^ 90) with (bpow radix2 91); [by apply bpow_le|]. change (2 * 2 ^ 90) with (2 ^ 91). rewrite pow_powerRZ, bpow_powerRZ. done.
Qed.
Lemma near_final k a b q : (q <= 40)%nat -> near k a b q -> Rabs (a - b) <= INR (S q) * uu k * b.
Proof.
  intros Hq (Hb & Hl & Hh). pose proof (pow_low k q) as P. pose proof (pow_high k q ltac:(lia)) as Q. pose proof (uu_bound k) as B. rewrite S_INR. pose proof (pos_INR q). assert (INR q <= 40) by (replace 40 with (INR 40) by (cbn; lra); apply le_INR; lia).
  assert (INR q * INR q * (uu k * uu k) <= uu k). { rewrite <- (Rmult_1_l (uu k)) at 3. rewrite <- Rmult_assoc. apply Rmult_le_compat_r; [lra|]. assert (INR q * INR q <= 40 * 40) by (apply Rmult_le_compat; lra). assert (INR q * INR q * uu k <= 40 * 40 * / 16777216) by (apply Rmult_le_compat; try lra; apply Rmult_le_pos; lra). lra. }
  assert ((1 + uu k) ^ q * b <= (1 + (INR q + 1) * uu k) * b) by (apply Rmult_le_compat_r; lra). assert ((1 - INR q * uu k) * b <= (1 - uu k) ^ q * b) by (apply Rmult_le_compat_r; lra). assert (0 <= uu k * b) by (apply Rmult_le_pos; lra).
  apply Rabs_le. lra.
Qed.

Lemma pow10_pos n : 0 < 10 ^ n.
Proof. apply pow_lt. lra. Qed.
Lemma pow10_tiny n : (n <= 37)%nat -> tiny <= / 10 ^ n.
Proof. intros Hn. unfold tiny. apply Rinv_le; [apply pow10_pos|]. apply Rle_pow; [lra|lia]. Qed.
Lemma ten k : fnum k (f_int k 10) 10 false.
Proof. pose proof (num_int k 10 ltac:(by apply small_int)) as H. rewrite rnd_int in H by (by destruct k). exact H. Qed.
Lemma one k : fnum k (f_int k 1) 1 false.
Proof. pose proof (num_int k 1 ltac:(by apply small_int)) as H. rewrite rnd_int in H by (by destruct k). exact H. Qed.
Lemma coeff_near k n : (n <= 37)%nat -> exists c, fnum k (Nat.iter n (tenth k) (f_int k 1)) c false /\ near k c (/ 10 ^ n) n.
Proof.
  induction n as [|n IH]; intros Hn.
  - exists 1. split; [apply one|]. cbn. rewrite Rinv_1. apply near_refl. lra.
  - destruct IH as (c & Nc & Hc); [lia|]. cbn [Nat.iter nat_rect]. exists (rnd k (c / 10)). assert (H10 : near k (c / 10) (/ 10 ^ S n) n).
    { cbn [pow]. rewrite Rinv_mult. rewrite Rmult_comm. rewrite <- (Nat.add_0_r n) at 2. apply near_mul; [done|]. apply near_refl. lra. }
    split; [|apply near_rnd; [lia|done|right; by apply pow10_tiny]]. apply (num_div k _ _ _ _ false false); [done|apply ten|lra|]. eapply near_small; [|exact H10|]; [lia|].
    apply Rle_trans with 1; [|replace 1 with (1 ^ 90) by (apply pow1); apply pow_incr; lra]. rewrite <- Rinv_1. apply Rinv_le; [lra|]. apply pow_R1_Rle. lra.
Qed.
Lemma int_near k z : (0 <= z <= int_max)%Z -> fnum k (f_int k z) (rnd k (IZR z)) false /\ near k (rnd k (IZR z)) (IZR z) 1.
Proof.
  intros Hz. unfold int_max in Hz. pose proof (num_int k z ltac:(apply small_int; lia)) as H. assert (Hneg : (z <? 0)%Z = false) by (apply Z.ltb_ge; lia). rewrite Hneg in H. split; [done|]. assert (0 <= IZR z) by (apply IZR_le; lia). apply near_rnd; [lia|by apply near_refl|].
  destruct (Z.eq_dec z 0) as [->|Hne]; [by left|right]. apply Rle_trans with (/ 10 ^ 0); [by apply pow10_tiny, Nat.le_0_l|]. cbn. rewrite Rinv_1. apply IZR_le. lia.
Qed.
Lemma int_value_bound z : (0 <= z <= int_max)%Z -> 0 <= IZR z <= 2 ^ 31.
Proof. intros Hz. unfold int_max in Hz. split; [apply IZR_le; lia|]. change (2 ^ 31) with (IZR 2 ^ 31). rewrite pow_IZR. apply IZR_le. change (2 ^ Z.of_nat 31)%Z with 2147483648%Z. lia. Qed.
Lemma read_value_near k s ds fs : (0 <= number ds <= int_max)%Z -> (0 <= number fs <= int_max)%Z -> (length fs <= 37)%nat ->
  exists y, fnum k (read_value k s ds fs) (sgn s y) s /\ near k y (IZR (number ds) + IZR (number fs) / 10 ^ length fs) (length fs + 3).
Proof.
  intros Hi Hf Hn. destruct (coeff_near k (length fs) Hn) as (c & Nc & Hc). destruct (int_near k _ Hi) as [Ni Ri]. destruct (int_near k _ Hf) as [Nf Rf]. unfold read_value. cbn zeta. set (n := length fs) in *. set (i := number ds) in *. set (f := number fs) in *.
  pose proof (int_value_bound i Hi) as Bi. pose proof (int_value_bound f Hf) as Bf. pose proof (pow10_pos n) as P10. assert (P10' : 0 < / 10 ^ n <= 1). { split; [by apply Rinv_0_lt_compat|]. rewrite <- Rinv_1. apply Rinv_le; [lra|]. apply pow_R1_Rle. lra. }
  assert (Hp : near k (rnd k (IZR f) * c) (IZR f / 10 ^ n) (S n)) by (apply (near_mul k _ _ _ _ 1 n); done).
  assert (Zf : IZR f / 10 ^ n = 0 \/ tiny <= IZR f / 10 ^ n). { destruct (Z.eq_dec f 0) as [->|Hne]; [left; lra|right]. apply Rle_trans with (/ 10 ^ n); [by apply pow10_tiny|]. rewrite <- (Rmult_1_l (/ 10 ^ n)). apply Rmult_le_compat_r; [lra|]. apply IZR_le. lia. }
  assert (Bf' : 0 <= IZR f / 10 ^ n <= 2 ^ 31). { split; [apply Rmult_le_pos; lra|]. rewrite <- (Rmult_1_r (2 ^ 31)). apply Rmult_le_compat; lra. }
  assert (Hbig : 2 ^ 31 + 2 ^ 31 <= 2 ^ 90). { replace (2 ^ 31 + 2 ^ 31) with (2 ^ 32) by (cbn; ring). apply Rle_pow; [lra|lia]. }
  pose proof (num_mul k _ _ _ _ false false Nf Nc (near_small k _ _ (S n) ltac:(lia) Hp ltac:(lra))) as Np. cbn [xorb] in Np. pose proof (near_rnd k _ _ (S n) ltac:(lia) Hp Zf) as Hp'.
  assert (Hs : near k (rnd k (IZR i) + rnd k (rnd k (IZR f) * c)) (IZR i + IZR f / 10 ^ n) (S (S n))) by (apply near_add; [by eapply near_weaken; [|exact Ri]; lia|done]).
  assert (Zs : IZR i + IZR f / 10 ^ n = 0 \/ tiny <= IZR i + IZR f / 10 ^ n). { destruct (Z.eq_dec i 0) as [->|Hne]; [rewrite Rplus_0_l; done|right]. apply Rle_trans with 1; [|assert (1 <= IZR i) by (apply IZR_le; lia); lra]. apply Rle_trans with (/ 10 ^ 0); [by apply pow10_tiny, Nat.le_0_l|]. cbn. lra. }
  pose proof (num_add k _ _ _ _ Ni Np (near_small k _ _ (S (S n)) ltac:(lia) Hs ltac:(lra))) as Ns. pose proof (near_rnd k _ _ (S (S n)) ltac:(lia) Hs Zs) as Hy.
  eexists. split; [|replace (n + 3)%nat with (S (S (S n))) by lia; exact Hy]. destruct s; [|exact Ns]. apply (num_opp k _ _ _ Ns). pose proof (near_nonneg _ _ _ _ Hy) as Y0. destruct Hy as (_ & _ & Hh). rewrite Rabs_right by lra. pose proof (two_high k (S (S (S n))) ltac:(lia)) as T.
  eapply Rle_trans; [exact Hh|]. apply Rle_trans with (2 * 2 ^ 90); [apply Rmult_le_compat; try lra; apply Rlt_le, high_pos|]. replace (2 * 2 ^ 90) with (bpow radix2 91); [by apply bpow_le|]. change (2 * 2 ^ 90) with (2 ^ 91). rewrite pow_powerRZ, bpow_powerRZ. done.
Qed.
