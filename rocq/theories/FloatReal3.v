(** Reading back the text of a floating-point number. *)
From Coq Require Import Ascii.
From Verif Require Export FloatReal2.
From Verif Require Import StringsProofs FloatProofs.
From Coq Require Import SpecFloat Reals Lra.
From Flocq Require Import Core.Core.
Open Scope Z_scope.

Definition sgn (s : bool) (r : R) : R := (if s then - r else r)%R.
Lemma fvalue_sgn x : fvalue x = sgn (negative x) (Rabs (fvalue x)).
Proof.
  destruct x as [s|s| |s m e]; cbn [fvalue negative sgn]; try (rewrite Rabs_R0; (destruct s; cbn [sgn]; lra) || (cbn [sgn]; lra)).
  assert (0 < IZR (Z.pos m) * powerRZ 2 e)%R by (apply Rmult_lt_0_compat; [by apply IZR_lt|apply powerRZ_lt; lra]). rewrite Rabs_mult, (Rabs_right (IZR _ * _)) by lra. destruct s; cbn [sgn]; [rewrite Rabs_left by lra|rewrite Rabs_right by lra]; ring.
Qed.
Lemma sgn_dist s a b : Rabs (sgn s a - sgn s b) = Rabs (a - b).
Proof. destruct s; cbn; [|done]. rewrite <- Rabs_Ropp. f_equal. ring. Qed.
Lemma sgn_abs s a : Rabs (sgn s a) = Rabs a.
Proof. destruct s; cbn; [apply Rabs_Ropp|done]. Qed.

(** The error of six digits after the point. *)
Definition dl (k : fkind) : R := match k with F32 => / 6666666 | F64 => / 1000000000000000 end.
Definition c6 (k : fkind) : R := match k with F32 => IZR 8796092 * / IZR (2 ^ 43) | F64 => IZR 4722366482869646 * / IZR (2 ^ 72) end.
Lemma coeff6 k : fnum k (Nat.iter 6 (tenth k) (f_int k 1)) (c6 k) false.
Proof.
  destruct k.
  - replace (Nat.iter 6 (tenth F32) (f_int F32 1)) with (S754_finite false 8796092 (-43)) by (vm_compute; reflexivity). split; [vm_compute; reflexivity|]. split; [done|]. split; [|done].
    cbn [fvalue]. replace (powerRZ 2 (-43)) with (/ IZR (2 ^ 43))%R; [unfold c6; ring|]. rewrite <- powerRZ_IZR by lia. symmetry. apply (powerRZ_neg' 2 43).
  - replace (Nat.iter 6 (tenth F64) (f_int F64 1)) with (S754_finite false 4722366482869646 (-72)) by (vm_compute; reflexivity). split; [vm_compute; reflexivity|]. split; [done|]. split; [|done].
    cbn [fvalue]. replace (powerRZ 2 (-72)) with (/ IZR (2 ^ 72))%R; [unfold c6; ring|]. rewrite <- powerRZ_IZR by lia. symmetry. apply (powerRZ_neg' 2 72).
Qed.
Lemma bpow0_le100 : (1 <= bpow radix2 100)%R.
Proof. change 1%R with (bpow radix2 0). by apply bpow_le. Qed.
Lemma small_int k z : Z.abs z <= 2 ^ 100 -> small k (IZR z).
Proof. intros H. apply small_le. rewrite <- abs_IZR, <- (IZR_Zpower radix2) by done. by apply IZR_le. Qed.
Lemma frac6 k f : 0 <= f < 10 ^ 6 ->
  exists p, fnum k (f_mul k (f_int k f) (Nat.iter 6 (tenth k) (f_int k 1))) p false /\ (0 <= p < 1)%R /\ (Rabs (p - IZR f / 10 ^ 6) <= dl k)%R /\ (f = 0 -> p = 0%R).
Proof.
  intros Hf. assert (E1 : rnd k (IZR f) = IZR f) by (apply rnd_int; destruct k; cbn; lia).
  pose proof (num_int k f ltac:(apply small_int; lia)) as N1. rewrite E1 in N1. assert (Hneg : (f <? 0) = false) by (apply Z.ltb_ge; lia). rewrite Hneg in N1.
  assert (F0 : (0 <= IZR f)%R) by (apply IZR_le; lia). assert (F1 : (IZR f <= 999999)%R) by (apply IZR_le; lia).
  assert (C0 : (0 <= IZR f * c6 k <= 1 - / 1100000)%R /\ (Rabs (IZR f * c6 k - IZR f / 10 ^ 6) <= dl k - / 2 * bpow radix2 (0 - fprec k))%R /\ (/ 2 * bpow radix2 (0 - fprec k) <= / 10000000)%R).
  { destruct k; unfold c6, dl, fprec.
    - change (2 ^ 43) with 8796093022208. change (bpow radix2 (0 - 24)) with (/ IZR 16777216)%R. split; [lra|]. split; [|lra]. apply Rabs_le. lra.
    - change (2 ^ 72) with 4722366482869645213696. change (bpow radix2 (0 - 53)) with (/ IZR 9007199254740992)%R. split; [lra|]. split; [|lra]. apply Rabs_le. lra. }
  destruct C0 as (C0 & C1 & C2). assert (Ha : (Rabs (IZR f * c6 k) < bpow radix2 0)%R) by (rewrite Rabs_right by lra; cbn; lra).
  pose proof (rnd_err k (IZR f * c6 k) 0 Ha ltac:(by destruct k)) as Er.
  exists (rnd k (IZR f * c6 k)). split; [|split; [|split]].
  - apply (num_mul k _ _ _ _ false false); [done|apply coeff6|]. apply small_le. rewrite Rabs_right by lra. pose proof bpow0_le100. lra.
  - split; [apply rnd_ge0; lra|]. apply Rabs_le_inv in Er. lra.
  - apply Rabs_le_inv in Er. apply Rabs_le_inv in C1. apply Rabs_le. lra.
  - intros ->. rewrite Rmult_0_l. apply round_0. apply _.
Qed.
Lemma read_six k s ds fs i f : number ds = i -> number fs = f -> length fs = 6%nat -> 0 <= i <= int_max -> 0 <= f < 10 ^ 6 -> generic_format radix2 (fx k) (IZR i) ->
  exists p, (0 <= p < 1)%R /\ (Rabs (p - IZR f / 10 ^ 6) <= dl k)%R /\ (f = 0 -> p = 0%R) /\ fnum k (read_value k s ds fs) (sgn s (rnd k (IZR i + p))) s.
Proof.
  intros E1 E2 El Hi Hf Hg. unfold read_value. rewrite E1, E2, El. destruct (frac6 k f Hf) as (p & Np & Hp & Ed & E0). exists p. split; [done|]. split; [done|]. split; [done|].
  unfold int_max in Hi. pose proof (num_int k i ltac:(apply small_int; lia)) as Ni. rewrite (round_generic radix2 (fx k) ZnearestE (IZR i) Hg) in Ni. assert (Hneg : (i <? 0) = false) by (apply Z.ltb_ge; lia). rewrite Hneg in Ni.
  assert (I0 : (0 <= IZR i)%R) by (apply IZR_le; lia). assert (I1 : (IZR i <= 2147483647)%R) by (apply IZR_le; lia).
  assert (B : (Rabs (IZR i + p) <= bpow radix2 32)%R) by (rewrite Rabs_right by lra; change (bpow radix2 32) with 4294967296%R; lra).
  assert (B' : (Rabs (IZR i + p) <= bpow radix2 100)%R) by (eapply Rle_trans; [exact B|by apply bpow_le]).
  pose proof (num_add k _ _ _ _ Ni Np (small_le k _ B')) as Na. cbn zeta. destruct s; [|exact Na]. apply (num_opp k _ _ _ Na).
  apply Rle_trans with (bpow radix2 32); [|by apply bpow_le]. apply abs_round_le_generic; try apply _; [apply bpow_format; by destruct k|done].
Qed.
(** What reading the text of [x] does. *)
Lemma reread k x : finite x = true ->
  (int_max < shown x / 10 ^ 6 /\ float_of_text k (text_of_float x) = FpUB) \/
  (shown x / 10 ^ 6 <= int_max /\ exists y, float_of_text k (text_of_float x) = FpOk y /\
    (generic_format radix2 (fx k) (IZR (shown x / 10 ^ 6)) ->
     exists p, (0 <= p < 1)%R /\ (Rabs (p - IZR (shown x mod 10 ^ 6) / 10 ^ 6) <= dl k)%R /\ (shown x mod 10 ^ 6 = 0 -> p = 0%R) /\ fnum k y (sgn (negative x) (rnd k (IZR (shown x / 10 ^ 6) + p))) (negative x))).
Proof.
  intros Hf. rewrite text_fixed by done. destruct (shown_spec x) as (H0 & _). set (n := shown x) in *. clearbody n. destruct (fixed_decimal (negative x) n H0) as (ds & fs & Hd & E1 & E2 & El & _). rewrite (read_decimal k _ _ _ _ Hd).
  pose proof (Z.mod_pos_bound n (10 ^ 6) ltac:(lia)) as M. rewrite E1, E2. destruct (decide (n / 10 ^ 6 <= int_max)) as [Hl|Hl].
  - right. split; [done|]. rewrite decide_True by (split; [done|unfold int_max; lia]). eexists. split; [done|]. intros Hg. apply read_six; try done. split; [by apply Z.div_pos|done].
  - left. split; [lia|]. rewrite decide_False; [done|tauto].
Qed.
Lemma shown_unique x n : (Rabs (10 ^ 6 * Rabs (fvalue x) - IZR n) < / 2)%R -> shown x = n.
Proof.
  intros H. destruct (shown_spec x) as (_ & H1 & _). assert (E : (Rabs (IZR (shown x - n)) < 1)%R).
  { rewrite minus_IZR. apply Rabs_le_inv in H1. apply Rabs_lt_inv in H. apply Rabs_lt. lra. }
  rewrite <- abs_IZR in E. apply lt_IZR in E. lia.
Qed.
(** Large numbers of the format are multiples of a power of two. *)
Lemma multiple k (r : R) e : generic_format radix2 (fx k) r -> (bpow radix2 e <= Rabs r)%R -> exists w, r = (IZR w * bpow radix2 (e + 1 - fprec k))%R.
Proof.
  intros Hg Hr. rewrite Hg. unfold F2R. cbn [Fnum Fexp]. set (m := Ztrunc _). clearbody m. set (c := cexp radix2 (fx k) r). assert (Hc : e + 1 - fprec k <= c).
  { unfold c, cexp, SpecFloat.fexp. pose proof (mag_ge_bpow radix2 r (e + 1)) as G. replace (e + 1 - 1) with e in G by lia. specialize (G Hr). lia. }
  exists (m * 2 ^ (c - (e + 1 - fprec k))). rewrite mult_IZR, (IZR_Zpower radix2) by lia. rewrite Rmult_assoc, <- bpow_plus. do 2 f_equal. lia.
Qed.
(** The bound below which the integer part fits. *)
Lemma shown_fits x : shown x / 10 ^ 6 <= int_max <-> (Rabs (fvalue x) < 2147483648 - / 2000000)%R.
Proof.
  destruct (shown_spec x) as (H0 & H1 & H2). set (n := shown x) in *. clearbody n. assert (E : n / 10 ^ 6 <= int_max <-> n < 2147483648000000) by (unfold int_max; change (10 ^ 6) with 1000000; Z.to_euclidean_division_equations; lia). rewrite E. split.
  - intros Hn. assert (Hn' : n <= 2147483647999999) by lia. apply IZR_le in Hn'. apply Rabs_le_inv in H1. destruct (Rlt_or_le (Rabs (fvalue x)) (2147483648 - / 2000000)) as [L|L]; [done|]. exfalso.
    assert (Heq : (10 ^ 6 * Rabs (fvalue x) - IZR n = / 2)%R) by lra. rewrite Heq, Rabs_right in H2 by lra. specialize (H2 eq_refl). assert (Hz : (IZR n = 2147483647999999)%R) by lra. apply eq_IZR in Hz. subst n. destruct H2 as [q Hq]. lia.
  - intros Hx. apply lt_IZR. apply Rabs_le_inv in H1. lra.
Qed.
