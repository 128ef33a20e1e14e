(** C60-C62: float and double as text. *)
From Coq Require Import Ascii.
From Verif Require Export FloatSpec.
From Verif Require Import FloatProofs FloatReal4 StringsProofs.
From Coq Require Import SpecFloat Reals Lra.
From Flocq Require Import Core.Core.
Open Scope Z_scope.

(** C60: FromString for float and double accepts exactly the decimal fractions and rejects every other text (unless it overflows an int). *)
Lemma t_C60_accepts_exactly_decimals_partial :
  forall k s, float_of_text k s <> FpUB ->
    ((exists x, float_of_text k s = FpOk x) <-> exists neg ds fs, decimal s neg ds fs) /\
    (float_of_text k s = FpFail <-> forall neg ds fs, ~ decimal s neg ds fs).
Proof.
  intros k s Hu. pose proof (float_inv k s) as I. destruct (float_of_text k s) as [x| |] eqn:E; [| |done].
  - split; [split; eauto|]. split; [done|]. intros H. destruct I as (neg & ds & fs & I). by destruct (H neg ds fs).
  - assert (N : forall neg ds fs, ~ decimal s neg ds fs). { intros neg ds fs Hd. rewrite (read_decimal k _ _ _ _ Hd) in E. by destruct (decide _). }
    split; [|done]. split; [intros [? ?]; done|]. intros (neg & ds & fs & Hd). by destruct (N neg ds fs).
Qed.
(** C60: it runs into signed overflow exactly if the digits before the point, or those after it, make a number greater than INT_MAX. *)
Lemma t_C60_undefined_iff :
  forall k s, float_of_text k s = FpUB <-> overflows s.
Proof. intros k s. split; [intros E; pose proof (float_inv k s) as I; by rewrite E in I|]. intros H. by destruct (float_ub k s H) as [?|[_ []]]. Qed.
(** C60: the value read is a finite number of the type with the sign of the text, and it is the decimal value up to a relative error of (digits after the point + 4) / 2^precision. *)
Lemma t_C60_value_partial :
  forall k s neg ds fs x, decimal s neg ds fs -> float_of_text k s = FpOk x -> (length fs <= 37)%nat ->
    is_float k x /\ finite x = true /\ negative x = neg /\
    (Rabs (fvalue x - decimal_value neg ds fs) <= (INR (length fs) + 4) * powerRZ 2 (- fprec k) * Rabs (decimal_value neg ds fs))%R.
Proof.
  intros k s neg ds fs x Hd E Hl. rewrite (read_decimal k _ _ _ _ Hd) in E. destruct (decide _) as [[Hi Hf]|]; [|done]. injection E as <-. destruct Hd as (_ & _ & _ & Hds & Hfs & _).
  pose proof (number_nonneg ds Hds) as H0. pose proof (number_nonneg fs Hfs) as H1. destruct (read_value_near k neg ds fs (conj H0 Hi) (conj H1 Hf) Hl) as (y & (N1 & N2 & N3 & N4) & Hn). split; [done|]. split; [done|]. split; [done|]. rewrite N3.
  pose proof (near_final k _ _ (length fs + 3) ltac:(lia) Hn) as F. set (v := (IZR (number ds) + IZR (number fs) / 10 ^ length fs)%R) in *. assert (Ev : decimal_value neg ds fs = sgn neg v) by (unfold decimal_value; fold v; destruct neg; cbn [sgn]; ring).
  rewrite Ev, sgn_dist, sgn_abs. destruct Hn as (Hv & _). rewrite (Rabs_right v) by lra. eapply Rle_trans; [exact F|]. apply Req_le. unfold uu. rewrite bpow_powerRZ. change (IZR radix2) with 2%R.
  replace (INR (S (length fs + 3))) with (INR (length fs) + 4)%R; [done|]. replace (S (length fs + 3)) with (length fs + 4)%nat by lia. rewrite plus_INR. cbn. ring.
Qed.
(** C60: whole numbers that the type can represent (up to 2^24 for float, all ints for double) are read exactly. *)
Lemma t_C60_whole_numbers_exact :
  forall k s neg ds fs x, decimal s neg ds fs -> float_of_text k s = FpOk x -> (length fs <= 37)%nat -> number fs = 0 -> number ds <= 2 ^ fprec k ->
    fvalue x = (if neg then - IZR (number ds) else IZR (number ds))%R /\ negative x = neg.
Proof.
  intros k s neg ds fs x Hd E Hl H0 Hp. rewrite (read_decimal k _ _ _ _ Hd) in E. destruct (decide _) as [[Hi Hf]|]; [|done]. injection E as <-. destruct Hd as (_ & _ & _ & Hds & Hfs & _).
  pose proof (number_nonneg ds Hds) as Hn. unfold read_value. rewrite H0. destruct (coeff_near k (length fs) Hl) as (c & Nc & _). destruct (int_near k (number ds) (conj Hn Hi)) as [Ni _]. destruct (int_near k 0) as [Nf _]; [by unfold int_max|].
  rewrite rnd_int in Ni by lia. rewrite rnd_int in Nf by (by destruct k). pose proof (num_mul k _ _ _ _ false false Nf Nc) as Np. rewrite Rmult_0_l in Np. specialize (Np ltac:(by apply (small_int k 0))). rewrite (round_0 radix2) in Np by apply _. cbn [xorb] in Np.
  unfold int_max in Hi. pose proof (num_add k _ _ _ _ Ni Np) as Na. rewrite Rplus_0_r in Na. specialize (Na ltac:(apply small_int; lia)). rewrite rnd_int in Na by lia. destruct neg; [|destruct Na as (_ & _ & N3 & N4); done].
  destruct (num_opp k _ _ _ Na) as (_ & _ & N3 & N4); [|done]. rewrite <- abs_IZR. rewrite <- (IZR_Zpower radix2) by done. apply IZR_le. change (radix2 ^ 100) with (2 ^ 100). lia.
Qed.
(** C60: the value read is in general not the nearest number of the type: for "0.3" there is a double nearer to 0.3 than the one read. *)
Lemma t_C60_nearest_refuted :
  exists s x y, decimal s false [0] [3] /\ float_of_text F64 s = FpOk x /\ is_float F64 y /\
    (Rabs (fvalue y - decimal_value false [0%Z] [3%Z]) < Rabs (fvalue x - decimal_value false [0%Z] [3%Z]))%R.
Proof.
  exists (tx "0.3"), (S754_finite false 5404319552844596 (-54)), (S754_finite false 5404319552844595 (-54)). split; [|split; [vm_compute; reflexivity|split; [vm_compute; reflexivity|]]].
  - exists (tx ".3"). split; [vm_compute; reflexivity|]. split; [right; vm_compute; reflexivity|]. split; [repeat constructor; lia|]. split; [repeat constructor; lia|by left].
  - unfold decimal_value. cbn [fvalue number foldl length pow]. change (10 * 0 + 0) with 0. change (10 * 0 + 3) with 3. replace (powerRZ 2 (-54)) with (/ IZR (2 ^ 54))%R by (rewrite <- powerRZ_IZR by lia; symmetry; apply (powerRZ_neg' 2 54)).
    change (2 ^ 54) with 18014398509481984. rewrite (Rabs_left (_ - _)) by lra. rewrite (Rabs_right (_ - _)) by lra. lra.
Qed.
(** C60: decimal fractions with a whole part of 2147483648 or more, or with digits after the point that exceed INT_MAX as a number, are neither rejected nor read. *)
Lemma t_C60_overflow_refuted :
  exists s1 ds1 s2 ds2 fs2, decimal s1 false ds1 [] /\ decimal s2 false ds2 fs2 /\ number ds2 = 0 /\ (length fs2 = 10)%nat /\ forall k, float_of_text k s1 = FpUB /\ float_of_text k s2 = FpUB.
Proof.
  exists (tx "3000000000"), [3; 0; 0; 0; 0; 0; 0; 0; 0; 0], (tx "0.3333333333"), [0], [3; 3; 3; 3; 3; 3; 3; 3; 3; 3]. split; [|split; [|split; [done|split; [done|intros []; split; vm_compute; reflexivity]]]].
  - exists []. split; [vm_compute; reflexivity|]. split; [by left|]. split; [repeat (apply Forall_cons; split; [lia|]); constructor|]. split; [constructor|by left].
  - exists (tx ".3333333333"). split; [vm_compute; reflexivity|]. split; [right; vm_compute; reflexivity|]. split; [repeat (apply Forall_cons; split; [lia|]); constructor|]. split; [repeat (apply Forall_cons; split; [lia|]); constructor|by left].
Qed.

(** C61: the text of a finite number is an optional '-', the whole part without leading zeros, a point and six digits, and the number shown is the multiple of a millionth nearest to the value, the even one of two. *)
Lemma t_C61_text_is_nearest :
  forall x, finite x = true -> exists ds fs, text_of_float x = sign (negative x) ++ map digit_char ds ++ point :: map digit_char fs /\ digits ds /\ digits fs /\
    ds <> [] /\ (ds = [0] \/ hd 0 ds <> 0) /\ length fs = 6%nat /\
    (Rabs (10 ^ 6 * Rabs (fvalue x) - IZR (number (ds ++ fs))) <= / 2)%R /\
    ((Rabs (10 ^ 6 * Rabs (fvalue x) - IZR (number (ds ++ fs))) = / 2)%R -> Z.Even (number (ds ++ fs))).
Proof.
  intros x Hf. rewrite text_fixed by done. destruct (shown_spec x) as (H0 & H1 & H2). destruct (fixed_decimal (negative x) _ H0) as (ds & fs & (tail & E & Ht & Hd & Hfs & _) & E1 & E2 & El & Hne & Hz). exists ds, fs.
  assert (En : number (ds ++ fs) = shown x). { rewrite number_app, El, E1, E2. change (10 ^ Z.of_nat 6) with (10 ^ 6). pose proof (Z.div_mod (shown x) (10 ^ 6) ltac:(lia)). lia. }
  rewrite En. split; [|split_and!; done]. rewrite E. destruct Ht as [[-> ->]| ->]; done.
Qed.
(** C61: the other numbers have texts that FromString rejects. *)
Lemma t_C61_special :
  forall k x, finite x = false -> text_of_float x <> [] /\ float_of_text k (text_of_float x) = FpFail.
Proof.
  intros k [s|s| |s m e] H; cbn [finite] in H; try discriminate H.
  - destruct s, k; (split; [discriminate|vm_compute; reflexivity]).
  - destruct k; (split; [discriminate|vm_compute; reflexivity]).
Qed.
(** C61: different signs and different numbers of millionths have different texts, equal ones the same. *)
Lemma t_C61_same_text_iff :
  forall x y, finite x = true -> finite y = true ->
    (text_of_float x = text_of_float y <-> negative x = negative y /\ exists n, (Rabs (10 ^ 6 * Rabs (fvalue x) - IZR n) <= / 2)%R /\ (Rabs (10 ^ 6 * Rabs (fvalue y) - IZR n) <= / 2)%R /\
      ((Rabs (10 ^ 6 * Rabs (fvalue x) - IZR n) = / 2)%R \/ (Rabs (10 ^ 6 * Rabs (fvalue y) - IZR n) = / 2)%R -> Z.Even n)).
Proof.
  intros x y Hx Hy. rewrite !text_fixed by done. destruct (shown_spec x) as (X0 & X1 & X2). destruct (shown_spec y) as (Y0 & Y1 & Y2). split.
  - intros E. destruct (fixed_decimal (negative x) _ X0) as (ds & fs & (tail & E1 & Ht & Hd & Hfs & _) & A1 & A2 & Al & Hne & _). destruct (fixed_decimal (negative y) _ Y0) as (es & gs & (tail' & E2 & Ht' & He & Hgs & _) & B1 & B2 & Bl & Hne' & _).
    rewrite E1, E2 in E. assert (T : tail = "."%char :: map digit_char fs) by (destruct Ht as [[-> ->]|]; done). assert (T' : tail' = "."%char :: map digit_char gs) by (destruct Ht' as [[-> ->]|]; done). subst tail tail'.
    assert (S : negative x = negative y /\ map digit_char ds ++ "."%char :: map digit_char fs = map digit_char es ++ "."%char :: map digit_char gs).
    { destruct (negative x), (negative y); cbn [sign app] in E; [injection E as E; done| | |done]; exfalso.
      - pose proof (head_digits es ("."%char :: map digit_char gs) He) as Hh. rewrite <- E in Hh. by apply Hh.
      - pose proof (head_digits ds ("."%char :: map digit_char fs) Hd) as Hh. rewrite E in Hh. by apply Hh. }
    destruct S as [S1 S2]. split; [done|]. assert (Q : shown x = shown y).
    { assert (L : length (map digit_char ds) = length (map digit_char es)). { apply (f_equal length) in S2. rewrite !app_length in S2. cbn in S2. rewrite !map_length in *. lia. }
      apply app_inj_1 in S2 as [S2 S3]; [|done]. injection S3 as S3. apply map_digit_inj in S2; [|done..]. apply map_digit_inj in S3; [|done..]. subst es gs. rewrite (Z.div_mod (shown x) (10 ^ 6)), (Z.div_mod (shown y) (10 ^ 6)) by lia. congruence. }
    exists (shown x). split; [done|]. rewrite Q in *. split; [done|]. intros [?|?]; auto.
  - intros (-> & n & H1 & H2 & H3). f_equal. assert (U : forall z, (Rabs (10 ^ 6 * Rabs (fvalue z) - IZR n) <= / 2)%R -> ((Rabs (10 ^ 6 * Rabs (fvalue z) - IZR n) = / 2)%R -> Z.Even n) -> shown z = n).
    { intros z Z1 Z2. destruct (shown_spec z) as (_ & Z3 & Z4). assert (D : (Rabs (IZR (shown z - n)) <= 1)%R) by (rewrite minus_IZR; apply Rabs_le_inv in Z1; apply Rabs_le_inv in Z3; apply Rabs_le; lra). rewrite <- abs_IZR in D. apply le_IZR in D.
      destruct (Z.eq_dec (shown z) n) as [|Hne]; [done|]. exfalso. set (r := (10 ^ 6 * Rabs (fvalue z))%R) in *. assert (W : (IZR (shown z) = IZR n + 1 \/ IZR (shown z) = IZR n - 1)%R).
      { assert (shown z = n + 1 \/ shown z = n - 1) as [-> | ->] by lia; [left; by rewrite plus_IZR|right; by rewrite minus_IZR]. }
      assert (Ha : Rabs (r - IZR n) = (/ 2)%R /\ Rabs (r - IZR (shown z)) = (/ 2)%R). { apply Rabs_le_inv in Z1. apply Rabs_le_inv in Z3. destruct W as [W|W]; rewrite W in *; split; (rewrite Rabs_right by lra; lra) || (rewrite Rabs_left by lra; lra). }
      destruct Ha as [Ha Hb]. destruct (Z2 Ha) as [q ->]. destruct (Z4 Hb) as [q' Hq']. lia. }
    rewrite (U x), (U y); auto.
Qed.

(** C62: the text of a finite number can be read back exactly if the whole part shown fits an int; beyond that reading it is undefined. *)
Lemma t_C62_unreadable_iff :
  forall k x, finite x = true -> (float_of_text k (text_of_float x) = FpUB <-> (2147483648 - / 2000000 <= Rabs (fvalue x))%R) /\ float_of_text k (text_of_float x) <> FpFail.
Proof.
  intros k x Hf. pose proof (shown_fits x) as F. destruct (reread k x Hf) as [[H E]|[H (y & E & _)]]; rewrite E; (split; [|done]); split; try done.
  - intros _. destruct (Rlt_or_le (Rabs (fvalue x)) (2147483648 - / 2000000)) as [L|L]; [|done]. apply F in L. lia.
  - intros L. apply F in H. lra.
Qed.
Lemma whole k x z : is_float k x -> finite x = true -> fvalue x = IZR z -> (Rabs (fvalue x) < 2147483648 - / 2000000)%R -> float_of_text k (text_of_float x) = FpOk x.
Proof.
  intros Hk Hf Hz Hb. assert (Es : shown x = Z.abs z * 10 ^ 6). { apply shown_unique. rewrite Hz, <- abs_IZR, mult_IZR. change (IZR (10 ^ 6)) with (IZR (10 ^ Z.of_nat 6)). rewrite <- (pow_IZR 10 6). replace (10 ^ 6 * IZR (Z.abs z) - IZR (Z.abs z) * 10 ^ 6)%R with 0%R by ring. rewrite Rabs_R0. lra. }
  assert (Ei : shown x / 10 ^ 6 = Z.abs z) by (rewrite Es; apply Z.div_mul; lia). assert (Em : shown x mod 10 ^ 6 = 0) by (rewrite Es; apply Z.mod_mul; lia). apply shown_fits in Hb.
  destruct (reread k x Hf) as [[H E]|[H (y & E & K)]]; [lia|]. rewrite E. f_equal. rewrite Ei in K. assert (G : generic_format radix2 (fx k) (IZR (Z.abs z))).
  { rewrite abs_IZR, <- Hz. apply generic_format_abs. eapply (num_format k x _ (negative x)). done. }
  destruct (K G) as (p & _ & _ & Hp & N). rewrite (Hp Em), Rplus_0_r in N. rewrite (round_generic radix2 (fx k) ZnearestE _ G) in N. rewrite abs_IZR, <- Hz, <- fvalue_sgn in N. symmetry. eapply num_unique; [|exact N]. done.
Qed.
(** C62: whole numbers are read back exactly. *)
Lemma t_C62_whole_numbers :
  forall k x z, is_float k x -> finite x = true -> fvalue x = IZR z -> (Rabs (fvalue x) < 2147483648)%R -> float_of_text k (text_of_float x) = FpOk x.
Proof.
  intros k x z Hk Hf Hz Hb. apply (whole k x z); try done. rewrite Hz in *. rewrite <- abs_IZR in *. apply lt_IZR in Hb. assert (Hb' : Z.abs z <= 2147483647) by lia. apply IZR_le in Hb'. lra.
Qed.
Lemma shown_near x : finite x = true -> (Rabs (Rabs (fvalue x) - (IZR (shown x / 10 ^ 6) + IZR (shown x mod 10 ^ 6) / 10 ^ 6)) <= / 2000000)%R.
Proof.
  intros _. destruct (shown_spec x) as (_ & H & _). assert (E : (IZR (shown x / 10 ^ 6) + IZR (shown x mod 10 ^ 6) / 10 ^ 6 = IZR (shown x) / 10 ^ 6)%R).
  { rewrite (Z.div_mod (shown x) (10 ^ 6)) at 3 by lia. rewrite plus_IZR, mult_IZR. change (IZR (10 ^ 6)) with (IZR (10 ^ Z.of_nat 6)). rewrite <- (pow_IZR 10 6). field. }
  rewrite E. apply Rabs_le_inv in H. apply Rabs_le. lra.
Qed.
(** C62: a double is read back within 7/10^7, and writing the result gives the same text again. *)
Lemma t_C62_double_partial :
  forall x, is_float F64 x -> finite x = true -> (Rabs (fvalue x) < 2147483648 - / 2000000)%R ->
    exists y, float_of_text F64 (text_of_float x) = FpOk y /\ is_float F64 y /\ finite y = true /\ (Rabs (fvalue y - fvalue x) <= 7 / 10 ^ 7)%R /\ text_of_float y = text_of_float x.
Proof.
  intros x Hk Hf Hb. apply shown_fits in Hb. destruct (reread F64 x Hf) as [[H E]|[H (y & E & K)]]; [lia|]. exists y. destruct (shown_spec x) as (S0 & _). pose proof (Z.div_pos (shown x) (10 ^ 6) S0 ltac:(lia)) as I0. pose proof (Z.mod_pos_bound (shown x) (10 ^ 6) ltac:(lia)) as M0.
  pose proof (shown_near x Hf) as Hn. destruct K as (p & Hp & Hd & Hp0 & N1 & N2 & N3 & N4). { apply int_format. unfold int_max in H. cbn. lia. }
  set (i := shown x / 10 ^ 6) in *. set (f := shown x mod 10 ^ 6) in *. assert (Ei : (0 <= IZR i <= 2147483647)%R) by (split; apply IZR_le; unfold int_max in H; lia).
  assert (Er : (Rabs (rnd F64 (IZR i + p) - (IZR i + p)) <= / 2 * bpow radix2 (31 - 53))%R). { apply (rnd_err F64 (IZR i + p) 31); [|done]. rewrite Rabs_right by lra. change (bpow radix2 31) with 2147483648%R. lra. }
  change (bpow radix2 (31 - 53)) with (/ IZR 4194304)%R in Er. cbn [dl] in Hd. apply Rabs_le_inv in Er. apply Rabs_le_inv in Hd. apply Rabs_le_inv in Hn.
  assert (Y0 : (0 <= rnd F64 (IZR i + p))%R) by (apply rnd_ge0; lra). split; [done|]. split; [done|]. split; [done|]. split.
  - rewrite N3, (fvalue_sgn x), sgn_dist. apply Rabs_le. lra.
  - rewrite (text_fixed y), (text_fixed x), N4 by done. f_equal. apply shown_unique. rewrite N3, sgn_abs, (Rabs_right (rnd _ _)) by lra.
    assert (Es : (IZR (shown x) = 10 ^ 6 * (IZR i + IZR f / 10 ^ 6))%R). { rewrite (Z.div_mod (shown x) (10 ^ 6)) by lia. fold i f. rewrite plus_IZR, mult_IZR. change (IZR (10 ^ 6)) with (IZR (10 ^ Z.of_nat 6)). rewrite <- (pow_IZR 10 6). field. }
    rewrite Es. apply Rabs_lt. lra.
Qed.
(** C62: a float is read back within 12/10^7; from 16 on exactly; below 8 writing the result gives the same text again. *)
Lemma t_C62_float_partial :
  forall x, is_float F32 x -> finite x = true -> (Rabs (fvalue x) < 2147483648 - / 2000000)%R ->
    exists y, float_of_text F32 (text_of_float x) = FpOk y /\ is_float F32 y /\ finite y = true /\ (Rabs (fvalue y - fvalue x) <= 12 / 10 ^ 7)%R /\
      ((16 <= Rabs (fvalue x))%R -> y = x) /\ ((Rabs (fvalue x) < 8)%R -> text_of_float y = text_of_float x).
Proof.
  intros x Hk Hf Hb. assert (Gx : generic_format radix2 (fx F32) (Rabs (fvalue x))) by (apply generic_format_abs; by eapply (num_format F32 x _ (negative x))).
  assert (Whole : forall z, fvalue x = IZR z -> exists y, float_of_text F32 (text_of_float x) = FpOk y /\ is_float F32 y /\ finite y = true /\ (Rabs (fvalue y - fvalue x) <= 12 / 10 ^ 7)%R /\ ((16 <= Rabs (fvalue x))%R -> y = x) /\ ((Rabs (fvalue x) < 8)%R -> text_of_float y = text_of_float x)).
  { intros z Hz. exists x. rewrite (whole F32 x z) by done. split_and!; try done. rewrite Rminus_eq_0, Rabs_R0. lra. }
  destruct (Rle_or_lt 16777216 (Rabs (fvalue x))) as [L|L].
  { destruct (multiple F32 _ 24 Gx) as [w Hw]; [rewrite Rabs_Rabsolu; exact L|]. cbn [fprec] in Hw. change (bpow radix2 (24 + 1 - 24)) with 2%R in Hw. apply (Whole (if negative x then - (w * 2) else w * 2)). rewrite (fvalue_sgn x), Hw. destruct (negative x); cbn [sgn]; rewrite ?opp_IZR, mult_IZR; ring. }
  clear Whole. apply shown_fits in Hb. destruct (reread F32 x Hf) as [[H E]|[H (y & E & K)]]; [lia|]. exists y. destruct (shown_spec x) as (S0 & _). pose proof (Z.div_pos (shown x) (10 ^ 6) S0 ltac:(lia)) as I0. pose proof (Z.mod_pos_bound (shown x) (10 ^ 6) ltac:(lia)) as M0.
  pose proof (shown_near x Hf) as Hn. set (i := shown x / 10 ^ 6) in *. set (f := shown x mod 10 ^ 6) in *.
  assert (F0 : (0 <= IZR f <= 999999)%R) by (split; apply IZR_le; lia). assert (I0' : (0 <= IZR i)%R) by (by apply IZR_le).
  assert (Hi : forall n, (Rabs (fvalue x) < IZR n)%R -> i < n \/ (i = n /\ f = 0)).
  { intros n Hx. apply Rabs_le_inv in Hn. assert (Hl : (10 ^ 6 * IZR i + IZR f < 10 ^ 6 * IZR n + 1)%R) by lra. change (10 ^ 6)%R with (IZR 10 ^ 6)%R in Hl. rewrite (pow_IZR 10 6) in Hl. rewrite <- !mult_IZR, <- !plus_IZR in Hl. apply lt_IZR in Hl. change (10 ^ Z.of_nat 6) with 1000000 in Hl. lia. }
  assert (Hi24 : Z.abs i <= 2 ^ fprec F32). { change (2 ^ fprec F32) with 16777216. destruct (Hi 16777216 L); lia. }
  destruct K as (p & Hp & Hd & Hp0 & N). { by apply int_format. } pose proof N as (N1 & N2 & N3 & N4). cbn [dl] in Hd. apply Rabs_le_inv in Hd. apply Rabs_le_inv in Hn.
  assert (Y0 : (0 <= rnd F32 (IZR i + p))%R) by (apply rnd_ge0; lra). assert (Y1 : (rnd F32 (IZR i + 0) = IZR i)%R) by (rewrite Rplus_0_r; by apply rnd_int).
  assert (Es : (IZR (shown x) = 10 ^ 6 * (IZR i + IZR f / 10 ^ 6))%R). { rewrite (Z.div_mod (shown x) (10 ^ 6)) by lia. fold i f. rewrite plus_IZR, mult_IZR. change (IZR (10 ^ 6)) with (IZR (10 ^ Z.of_nat 6)). rewrite <- (pow_IZR 10 6). field. }
  assert (Exact : (16 <= Rabs (fvalue x))%R -> y = x).
  { intros Hx. set (s := (IZR i + p)%R) in *. assert (Hi16 : 16 <= i). { assert (Hl : (10 ^ 6 * 16 - 1 < 10 ^ 6 * IZR i + IZR f)%R) by lra. change (10 ^ 6)%R with (IZR 10 ^ 6)%R in Hl. rewrite (pow_IZR 10 6) in Hl. rewrite <- !mult_IZR, <- minus_IZR, <- plus_IZR in Hl. apply lt_IZR in Hl. change (10 ^ Z.of_nat 6) with 1000000 in Hl. lia. }
    apply IZR_le in Hi16. assert (G16 : generic_format radix2 (fx F32) 16) by (apply (int_format F32 16); done). assert (Y16 : (16 <= rnd F32 s)%R). { rewrite <- (round_generic radix2 (fx F32) ZnearestE 16 G16). apply round_le; try apply _. unfold s. lra. }
    assert (Gy : generic_format radix2 (fx F32) (rnd F32 s)) by (apply generic_format_round; apply _). pose proof (round_N_pt radix2 (fx F32) (fun n => negb (Z.even n)) s) as [_ Hbest]. specialize (Hbest _ Gx). change (Znearest (fun n => negb (Z.even n))) with ZnearestE in Hbest.
    assert (Hsx : (Rabs (Rabs (fvalue x) - s) <= / 2000000 + / 6666666)%R) by (apply Rabs_le; unfold s; lra).
    destruct (multiple F32 _ 4 Gx) as [w1 W1]; [change (bpow radix2 4) with 16%R; rewrite Rabs_Rabsolu; done|]. destruct (multiple F32 _ 4 Gy) as [w2 W2]; [change (bpow radix2 4) with 16%R; rewrite Rabs_right by lra; done|].
    cbn [fprec] in W1, W2. change (bpow radix2 (4 + 1 - 24)) with (/ IZR 524288)%R in W1, W2. assert (D : (Rabs (rnd F32 s - Rabs (fvalue x)) <= / 1000000 + / 3333333)%R). { pose proof (Rle_trans _ _ _ Hbest Hsx) as B. apply Rabs_le_inv in B. apply Rabs_le_inv in Hsx. apply Rabs_le. lra. }
    assert (W2' : rnd F32 s = (IZR w2 * / IZR 524288)%R) by exact W2. clear W2. assert (W2 := W2'). assert (w1 = w2) as Ew. { rewrite W1, W2 in D. apply Rabs_le_inv in D. assert (Q : (-1 < IZR (w2 - w1) < 1)%R) by (rewrite minus_IZR; lra). destruct Q as [Q1 Q2]. apply lt_IZR in Q2. apply (lt_IZR (-1)) in Q1. lia. }
    assert (Ey : rnd F32 s = Rabs (fvalue x)) by (rewrite W1, W2, Ew; done). rewrite Ey, <- fvalue_sgn in N. symmetry. eapply num_unique; [|exact N]. done. }
  assert (Err : forall e, (Rabs (fvalue x) < bpow radix2 e)%R -> (exists n, bpow radix2 e = IZR n) -> -100 <= e -> (Rabs (rnd F32 (IZR i + p) - (IZR i + p)) <= / 2 * bpow radix2 (e - 24))%R).
  { intros e He [n En] Hl. rewrite En in He. destruct (Hi n He) as [Hlt|[-> Hz]].
    - apply (rnd_err F32 (IZR i + p) e); [|cbn; lia]. rewrite Rabs_right by lra. rewrite En. assert (Hle : i + 1 <= n) by lia. apply IZR_le in Hle. rewrite plus_IZR in Hle. lra.
    - rewrite (Hp0 Hz) in *. rewrite Y1. rewrite Rplus_0_r, Rminus_eq_0, Rabs_R0. pose proof (bpow_ge_0 radix2 (e - 24)). lra. }
  split; [done|]. split; [done|]. split; [done|]. split; [|split; [done|]].
  - destruct (Rle_or_lt 16 (Rabs (fvalue x))) as [Hx|Hx]; [rewrite (Exact Hx), Rminus_eq_0, Rabs_R0; lra|]. pose proof (Err 4 Hx ltac:(by exists 16) ltac:(lia)) as Er. change (bpow radix2 (4 - 24)) with (/ IZR 1048576)%R in Er. rewrite N3, (fvalue_sgn x), sgn_dist. apply Rabs_le_inv in Er. apply Rabs_le. lra.
  - intros Hx. pose proof (Err 3 Hx ltac:(by exists 8) ltac:(lia)) as Er. change (bpow radix2 (3 - 24)) with (/ IZR 2097152)%R in Er. apply Rabs_le_inv in Er. rewrite (text_fixed y), (text_fixed x), N4 by done. f_equal. apply shown_unique. rewrite N3, sgn_abs, (Rabs_right (rnd _ _)) by lra. rewrite Es. apply Rabs_lt. lra.
Qed.
(** C62: between 8 and 16 the text of a float can change when it is read and written again. *)
Lemma t_C62_float_text_changes_refuted :
  exists x y, is_float F32 x /\ finite x = true /\ text_of_float x = tx "15.726790" /\ float_of_text F32 (text_of_float x) = FpOk y /\ text_of_float y = tx "15.726789".
Proof. exists (S754_finite false 16490735 (-20)), (S754_finite false 16490734 (-20)). repeat split; vm_compute; reflexivity. Qed.
(** C62: small numbers are lost, and large ones cannot be read back at all. *)
Lemma t_C62_not_identity_refuted :
  exists x y, is_float F64 x /\ finite x = true /\ (0 < fvalue x)%R /\ float_of_text F64 (text_of_float x) = FpOk (S754_zero false) /\
    is_float F64 y /\ finite y = true /\ text_of_float y = tx "3000000000.000000" /\ float_of_text F64 (text_of_float y) = FpUB.
Proof.
  exists (S754_finite false 4503599627370496 (-80)), (S754_finite false 6291456000000000 (-21)). split; [vm_compute; reflexivity|]. split; [done|]. split; [|repeat split; vm_compute; reflexivity].
  cbn [fvalue]. rewrite Rmult_1_l. apply Rmult_lt_0_compat; [lra|]. apply powerRZ_lt. lra.
Qed.
