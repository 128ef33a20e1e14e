(** Decimal numerals: printing and parsing. *)
From Verif Require Import StringsModel StringsSpec.
From Coq Require Import Ascii.
Open Scope Z_scope.

Lemma number_snoc ds d : number (ds ++ [d]) = 10 * number ds + d.
Proof. unfold number. by rewrite foldl_app. Qed.
Lemma number_acc a ds : foldl (fun a d => 10 * a + d) a ds = a * 10 ^ Z.of_nat (length ds) + number ds.
Proof.
  revert a. unfold number. induction ds as [|d ds IH]; intros a; cbn [foldl length]; [cbn; lia|].
  rewrite IH, (IH (10 * 0 + d)). rewrite Nat2Z.inj_succ, Z.pow_succ_r by lia. lia.
Qed.
Lemma number_nonneg ds : digits ds -> 0 <= number ds.
Proof.
  unfold number, digits. assert (forall a, 0 <= a -> Forall (fun d => 0 <= d <= 9) ds -> 0 <= foldl (fun a d => 10 * a + d) a ds) as H; [|by apply H].
  induction ds as [|d ds IH]; intros a Ha Hd; cbn [foldl]; [done|]. inversion Hd; subst. apply IH; [lia|done].
Qed.

Lemma byte_digit d : 0 <= d <= 9 -> byte (digit_char d) = 48 + d.
Proof.
  intros H. unfold byte, digit_char. rewrite nat_ascii_embedding by lia. lia.
Qed.
Lemma is_digit_char d : 0 <= d <= 9 -> is_digit (digit_char d) = true.
Proof. intros H. unfold is_digit. rewrite byte_digit by done. apply andb_true_iff. split; apply Z.leb_le; lia. Qed.
Lemma is_digit_inv c : is_digit c = true -> c = digit_char (byte c - 48) /\ 0 <= byte c - 48 <= 9.
Proof.
  unfold is_digit. intros H. apply andb_true_iff in H as [H1 H2]. apply Z.leb_le in H1. apply Z.leb_le in H2. split; [|lia].
  apply byte_inj. rewrite byte_digit; lia.
Qed.
Lemma digit_not_minus d : 0 <= d <= 9 -> digit_char d <> "-"%char.
Proof. intros H E. apply (f_equal byte) in E. rewrite byte_digit in E by done. change (byte "-"%char) with 45 in E. lia. Qed.
Lemma digit_char_inj d e : 0 <= d <= 9 -> 0 <= e <= 9 -> digit_char d = digit_char e -> d = e.
Proof. intros H1 H2 E. apply (f_equal byte) in E. rewrite !byte_digit in E by done. lia. Qed.

Local Opaque digit_char.
Lemma digits_spec fuel : forall n acc, 0 <= n < 2 ^ Z.of_nat (S fuel) ->
  exists ds, digits_fuel (S fuel) n acc = map digit_char ds ++ acc /\ digits ds /\ ds <> [] /\ number ds = n /\ (n <> 0 -> hd 0 ds <> 0) /\ (n = 0 -> ds = [0]).
Proof.
  induction fuel as [|fuel IH]; intros n acc Hn.
  - exists [n]. change (2 ^ Z.of_nat 1) with 2 in Hn. cbn [digits_fuel]. assert (n <? 10 = true) as -> by (apply Z.ltb_lt; lia).
    rewrite Z.mod_small by lia. repeat split; try done; try lia. { constructor; [lia|constructor]. } { by intros ->. }
  - cbn [digits_fuel]. destruct (Z.ltb_spec n 10) as [Hl|Hl].
    + exists [n]. rewrite Z.mod_small by lia. repeat split; try done; try lia. { constructor; [lia|constructor]. } { by intros ->. }
    + rewrite (Nat2Z.inj_succ (S fuel)), Z.pow_succ_r in Hn by lia.
      assert (0 <= n / 10 < 2 ^ Z.of_nat (S fuel)) as Hd.
      { split; [apply Z.div_pos; lia|]. apply Z.div_lt_upper_bound; [lia|]. lia. }
      destruct (IH (n / 10) (digit_char (n mod 10) :: acc) Hd) as (ds & E & Hds & Hne & Hnum & Hhd & _).
      exists (ds ++ [n mod 10]). rewrite map_app, <- app_assoc. cbn [map app].
      pose proof (Z.mod_pos_bound n 10 ltac:(lia)) as Hm. pose proof (Z.div_mod n 10 ltac:(lia)) as Hdm.
      repeat split; [exact E| | | | |].
      * apply Forall_app. split; [done|]. constructor; [lia|constructor].
      * by destruct ds.
      * rewrite number_snoc, Hnum. lia.
      * intros _. destruct ds as [|d ds]; [done|]. cbn [app hd]. apply Hhd. assert (1 <= n / 10) by (apply Z.div_le_lower_bound; lia). lia.
      * intros ->. lia.
Qed.
Lemma dec_nonneg_spec n : 0 <= n -> exists ds, dec_nonneg n = map digit_char ds /\ digits ds /\ ds <> [] /\ number ds = n /\ (n <> 0 -> hd 0 ds <> 0) /\ (n = 0 -> ds = [0]).
Proof.
  intros Hn. unfold dec_nonneg. destruct (digits_spec (Z.to_nat (Z.log2 n)) n []) as (ds & E & H).
  - split; [done|]. rewrite Nat2Z.inj_succ, Z2Nat.id by apply Z.log2_nonneg.
    destruct (Z.eq_dec n 0) as [->|]; [cbn; lia|]. pose proof (Z.log2_spec n ltac:(lia)). lia.
  - exists ds. rewrite E, app_nil_r. done.
Qed.
(** std::to_string writes a numeral of the number without needless zeros. *)
Lemma dec_spec z : exists neg ds, numeral (dec z) neg ds /\ numeral_value neg ds = z /\ neg = (z <? 0) /\ (z <> 0 -> hd 0 ds <> 0) /\ (z = 0 -> ds = [0]).
Proof.
  unfold dec. destruct (Z.ltb_spec z 0) as [H|H].
  - destruct (dec_nonneg_spec (- z)) as (ds & E & Hd & Hne & Hv & Hh & _); [lia|]. exists true, ds. unfold numeral, numeral_value. rewrite E, Hv.
    repeat split; try done; [lia| |lia]. intros _. apply Hh. lia.
  - destruct (dec_nonneg_spec z) as (ds & E & Hd & Hne & Hv & Hh & Hz); [lia|]. exists false, ds. unfold numeral, numeral_value. rewrite E, Hv. done.
Qed.

(** ** Reduction to the type *)
Lemma wrap_reduced t z : reduced t z (wrap t z).
Proof.
  unfold reduced, wrap, imin, imax. destruct (isigned t) eqn:Es.
  - assert (2 ^ ibits t = 2 * 2 ^ (ibits t - 1)) as E2 by (rewrite <- Z.pow_succ_r by (destruct t; cbn; lia); f_equal; lia).
    assert (0 < 2 ^ (ibits t - 1)) by (apply Z.pow_pos_nonneg; [lia|destruct t; cbn; lia]).
    pose proof (Z.mod_pos_bound (z + 2 ^ (ibits t - 1)) (2 ^ ibits t) ltac:(lia)) as Hm. split; [lia|].
    exists (- ((z + 2 ^ (ibits t - 1)) / 2 ^ ibits t)). pose proof (Z.div_mod (z + 2 ^ (ibits t - 1)) (2 ^ ibits t) ltac:(lia)). lia.
  - assert (0 < 2 ^ ibits t) by (apply Z.pow_pos_nonneg; [lia|destruct t; cbn; lia]).
    pose proof (Z.mod_pos_bound z (2 ^ ibits t) ltac:(lia)) as Hm. split; [lia|].
    exists (- (z / 2 ^ ibits t)). pose proof (Z.div_mod z (2 ^ ibits t) ltac:(lia)). lia.
Qed.
Lemma range_width t : imax t - imin t = 2 ^ ibits t - 1.
Proof. destruct t; reflexivity. Qed.
Lemma reduced_unique t z a b : reduced t z a -> reduced t z b -> a = b.
Proof.
  intros (Ha & i & ->) (Hb & j & E). pose proof (range_width t). assert (0 < 2 ^ ibits t) by (destruct t; cbn; lia).
  assert (i = j); [|lia]. rewrite E in Hb.
  destruct (Z.lt_trichotomy i j) as [?|[?|?]]; [|done|]; exfalso.
  - assert ((j - i) * 2 ^ ibits t >= 2 ^ ibits t) by nia. lia.
  - assert ((i - j) * 2 ^ ibits t >= 2 ^ ibits t) by nia. lia.
Qed.
Lemma reduced_small t z : imin t <= z <= imax t -> reduced t z z.
Proof. intros H. split; [done|]. exists 0. lia. Qed.
Lemma reduced_lin t a a' m c z : reduced t a a' -> reduced t (a' * m + c) z -> reduced t (a * m + c) z.
Proof. intros (_ & i & ->) (Hz & j & ->). split; [done|]. exists (i * m + j). lia. Qed.
Lemma wrap_eq t z z' : reduced t z z' -> wrap t z = z'.
Proof. intros H. eapply reduced_unique; [apply wrap_reduced|done]. Qed.

Lemma arith_wrap t z : no_wrap t = false -> arith t z = Some (wrap t z).
Proof. by destruct t. Qed.
Lemma arith_in t z : no_wrap t = true -> imin t <= z <= imax t -> arith t z = Some z.
Proof. intros Ht H. destruct t; try done; unfold arith; by rewrite decide_True. Qed.
Lemma arith_out t z : no_wrap t = true -> ~ (imin t <= z <= imax t) -> arith t z = None.
Proof. intros Ht H. destruct t; try done; unfold arith; by rewrite decide_False. Qed.
Lemma min_nonpos t : imin t <= 0 <= imax t.
Proof. destruct t; cbn; lia. Qed.

(** ** The digit loop *)
Lemma loop_wrap t : no_wrap t = false -> forall s a res, reduced t a res ->
  match from_digits t res s with
  | LOk z => exists ds, s = map digit_char ds /\ digits ds /\ reduced t (foldl (fun a d => 10 * a + d) a ds) z
  | LFail => ~ Forall (fun c => is_digit c = true) s
  | LUB => False
  end.
Proof.
  intros Ht. induction s as [|c s IH]; intros a res Hr; cbn [from_digits].
  - exists []. split; [done|]. split; [constructor|done].
  - destruct (is_digit c) eqn:Ec; [|intros H; inversion H; subst; congruence].
    rewrite !arith_wrap by done. destruct (is_digit_inv c Ec) as [Ed Hd]. set (d := byte c - 48) in *.
    assert (reduced t (10 * a + d) (wrap t (wrap t (res * 10) + d))) as Hr'.
    { replace (10 * a + d) with (a * 10 + d) by lia. eapply reduced_lin; [exact Hr|].
      pose proof (wrap_reduced t (res * 10)) as H1. pose proof (wrap_reduced t (wrap t (res * 10) + d)) as H2.
      replace (res * 10 + d) with ((res * 10) * 1 + d) by lia. eapply reduced_lin; [exact H1|]. by rewrite Z.mul_1_r. }
    specialize (IH (10 * a + d) _ Hr'). destruct (from_digits t _ s) as [z| |]; [|intros H; apply Forall_cons in H as [_ H]; by apply IH|done].
    destruct IH as (ds & -> & Hds & Hz). exists (d :: ds). split; [cbn [map app]; by rewrite <- Ed|]. split; [by constructor|done].
Qed.
Lemma loop_nowrap t : no_wrap t = true -> forall s a, 0 <= a <= imax t ->
  match from_digits t a s with
  | LOk z => exists ds, s = map digit_char ds /\ digits ds /\ z = foldl (fun a d => 10 * a + d) a ds /\ 0 <= z <= imax t
  | LFail => ~ Forall (fun c => is_digit c = true) s
  | LUB => exists ds s', s = map digit_char ds ++ s' /\ digits ds /\ imax t < foldl (fun a d => 10 * a + d) a ds
  end.
Proof.
  intros Ht. induction s as [|c s IH]; intros a Ha; cbn [from_digits].
  - exists []. split; [done|]. split; [constructor|done].
  - destruct (is_digit c) eqn:Ec; [|intros H; inversion H; subst; congruence].
    destruct (is_digit_inv c Ec) as [Ed Hd]. set (d := byte c - 48) in *. pose proof (min_nonpos t) as Hm.
    destruct (decide (10 * a + d <= imax t)) as [Hl|Hl].
    + rewrite (arith_in t (a * 10)) by (done || lia). rewrite (arith_in t (a * 10 + d)) by (done || lia).
      replace (a * 10 + d) with (10 * a + d) by lia. specialize (IH (10 * a + d) ltac:(lia)). destruct (from_digits t _ s) as [z| |].
      * destruct IH as (ds & -> & Hds & Hz). exists (d :: ds). split; [cbn [map app]; by rewrite <- Ed|]. split; [by constructor|done].
      * intros H; apply Forall_cons in H as [_ H]; by apply IH.
      * destruct IH as (ds & s' & -> & Hds & Hz). exists (d :: ds), s'. split; [cbn [map app]; by rewrite <- Ed|]. split; [by constructor|done].
    + assert (exists ds s', c :: s = map digit_char ds ++ s' /\ digits ds /\ imax t < foldl (fun a d => 10 * a + d) a ds) as Hub.
      { exists [d], s. cbn [map app foldl]. split; [cbn [map app]; by rewrite <- Ed|]. split; [by repeat constructor; lia|lia]. }
      destruct (decide (a * 10 <= imax t)) as [Hl2|Hl2].
      * rewrite (arith_in t (a * 10)) by (done || lia). rewrite (arith_out t (a * 10 + d)) by (done || lia). done.
      * rewrite (arith_out t (a * 10)) by (done || lia). done.
Qed.

Lemma digits_all ds : digits ds -> Forall (fun c => is_digit c = true) (map digit_char ds).
Proof. intros H. induction H; cbn; constructor; [by apply is_digit_char|done]. Qed.
Lemma map_digit_inj ds es : digits ds -> digits es -> map digit_char ds = map digit_char es -> ds = es.
Proof.
  intros H. revert es. induction H as [|d ds Hd H IH]; intros [|e es] He E; try done. inversion He; subst. cbn in E. injection E as E1 E2.
  f_equal; [by apply digit_char_inj|by apply IH].
Qed.
Lemma map_digit_prefix ds es s : digits ds -> digits es -> map digit_char es = map digit_char ds ++ s -> exists fs, es = ds ++ fs.
Proof.
  intros H. revert es. induction H as [|d ds Hd H IH]; intros [|e es] He E; try done; [by exists []|by exists (e :: es)|]. inversion He; subst. cbn in E. injection E as E1 E2.
  destruct (IH es) as [fs ->]; [done..|]. exists fs. cbn. f_equal. by apply digit_char_inj.
Qed.
Lemma number_app ds es : number (ds ++ es) = number ds * 10 ^ Z.of_nat (length es) + number es.
Proof. unfold number at 1. rewrite foldl_app. apply number_acc. Qed.
Lemma number_prefix ds es : digits ds -> digits es -> number ds <= number (ds ++ es).
Proof.
  intros H1 H2. rewrite number_app. pose proof (number_nonneg ds H1). pose proof (number_nonneg es H2).
  assert (1 <= 10 ^ Z.of_nat (length es)) by (apply (Z.pow_le_mono_r 10 0); lia). nia.
Qed.

Lemma numeral_unique s n1 d1 n2 d2 : numeral s n1 d1 -> numeral s n2 d2 -> n1 = n2 /\ d1 = d2.
Proof.
  intros (E1 & H1 & N1) (E2 & H2 & N2). rewrite E1 in E2.
  assert (forall d ds, digits (d :: ds) -> digit_char d <> "-"%char) as Hm by (intros d ds H; inversion H; subst; by apply digit_not_minus).
  destruct n1, n2; cbn in E2.
  - injection E2 as E2. split; [done|]. by apply map_digit_inj.
  - destruct d2 as [|d d2]; [done|]. cbn in E2. injection E2 as E2 _. symmetry in E2. by destruct (Hm _ _ H2).
  - destruct d1 as [|d d1]; [done|]. cbn in E2. injection E2 as E2 _. by destruct (Hm _ _ H1).
  - split; [done|]. by apply map_digit_inj.
Qed.

(** What FromString does with a text, for the integer types that have it. *)
Lemma from_int_ok t s neg ds : readable (TInt t) = true -> numeral s neg ds -> no_wrap t = false \/ number ds <= imax t ->
  exists z, from_string (TInt t) s = FsOk (VInt t z) /\ reduced t (numeral_value neg ds) z.
Proof.
  intros Hr (-> & Hd & Hne) Hc. assert (from_string (TInt t) = from_string_int t) as -> by (by destruct t).
  assert (from_string_int t (sign neg ++ map digit_char ds) =
    match from_digits t 0 (map digit_char ds) with
    | LFail => FsFail | LUB => FsUB
    | LOk z => if neg then match arith t (z * -1) with Some z' => FsOk (VInt t z') | None => FsUB end else FsOk (VInt t z) end) as E.
  { destruct ds as [|d ds]; [done|]. inversion Hd; subst. destruct neg; cbn [sign app map from_string_int].
    - rewrite !bool_decide_true, bool_decide_false by done. done.
    - rewrite bool_decide_false by by apply digit_not_minus. done. }
  rewrite E. clear E. destruct (no_wrap t) eqn:Et.
  - destruct Hc as [?|Hc]; [done|]. pose proof (loop_nowrap t Et (map digit_char ds) 0) as HL. pose proof (min_nonpos t) as Hm.
    specialize (HL ltac:(lia)). destruct (from_digits t 0 _) as [z| |].
    + destruct HL as (es & Ees & Hes & -> & Hz). apply map_digit_inj in Ees; [|done..]. subst es. fold (number ds) in *.
      destruct neg; cbn [numeral_value].
      * rewrite arith_in; [|done|]. { eexists. split; [done|]. replace (- number ds) with (number ds * -1) by lia. apply reduced_small. destruct t; try done; cbn in *; lia. }
        destruct t; try done; cbn in *; lia.
      * eexists. split; [done|]. apply reduced_small. lia.
    + destruct HL. by apply digits_all.
    + destruct HL as (es & s' & Ees & Hes & Hlt). apply map_digit_prefix in Ees as [fs ->]; [|done..]. fold (number es) in Hlt.
      apply Forall_app in Hd as [_ Hfs]. pose proof (number_prefix es fs Hes Hfs). lia.
  - pose proof (loop_wrap t Et (map digit_char ds) 0 0) as HL. specialize (HL (reduced_small t 0 (min_nonpos t))). destruct (from_digits t 0 _) as [z| |].
    + destruct HL as (es & Ees & Hes & Hz). apply map_digit_inj in Ees; [|done..]. subst es. fold (number ds) in *. destruct neg; cbn [numeral_value].
      * rewrite arith_wrap by done. eexists. split; [done|]. replace (- number ds) with (number ds * -1 + 0) by lia.
        eapply reduced_lin; [done|]. rewrite Z.add_0_r. apply wrap_reduced.
      * eauto.
    + destruct HL. by apply digits_all.
    + done.
Qed.
Lemma from_int_inv t s : readable (TInt t) = true ->
  match from_string (TInt t) s with
  | FsOk v => exists neg ds, numeral s neg ds
  | FsFail => forall neg ds, ~ numeral s neg ds
  | FsUB => no_wrap t = true /\ exists (neg : bool) ds s', s = sign neg ++ map digit_char ds ++ s' /\ digits ds /\ imax t < number ds
  end.
Proof.
  intros Hr. assert (from_string (TInt t) = from_string_int t) as -> by (by destruct t). destruct s as [|c s]; cbn [from_string_int].
  { intros neg ds (E & _ & Hne). destruct neg, ds; done. }
  set (neg := bool_decide (c = "-"%char) && negb (bool_decide (s = []))). set (s0 := if neg then s else c :: s).
  assert (c :: s = sign neg ++ s0) as Es0.
  { subst s0. destruct neg eqn:En; [|done]. subst neg. apply andb_true_iff in En as [En _]. apply bool_decide_eq_true in En. by subst c. }
  assert (s0 <> []) as Hne0.
  { subst s0. destruct neg eqn:En; [|done]. subst neg. apply andb_true_iff in En as [_ En]. apply negb_true_iff, bool_decide_eq_false in En. done. }
  assert (forall ds, s0 = map digit_char ds -> digits ds -> exists neg ds, numeral (c :: s) neg ds) as Hnum.
  { intros ds E H. exists neg, ds. split; [by rewrite <- E|]. split; [done|]. by intros ->. }
  assert (~ Forall (fun c => is_digit c = true) s0 -> forall neg ds, ~ numeral (c :: s) neg ds) as Hnot.
  { intros H neg' ds (E & Hd & Hne). apply H. destruct neg'; cbn in E.
    - injection E as E1 E2. subst c s. destruct ds as [|d ds]; [done|]. subst s0 neg. rewrite bool_decide_true, bool_decide_false by done. by apply digits_all.
    - destruct ds as [|d ds]; [done|]. cbn in E. injection E as E1 E2. subst c s s0 neg. inversion Hd; subst. rewrite bool_decide_false by by apply digit_not_minus.
      cbn. constructor; [by apply is_digit_char|by apply digits_all]. }
  destruct (no_wrap t) eqn:Et.
  - pose proof (loop_nowrap t Et s0 0) as HL. pose proof (min_nonpos t). specialize (HL ltac:(lia)). destruct (from_digits t 0 s0) as [z| |].
    + destruct HL as (ds & E & Hds & -> & Hz). destruct neg; [|by eapply Hnum].
      rewrite arith_in; [by eapply Hnum|done|]. destruct t; try done; cbn in *; lia.
    + by apply Hnot.
    + destruct HL as (ds & s' & E & Hds & Hlt). split; [done|]. exists neg, ds, s'. rewrite <- E. done.
  - pose proof (loop_wrap t Et s0 0 0 (reduced_small t 0 (min_nonpos t))) as HL. destruct (from_digits t 0 s0) as [z| |].
    + destruct HL as (ds & E & Hds & Hz). destruct neg; [|by eapply Hnum]. rewrite arith_wrap by done. by eapply Hnum.
    + by apply Hnot.
    + done.
Qed.
Lemma from_int_ub t s : readable (TInt t) = true -> no_wrap t = true ->
  (exists (neg : bool) ds s', s = sign neg ++ map digit_char ds ++ s' /\ digits ds /\ imax t < number ds) -> from_string (TInt t) s = FsUB.
Proof.
  intros Hr Ht (neg & ds & s' & -> & Hds & Hlt). assert (from_string (TInt t) = from_string_int t) as -> by (by destruct t).
  assert (from_digits t 0 (map digit_char ds ++ s') = LUB) as EL.
  { pose proof (min_nonpos t) as Hm. unfold number in Hlt.
    assert (forall a, 0 <= a <= imax t -> imax t < foldl (fun a d => 10 * a + d) a ds -> from_digits t a (map digit_char ds ++ s') = LUB) as H; [|apply H; [lia|done]].
    clear Hlt. induction Hds as [|d ds Hd Hds IH]; intros a Ha Hlt; cbn [foldl] in Hlt; [lia|]. cbn [map app from_digits]. rewrite is_digit_char, byte_digit by done.
    replace (48 + d - 48) with d by lia. destruct (decide (a * 10 <= imax t)) as [H1|H1]; [|by rewrite arith_out by (done || lia)].
    rewrite arith_in by (done || lia). destruct (decide (a * 10 + d <= imax t)) as [H2|H2]; [|by rewrite arith_out by (done || lia)].
    rewrite arith_in by (done || lia). apply IH; [lia|]. replace (a * 10 + d) with (10 * a + d) by lia. done. }
  destruct ds as [|d ds]; [cbn in Hlt; pose proof (min_nonpos t); lia|]. inversion Hds; subst. destruct neg; cbn [sign app map from_string_int].
  - rewrite bool_decide_true by done. rewrite bool_decide_false by done. cbn [negb andb]. cbn [map app] in EL. by rewrite EL.
  - rewrite bool_decide_false by by apply digit_not_minus. cbn [negb andb]. cbn [map app] in EL. by rewrite EL.
Qed.
