(** The operations of SpecFloat round the exact results, from Flocq's correctness theorems. *)
From Coq Require Import Ascii.
From Verif Require Export FloatSpec.
From Coq Require Import SpecFloat Reals Lra.
From Flocq Require Import Core.Core IEEE754.BinarySingleNaN.
Open Scope Z_scope.

Lemma hprec k : FLX.Prec_gt_0 (fprec k). Proof. by destruct k. Qed.
Lemma hmax k : Prec_lt_emax (fprec k) (femax k). Proof. by destruct k. Qed.
#[global] Existing Instance hprec.
#[global] Existing Instance hmax.
Notation fx k := (SpecFloat.fexp (fprec k) (femax k)).
Notation rnd k := (round radix2 (fx k) ZnearestE).

Lemma fvalue_SF2R x : fvalue x = SF2R radix2 x.
Proof.
  destruct x as [s|s| |s m e]; cbn; try done. unfold F2R. cbn. rewrite bpow_powerRZ. change (IZR radix2) with 2%R. destruct s; cbn [SpecFloat.cond_Zopp].
  - change (Z.neg m) with (- Z.pos m). rewrite opp_IZR. ring.
  - ring.
Qed.
Lemma lift k x : is_float k x -> exists b : binary_float (fprec k) (femax k), B2SF b = x.
Proof. intros H. exists (SF2B x H). apply B2SF_SF2B. Qed.
Lemma B2SF_float k (b : binary_float (fprec k) (femax k)) : is_float k (B2SF b).
Proof. apply valid_binary_B2SF. Qed.
Lemma B2SF_finite k (b : binary_float (fprec k) (femax k)) : finite (B2SF b) = is_finite b.
Proof. by destruct b. Qed.
Lemma B2SF_negative k (b : binary_float (fprec k) (femax k)) : negative (B2SF b) = Bsign b.
Proof. by destruct b. Qed.
Lemma B2SF_value k (b : binary_float (fprec k) (femax k)) : fvalue (B2SF b) = B2R b.
Proof. rewrite fvalue_SF2R. apply SF2R_B2SF. Qed.

(** The two roundings to nearest even are the same function (as in Flocq's PrimFloat.v, for any format). *)
Lemma round_aux_same k sx mx ex lx : SpecFloat.binary_round_aux (fprec k) (femax k) sx mx ex lx = binary_round_aux (fprec k) (femax k) mode_NE sx mx ex lx.
Proof.
  unfold SpecFloat.binary_round_aux, binary_round_aux. destruct (shr_fexp _ _ _ _ _) as [mrs e]. cbn [fst snd]. assert (H : forall s m l, round_nearest_even m l = choice_mode mode_NE s m l).
  { intros s m [|[]]; try reflexivity. cbn. unfold Round.cond_incr. by destruct (Z.even m). }
  by rewrite (H sx).
Qed.
Lemma round_same k s m e : SpecFloat.binary_round (fprec k) (femax k) s m e = binary_round (fprec k) (femax k) mode_NE s m e.
Proof. unfold SpecFloat.binary_round, binary_round, shl_align_fexp. destruct (shl_align _ _ _) as [mz ez]. apply round_aux_same. Qed.
Lemma normalize_same k m e z : SpecFloat.binary_normalize (fprec k) (femax k) m e z = B2SF (binary_normalize (fprec k) (femax k) (hprec k) (hmax k) mode_NE m e z).
Proof. destruct m as [|p|p]; cbn [SpecFloat.binary_normalize binary_normalize]; [done| |]; rewrite B2SF_SF2B; apply round_same. Qed.
Lemma mul_same k (x y : binary_float (fprec k) (femax k)) : f_mul k (B2SF x) (B2SF y) = B2SF (Bmult mode_NE x y).
Proof. destruct x as [sx|sx| |sx mx ex Bx], y as [sy|sy| |sy my ey By]; try done. cbn [f_mul SFmul B2SF Bmult]. rewrite B2SF_SF2B. apply round_aux_same. Qed.
Lemma add_same k (x y : binary_float (fprec k) (femax k)) : f_add k (B2SF x) (B2SF y) = B2SF (Bplus mode_NE x y).
Proof. destruct x as [sx|sx| |sx mx ex Bx], y as [sy|sy| |sy my ey By]; try done; [by destruct sx, sy|by destruct sx, sy|]. apply normalize_same. Qed.
Lemma div_same k (x y : binary_float (fprec k) (femax k)) : f_div k (B2SF x) (B2SF y) = B2SF (Bdiv mode_NE x y).
Proof.
  destruct x as [sx|sx| |sx mx ex Bx], y as [sy|sy| |sy my ey By]; try done. cbn [f_div SFdiv B2SF Bdiv]. rewrite B2SF_SF2B. destruct (SFdiv_core_binary _ _ _ _ _ _) as [[mz ez] lz]. apply round_aux_same.
Qed.

(** [x] is a finite float with value [r] and sign bit [s]. *)
Definition fnum (k : fkind) (x : spec_float) (r : R) (s : bool) : Prop := is_float k x /\ finite x = true /\ fvalue x = r /\ negative x = s.
Definition small (k : fkind) (r : R) : Prop := (Rabs (rnd k r) < bpow radix2 (femax k))%R.
Lemma num_lift k x r s : fnum k x r s -> exists b : binary_float (fprec k) (femax k), B2SF b = x /\ is_finite b = true /\ B2R b = r /\ Bsign b = s.
Proof. intros (Hv & Hf & Hr & Hs). destruct (lift k x Hv) as [b <-]. exists b. by rewrite <- B2SF_finite, <- B2SF_value, <- B2SF_negative. Qed.
Lemma num_intro k (b : binary_float (fprec k) (femax k)) r s : is_finite b = true -> B2R b = r -> Bsign b = s -> fnum k (B2SF b) r s.
Proof. intros H1 H2 H3. split; [apply B2SF_float|]. by rewrite B2SF_finite, B2SF_value, B2SF_negative. Qed.
Lemma num_mul k x y a b s t : fnum k x a s -> fnum k y b t -> small k (a * b) -> fnum k (f_mul k x y) (rnd k (a * b)) (xorb s t).
Proof.
  intros Hx Hy Hs. apply num_lift in Hx as (u & <- & Fu & <- & <-). apply num_lift in Hy as (v & <- & Fv & <- & <-). rewrite mul_same. pose proof (Bmult_correct (fprec k) (femax k) _ _ mode_NE u v) as H.
  rewrite Rlt_bool_true in H by exact Hs. destruct H as (H1 & H2 & H3). rewrite Fu, Fv in H2. apply num_intro; [done|done|]. apply H3. by destruct (Bmult _ _ _).
Qed.
Lemma num_div k x y a b s t : fnum k x a s -> fnum k y b t -> b <> 0%R -> small k (a / b) -> fnum k (f_div k x y) (rnd k (a / b)) (xorb s t).
Proof.
  intros Hx Hy Hb Hs. apply num_lift in Hx as (u & <- & Fu & <- & <-). apply num_lift in Hy as (v & <- & Fv & <- & <-). rewrite div_same. pose proof (Bdiv_correct (fprec k) (femax k) _ _ mode_NE u v Hb) as H.
  rewrite Rlt_bool_true in H by exact Hs. destruct H as (H1 & H2 & H3). rewrite Fu in H2. apply num_intro; [done|done|]. apply H3. by destruct (Bdiv _ _ _).
Qed.
Lemma num_add k x y a b : fnum k x a false -> fnum k y b false -> small k (a + b) -> fnum k (f_add k x y) (rnd k (a + b)) false.
Proof.
  intros Hx Hy Hs. apply num_lift in Hx as (u & <- & Fu & <- & Su). apply num_lift in Hy as (v & <- & Fv & <- & Sv). rewrite add_same. pose proof (Bplus_correct (fprec k) (femax k) _ _ mode_NE u v Fu Fv) as H.
  rewrite Rlt_bool_true in H by exact Hs. destruct H as (H1 & H2 & H3). apply num_intro; [done|done|]. rewrite H3, Su, Sv. assert (N : forall w : binary_float (fprec k) (femax k), Bsign w = false -> (0 <= B2R w)%R).
  { intros [s|s| |s m e He]; cbn; try (intros; lra). intros ->. apply F2R_ge_0. done. }
  specialize (N u Su) as Nu. specialize (N v Sv) as Nv. destruct (Rcompare_spec (B2R u + B2R v) 0); try done. lra.
Qed.
Lemma num_int k z : small k (IZR z) -> fnum k (f_int k z) (rnd k (IZR z)) (z <? 0).
Proof.
  intros Hs. unfold f_int. rewrite normalize_same. pose proof (binary_normalize_correct (fprec k) (femax k) _ _ mode_NE z 0 false) as H. cbn zeta in H.
  assert (E : F2R (Float radix2 z 0) = IZR z) by (unfold F2R; cbn; ring). rewrite E in H. rewrite Rlt_bool_true in H by exact Hs. destruct H as (H1 & H2 & H3). apply num_intro; [done|done|]. rewrite H3.
  destruct (Rcompare_spec (IZR z) 0) as [L|L|L].
  - apply lt_IZR in L. symmetry. by apply Z.ltb_lt.
  - apply eq_IZR in L. by subst.
  - apply lt_IZR in L. symmetry. apply Z.ltb_ge. lia.
Qed.
(** A float with the value and sign of another is the same. *)
Lemma num_unique k x y r s : fnum k x r s -> fnum k y r s -> x = y.
Proof. intros Hx Hy. apply num_lift in Hx as (u & <- & Fu & Ru & Su). apply num_lift in Hy as (v & <- & Fv & Rv & Sv). f_equal. apply B2R_Bsign_inj; congruence. Qed.
