(** Lemmas for C23 and C24: set algebra and removal from sets. *)
From Verif Require Export T_Refs.
Open Scope nat_scope.

Lemma Inv_wide b w : Inv b w -> Inv false w.
Proof.
  intros [H1 H2 H3 H4]. split; [done|done| |done]. destruct H3 as [V1 V2 V3 V4 V5 V6]. split; try done.
  - intros s sb Hs Hst. destruct (V3 _ _ Hs Hst) as [S1 S2 S3 S4 S5 S6]. split; try done. intros p Hp. destruct (S6 _ Hp) as (pb & P1 & P2 & P3 & [Q1 Q2 Q3]).
    exists pb. split; [done|]. split; [done|]. split; [done|]. by split.
  - intros r l s Hr Hs. destruct (V6 _ _ _ Hr Hs) as [D1 D2]. by split.
Qed.
Lemma set_guard w s sb : set_at w s sb -> is_set w s = true.
Proof. intros [H H']. unfold is_set. by rewrite H. Qed.
Lemma algebra_check_answer s a sb ab :
  (algebra_check s a sb ab = None /\ algebra_answer s a sb ab = Success) \/
  (exists c, algebra_check s a sb ab = Some c /\ algebra_answer s a sb ab = c /\ c <> Success).
Proof.
  unfold algebra_check, algebra_answer. destruct (o_parent sb) as [p|]; [|right; by eexists]. destruct (o_parent ab) as [p'|]; [|right; by eexists].
  destruct (decide (p' = p)) as [->|].
  - rewrite (decide_True (P := p = p)) by done. destruct (decide (s = a)); [right; by eexists|by left].
  - rewrite (decide_False (P := p = p')) by congruence. right; by eexists.
Qed.
Lemma set_only_other s w w' a ab : set_only s w w' -> a <> s -> set_at w a ab -> set_at w' a ab.
Proof.
  intros H Hne [Ha Hs]. destruct (set_only_obj _ _ _ _ _ H Hne Ha) as (ab' & Ha' & _ & E). split; [|done]. by rewrite Ha', (E Hs).
Qed.
Lemma set_only_changed s w w' : set_only s w w' -> only_set_changed s w w'.
Proof. apply set_only_spec. Qed.

(** C23: Join, Exclude and Intersect answer by the parents of the two sets; a failing call changes nothing; a successful one leaves the operand
    and everything else as it was, and the set holds the union, difference or intersection of the records, and still belongs to its vault. *)
Lemma t_C23_join_exact :
  forall b ord w s a sb ab w' out, fair ord -> reach b w -> set_at w s sb -> set_at w a ab ->
    step ord w (OJoin s a) = Some (w', out) ->
    exists res, out = ORes res /\ res_code res = algebra_answer s a sb ab /\ (res_ok res = true <-> algebra_answer s a sb ab = Success) /\
      (res_ok res = false -> w' = w) /\
      (res_ok res = true -> only_set_changed s w w' /\ set_at w' a ab /\ set_holds w' s (o_parent sb) (o_recs sb ∪ o_recs ab)).
Proof.
  intros b ord w s a sb ab w' out Hf HR HS HA H. pose proof (Inv_wide _ _ (reach_inv _ _ HR)) as HI. pose proof HS as [Hs Hst]. pose proof HA as [Ha Hat].
  cbn [step] in H. rewrite (set_guard _ _ _ HS), (set_guard _ _ _ HA) in H. cbn [andb guard_op] in H. apply res_inv in H as (res & H & ->). exists res. split; [done|].
  destruct (join_ok ord w s a sb ab w' res) as (_ & Hso & sb' & J1 & J2 & J3 & J4); try done.
  unfold set_join in H. rewrite Hs, Ha in H. cbn [mbind option_bind] in H.
  destruct (algebra_check_answer s a sb ab) as [(E1 & E2)|(c & E1 & E2 & E3)]; rewrite E1 in H; rewrite E2.
  - destruct (foldM _ _ _) as [w1|]; [|done]. cbn in H. injection H as <- <-. split; [done|]. split; [done|]. split; [done|]. intros _.
    split; [by apply set_only_changed|]. split.
    + eapply set_only_other; [done| |done]. intros ->. unfold algebra_answer in E2. destruct (o_parent sb), (o_parent ab); try done. case_decide; [|done]. by rewrite decide_True in E2.
    + exists sb'. split; [done|]. split; [done|]. by apply J4.
  - injection H as <- <-. split; [done|]. split; [done|]. split; [done|]. done.
Qed.
Lemma subtract_exact kc :
  forall b ord w s a sb ab w' out, fair ord -> reach b w -> set_at w s sb -> set_at w a ab ->
    res_out (set_subtract kc ord w s a) = Some (w', out) ->
    exists res, out = ORes res /\ res_code res = algebra_answer s a sb ab /\ (res_ok res = true <-> algebra_answer s a sb ab = Success) /\
      (res_ok res = false -> w' = w) /\
      (res_ok res = true -> only_set_changed s w w' /\ set_at w' a ab /\
         set_holds w' s (o_parent sb) (if kc then o_recs sb ∩ o_recs ab else o_recs sb ∖ o_recs ab)).
Proof.
  intros b ord w s a sb ab w' out Hf HR HS HA H. pose proof (Inv_wide _ _ (reach_inv _ _ HR)) as HI. pose proof HS as [Hs Hst]. pose proof HA as [Ha Hat].
  apply res_inv in H as (res & H & ->). exists res. split; [done|].
  destruct (subtract_ok kc ord w s a sb ab w' res) as (_ & Hso & sb' & J1 & J2 & J3 & J4); try done.
  unfold set_subtract in H. rewrite Hs, Ha in H. cbn [mbind option_bind] in H.
  destruct (algebra_check_answer s a sb ab) as [(E1 & E2)|(c & E1 & E2 & E3)]; rewrite E1 in H; rewrite E2.
  - destruct (foldM _ _ _) as [w1|]; [|done]. cbn in H. injection H as <- <-. split; [done|]. split; [done|]. split; [done|]. intros _.
    split; [by apply set_only_changed|]. split.
    + eapply set_only_other; [done| |done]. intros ->. unfold algebra_answer in E2. destruct (o_parent sb), (o_parent ab); try done. case_decide; [|done]. by rewrite decide_True in E2.
    + exists sb'. split; [done|]. split; [done|]. by apply J4.
  - injection H as <- <-. split; [done|]. split; [done|]. split; [done|]. done.
Qed.
Lemma t_C23_exclude_exact :
  forall b ord w s a sb ab w' out, fair ord -> reach b w -> set_at w s sb -> set_at w a ab ->
    step ord w (OExclude s a) = Some (w', out) ->
    exists res, out = ORes res /\ res_code res = algebra_answer s a sb ab /\ (res_ok res = true <-> algebra_answer s a sb ab = Success) /\
      (res_ok res = false -> w' = w) /\
      (res_ok res = true -> only_set_changed s w w' /\ set_at w' a ab /\ set_holds w' s (o_parent sb) (o_recs sb ∖ o_recs ab)).
Proof.
  intros b ord w s a sb ab w' out Hf HR HS HA H. cbn [step] in H. rewrite (set_guard _ _ _ HS), (set_guard _ _ _ HA) in H. cbn [andb guard_op] in H.
  by apply (subtract_exact false b ord w s a sb ab w' out).
Qed.
Lemma t_C23_intersect_exact :
  forall b ord w s a sb ab w' out, fair ord -> reach b w -> set_at w s sb -> set_at w a ab ->
    step ord w (OIntersect s a) = Some (w', out) ->
    exists res, out = ORes res /\ res_code res = algebra_answer s a sb ab /\ (res_ok res = true <-> algebra_answer s a sb ab = Success) /\
      (res_ok res = false -> w' = w) /\
      (res_ok res = true -> only_set_changed s w w' /\ set_at w' a ab /\ set_holds w' s (o_parent sb) (o_recs sb ∩ o_recs ab)).
Proof.
  intros b ord w s a sb ab w' out Hf HR HS HA H. cbn [step] in H. rewrite (set_guard _ _ _ HS), (set_guard _ _ _ HA) in H. cbn [andb guard_op] in H.
  by apply (subtract_exact true b ord w s a sb ab w' out).
Qed.

(** C23: Union and Intersection of two sets into a third one: the answer, no change on failure, and on success the result set belongs to the operands'
    vault and holds exactly the union or intersection, while both operands and everything else are as before. *)
Lemma t_C23_union_exact :
  forall b ord w x y z xb yb zb w' out, fair ord -> reach b w -> set_at w x xb -> set_at w y yb -> set_at w z zb ->
    allowed false w (OUnion x y z) -> step ord w (OUnion x y z) = Some (w', out) ->
    exists res, out = ORes res /\ res_code res = combination_answer x y z xb yb /\ (res_ok res = true <-> combination_answer x y z xb yb = Success) /\
      (res_ok res = false -> w' = w) /\
      (res_ok res = true -> only_set_changed z w w' /\ set_at w' x xb /\ set_at w' y yb /\ set_holds w' z (o_parent xb) (o_recs xb ∪ o_recs yb)).
Proof.
  intros b ord w x y z xb yb zb w' out Hf HR HX HY HZ HA H. pose proof (Inv_wide _ _ (reach_inv _ _ HR)) as HI. pose proof HX as [Hx Hxs]. pose proof HY as [Hy Hys]. pose proof HZ as [Hz Hzs].
  cbn [step] in H. rewrite (set_guard _ _ _ HX), (set_guard _ _ _ HY), (set_guard _ _ _ HZ) in H. cbn [andb guard_op] in H. apply res_inv in H as (res & H & ->). exists res. split; [done|].
  destruct HA as [_ HA].
  destruct (union_ok ord w x y z xb yb zb w' res) as (HI' & Hso & Hc); try done.
  { intros p pb Hp Hpb. eapply (leftovers_target_inv false); [done..|]. by eapply HA. }
  unfold set_union in H. rewrite Hx, Hy in H. cbn [mbind option_bind] in H. unfold combination_answer. destruct (decide (x = y \/ x = z \/ y = z)) as [Hd|Hd]; [by injection H as <- <-|].
  destruct (o_parent xb) as [p|] eqn:Ep; [|by injection H as <- <-]. destruct (o_parent yb) as [p'|] eqn:Ep'; [|by injection H as <- <-].
  destruct (decide (p = p')) as [<-|]; [|by injection H as <- <-].
  destruct (copy_assign_set ord w z x) as [w1|] eqn:Ec; [|done]. cbn [mbind option_bind] in H.
  assert (Hzx : z <> x) by (intros ->; apply Hd; auto). assert (Hzy : y <> z) by (intros ->; apply Hd; auto).
  destruct (copy_assign_set_ok false ord w z x xb zb) as (w1' & rb1 & C1 & C2 & C3 & C4 & C5 & C6 & C7); try done.
  { rewrite Ep. intros _ p0 pb [= <-] Hpb. eapply (leftovers_target_inv false); [done..|]. by eapply HA. } { intros _. by rewrite Ec. }
  assert (w1' = w1) as -> by congruence.
  assert (res = okres Success "" None None) as ->.
  { unfold set_join in H. rewrite C4 in H. cbn [mbind option_bind] in H. pose proof (set_only_other _ _ _ _ _ C3 Hzy HY) as [Hy1 _]. rewrite Hy1 in H. cbn [mbind option_bind] in H.
    assert (E : algebra_check z y rb1 yb = None). { unfold algebra_check. rewrite C7, Ep, Ep'. rewrite decide_True by done. by rewrite decide_False by congruence. }
    rewrite E in H. destruct (foldM _ _ _); [|done]. cbn in H. by injection H. }
  split; [done|]. split; [done|]. split; [done|]. intros _. destruct (Hc eq_refl) as (rb' & R1 & R2 & R3 & R4).
  split; [by apply set_only_changed|]. split; [by eapply set_only_other|]. split; [by eapply set_only_other|]. exists rb'. done.
Qed.
Lemma t_C23_intersection_exact :
  forall b ord w x y z xb yb zb w' out, fair ord -> reach b w -> set_at w x xb -> set_at w y yb -> set_at w z zb ->
    allowed false w (OIntersection x y z) -> step ord w (OIntersection x y z) = Some (w', out) ->
    exists res, out = ORes res /\ res_code res = combination_answer x y z xb yb /\ (res_ok res = true <-> combination_answer x y z xb yb = Success) /\
      (res_ok res = false -> w' = w) /\
      (res_ok res = true -> only_set_changed z w w' /\ set_at w' x xb /\ set_at w' y yb /\ set_holds w' z (o_parent xb) (o_recs xb ∩ o_recs yb)).
Proof.
  intros b ord w x y z xb yb zb w' out Hf HR HX HY HZ HA H. pose proof (Inv_wide _ _ (reach_inv _ _ HR)) as HI. pose proof HX as [Hx Hxs]. pose proof HY as [Hy Hys]. pose proof HZ as [Hz Hzs].
  cbn [step] in H. rewrite (set_guard _ _ _ HX), (set_guard _ _ _ HY), (set_guard _ _ _ HZ) in H. cbn [andb guard_op] in H. apply res_inv in H as (res & H & ->). exists res. split; [done|].
  destruct HA as [_ HA].
  destruct (intersection_ok ord w x y z xb yb zb w' res) as (HI' & Hso & Hc); try done.
  { intros p pb Hp Hpb. eapply (leftovers_target_inv false); [done..|]. by eapply HA. }
  unfold set_intersection in H. rewrite Hx, Hy in H. cbn [mbind option_bind] in H. unfold combination_answer. destruct (decide (x = y \/ x = z \/ y = z)) as [Hd|Hd]; [by injection H as <- <-|].
  destruct (o_parent xb) as [p|] eqn:Ep; [|by injection H as <- <-]. destruct (o_parent yb) as [p'|] eqn:Ep'; [|by injection H as <- <-].
  destruct (decide (p = p')) as [<-|]; [|by injection H as <- <-].
  assert (res = okres Success "" None None) as ->.
  { destruct (set_reset ord w z) as [w1|]; [|done]. cbn [mbind option_bind] in H. destruct (w_objs w1 !! z); [|done]. cbn [mbind option_bind] in H.
    destruct (copy_keys _ _ _ _) as [w2|]; [|done]. cbn [mbind option_bind] in H. destruct (w_objs w2 !! z); [|done]. cbn [mbind option_bind] in H.
    match type of H with (?X ≫= _) = _ => destruct X end; [|done]. cbn [mbind option_bind] in H. destruct (if _ <? _ then _ else _). destruct (foldM _ _ _); [|done]. cbn in H. by injection H. }
  assert (Hzx : x <> z) by (intros ->; apply Hd; auto). assert (Hzy : y <> z) by (intros ->; apply Hd; auto).
  split; [done|]. split; [done|]. split; [done|]. intros _. destruct (Hc eq_refl) as (rb' & R1 & R2 & R3 & R4).
  split; [by apply set_only_changed|]. split; [by eapply set_only_other|]. split; [by eapply set_only_other|]. exists rb'. done.
Qed.

(** C23: sets compare equal exactly when they have the same vault (or both none) and the same records; != is the negation. *)
Lemma t_C23_equality_meaning :
  forall a b : obj, (sets_equal a b = true <-> o_parent a = o_parent b /\ forall r, r ∈ o_recs a <-> r ∈ o_recs b) /\ sets_differ a b = negb (sets_equal a b).
Proof.
  intros a b. unfold sets_equal, sets_differ. split; [|by rewrite negb_andb]. rewrite andb_true_iff, !bool_decide_eq_true. split; intros [-> H]; (split; [done|]); [by rewrite H|by apply set_eq].
Qed.

(** C23: on sets whose history is in the safe class the set algebra is free of undefined behaviour. *)
Lemma live_recs w s sb r : reach true w -> set_at w s sb -> r ∈ o_recs sb -> is_Some (w_recs w !! r).
Proof.
  intros HR [Hs Hst] Hr. pose proof (reach_inv _ _ HR) as HI. pose proof (vi_set _ _ _ _ (inv_obj _ _ HI) _ _ Hs Hst) as SO.
  destruct (o_parent sb) as [p|] eqn:Ep.
  - destruct (Inv_set_facts _ _ _ _ _ HI Hs Hst Ep) as (pb & Hpb & _). exact (strict_recs_live _ _ _ _ _ _ HI Hs Hst Ep Hpb Hr).
  - destruct (so_none _ _ _ _ _ _ SO Ep) as (_ & _ & _ & _ & _ & E). rewrite E in Hr. by apply not_elem_of_empty in Hr.
Qed.
Lemma foldM_def {A B} (f : A -> B -> option A) (P : A -> Prop) l a : P a -> (forall a x, x ∈ l -> P a -> exists a', f a x = Some a' /\ P a') -> exists a', foldM f a l = Some a' /\ P a'.
Proof.
  revert a. induction l as [|x l IH]; intros a Ha Hf; [by exists a|]. cbn. destruct (Hf a x) as (a' & -> & Ha'); [by left|done|]. cbn. apply IH; [done|]. intros y z Hz. apply Hf. by right.
Qed.
Lemma t_C23_defined :
  forall ord w s a sb ab, fair ord -> reach true w -> set_at w s sb -> set_at w a ab ->
    is_Some (step ord w (OJoin s a)) /\ is_Some (step ord w (OExclude s a)) /\ is_Some (step ord w (OIntersect s a)) /\
    forall z zb, set_at w z zb -> is_Some (step ord w (OUnion s a z)) /\ is_Some (step ord w (OIntersection s a z)).
Proof.
  intros ord w s a sb ab Hf HR HS HA. pose proof (reach_inv _ _ HR) as HI. pose proof HS as [Hs Hst]. pose proof HA as [Ha Hat].
  assert (HJ : forall w1 z zb1, w_objs w1 !! z = Some zb1 -> w_objs w1 !! a = Some ab -> (forall r, is_Some (w_recs w !! r) -> is_Some (w_recs w1 !! r)) -> exists q, set_join ord w1 z a = Some q).
  { intros w1 z zb1 Hz Ha1 Hle. unfold set_join. rewrite Hz, Ha1. cbn [mbind option_bind]. destruct (algebra_check z a zb1 ab); [eauto|].
    match goal with |- context [foldM ?F w1 ?l] => destruct (foldM_def F (fun w2 => is_Some (w_objs w2 !! z) /\ forall r, is_Some (w_recs w !! r) -> is_Some (w_recs w2 !! r)) l w1) as (w2 & -> & _) end.
    - split; [eauto|done].
    - intros w2 r Hr [[zb2 Hz2] Hle2]. rewrite Hz2. cbn [mbind option_bind]. destruct (decide _); [by eauto 10|].
      apply fair_elem, elem_of_elements in Hr; [|done]. destruct (Hle2 r) as [rc Hrc]; [by apply (live_recs w a ab r)|]. unfold set_take_unregistered. rewrite Hz2, Hrc. cbn. eexists. split; [done|]. cbn. rewrite lookup_insert. eauto.
    - cbn. eauto. }
  assert (HE : forall kc, is_Some (set_subtract kc ord w s a)).
  { intros kc. unfold set_subtract. rewrite Hs, Ha. cbn [mbind option_bind]. destruct (algebra_check s a sb ab) eqn:Ec; [eauto|].
    assert (exists p, o_parent sb = Some p) as [p Ep]. { unfold algebra_check in Ec. destruct (o_parent sb); [eauto|done]. }
    match goal with |- context [foldM ?F w ?l] => destruct (foldM_def F (fun w2 => Inv false w2 /\ (exists sb2, w_objs w2 !! s = Some sb2 /\ o_static_set sb2 = true /\ o_parent sb2 = Some p) /\ forall r, is_Some (w_recs w !! r) -> is_Some (w_recs w2 !! r)) l w) as (w2 & -> & _) end; [| |cbn; eauto].
    { split; [by eapply Inv_wide|]. split; [by exists sb|done]. }
    intros w2 r Hr (HI2 & (sb2 & Hs2 & Hst2 & Hp2) & Hle). apply fair_elem, elem_of_elements in Hr; [|done]. destruct (Hle r) as [rc Hrc]; [by apply (live_recs w s sb r)|].
    assert (HR1 : exists w3, ('(w', _) ← remove_record ord w2 s r; Some w') = Some w3 /\ Inv false w3 /\ (exists sb2, w_objs w3 !! s = Some sb2 /\ o_static_set sb2 = true /\ o_parent sb2 = Some p) /\ forall r, is_Some (w_recs w !! r) -> is_Some (w_recs w3 !! r)).
    { assert (is_Some (remove_record ord w2 s r)) as [[w3 c] E].
      { unfold remove_record. rewrite Hs2. cbn [mbind option_bind]. destruct (decide _); [|eauto]. unfold dfuel. rewrite (detach_set _ _ _ _ _ sb2 rc); [cbn; eauto|done|done|].
        apply (so_isset _ _ _ _ _ _ (vi_set _ _ _ _ (inv_obj _ _ HI2) _ _ Hs2 Hst2)). }
      destruct (remove_record_set_ok ord w2 s sb2 p r w3 c) as (HI3 & Hso3 & sb3 & G1 & G2 & G3 & _); try done. exists w3. rewrite E. cbn. split; [done|]. split; [done|]. split; [by exists sb3|].
      intros x Hx. eapply set_only_recs_some; [done|]. by apply Hle. }
    destruct (bool_decide _), kc; try done; exists w2; (split; [done|]); (split; [done|]); (split; [by exists sb2|done]). }
  cbn [step]. rewrite (set_guard _ _ _ HS), (set_guard _ _ _ HA). cbn [andb guard_op]. split; [|split; [|split]].
  - destruct (HJ w s sb) as [[? ?] ->]; cbn; eauto.
  - destruct (HE false) as [[? ?] ->]. cbn. eauto.
  - destruct (HE true) as [[? ?] ->]. cbn. eauto.
  - intros z zb HZ. pose proof HZ as [Hz Hzs]. rewrite (set_guard _ _ _ HZ). cbn [andb guard_op]. split.
    + unfold set_union. rewrite Hs, Ha. cbn [mbind option_bind]. destruct (decide _) as [|Hd]; [cbn; eauto|]. destruct (o_parent sb) as [p|] eqn:Ep; [|cbn; eauto]. destruct (o_parent ab) as [p'|]; [|cbn; eauto].
      destruct (decide _); [|cbn; eauto]. destruct (copy_assign_set_ok true ord w z s sb zb) as (w1 & zb1 & C1 & C2 & C3 & C4 & _); try done; [intros ->; apply Hd; auto|].
      rewrite C1. cbn [mbind option_bind]. destruct (HJ w1 z zb1) as [[? ?] ->]; [done| | |cbn; eauto].
      * destruct (set_only_other _ _ _ a ab C3) as [? _]; [intros ->; apply Hd; auto|done|done].
      * intros r Hr. by eapply set_only_recs_some.
    + unfold set_intersection. rewrite Hs, Ha. cbn [mbind option_bind]. destruct (decide _) as [|Hd]; [cbn; eauto|]. destruct (o_parent sb) as [p|] eqn:Ep; [|cbn; eauto]. destruct (o_parent ab) as [p'|] eqn:Ep'; [|cbn; eauto].
      destruct (decide _) as [<-|]; [|cbn; eauto].
      destruct (set_reset_ok true ord w z zb) as [Hc Hci]; try done. rewrite Hc. cbn [mbind option_bind].
      destruct (reset_result_obj z zb w true HI Hz Hzs) as (db1 & Hdb1 & R1 & R2 & R3 & R4 & R5 & R6 & R7 & R8 & R9 & R10 & R11).
      pose proof (set_only_reset_result true z zb w HI Hz Hzs) as Hso.
      destruct (Inv_set_facts _ _ _ _ _ HI Hs Hst Ep) as (pb0 & Hpb0 & Hpst0 & _). assert (Hrp : p <> z) by congruence.
      destruct (set_only_obj _ _ _ _ _ Hso Hrp Hpb0) as (pb1 & Hpb1 & Epb1 & _). rewrite Hdb1. cbn [mbind option_bind].
      pose proof (bind_tail ord (reset_result z zb w) z p db1 sb pb1 Hf Hdb1 (not_eq_sym Hrp) Hpb1 R10 R7 R5 R6 R4 R1 R2) as HB.
      destruct (copy_keys ord _ sb z) as [w3|]; [|done]. cbn [mbind option_bind] in HB |- *. destruct (w_objs w3 !! z) as [rb3|]; [|done]. cbn [mbind option_bind] in HB |- *.
      match type of HB with (?X ≫= _) = _ => destruct X as [pb2|]; [|done] end. cbn [mbind option_bind] in HB |- *. apply (inj Some) in HB. rewrite HB.
      destruct (if _ <? _ then _ else _) as [small big] eqn:Esb.
      match goal with |- context [foldM ?F ?w1 ?l] => destruct (foldM_def F (fun w2 => is_Some (w_objs w2 !! z) /\ forall r, is_Some (w_recs w !! r) -> is_Some (w_recs w2 !! r)) l w1) as (w2 & -> & _) end; [| |cbn; eauto].
      * cbn. rewrite lookup_insert_ne by done. rewrite lookup_insert. split; [eauto|]. intros r Hr. by apply (set_only_recs_some _ _ _ r Hso).
      * intros w2 r Hr [[zb2 Hz2] Hle2]. apply fair_elem, elem_of_elements in Hr; [|done]. destruct (decide (r ∈ big)); [|eauto].
        destruct (Hle2 r) as [rc Hrc]. { destruct (_ <? _); injection Esb as <- <-; [by apply (live_recs w s sb r)|by apply (live_recs w a ab r)]. }
        unfold set_take_unregistered. rewrite Hz2, Hrc. cbn. eexists. split; [done|]. cbn. rewrite lookup_insert. eauto.
Qed.
