(** Lemmas for C18, C20 and C42: references. *)
From Verif Require Export T_Keys2.
Open Scope nat_scope.

(** C18: memory is neither leaked nor freed too early: a record is allocated exactly as long as it is in a vault or a reference denotes it;
    in particular no reference dangles. Its reference counter is the number of references, and its valid flag says whether it is in a vault. *)
Lemma t_C18_allocated_iff_used :
  forall b w r, reach b w ->
    (is_Some (w_recs w !! r) <-> (exists o ob, vault_at w o ob /\ r ∈ o_recs ob) \/ (exists f, denotes w f r)) /\
    (valid_rec w r <-> exists o ob, vault_at w o ob /\ r ∈ o_recs ob) /\
    (forall rc, w_recs w !! r = Some rc -> r_refs rc = refs_to w r) /\
    (forall o ob o' ob', vault_at w o ob -> vault_at w o' ob' -> r ∈ o_recs ob -> r ∈ o_recs ob' -> o' = o).
Proof.
  intros b w r HR. pose proof (reach_inv _ _ HR) as HI. pose proof (inv_ref _ _ HI) as [R1 R2 R3 R4]. pose proof (inv_obj _ _ HI) as VI.
  assert (Hv : valid_rec w r <-> exists o ob, vault_at w o ob /\ r ∈ o_recs ob).
  { rewrite valid_rec_live. split.
    - intros Hl. destruct (vi_owned _ _ _ _ VI _ Hl) as (o & ob & Ho & Hs & Hr). exists o, ob. by repeat split.
    - intros (o & ob & [Ho Hs] & Hr). destruct (v_recs _ _ (vi_vault _ _ _ _ VI _ _ Ho Hs) _ Hr) as (l & Hl & _). eauto. }
  split; [|split; [done|split]].
  - split.
    + intros [rc Hrc]. destruct (r_valid rc) eqn:Ev; [left; apply Hv; by exists rc|right]. pose proof (R4 _ _ Hrc Ev) as Hn. rewrite (R3 _ _ Hrc) in Hn. cbn in Hn.
      destruct (decide (filter (fun e : nat * vref => f_rec e.2 = Some r) (w_refs w) = ∅)) as [E|E].
      * unfold count in Hn. rewrite E, map_size_empty in Hn. lia.
      * apply map_choose in E as (f & rf & E). apply map_filter_lookup_Some in E as [E1 E2]. exists f, rf. done.
    + intros [H|(f & rf & Hf & Hr)]; [|by eapply R1]. apply Hv in H as (rc & Hrc & _). eauto.
  - intros rc Hrc. rewrite (R3 _ _ Hrc). cbn. unfold count, refs_to. lia.
  - intros o ob o' ob' [Ho Hs] [Ho' Hs'] Hr Hr'. symmetry. by eapply (vi_disj _ _ _ _ VI o ob o' ob' r).
Qed.
(** C18: creating, copying, moving, resetting and destroying references, and testing and comparing them, never touches freed memory. *)
Lemma t_C18_ref_ops_defined :
  forall b ord w p, fair ord -> reach b w -> plain_ref_op p -> is_Some (step ord w p).
Proof.
  intros b ord w p Hf HR Hp. pose proof (reach_inv _ _ HR) as HI.
  assert (exists w' out, step ord w p = Some (w', out)) as (w' & out & E); [|eauto].
  destruct p; try done; cbn [step]; unfold guard_op; match goal with |- context [if ?c then _ else _] => destruct c eqn:Hg; [guards|eauto] end.
  - eauto.
  - destruct (reset_ref_spec w f x) as (w' & E & _); [apply HI|done|]. rewrite E. cbn. eauto.
  - destruct (decide (dst = src)) as [->|Hne]; [unfold copy_ref; rewrite decide_True by done; cbn; eauto|].
    destruct (copy_ref_spec w dst src x0 x) as (w' & E & _); try done; [apply HI|]. rewrite E. cbn. eauto.
  - destruct (decide (dst = src)) as [->|Hne]; [unfold move_ref; rewrite decide_True by done; cbn; eauto|].
    destruct (move_ref_spec w dst src x0 x) as (w' & E & _); try done; [apply HI|]. rewrite E. cbn. eauto.
  - destruct (reset_ref_spec w f x) as (w' & E & _); [apply HI|done|]. rewrite E. cbn. eauto.
Qed.
(** C18: programs of the safe class never run into undefined behaviour: no dangling record, vault or set is ever accessed. *)
Lemma t_C18_safe_programs_defined :
  forall ord w p, fair ord -> reach true w -> allowed true w p -> is_Some (step ord w p).
Proof. intros ord w p Hf HR HA. by apply safe_no_ub. Qed.

Lemma ref_valid_ok b w f rf : reach b w -> w_refs w !! f = Some rf -> exists v, ref_valid w rf = Some v /\ (v = true <-> exists r, f_rec rf = Some r /\ valid_rec w r).
Proof.
  intros HR Hf. pose proof (reach_inv _ _ HR) as HI. unfold ref_valid. destruct (f_rec rf) as [r|] eqn:E.
  - destruct (ri_refs _ _ _ (inv_ref _ _ HI) _ _ _ Hf E) as [rc Hrc]. rewrite Hrc. cbn. eexists. split; [done|]. split.
    + intros Hv. exists r. split; [done|]. by exists rc.
    + intros (r' & [= <-] & rc' & Hrc' & Hv). congruence.
  - exists false. split; [done|]. split; [done|]. by intros (? & ? & _).
Qed.
(** C20: IsValid tells whether the reference denotes a record that is still in its vault. *)
Lemma t_C20_isvalid_exact :
  forall b w f rf, reach b w -> w_refs w !! f = Some rf ->
    exists v, ref_valid w rf = Some v /\ (v = true <-> exists r o ob, denotes w f r /\ vault_at w o ob /\ r ∈ o_recs ob).
Proof.
  intros b w f rf HR Hf. destruct (ref_valid_ok _ _ _ _ HR Hf) as (v & E & Hv). exists v. split; [done|]. rewrite Hv. split.
  - intros (r & Hr & Hval). destruct (t_C18_allocated_iff_used b w r HR) as (_ & H2 & _). apply H2 in Hval as (o & ob & HV & Hin). exists r, o, ob. split; [by exists rf|done].
  - intros (r & o & ob & (rf' & Hf' & Hr) & HV & Hin). assert (rf' = rf) as -> by congruence. exists r. split; [done|].
    destruct (t_C18_allocated_iff_used b w r HR) as (_ & H2 & _). apply H2. eauto.
Qed.
(** C20: comparing references is defined, != is the negation of ==, and two references are equal exactly if they are both invalid or denote
    the same valid record. *)
Lemma t_C20_equality_meaning :
  forall b w f g rf rg, reach b w -> w_refs w !! f = Some rf -> w_refs w !! g = Some rg ->
    exists e, ref_eq w rf rg = Some e /\ ref_neq w rf rg = Some (negb e) /\
    (e = true <-> (exists r, denotes w f r /\ denotes w g r /\ valid_rec w r) \/
                  ((forall r, denotes w f r -> ~ valid_rec w r) /\ (forall r, denotes w g r -> ~ valid_rec w r))).
Proof.
  intros b w f g rf rg HR Hf Hg. destruct (ref_valid_ok _ _ _ _ HR Hf) as (vf & Ef & Hvf). destruct (ref_valid_ok _ _ _ _ HR Hg) as (vg & Eg & Hvg).
  assert (Df : forall r, denotes w f r <-> f_rec rf = Some r). { intros r. split; [intros (? & ? & ?); congruence|]. intros ?. by exists rf. }
  assert (Dg : forall r, denotes w g r <-> f_rec rg = Some r). { intros r. split; [intros (? & ? & ?); congruence|]. intros ?. by exists rg. }
  unfold ref_eq, ref_neq. rewrite Ef. cbn [mbind option_bind]. destruct vf.
  - eexists. split; [done|]. split; [done|]. destruct (proj1 Hvf eq_refl) as (r & Hr & Hval). rewrite bool_decide_eq_true. split.
    + intros E. left. exists r. rewrite Df, Dg. split; [done|]. split; congruence.
    + intros [(r' & H1 & H2 & _)|[H1 _]]; [apply Df in H1; apply Dg in H2; congruence|]. by destruct (H1 r); [apply Df|].
  - rewrite Eg. cbn [mbind option_bind]. eexists. split; [done|]. rewrite negb_involutive. split; [done|]. rewrite negb_true_iff. split.
    + intros ->. right. split; intros r Hr Hv.
      * enough (false = true) by done. apply Hvf. exists r. by apply Df in Hr.
      * enough (false = true) by done. apply Hvg. exists r. by apply Dg in Hr.
    + intros [(r & H1 & H2 & H3)|[_ H2]].
      * enough (false = true) by done. apply Hvf. exists r. by apply Df in H1.
      * destruct vg; [|done]. destruct (proj1 Hvg eq_refl) as (r & Hr & Hv). by destruct (H2 r); [apply Dg|].
Qed.
(** C20: equality of references is reflexive, symmetric and transitive. *)
Lemma t_C20_equality_equivalence :
  forall b w f g h rf rg rh, reach b w -> w_refs w !! f = Some rf -> w_refs w !! g = Some rg -> w_refs w !! h = Some rh ->
    ref_eq w rf rf = Some true /\ ref_eq w rf rg = ref_eq w rg rf /\
    (ref_eq w rf rg = Some true -> ref_eq w rg rh = Some true -> ref_eq w rf rh = Some true).
Proof.
  intros b w f g h rf rg rh HR Hf Hg Hh.
  assert (Dn : forall x y z, denotes w x y -> denotes w x z -> y = z). { intros x y z (? & ? & ?) (? & ? & ?). congruence. }
  assert (Hdec : forall x rx, w_refs w !! x = Some rx -> (exists r, denotes w x r /\ valid_rec w r) \/ (forall r, denotes w x r -> ~ valid_rec w r)).
  { intros x rx Hx. destruct (ref_valid_ok _ _ _ _ HR Hx) as (v & _ & Hv). destruct v.
    - destruct (proj1 Hv eq_refl) as (r & Hr & Hval). left. exists r. split; [by exists rx|done].
    - right. intros r (rx' & Hx' & Hr) Hval. enough (false = true) by done. apply Hv. exists r. split; [congruence|done]. }
  split; [|split].
  - destruct (t_C20_equality_meaning _ _ _ _ _ _ HR Hf Hf) as (e & -> & _ & He). f_equal. apply He. destruct (Hdec _ _ Hf) as [(r & H1 & H2)|H]; [left|right]; eauto.
  - destruct (t_C20_equality_meaning _ _ _ _ _ _ HR Hf Hg) as (e & -> & _ & He). destruct (t_C20_equality_meaning _ _ _ _ _ _ HR Hg Hf) as (e' & -> & _ & He').
    f_equal. apply eq_iff_eq_true. rewrite He, He'. split; (intros [(r & ? & ? & ?)|[? ?]]; [left; eauto|right; auto]).
  - destruct (t_C20_equality_meaning _ _ _ _ _ _ HR Hf Hg) as (e & -> & _ & He). destruct (t_C20_equality_meaning _ _ _ _ _ _ HR Hg Hh) as (e' & -> & _ & He').
    destruct (t_C20_equality_meaning _ _ _ _ _ _ HR Hf Hh) as (e'' & -> & _ & He''). intros [= E] [= E']. f_equal. apply He''. apply He in E. apply He' in E'.
    destruct E as [(r & A1 & A2 & A3)|[A1 A2]], E' as [(r' & B1 & B2 & B3)|[B1 B2]].
    + left. exists r. assert (r' = r) as -> by exact (Dn _ _ _ B1 A2). done.
    + by destruct (B1 r).
    + by destruct (A2 r').
    + auto.
Qed.

Lemma foldM_keeps {A B} (P : A -> Prop) (F : A -> B -> option A) l : (forall a x a', P a -> F a x = Some a' -> P a') -> forall a a', P a -> foldM F a l = Some a' -> P a'.
Proof.
  intros HF. induction l as [|x l IH]; intros a a' Ha H; cbn [foldM] in H; [congruence|]. destruct (F a x) as [a1|] eqn:E; [|done]. cbn [mbind option_bind] in H. eauto.
Qed.
Lemma set_data_refs fuel ord : forall w o r k v w' res, set_data_to_record fuel ord w o r k v = Some (w', res) -> w_refs w' = w_refs w.
Proof.
  induction fuel as [|fuel IH]; intros w o r k v w' res H; cbn [set_data_to_record] in H; [done|].
  destruct (w_objs w !! o) as [ob|]; [|done]. cbn [mbind option_bind] in H. destruct (w_recs w !! r) as [rc|]; [|done]. cbn [mbind option_bind] in H.
  destruct (negb (r_valid rc)); [by injection H as <- <-|]. destruct (o_keys ob !! k) as [[t d]|]; [|by injection H as <- <-].
  destruct (decide (t = vty v)); [|by injection H as <- <-]. destruct (o_idx ob !! k) as [ix|]; [|done]. cbn [mbind option_bind] in H.
  destruct (_ && _); [by injection H as <- <-|]. destruct (o_isset ob); [by injection H as <- <-|].
  match type of H with (foldM ?F ?W ?L ≫= _) = _ => destruct (foldM F W L) as [w2|] eqn:E; [|done] end. cbn [mbind option_bind] in H.
  destruct (w_recs w2 !! r) as [rc2|]; [|done]. cbn [mbind option_bind] in H. injection H as <- <-. cbn.
  eapply (foldM_keeps (fun w1 => w_refs w1 = w_refs w)) in E; [done| |done]. intros a x a' Ha Hx.
  destruct (set_data_to_record fuel ord a x r k v) as [[a1 r1]|] eqn:E1; [|done]. cbn in Hx. injection Hx as <-. rewrite (IH _ _ _ _ _ _ _ E1). done.
Qed.
Lemma ref_set_data_refs ord w f k v w' res : ref_set_data ord w f k v = Some (w', res) -> w_refs w' = w_refs w.
Proof.
  unfold ref_set_data. destruct (w_refs w !! f) as [rf|]; [|done]. cbn [mbind option_bind]. destruct (f_rec rf) as [r|]; [|by intros [= <- <-]].
  destruct (f_vlt rf) as [o|]; [|done]. cbn [mbind option_bind]. destruct (w_objs w !! o) as [ob|]; [|done]. cbn [mbind option_bind].
  destruct (w_recs w !! r) as [rc|]; [|done]. cbn [mbind option_bind]. destruct (r_valid rc); [apply set_data_refs|by intros [= <- <-]].
Qed.

(** C42: SetData with several values is the sequence of single SetData calls, in order, up to and including the first one that fails. *)
Lemma t_C42_setmany_is_sequence :
  forall ord w f ps w' res, w_refs w !! f <> None -> step ord w (OSetMany f ps) = Some (w', ORes res) ->
    exists ps1 w1 ps2, ps = ps1 ++ ps2 /\ set_each ord f w ps1 w1 /\
    match ps2 with
    | [] => w' = w1 /\ res_ok res = true
    | (k, v) :: _ => step ord w1 (OSetData f k v) = Some (w', ORes res) /\ res_ok res = false
    end.
Proof.
  intros ord w f ps w' res Hf H. cbn [step] in H. unfold guard_op, is_ref in H. rewrite bool_decide_true in H by (by apply not_eq_None_Some).
  apply res_inv in H as (res1 & H & [= ->]). unfold ref_set_many in H. destruct (w_refs w !! f) as [rf|] eqn:Erf; [|done]. cbn [mbind option_bind] in H.
  destruct (f_vlt rf) as [o|]; [|done]. cbn [mbind option_bind] in H. destruct (w_objs w !! o) as [ob|]; [|done]. cbn [mbind option_bind] in H.
  assert (Hr0 : res_ok res0 = true) by done. assert (Hfr : is_Some (w_refs w !! f)) by eauto. clear Hf rf Erf o ob.
  revert w Hfr H Hr0. generalize res0. induction ps as [|[k v] ps IH]; intros r0 w Hf H Hr0; cbn [ref_set_many_loop] in H.
  - injection H as <- <-. exists [], w, []. split; [done|]. split; [constructor|done].
  - destruct (ref_set_data ord w f k v) as [[w1 res2]|] eqn:E; [|done]. cbn [mbind option_bind] in H.
    assert (Es : step ord w (OSetData f k v) = Some (w1, ORes res2)). { cbn [step]. unfold guard_op, is_ref. rewrite bool_decide_true by done. rewrite E. done. }
    destruct (res_ok res2) eqn:Er.
    + destruct (IH res2 w1) as (ps1 & w2 & ps2 & -> & H1 & H2); [|done|done|].
      { rewrite (ref_set_data_refs _ _ _ _ _ _ _ E). done. }
      exists ((k, v) :: ps1), w2, ps2. split; [done|]. split; [by econstructor|done].
    + injection H as <- <-. exists [], w, ((k, v) :: ps). split; [done|]. split; [constructor|]. done.
Qed.

Lemma last_filter_cons {A} (P : A -> Prop) `{forall x, Decision (P x)} x l :
  last (filter P (x :: l)) = match last (filter P l) with Some y => Some y | None => if decide (P x) then Some x else None end.
Proof.
  rewrite filter_cons. destruct (decide (P x)); [|by destruct (last (filter P l))]. rewrite last_cons. by destruct (last (filter P l)).
Qed.
(** C42: if it succeeds, the record holds for each given key the last value given for it; nothing else changes. *)
Lemma t_C42_success_stores_all :
  forall b ord w f r o ob ps w' res, fair ord -> reach b w -> allowed b w (OSetMany f ps) ->
    denotes w f r -> bound_to w f o -> vault_at w o ob ->
    step ord w (OSetMany f ps) = Some (w', ORes res) -> res_ok res = true ->
    w_refs w' = w_refs w /\ (forall x, valid_rec w' x <-> valid_rec w x) /\
    forall x k, stored w' x k = if decide (x = r) then match last (filter (fun p : string * value => p.1 = k) ps) with Some p => Some p.2 | None => stored w r k end
                                else stored w x k.
Proof.
  intros b ord w f r o ob ps w' res Hf HR HA Hd Hb HV H Hok. pose proof Hd as (rf & Hrf & Hr).
  destruct (t_C42_setmany_is_sequence ord w f ps w' res) as (ps1 & w1 & ps2 & -> & HS & H2); [congruence|done|].
  destruct ps2 as [|[k2 v2] ps2]; [|destruct H2; congruence]. destruct H2 as [-> _]. rewrite app_nil_r in *. clear H Hok.
  assert (HA' : ref_fit b w rf) by (by apply (proj1 (HA rf Hrf))). clear HA. revert ob HV HR Hd Hb Hrf HA'.
  induction HS as [w|w k v w1 res1 ps w' E Eok HS IH]; intros ob HV HR Hd Hb Hrf HA.
  { split; [done|]. split; [done|]. intros x k. cbn. by case_decide; subst. }
  assert (HAs : allowed b w (OSetData f k v)) by (intros rf1 Hrf1; by assert (rf1 = rf) as -> by congruence).
  destruct (t_C07_read_your_write _ _ _ _ _ _ _ _ _ _ _ Hf HR HAs Hd Hb HV E Eok) as (_ & W1 & W2 & W3 & W4 & _).
  destruct (t_C05_setdata_effect_on_index _ _ _ _ _ _ _ _ _ _ _ Hf HR HAs Hd Hb HV E Eok) as (ob1 & HV1 & _).
  assert (HF1 : ref_fit b w1 rf).
  { cbn [step] in E. unfold guard_op in E. destruct (is_ref w f); [|done]. apply res_inv in E as (res2 & E & [= ->]).
    destruct (ref_set_data_ok b ord w f rf k v) as (w2 & res3 & E2 & _ & Hc); try done; [apply (reach_inv _ _ HR)|by eapply Some_Def|]. rewrite E in E2. injection E2 as <- <-.
    destruct Hc as [[-> _]|(r1 & o1 & ob2 & rc & _ & _ & _ & _ & _ & _ & _ & _ & ->)]; [done|]. by apply ref_fit_data_set. }
  assert (HR1 : reach b w1) by (by eapply reach_step).
  destruct (IH ob1) as (I1 & I2 & I3); try done.
  - destruct Hd as (rf' & ? & ?). exists rf'. split; congruence.
  - destruct Hb as (rf' & ? & ?). exists rf'. split; congruence.
  - congruence.
  - split; [congruence|]. split; [intros x; by rewrite I2, W4|]. intros x k'. rewrite I3. destruct (decide (x = r)) as [->|Hne]; [|apply W2; congruence].
    rewrite (last_filter_cons (fun p : string * value => p.1 = k')). destruct (last _); [done|]. cbn [fst]. destruct (decide (k = k')) as [<-|]; [done|]. apply W2. congruence.
Qed.
