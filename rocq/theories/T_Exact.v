(** Lemmas for C10, C32: exactly where undefined behaviour begins. *)
From Verif Require Export T_Sets3 ExactSpec.
From Verif Require Import T_Strings.
Open Scope nat_scope.

Lemma request_set_key ord w ob rt k b e ib ie amt p res l : request_set ord w ob rt k b e ib ie amt p = Some (res, l) ->
  (res_ok res = true <-> get_key_type ob k = Some (vty b)).
Proof.
  unfold request_set, get_key_type. destruct (o_keys ob !! k) as [[t d]|]; cbn.
  2:{ by intros [= <- <-]. }
  destruct (decide (t = vty b)) as [->|Hne]; [|intros [= <- <-]; split; [done|congruence]].
  destruct (o_idx ob !! k); cbn [mbind option_bind]; [|done]. destruct (candidates _ _ _ _ _ _ _); cbn [mbind option_bind]; [|done].
  destruct (filterM _ _); cbn; [|done]. by intros [= <- <-].
Qed.
Lemma eval_req_keyed ord w ob q rs : fair ord -> eval_req ord w ob q = Some rs -> (forall l, rs = inr l -> well_keyed ob q).
Proof.
  intros Hf. revert rs. induction q as [lf k v p|a IHa b IHb|a IHa b IHb]; intros rs H l ->; cbn [eval_req] in H.
  - destruct (request_set _ _ _ _ _ _ _ _ _ _ _) as [[res rs]|] eqn:E; [|done]. cbn in H. apply request_set_key in E.
    destruct (res_ok res); [|done]. by apply E.
  - destruct (shortcut a b) as [[[[[ib k] va] vb] p]|] eqn:Es.
    + destruct (shortcut_Some _ _ _ _ _ _ _ Es) as (la & pa & pb & -> & -> & -> & Hla).
      destruct (request_set _ _ _ _ _ _ _ _ _ _ _) as [[res rs]|] eqn:E; [|done]. cbn in H. pose proof (request_set_key _ _ _ _ _ _ _ _ _ _ _ _ _ E) as HE.
      destruct (res_ok res); [|done]. pose proof (proj1 HE eq_refl) as HK. cbn. split; [done|].
      unfold request_set in E. unfold get_key_type in HK |- *. destruct (o_keys ob !! k) as [[t d]|]; [|done]. cbn in HK |- *. injection HK as ->.
      rewrite decide_True in E by done. destruct (o_idx ob !! k); [|done]. cbn [mbind option_bind] in E. unfold candidates in E. destruct (decide (vty vb = vty va)) as [->|]; done.
    + destruct (eval_req ord w ob a) as [[ea|la]|]; cbn in H; try done.
      destruct (eval_req ord w ob b) as [[eb|lb]|]; cbn in H; try done. split; [by eapply IHa|by eapply IHb].
  - destruct (eval_req ord w ob a) as [[ea|la]|]; cbn in H; try done.
    destruct (eval_req ord w ob b) as [[eb|lb]|]; cbn in H; try done. split; [by eapply IHa|by eapply IHb].
Qed.
(** With the error, a part is not well keyed. *)
Lemma eval_req_err ord w ob q e : eval_req ord w ob q = Some (inl e) -> ~ well_keyed ob q.
Proof.
  induction q as [lf k v p|a IHa b IHb|a IHa b IHb]; intros H; cbn [eval_req] in H.
  - destruct (request_set _ _ _ _ _ _ _ _ _ _ _) as [[res rs]|] eqn:E; [|done]. cbn in H. apply request_set_key in E. cbn.
    destruct (res_ok res); [done|]. intros X. by apply E in X.
  - destruct (shortcut a b) as [[[[[ib k] va] vb] p]|] eqn:Es.
    + destruct (shortcut_Some _ _ _ _ _ _ _ Es) as (la & pa & pb & -> & -> & -> & Hla).
      destruct (request_set _ _ _ _ _ _ _ _ _ _ _) as [[res rs]|] eqn:E; [|done]. cbn in H. apply request_set_key in E. cbn.
      destruct (res_ok res); [done|]. intros [X _]. by apply E in X.
    + cbn. destruct (eval_req ord w ob a) as [[ea|la]|]; cbn in H; try done; [intros [X _]; by apply IHa in X|].
      destruct (eval_req ord w ob b) as [[eb|lb]|]; cbn in H; try done. intros [_ X]. by apply IHb in X.
  - cbn. destruct (eval_req ord w ob a) as [[ea|la]|]; cbn in H; try done; [intros [X _]; by apply IHa in X|].
    destruct (eval_req ord w ob b) as [[eb|lb]|]; cbn in H; try done. intros [_ X]. by apply IHb in X.
Qed.
Lemma mixes_and ob a b : mixes ob (QAnd a b) <->
  match shortcut a b with
  | Some (_, k, va, vb, _) => get_key_type ob k = Some (vty va) /\ vty vb <> vty va
  | None => mixes ob a \/ (well_keyed ob a /\ mixes ob b)
  end.
Proof.
  unfold shortcut. destruct a as [la ka va pa|a1 a2|a1 a2]; [|done|done]. destruct b as [lb kb vb pb|b1 b2|b1 b2]; [|done|done].
  destruct lb; try (cbn; tauto). cbn [mixes]. destruct (decide _) as [[-> Hla]|Hn]; cbn; tauto.
Qed.
Lemma request_set_none ord w ob k va vb ib p : fair ord -> queryable w ob ->
  (request_set ord w ob RInterval k va vb ib false None p = None <-> get_key_type ob k = Some (vty va) /\ vty vb <> vty va).
Proof.
  intros Hf Hq. split.
  - intros E. destruct (decide (vty vb = vty va)) as [Ht|Ht]; [|split; [|done]].
    { destruct (request_set_def ord w ob RInterval k va vb ib false None p Hf Hq Ht) as [x Hx]. congruence. }
    unfold request_set in E. unfold get_key_type. destruct (o_keys ob !! k) as [[t d]|]; [|done]. cbn. destruct (decide (t = vty va)) as [->|]; [done|done].
  - intros [HK Ht]. unfold request_set. unfold get_key_type in HK. destruct (o_keys ob !! k) as [[t d]|]; [|done]. cbn in HK. injection HK as ->.
    rewrite decide_True by done. destruct (o_idx ob !! k); [|done]. cbn [mbind option_bind]. unfold candidates. by rewrite decide_False.
Qed.
Lemma eval_req_none ord w ob q : fair ord -> queryable w ob -> (eval_req ord w ob q = None <-> mixes ob q).
Proof.
  intros Hf Hq. assert (HB : forall a b (f : list nat -> list nat -> opres + list nat), (eval_req ord w ob a = None <-> mixes ob a) -> (eval_req ord w ob b = None <-> mixes ob b) ->
    ((ra ← eval_req ord w ob a; match ra with inl e => Some (inl e) | inr la => rb ← eval_req ord w ob b; match rb with inl e => Some (inl e) | inr lb => Some (f la lb) end end) = None <->
     mixes ob a \/ (well_keyed ob a /\ mixes ob b))).
  { intros a b f IHa IHb. destruct (eval_req ord w ob a) as [[ea|la]|] eqn:Ea; cbn [mbind option_bind].
    - split; [done|]. intros [X|[X _]]; [by apply IHa in X|]. by eapply eval_req_err in Ea.
    - assert (well_keyed ob a) as Wa by (by eapply eval_req_keyed). assert (~ mixes ob a) as Na by (intros X; by apply IHa in X).
      destruct (eval_req ord w ob b) as [[eb|lb]|]; cbn [mbind option_bind].
      + split; [done|]. intros [X|[_ X]]; [done|by apply IHb in X].
      + split; [done|]. intros [X|[_ X]]; [done|by apply IHb in X].
      + split; [|done]. intros _. right. split; [done|]. by apply IHb.
    - split; [|done]. intros _. left. by apply IHa. }
  induction q as [l k v p|a IHa b IHb|a IHa b IHb].
  - cbn [eval_req mixes]. destruct (request_set_def ord w ob (leaf_rtype l) k v v false false None (Some p) Hf Hq eq_refl) as [[res rs] ->]. cbn. done.
  - rewrite mixes_and. cbn [eval_req]. destruct (shortcut a b) as [[[[[ib k] va] vb] p]|].
    + rewrite <- (request_set_none ord w ob k va vb ib (Some p) Hf Hq). destruct (request_set _ _ _ _ _ _ _ _ _ _ _) as [[res rs]|]; cbn; done.
    + apply (HB a b (fun la lb => inr (filter (fun r => r ∈ lb) la)) IHa IHb).
  - cbn [eval_req mixes]. apply (HB a b (fun la lb => inr (la ++ lb)) IHa IHb).
Qed.
Lemma complex_def ord w o ob q s sb :
  fair ord -> Inv true w -> w_objs w !! o = Some ob -> w_objs w !! s = Some sb -> o_static_set sb = true -> o <> s ->
  (complex_request ord w o q s = None <-> is_Some (source_vault o ob) /\ eval_req ord w ob q = None).
Proof.
  intros Hf HI Ho Hs Hst Hos. unfold complex_request. rewrite Ho. cbn [mbind option_bind].
  destruct (source_vault o ob) as [pv|] eqn:Esv; [|split; [done|by intros [[? ?] _]]].
  rewrite (bool_decide_false (s = o)), andb_false_r by done.
  destruct (InvSets2.source_parent _ _ _ _ _ HI Ho Esv) as (pb & Hpb & Hpst). rewrite Hpb. cbn [mbind option_bind].
  destruct (bind_target_ok true ord w o pv s sb ob) as (w1 & sb1 & pb1 & Hb & HI1 & Hso & Hs1 & Hst1 & Hp1 & Hr1 & Hpb1 & Hpst1); try done.
  rewrite Hb. cbn [mbind option_bind].
  destruct (set_only_obj _ _ _ _ _ Hso Hos Ho) as (ob1 & Hob1 & Eob1 & _). rewrite Hob1. cbn [mbind option_bind].
  assert (Hsv1 : source_vault o ob1 = Some pv) by (rewrite Eob1; done).
  assert (EE : eval_req ord w1 ob1 q = eval_req ord w ob q) by (rewrite Eob1; by apply (eval_req_frame s)).
  destruct (eval_req ord w1 ob1 q) as [rs|] eqn:Hq; rewrite <- EE; cbn [mbind option_bind]; [|split; [intros _; split; [by eexists|done]|done]].
  split; [|by intros [_ ?]]. intros E. exfalso. destruct rs as [e|l].
  { destruct (set_clear_ok true ord w1 s sb1) as [Hc Hci]; try done. rewrite Hc in E. done. }
  destruct (take_fold true s pv w1 sb1 pb1 (ord (elements (list_to_set l : gset nat)))) as (w2 & sb2 & Hw2 & _); try done.
  { by apply WorldProofs.fair_NoDup. }
  { intros r Hr. apply WorldProofs.fair_elem in Hr; [|done]. apply elem_of_list_to_set in Hr.
    destruct (eval_req_elem _ _ _ _ _ _ Hf Hq Hr) as (k & td & ix & x & K1 & K2 & <- & K4).
    destruct (source_idx _ _ _ _ _ _ _ _ _ _ HI1 Hob1 Hsv1 Hpb1 K1 K2 K4) as (A1 & A2 & A3). split; [done|].
    intros Hbt. split; [auto|]. rewrite Hr1. set_solver. }
  by rewrite Hw2 in E.
Qed.
(** C10: a request is undefined behaviour exactly when it comes to an interval whose ends have different types. *)
Lemma t_C10_undefined_iff :
  forall ord w o ob pv q s sb, fair ord -> reach true w -> source_at true w o ob pv -> set_at w s sb -> o <> s ->
    (step ord w (OComplex o q s) = None <-> mixes ob q).
Proof.
  intros ord w o ob pv q s sb Hf HR HSo [Hs Hst] Hos. pose proof (source_obj _ _ _ _ _ HSo) as Ho. pose proof (source_vault_at _ _ _ _ _ HR HSo) as Hpv.
  pose proof (reach_inv _ _ HR) as HI. rewrite <- (eval_req_none ord w ob q Hf) by (by eapply source_queryable).
  assert (is_obj w o && is_set w s = true) as G by (unfold is_obj, is_set; by rewrite Ho, Hs, Hst).
  cbn [step]. unfold guard_op. rewrite G. pose proof (complex_def ord w o ob q s sb Hf HI Ho Hs Hst Hos) as HC.
  destruct (complex_request ord w o q s) as [[w' res]|]; cbn.
  - split; [done|]. intros E. by assert (Some (w', res) = None) by (apply HC; eauto).
  - split; [|done]. intros _. by apply HC.
Qed.
(** C32: reading what was written gives the value back exactly for the types with a FromString and all values but the least int32 and int64 ... *)
Lemma t_C32_roundtrip_iff :
  forall v, in_range v -> (from_string (vty v) (to_string v) = FsOk v <-> readable (vty v) = true /\ v <> VInt I32 (imin I32) /\ v <> VInt I64 (imin I64)).
Proof.
  intros v Hv. split.
  - intros E. split; [|split].
    + destruct v as [[]| | |]; done.
    + intros ->. vm_compute in E. done.
    + intros ->. vm_compute in E. done.
  - intros (H1 & H2 & H3). by apply t_C32_roundtrip_partial.
Qed.
(** ... is undefined behaviour for these two, and is rejected for the other types. *)
Lemma t_C32_otherwise :
  forall v, in_range v -> (from_string (vty v) (to_string v) = FsUB <-> v = VInt I32 (imin I32) \/ v = VInt I64 (imin I64)) /\
    (from_string (vty v) (to_string v) = FsFail <-> readable (vty v) = false).
Proof.
  intros v Hv. destruct (decide (v = VInt I32 (imin I32))) as [->|H1]; [by split; vm_compute; split; auto|].
  destruct (decide (v = VInt I64 (imin I64))) as [->|H2]; [by split; vm_compute; split; auto|].
  destruct (readable (vty v)) eqn:Er.
  - rewrite t_C32_roundtrip_partial by done. split; split; try done. by intros [?|?].
  - split; split; try done; [|by intros [?|?]|]; destruct v as [[]| | |]; done.
Qed.
