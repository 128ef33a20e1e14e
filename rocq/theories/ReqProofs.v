(** What requests return. *)
From Verif Require Export InvSets2.
Open Scope nat_scope.


Lemma filter_all {A} (P : A -> Prop) `{!forall x, Decision (P x)} (l : list A) : Forall P l -> filter P l = l.
Proof. induction 1 as [|x l Hx Hl IH]; [done|]. rewrite filter_cons, decide_True by done. by rewrite IH. Qed.
Lemma filter_none {A} (P : A -> Prop) `{!forall x, Decision (P x)} (l : list A) : Forall (fun x => ~ P x) l -> filter P l = [].
Proof. induction 1 as [|x l Hx Hl IH]; [done|]. by rewrite filter_cons, decide_False. Qed.
Lemma filter_filter_and {A} (P Q R : A -> Prop) `{!forall x, Decision (P x)} `{!forall x, Decision (Q x)} `{!forall x, Decision (R x)}
    (l : list A) : (forall x, R x <-> P x /\ Q x) -> filter P (filter Q l) = filter R l.
Proof.
  intros HR. induction l as [|x l IH]; [done|]. rewrite !(filter_cons _ x l). specialize (HR x).
  destruct (decide (Q x)), (decide (R x)); try tauto; rewrite ?filter_cons; destruct (decide (P x)); try tauto; by rewrite ?IH.
Qed.
Lemma filter_ext' {A} (P Q : A -> Prop) `{!forall x, Decision (P x)} `{!forall x, Decision (Q x)} (l : list A) :
  (forall x, x ∈ l -> P x <-> Q x) -> filter P l = filter Q l.
Proof.
  induction l as [|x l IH]; intros HR; [done|]. rewrite !filter_cons.
  assert (P x <-> Q x) by (apply HR; by left). rewrite IH by (intros y Hy; apply HR; by right).
  destruct (decide (P x)), (decide (Q x)); tauto.
Qed.

Lemma candidates_tree ord ix rt b e ib ie :
  vsorted (ix_tree ix) -> vty e = vty b -> rt <> REqual ->
  candidates ord ix rt b e ib ie = Some (snd <$> filter (fun x => sat rt b e ib ie x.1) (ix_tree ix)).
Proof.
  intros Hs Ht Hrt. unfold candidates.
  assert (H : exists l, iterate (bounds rt b e ib ie (ix_tree ix)).1 (bounds rt b e ib ie (ix_tree ix)).2 (ix_tree ix) = Some l /\
    l = filter (fun x => sat rt b e ib ie x.1) (ix_tree ix)).
  2:{ destruct H as (l & H1 & ->). destruct rt; [congruence|..]; rewrite decide_True by done; cbv zeta; rewrite H1.
    all: done. }
  unfold iterate. set (t := ix_tree ix) in *. destruct rt; [congruence|..]; cbn [bounds fst snd].
  - rewrite decide_True by apply upper_bound_le. eexists. split; [done|].
    rewrite take_ge by (rewrite drop_length; lia). rewrite drop_upper_bound by done. by apply filter_ext'.
  - rewrite decide_True by apply lower_bound_le. eexists. split; [done|].
    rewrite take_ge by (rewrite drop_length; lia). rewrite drop_lower_bound by done. by apply filter_ext'.
  - rewrite decide_True by lia. eexists. split; [done|]. rewrite Nat.sub_0_r, drop_0. rewrite take_lower_bound by done. by apply filter_ext'.
  - rewrite decide_True by lia. eexists. split; [done|]. rewrite Nat.sub_0_r, drop_0. rewrite take_upper_bound by done. by apply filter_ext'.
  - destruct (vltb e b || (bool_decide (b = e) && (negb ib || negb ie))) eqn:E; cbn [fst snd].
    + rewrite decide_True by lia. eexists. split; [done|]. rewrite Nat.sub_diag. rewrite take_0. symmetry. apply filter_none.
      apply Forall_forall. intros x _ [H1 H2]. assert (Hbx : vle b x.1) by (destruct ib; [done|by apply vlt_vle]).
      assert (Hxe : vle x.1 e) by (destruct ie; [done|by apply vlt_vle]).
      assert (Hbe : vle b e) by by eapply vle_trans.
      apply orb_true_iff in E as [E|E]; [unfold vle in Hbe; congruence|]. apply andb_true_iff in E as [E1 E2].
      apply bool_decide_eq_true in E1. subst e. assert (x.1 = b) as Hx by by apply vle_antisym. rewrite Hx in *.
      destruct ib; [|by apply vlt_irrefl in H1]. destruct ie; [done|by apply vlt_irrefl in H2].
    + apply orb_false_iff in E as [E1 E2]. fold (vle b e) in E1.
      assert (Hlt : ib = false \/ ie = false -> vlt b e).
      { intros Hi. apply vle_cases in E1 as [|<-]; [done|]. rewrite bool_decide_true in E2 by done. cbn in E2.
        destruct Hi as [-> | ->]; cbn in E2; [done|by rewrite orb_true_r in E2]. }
      destruct ib, ie; cbn [negb] in *.
      * rewrite decide_True by by apply lower_upper_bound. eexists. split; [done|].
        rewrite take_upper_bound_drop by (try done; by apply lower_upper_bound). rewrite drop_lower_bound by done.
        apply filter_filter_and. cbn. tauto.
      * rewrite decide_True by by apply lower_bound_mono. eexists. split; [done|].
        rewrite take_lower_bound_drop by (try done; by apply lower_bound_mono). rewrite drop_lower_bound by done.
        apply filter_filter_and. cbn. tauto.
      * rewrite decide_True by by apply upper_bound_mono. eexists. split; [done|].
        rewrite take_upper_bound_drop by (try done; by apply upper_bound_mono). rewrite drop_upper_bound by done.
        apply filter_filter_and. cbn. tauto.
      * specialize (Hlt (or_introl eq_refl)). rewrite decide_True by by apply upper_lower_bound. eexists. split; [done|].
        rewrite take_lower_bound_drop by (try done; by apply upper_lower_bound). rewrite drop_upper_bound by done.
        apply filter_filter_and. cbn. tauto.
Qed.

(** Any candidate comes from the index. *)
Lemma candidates_elem ord ix rt b e ib ie l r :
  fair ord -> candidates ord ix rt b e ib ie = Some l -> r ∈ l -> exists x, x.2 = r /\ (x ∈ ix_hash ix \/ x ∈ ix_tree ix).
Proof.
  intros Hf H Hr. unfold candidates in H.
  assert (Ht : forall s n l', iterate s n (ix_tree ix) = Some l' -> r ∈ snd <$> l' -> exists x, x.2 = r /\ (x ∈ ix_hash ix \/ x ∈ ix_tree ix)).
  { intros s n l' Hl' Hin. unfold iterate in Hl'. destruct (decide (s <= n)); [|done]. injection Hl' as <-.
    apply elem_of_list_fmap in Hin as (x & -> & Hx). exists x. split; [done|]. right.
    apply elem_of_take in Hx as (i & Hx & _). rewrite lookup_drop in Hx. by eapply elem_of_list_lookup_2. }
  destruct rt.
  1:{ injection H as <-. rewrite (fair_elem_list ord _ _ Hf) in Hr. apply elem_equal_range_snd in Hr. exists (b, r). split; [done|]. by left. }
  all: destruct (decide (vty e = vty b)); [|done]; destruct (iterate _ _ _) as [l'|] eqn:E; [|done]; injection H as <-; by eapply Ht.
Qed.
Lemma filterM_elem f l l' x : filterM f l = Some l' -> x ∈ l' -> x ∈ l /\ f x = Some true.
Proof.
  revert l'. induction l as [|y l IH]; intros l' H Hx; cbn in H; [injection H as <-; by apply elem_of_nil in Hx|].
  destruct (f y) as [c|] eqn:E; [|done]. cbn in H. destruct (filterM f l) as [l''|] eqn:E2; [|done]. cbn in H. injection H as <-.
  destruct c; [apply elem_of_cons in Hx as [->|Hx]|]; (try (split; [by left|done])); destruct (IH _ eq_refl Hx); split; try done; by right.
Qed.
Lemma limit_elem {A} amt (l : list A) x : x ∈ limit amt l -> x ∈ l.
Proof. destruct amt; cbn; [|done]. intros H. apply elem_of_take in H as (i & H & _). by eapply elem_of_list_lookup_2. Qed.
Lemma limit1_elem {A} amt (l : list A) x : x ∈ limit1 amt l -> x ∈ l.
Proof. destruct amt; cbn [limit1]; [|done]. intros H. apply elem_of_take in H as (i & H & _). by eapply elem_of_list_lookup_2. Qed.

Lemma request_set_elem ord w ob rt k b e ib ie amt p res l r :
  fair ord -> request_set ord w ob rt k b e ib ie amt p = Some (res, l) -> r ∈ l ->
  exists td ix x, o_keys ob !! k = Some td /\ o_idx ob !! k = Some ix /\ x.2 = r /\ (x ∈ ix_hash ix \/ x ∈ ix_tree ix).
Proof.
  intros Hf H Hr. unfold request_set in H. destruct (o_keys ob !! k) as [[t d]|] eqn:Ek.
  2:{ injection H as <- <-. by apply elem_of_nil in Hr. }
  destruct (decide (t = vty b)).
  2:{ injection H as <- <-. by apply elem_of_nil in Hr. }
  destruct (o_idx ob !! k) as [ix|] eqn:Ei; [|done]. cbn [mbind option_bind] in H.
  destruct (candidates _ _ _ _ _ _ _) as [c|] eqn:Ec; [|done]. cbn [mbind option_bind] in H.
  destruct (filterM _ _) as [l'|] eqn:El; [|done]. cbn in H. injection H as <- <-.
  apply (filterM_elem _ _ _ _ El) in Hr as [Hr _]. apply limit_elem in Hr.
  destruct (candidates_elem _ _ _ _ _ _ _ _ _ Hf Ec Hr) as (x & Hx & Hin). eauto 10.
Qed.

(** Definedness. *)
Lemma filterM_def f l : (forall x, x ∈ l -> is_Some (f x)) -> is_Some (filterM f l).
Proof.
  induction l as [|x l IH]; intros H; cbn; [eauto|]. destruct (H x) as [c ->]; [by left|]. cbn.
  destruct IH as [l' ->]; [intros y Hy; apply H; by right|]. cbn. eauto.
Qed.
Lemma keep_def w p r : is_Some (w_recs w !! r) -> is_Some (keep w p r).
Proof. intros [rc H]. unfold keep. destruct p; [|eauto]. rewrite H. cbn. eauto. Qed.

(** An object whose indexes can be queried safely in [w]. *)
Definition queryable (w : world) (ob : obj) : Prop :=
  forall k td, o_keys ob !! k = Some td -> exists ix, o_idx ob !! k = Some ix /\ vsorted (ix_tree ix) /\
    forall x, x ∈ ix_hash ix \/ x ∈ ix_tree ix -> is_Some (w_recs w !! x.2).

Lemma candidates_def ord ix rt b e ib ie : vsorted (ix_tree ix) -> vty e = vty b -> is_Some (candidates ord ix rt b e ib ie).
Proof.
  intros Hs Ht. destruct (decide (rt = REqual)) as [->|Hrt]; [by eexists|]. rewrite candidates_tree by done. eauto.
Qed.
Lemma request_set_def ord w ob rt k b e ib ie amt p :
  fair ord -> queryable w ob -> vty e = vty b -> is_Some (request_set ord w ob rt k b e ib ie amt p).
Proof.
  intros Hf Hq Ht. unfold request_set. destruct (o_keys ob !! k) as [[t d]|] eqn:Ek; [|eauto].
  destruct (decide (t = vty b)); [|eauto]. destruct (Hq _ _ Ek) as (ix & Hix & Hs & Hr). rewrite Hix. cbn [mbind option_bind].
  destruct (candidates_def ord ix rt b e ib ie Hs Ht) as [c Hc]. rewrite Hc. cbn [mbind option_bind].
  destruct (filterM_def (keep w p) (limit amt c)) as [l ->]; [|eauto].
  intros x Hx. apply keep_def. apply limit_elem in Hx. destruct (candidates_elem _ _ _ _ _ _ _ _ _ Hf Hc Hx) as (y & <- & Hy). eauto.
Qed.

Lemma eval_req_def ord w ob q : fair ord -> queryable w ob -> req_ok q -> is_Some (eval_req ord w ob q).
Proof.
  intros Hf Hq. induction q as [l k v p|a IHa b IHb|a IHa b IHb]; intros Hok; cbn [eval_req].
  - destruct (request_set_def ord w ob (leaf_rtype l) k v v false false None (Some p) Hf Hq eq_refl) as [[res rs] ->]. cbn. eauto.
  - cbn in Hok. destruct (shortcut a b) as [[[[[ib k] va] vb] p]|].
    + destruct (request_set_def ord w ob RInterval k va vb ib false None (Some p) Hf Hq Hok) as [[res rs] ->]. cbn. eauto.
    + destruct Hok as [Ha Hb]. destruct (IHa Ha) as [[ea|la] ->]; cbn; [eauto|].
      destruct (IHb Hb) as [[eb|lb] ->]; cbn; eauto.
  - destruct Hok as [Ha Hb]. destruct (IHa Ha) as [[ea|la] ->]; cbn; [eauto|].
    destruct (IHb Hb) as [[eb|lb] ->]; cbn; eauto.
Qed.
Lemma eval_req_elem ord w ob q l r :
  fair ord -> eval_req ord w ob q = Some (inr l) -> r ∈ l ->
  exists k td ix x, o_keys ob !! k = Some td /\ o_idx ob !! k = Some ix /\ x.2 = r /\ (x ∈ ix_hash ix \/ x ∈ ix_tree ix).
Proof.
  intros Hf. revert l. induction q as [lf k v p|a IHa b IHb|a IHa b IHb]; intros l H Hr; cbn [eval_req] in H.
  - destruct (request_set _ _ _ _ _ _ _ _ _ _ _) as [[res rs]|] eqn:E; [|done]. cbn in H.
    destruct (res_ok res); [|done]. injection H as <-. destruct (request_set_elem _ _ _ _ _ _ _ _ _ _ _ _ _ _ Hf E Hr) as (td & ix & x & H). eauto 10.
  - destruct (shortcut a b) as [[[[[ib k] va] vb] p]|].
    + destruct (request_set _ _ _ _ _ _ _ _ _ _ _) as [[res rs]|] eqn:E; [|done]. cbn in H.
      destruct (res_ok res); [|done]. injection H as <-. destruct (request_set_elem _ _ _ _ _ _ _ _ _ _ _ _ _ _ Hf E Hr) as (td & ix & x & H). eauto 10.
    + destruct (eval_req ord w ob a) as [[ea|la]|] eqn:Ea; cbn in H; try done.
      destruct (eval_req ord w ob b) as [[eb|lb]|] eqn:Eb; cbn in H; try done. injection H as <-.
      apply elem_of_list_filter in Hr as [_ Hr]. by apply (IHa la).
  - destruct (eval_req ord w ob a) as [[ea|la]|] eqn:Ea; cbn in H; try done.
    destruct (eval_req ord w ob b) as [[eb|lb]|] eqn:Eb; cbn in H; try done. injection H as <-.
    apply elem_of_app in Hr as [Hr|Hr]; [by apply (IHa la)|by apply (IHb lb)].
Qed.
