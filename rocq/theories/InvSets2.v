(** Record-set operations: definedness (strict class) and preservation of the invariant (both classes). *)
From Verif Require Export InvSets.
Open Scope nat_scope.

(** In the wide class ([b = false]) definedness is assumed, in the strict class it is proved. *)
Definition Def {A} (b : bool) (m : option A) : Prop := b = false -> is_Some m.

Lemma Def_bind {A B} b (m : option A) (f : A -> option B) : Def b (m ≫= f) -> Def b m.
Proof. intros H Hb. destruct (H Hb) as [x Hx]. destruct m; [eauto|done]. Qed.
Lemma Def_bind' {A B} b (m : option A) (f : A -> option B) x : Def b (m ≫= f) -> m = Some x -> Def b (f x).
Proof. intros H E. by rewrite E in H. Qed.

Lemma set_clear_ok b ord w s sb :
  fair ord -> Inv b w -> w_objs w !! s = Some sb -> o_static_set sb = true -> Def b (set_clear ord w s) ->
  set_clear ord w s = Some (match o_parent sb with None => w | Some _ => clear_world s sb w end) /\
  Inv b (match o_parent sb with None => w | Some _ => clear_world s sb w end).
Proof.
  intros Hf HI Hs Hst HD. destruct (o_parent sb) as [p|] eqn:Ep; [|split; [by eapply set_clear_none|done]].
  destruct (Inv_set_facts _ _ _ _ _ HI Hs Hst Ep) as (pb & Hpb & Hpst & Hin & Hne & Hpar).
  assert (Hr : forall r, r ∈ o_recs sb -> is_Some (w_recs w !! r)).
  { destruct b; [intros r Hr; exact (strict_recs_live _ _ _ _ _ _ HI Hs Hst Ep Hpb Hr)|]. destruct (HD eq_refl) as [w' Hw']. by eapply set_clear_defined. }
  split; [|by eapply set_clear_inv]. by apply (set_clear_some ord w s sb p).
Qed.

Definition reset_result (s : nat) (sb : obj) (w : world) : world :=
  match o_parent sb with
  | None => w
  | Some p => match w_objs w !! p with Some pb => reset_world s sb p pb w | None => w end
  end.
Lemma set_reset_ok b ord w s sb :
  fair ord -> Inv b w -> w_objs w !! s = Some sb -> o_static_set sb = true -> Def b (set_reset ord w s) ->
  set_reset ord w s = Some (reset_result s sb w) /\ Inv b (reset_result s sb w).
Proof.
  intros Hf HI Hs Hst HD. unfold reset_result. destruct (o_parent sb) as [p|] eqn:Ep; [|split; [by eapply set_reset_none|done]].
  destruct (Inv_set_facts _ _ _ _ _ HI Hs Hst Ep) as (pb & Hpb & Hpst & Hin & Hne & Hpar). rewrite Hpb.
  assert (Hr : forall r, r ∈ o_recs sb -> is_Some (w_recs w !! r)).
  { destruct b; [intros r Hr; exact (strict_recs_live _ _ _ _ _ _ HI Hs Hst Ep Hpb Hr)|]. destruct (HD eq_refl) as [w' Hw']. by eapply set_reset_defined. }
  split; [|by eapply set_reset_inv]. by apply (set_reset_some ord w s sb p pb).
Qed.
Lemma reset_result_obj s sb w b :
  Inv b w -> w_objs w !! s = Some sb -> o_static_set sb = true ->
  exists sb', w_objs (reset_result s sb w) !! s = Some sb' /\ o_static_set sb' = true /\ o_isset sb' = true /\ o_parent sb' = None /\
    o_sets sb' = ∅ /\ o_tmpl sb' = ∅ /\ o_idx sb' = ∅ /\ o_keys sb' = ∅ /\ o_order sb' = [] /\ o_uniq sb' = [] /\ o_recs sb' = ∅ /\
    o_bad sb' = (if o_parent sb then [] else o_bad sb).
Proof.
  intros HI Hs Hst. pose proof (vi_set _ _ _ _ (inv_obj _ _ HI) _ _ Hs Hst) as Hsok. unfold reset_result.
  destruct (o_parent sb) as [p|] eqn:Ep.
  - destruct (Inv_set_facts _ _ _ _ _ HI Hs Hst Ep) as (pb & Hpb & Hpst & Hin & Hne & Hpar). rewrite Hpb.
    exists (reset_obj sb). cbn. rewrite lookup_insert. repeat (split; [first [done|apply Hsok]|]). done.
  - exists sb. destruct (so_none _ _ _ _ _ _ Hsok Ep) as (H1 & H2 & H3 & H4 & H5 & H6).
    repeat (split; [first [done|apply Hsok]|]). done.
Qed.

(** ** Binding a set to a vault *)

(** A set of vault [p] with the keys of [src] and no records. *)
Definition bound_obj (p : nat) (src : obj) (bd : list (nat * string)) : obj :=
  Obj true true (snd <$> o_keys src) ((fun _ => Idx true [] []) <$> o_keys src)
      ((fun td => (vty td.2, td.2)) <$> o_keys src) (o_order src) (o_uniq src) ∅ ∅ (Some p) bd.
Definition bind_world (s p : nat) (src pb : obj) bd (w : world) : world :=
  World (w_recs w) (<[p := ob_sets ({[s]} ∪ o_sets pb) pb]> (<[s := bound_obj p src bd]> (w_objs w))) (w_refs w) (w_next w).

(** Records still registered with set address [s] belong to vault [pb]. *)
Definition target_ok (w : world) (s : nat) (pb : obj) : Prop :=
  forall r l, live w !! r = Some l -> s ∈ l.2 -> r ∈ o_recs pb.
Lemma target_ok_true w s pb : Inv true w -> (forall sb, w_objs w !! s = Some sb -> o_recs sb = ∅) -> target_ok w s pb.
Proof.
  intros HI Hs r l Hl Hin. destruct (vi_deps _ _ _ _ (inv_obj _ _ HI) _ _ _ Hl Hin) as [_ D]. destruct (D eq_refl) as (sb & Hsb & Hr).
  rewrite (Hs _ Hsb) in Hr. set_solver.
Qed.

Lemma bind_world_inv b w s p src pb bd :
  Inv b w -> (forall sb, w_objs w !! s = Some sb -> o_static_set sb = true /\ o_parent sb = None) ->
  w_objs w !! p = Some pb -> o_static_set pb = false -> target_ok w s pb ->
  (b = true -> (forall k t d, o_keys src !! k = Some (t, d) -> vty d = t) /\ (fst <$> o_keys src) = (fst <$> o_keys pb) /\ o_order src = o_order pb /\ o_uniq src = o_uniq pb) ->
  Inv b (bind_world s p src pb bd w).
Proof.
  intros HI Hs Hpb Hpst Ht Hb.
  pose proof (inv_obj _ _ HI) as HV.
  assert (Hne : s <> p) by (intros ->; apply Hs in Hpb as [? _]; congruence).
  assert (Hnidx : forall k ix e, o_idx (bound_obj p src bd) !! k = Some ix -> e ∈ ix_hash ix \/ e ∈ ix_tree ix -> False).
  { intros k ix e Hix He. cbn in Hix. rewrite lookup_fmap in Hix. destruct (o_keys src !! k); [|done]. injection Hix as <-. cbn in He.
    destruct He as [He|He]; by apply elem_of_nil in He. }
  assert (Hs2 : forall x xb, w_objs w !! x = Some xb -> o_static_set xb = false -> s ∉ o_sets xb).
  { intros x xb Hx Hxs Hin. destruct (vi_sets _ _ _ _ HV _ _ _ Hx Hxs Hin) as (sb & Hsb & _ & Hp2).
    apply Hs in Hsb as [_ ?]. congruence. }
  split.
  - apply HI.
  - apply HI.
  - change (live (bind_world s p src pb bd w)) with (live w). change (w_next (bind_world s p src pb bd w)) with (w_next w).
    eapply (VInv_set_change b (w_objs w) _ (live w) _ _ s); [done|..].
    + intros sb Hsb. by apply Hs.
    + intros sb' Hsb'. cbn in Hsb'. rewrite lookup_insert_ne in Hsb' by done. rewrite lookup_insert in Hsb'. injection Hsb' as <-.
      split; [done|]. split; [done|]. split; [done|]. split; [|split; [|split]].
      * intros k ix e Hix He. by destruct (Hnidx _ _ _ Hix He).
      * cbn. set_solver.
      * done.
      * cbn. intros p' [= <-]. exists pb. split; [done|]. split; [done|]. split.
        -- intros k ix e Hix He. by destruct (Hnidx _ _ _ Hix He).
        -- cbn. set_solver.
        -- intros Hbt. destruct (Hb Hbt) as (Hk & K1 & K2 & K3). split; try done.
           ++ cbn. rewrite <- K1. apply map_eq. intros k. rewrite !lookup_fmap. destruct (o_keys src !! k) as [[t d]|] eqn:E; [|done]. cbn.
              f_equal. by apply Hk in E.
           ++ cbn. intros k t d Hkd. rewrite lookup_fmap in Hkd. destruct (o_keys src !! k) as [[t' d']|]; [|done]. cbn in Hkd. by injection Hkd as <- <-.
           ++ cbn. intros k. rewrite !lookup_fmap. destruct (o_keys src !! k) as [[t' d']|]; done.
           ++ intros k td Hkd. unfold bound_obj in *. cbn [o_keys o_idx o_recs o_uniq] in *. rewrite lookup_fmap in Hkd. rewrite lookup_fmap. destruct (o_keys src !! k) as [td'|]; [|done]. cbn.
              eexists. split; [done|]. split; [apply good_empty|]. split; [done|]. intros _. split; intros r Hr; set_solver.
    + intros x Hx. cbn. destruct (decide (x = p)) as [->|Hxp].
      * rewrite lookup_insert, Hpb. cbn. split; [done|]. split; [set_solver|]. split; [congruence|]. intros _.
        rewrite lookup_insert_ne by done. rewrite lookup_insert. split; [|set_solver]. eauto.
      * rewrite !lookup_insert_ne by done. destruct (w_objs w !! x) as [xb|] eqn:Ex; [|done].
        split; [by destruct xb|]. split; [done|]. split; [done|]. intros Hxs. split.
        -- intros Hsx. by destruct (Hs2 _ _ Ex Hxs).
        -- rewrite lookup_insert. intros (sb' & [= <-] & Hp'). cbn in Hp'. congruence.
    + intros r. destruct (live w !! r); [|done]. done.
    + intros r l Hl Hsl. cbn. rewrite lookup_insert_ne by done. rewrite lookup_insert. split.
      * intros sb' p' [= <-] Hp'. cbn in Hp'. injection Hp' as <-. exists pb. split; [done|]. split; [done|]. eauto.
      * intros Hbt. subst b. destruct (vi_deps _ _ _ _ HV _ _ _ Hl Hsl) as [_ D]. destruct (D eq_refl) as (sb & Hsb & Hr).
        destruct (Hs _ Hsb) as [Hsst Hspn]. destruct (so_none _ _ _ _ _ _ (vi_set _ _ _ _ HV _ _ Hsb Hsst) Hspn) as (_ & _ & _ & _ & _ & E).
        rewrite E in Hr. set_solver.
  - eapply vlt_ok_frame; [apply HI|]. intros f rf r o ob' Hrf Hr Hob' Hst' Hl. split; [done|].
    cbn in Hob'. apply lookup_insert_Some in Hob' as [[<- <-]|[Hno Hob']]; [eauto|].
    apply lookup_insert_Some in Hob' as [[<- <-]|[Hno' Hob']]; [done|]. eauto.
Qed.

(** Source objects of a request: a vault, or a set with that parent. *)
Definition source_of (w : world) (o p : nat) (srcb pb : obj) : Prop :=
  w_objs w !! o = Some srcb /\ source_vault o srcb = Some p /\ w_objs w !! p = Some pb.

Lemma source_parent b w o srcb p : Inv b w -> w_objs w !! o = Some srcb -> source_vault o srcb = Some p ->
  exists pb, w_objs w !! p = Some pb /\ o_static_set pb = false.
Proof.
  intros HI Ho Hsv. unfold source_vault in Hsv. destruct (o_static_set srcb) eqn:E.
  - destruct (Inv_set_facts _ _ _ _ _ HI Ho E Hsv) as (pb & Hpb & Hpst & _). eauto.
  - injection Hsv as <-. eauto.
Qed.
