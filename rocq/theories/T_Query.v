(** Proofs of the properties about queries: C04, C09, C10, C11, C12. *)
From Verif Require Export T_Base.
Open Scope nat_scope.

Lemma source_vault_at b w o ob pv : reach b w -> source_at b w o ob pv -> source_vault o ob = Some pv.
Proof. intros HR [[[Ho Hs] ->]|(_ & [Ho Hs] & Hp)]; unfold source_vault; by rewrite Hs. Qed.
Lemma source_obj b w o ob pv : source_at b w o ob pv -> w_objs w !! o = Some ob.
Proof. intros [[[Ho Hs] ->]|(_ & [Ho Hs] & Hp)]; done. Qed.
Lemma source_guard b w o ob pv : source_at b w o ob pv -> o_static_set ob && bool_decide (o_parent ob = None) = false.
Proof. intros [[[Ho Hs] ->]|(_ & [Ho Hs] & Hp)]; rewrite Hs; [done|]. rewrite Hp. done. Qed.
Lemma source_good b w o ob pv k td : reach b w -> source_at b w o ob pv -> o_keys ob !! k = Some td ->
  exists ix, o_idx ob !! k = Some ix /\ good (o_recs ob) (val_of (live w) k) ix.
Proof.
  intros HR HS Hk. destruct HS as [[HV ->]|(-> & [Ho Hs] & Hp)].
  - destruct (vault_index b w HR _ _ _ _ HV Hk) as (ix & Hix & (G & _) & _). eauto.
  - pose proof (reach_inv _ _ HR) as HI. pose proof (vi_set _ _ _ _ (inv_obj _ _ HI) _ _ Ho Hs) as HSO.
    destruct (so_some _ _ _ _ _ _ HSO _ Hp) as (pb & Hpb & Hpst & _ & Hpar). pose proof (sp_strict _ _ _ _ _ Hpar eq_refl) as HSt.
    destruct (st_idx _ _ _ _ HSt _ _ Hk) as (ix & Hix & G & _). eauto.
Qed.
Lemma source_parent b w o ob pv : reach b w -> source_at b w o ob pv -> exists pb, vault_at w pv pb /\ o_recs ob ⊆ o_recs pb.
Proof.
  intros HR HS. destruct HS as [[HV ->]|(-> & [Ho Hs] & Hp)]; [by exists ob|].
  pose proof (reach_inv _ _ HR) as HI. pose proof (vi_set _ _ _ _ (inv_obj _ _ HI) _ _ Ho Hs) as HSO.
  destruct (so_some _ _ _ _ _ _ HSO _ Hp) as (pb & Hpb & Hpst & _ & Hpar). pose proof (sp_strict _ _ _ _ _ Hpar eq_refl) as HSt.
  exists pb. split; [done|]. apply (st_recs _ _ _ _ HSt).
Qed.
Lemma source_filed b w o ob pv k v r : reach b w -> source_at b w o ob pv -> is_Some (get_key_type ob k) -> filed ob k v r \/ filed_ord ob k v r ->
  r ∈ o_recs ob /\ stored w r k = Some v /\ valid_rec w r.
Proof.
  intros HR HS Hk Hf. unfold get_key_type in Hk. apply fmap_is_Some in Hk as [td Hk]. destruct (source_good _ _ _ _ _ _ _ HR HS Hk) as (ix & Hix & G).
  assert (r ∈ o_recs ob /\ val_of (live w) k r = Some v) as [H1 H2].
  { destruct Hf as [(ix' & Hix' & Hin)|(ix' & Hix' & Hin)]; assert (ix' = ix) as -> by congruence; [by apply (g_hash _ _ _ G)|by apply (g_tree _ _ _ G)]. }
  split; [done|]. rewrite stored_val_of. split; [done|]. apply valid_rec_live. by eapply val_of_live.
Qed.

Lemma keep_passes w p r b : keep w p r = Some b -> b = true <-> passes w p r.
Proof.
  unfold keep, passes. destruct p as [f|]; [|by intros [= <-]]. destruct (w_recs w !! r) as [rc|] eqn:E; [|done]. cbn. intros [= <-].
  split; [eauto|]. by intros (rc' & [= <-] & H).
Qed.
Lemma filterM_spec w p l l' : filterM (keep w p) l = Some l' ->
  l' `sublist_of` l /\ (forall r, r ∈ l' <-> r ∈ l /\ passes w p r) /\ (p = None -> l' = l).
Proof.
  revert l'. induction l as [|x l IH]; intros l'; cbn [filterM].
  - intros [= <-]. split; [done|]. split; [|done]. intros r. split; [intros H; by apply elem_of_nil in H|by intros [H _]].
  - destruct (keep w p x) as [b|] eqn:Ek; [|done]. cbn [mbind option_bind]. destruct (filterM (keep w p) l) as [l''|] eqn:El; [|done]. cbn [mbind option_bind]. intros [= <-].
    destruct (IH l'' eq_refl) as (H1 & H2 & H3). pose proof (keep_passes _ _ _ _ Ek) as Hp. destruct b.
    + split; [by constructor|]. split; [|by intros Hn; rewrite H3].
      intros r. rewrite !elem_of_cons, H2. split; [|tauto]. intros [->|?]; [|tauto]. split; [by left|by apply Hp].
    + split; [by constructor|]. split.
      * intros r. rewrite elem_of_cons, H2. split; [tauto|]. intros [[->|?] Hq]; [|done]. by apply Hp in Hq.
      * intros ->. cbn in Ek. done.
Qed.
Lemma fair_NoDup ord l : fair ord -> NoDup l -> NoDup (ord l).
Proof. intros H. by rewrite (H l). Qed.
Lemma fair_elem ord l x : fair ord -> x ∈ ord l <-> x ∈ l.
Proof. intros H. by rewrite (H l). Qed.
Lemma fair_length ord l : fair ord -> length (ord l) = length l.
Proof. intros H. by rewrite (H l). Qed.
Lemma NoDup_snd recs val (l : list (value * nat)) : sound recs val l -> NoDup l -> NoDup (snd <$> l).
Proof.
  intros Hs Hn. apply NoDup_alt. intros i j x Hi Hj. rewrite list_lookup_fmap in Hi, Hj.
  destruct (l !! i) as [[v1 r1]|] eqn:Ei; [|done]. destruct (l !! j) as [[v2 r2]|] eqn:Ej; [|done]. cbn in *. injection Hi as ->. injection Hj as ->.
  destruct (Hs v1 x) as [_ E1]; [by eapply elem_of_list_lookup_2|]. destruct (Hs v2 x) as [_ E2]; [by eapply elem_of_list_lookup_2|].
  assert (v2 = v1) as -> by congruence. by eapply (NoDup_lookup l i j (v1, x)).
Qed.
Lemma good_candidates ord recs val ix ob k rt bv ev ib ie :
  fair ord -> good recs val ix -> o_idx ob !! k = Some ix -> vty ev = vty bv ->
  exists c, candidates ord ix rt bv ev ib ie = Some c /\ NoDup c /\ forall r, r ∈ c <-> matching ob rt k bv ev ib ie r.
Proof.
  intros Hf G Hix Ht. destruct (decide (rt = REqual)) as [->|Hrt].
  - eexists. split; [done|]. split; [apply fair_NoDup; [done|]; apply NoDup_equal_range_snd, (g_hnd _ _ _ G)|].
    intros r. rewrite fair_elem by done. rewrite elem_equal_range_snd. cbn. unfold filed. rewrite Hix. split; [eauto|]. by intros (? & [= <-] & ?).
  - rewrite candidates_tree by (done || apply (g_sorted _ _ _ G)). eexists. split; [done|]. split.
    + apply (NoDup_snd recs val); [|by apply NoDup_filter, (g_tnd _ _ _ G)]. intros v r Hin. apply elem_of_list_filter in Hin as [_ Hin]. by apply (g_tree _ _ _ G).
    + intros r. rewrite elem_of_list_fmap.
      assert (Hm : matching ob rt k bv ev ib ie r <-> exists v, filed_ord ob k v r /\ sat rt bv ev ib ie v) by (destruct rt; done). rewrite Hm. clear Hm. split.
      * intros ([v r'] & -> & Hin). apply elem_of_list_filter in Hin as [Hs Hin]. cbn in Hs. exists v. split; [|done]. exists ix. done.
      * intros (v & (ix' & Hix' & Hin) & Hs). assert (ix' = ix) as -> by congruence. exists (v, r). split; [done|]. apply elem_of_list_filter. done.
Qed.

(** The exact answer of RequestRecordsSet. *)
Lemma request_set_exact b ord w o ob pv rt k bv ev ib ie amt p res l :
  fair ord -> reach b w -> source_at b w o ob pv -> vty ev = vty bv ->
  request_set ord w ob rt k bv ev ib ie amt p = Some (res, l) ->
  match get_key_type ob k with
  | None => res = bad WrongKey k (Some (vty bv)) None /\ l = []
  | Some t => if decide (t = vty bv) then
      res = okres Success k (Some (vty bv)) (Some (vty bv)) /\
      exists c, NoDup c /\ (forall r, r ∈ c <-> matching ob rt k bv ev ib ie r) /\
        l `sublist_of` limit amt c /\ (forall r, r ∈ l <-> r ∈ limit amt c /\ passes w p r) /\ (p = None -> l = limit amt c)
      else res = bad WrongType k (Some (vty bv)) (Some t) /\ l = []
  end.
Proof.
  intros Hf HR HS Ht H. unfold request_set in H. unfold get_key_type. destruct (o_keys ob !! k) as [[t d]|] eqn:Ek; cbn.
  2:{ by injection H as <- <-. }
  destruct (decide (t = vty bv)) as [->|Hne]; [|by injection H as <- <-].
  destruct (source_good _ _ _ _ _ _ _ HR HS Ek) as (ix & Hix & G). rewrite Hix in H. cbn [mbind option_bind] in H.
  destruct (good_candidates ord _ _ ix ob k rt bv ev ib ie Hf G Hix Ht) as (c & Ec & Hn & Hc). rewrite Ec in H. cbn [mbind option_bind] in H.
  destruct (filterM (keep w p) (limit amt c)) as [l0|] eqn:El; [|done]. cbn in H. injection H as <- <-. split; [done|].
  exists c. split; [done|]. split; [done|]. by apply filterM_spec.
Qed.

(** The exact answer of a request tree. *)
Lemma shortcut_Some a b0 ib k va vb p : shortcut a b0 = Some (ib, k, va, vb, p) ->
  exists la pa pb, a = QLeaf la k va pa /\ b0 = QLeaf LLess k vb pb /\ p = (fun r d => pa r d && pb r d) /\
    ((la = LGreater /\ ib = false) \/ (la = LGreaterOrEqual /\ ib = true)).
Proof.
  unfold shortcut. destruct a as [la ka va' pa|? ?|? ?]; try done. destruct b0 as [lb kb vb' pb|? ?|? ?]; try done. destruct lb; try done.
  destruct (decide _) as [[-> Hla]|]; [|done]. intros [= <- <- <- <- <-]. exists la, pa, pb. split; [done|]. split; [done|]. split; [done|].
  destruct Hla as [-> | ->]; [left|right]; done.
Qed.
Lemma eval_req_exact b ord w o ob pv q rs :
  fair ord -> reach b w -> source_at b w o ob pv -> eval_req ord w ob q = Some rs ->
  match rs with
  | inr l => well_keyed ob q /\ forall r, r ∈ l <-> matches w ob q r
  | inl e => ~ well_keyed ob q /\ res_ok e = false /\ (res_code e = WrongKey \/ res_code e = WrongType)
  end.
Proof.
  intros Hf HR HS. revert rs. induction q as [lf k v p|a IHa b0 IHb|a IHa b0 IHb]; intros rs H; cbn [eval_req] in H.
  - destruct (request_set ord w ob (leaf_rtype lf) k v v false false None (Some p)) as [[res l]|] eqn:E; [|done]. cbn in H. injection H as <-.
    pose proof (request_set_exact _ _ _ _ _ _ _ _ _ _ _ _ _ _ _ _ Hf HR HS eq_refl E) as HX. cbn [well_keyed matches].
    destruct (get_key_type ob k) as [t|].
    + destruct (decide (t = vty v)) as [->|Hne].
      * destruct HX as (-> & c & _ & Hc & _ & Hl & _). cbn. split; [done|]. intros r. rewrite Hl. cbn [limit]. rewrite Hc. done.
      * destruct HX as [-> _]. cbn. split; [congruence|]. split; [done|]. by right.
    + destruct HX as [-> _]. cbn. split; [done|]. split; [done|]. by left.
  - destruct (shortcut a b0) as [[[[[ib k] va] vb] p]|] eqn:Es.
    + destruct (shortcut_Some _ _ _ _ _ _ _ Es) as (la & pa & pb & -> & -> & -> & Hla).
      destruct (request_set ord w ob RInterval k va vb ib false None _) as [[res l]|] eqn:E; [|done]. cbn in H. injection H as <-.
      destruct (get_key_type ob k) as [t|] eqn:Ek; cycle 1.
      { assert (Ek' : o_keys ob !! k = None) by (unfold get_key_type in Ek; by destruct (o_keys ob !! k)).
        unfold request_set in E. rewrite Ek' in E. injection E as <- <-. cbn. split; [|split; [done|by left]]. intros [Hx _]. congruence. }
      destruct (decide (t = vty va)) as [->|Hne]; cycle 1.
      { unfold request_set in E. unfold get_key_type in Ek. destruct (o_keys ob !! k) as [[t' d]|] eqn:Ek'; [|done]. cbn in Ek. injection Ek as ->.
        rewrite decide_False in E by done. injection E as <- <-. cbn. unfold get_key_type. rewrite Ek'. cbn. split; [|split; [done|by right]]. intros [Hx _]. congruence. }
      assert (Hty : vty vb = vty va).
      { unfold request_set in E. unfold get_key_type in Ek. destruct (o_keys ob !! k) as [[t' d]|] eqn:Ek'; [|done]. cbn in Ek. injection Ek as ->.
        rewrite decide_True in E by done. destruct (o_idx ob !! k) as [ix|]; [|done]. cbn [mbind option_bind] in E. unfold candidates in E.
        destruct (decide (vty vb = vty va)) as [|]; done. }
      pose proof (request_set_exact _ _ _ _ _ _ _ _ _ _ _ _ _ _ _ _ Hf HR HS Hty E) as HX. rewrite Ek in HX. rewrite decide_True in HX by done.
      destruct HX as (-> & c & _ & Hc & _ & Hl & _). cbn [res_ok okres]. cbn [well_keyed matches]. split; [by rewrite Hty|].
      intros r. rewrite Hl. cbn [limit]. rewrite Hc. cbn [matching].
      assert (HU : forall v1 v2, filed_ord ob k v1 r -> filed_ord ob k v2 r -> v1 = v2).
      { intros v1 v2 H1 H2. destruct (source_filed b w o ob pv k v1 r HR HS) as (_ & S1 & _); [by rewrite Ek|by right|].
        destruct (source_filed b w o ob pv k v2 r HR HS) as (_ & S2 & _); [by rewrite Ek|by right|]. congruence. }
      assert (HP : passes w (Some (fun r d => pa r d && pb r d)) r <-> passes w (Some pa) r /\ passes w (Some pb) r).
      { cbn. split.
        - intros (rc & Hrc & Hp). apply andb_true_iff in Hp as [? ?]. split; exists rc; done.
        - intros [(rc & Hrc & Hp) (rc' & Hrc' & Hp')]. exists rc. split; [done|]. assert (rc' = rc) as -> by congruence. by rewrite Hp, Hp'. }
      rewrite HP. clear HP.
      destruct Hla as [[-> ->]|[-> ->]]; cbn [leaf_rtype matching sat]; split.
      * intros ((v & Hv & H1 & H2) & Hp1 & Hp2). eauto 10.
      * intros (((v & Hv & H1) & Hp1) & ((v' & Hv' & H2) & Hp2)). assert (v' = v) as -> by eauto. eauto 10.
      * intros ((v & Hv & H1 & H2) & Hp1 & Hp2). eauto 10.
      * intros (((v & Hv & H1) & Hp1) & ((v' & Hv' & H2) & Hp2)). assert (v' = v) as -> by eauto. eauto 10.
    + destruct (eval_req ord w ob a) as [ra|] eqn:Ea; [|done]. cbn [mbind option_bind] in H. specialize (IHa ra eq_refl). destruct ra as [e|la].
      { injection H as <-. destruct IHa as (H1 & H2). split; [|done]. by intros [? _]. }
      destruct (eval_req ord w ob b0) as [rb|] eqn:Eb; [|done]. cbn [mbind option_bind] in H. specialize (IHb rb eq_refl). destruct rb as [e|lb].
      { injection H as <-. destruct IHb as (H1 & H2). split; [|done]. by intros [_ ?]. }
      injection H as <-. destruct IHa as [Wa Ma], IHb as [Wb Mb]. split; [done|]. intros r. rewrite elem_of_list_filter, Ma, Mb. cbn. tauto.
  - destruct (eval_req ord w ob a) as [ra|] eqn:Ea; [|done]. cbn [mbind option_bind] in H. specialize (IHa ra eq_refl). destruct ra as [e|la].
    { injection H as <-. destruct IHa as (H1 & H2). split; [|done]. by intros [? _]. }
    destruct (eval_req ord w ob b0) as [rb|] eqn:Eb; [|done]. cbn [mbind option_bind] in H. specialize (IHb rb eq_refl). destruct rb as [e|lb].
    { injection H as <-. destruct IHb as (H1 & H2). split; [|done]. by intros [_ ?]. }
    injection H as <-. destruct IHa as [Wa Ma], IHb as [Wb Mb]. split; [done|]. intros r. rewrite elem_of_app, Ma, Mb. done.
Qed.

Lemma sublist_NoDup {A} (l l' : list A) : l `sublist_of` l' -> NoDup l' -> NoDup l.
Proof.
  induction 1 as [|x l l' Hs IH|x l l' Hs IH]; intros Hn; [constructor|..]; inversion_clear Hn; [|auto]. constructor; [|auto].
  intros Hx. destruct H. eapply elem_of_submseteq; [done|by apply sublist_submseteq].
Qed.
Lemma set_only_spec s w w' : set_only s w w' -> only_set_changed s w w'.
Proof.
  intros H. split; [apply (son_refs _ _ _ H)|]. split; [|split].
  - intros r. rewrite !valid_rec_live. by apply (set_only_live_some s).
  - intros r k. rewrite !stored_val_of. unfold val_of. pose proof (set_only_live s w w' r H) as E.
    destruct (live w' !! r) as [l'|], (live w !! r) as [l|]; cbn in *; try done. by injection E as ->.
  - intros x xb Hx Hxb. destruct (set_only_obj s w w' x xb H Hx Hxb) as (xb' & ? & ? & _). eauto.
Qed.
Lemma sat_matching b w o ob pv rt k bv ev ib ie r : reach b w -> source_at b w o ob pv -> is_Some (get_key_type ob k) -> matching ob rt k bv ev ib ie r ->
  r ∈ o_recs ob /\ valid_rec w r /\ exists v, stored w r k = Some v /\ sat rt bv ev ib ie v.
Proof.
  intros HR HS Hk Hm. destruct (decide (rt = REqual)) as [->|Hrt].
  - destruct (source_filed _ _ _ _ _ _ _ _ HR HS Hk (or_introl Hm)) as (H1 & H2 & H3). split; [done|]. split; [done|]. by exists bv.
  - assert (exists v, filed_ord ob k v r /\ sat rt bv ev ib ie v) as (v & Hv & Hs) by (destruct rt; done).
    destruct (source_filed _ _ _ _ _ _ _ _ HR HS Hk (or_intror Hv)) as (H1 & H2 & H3). split; [done|]. split; [done|]. by exists v.
Qed.
Lemma request_step b ord w o ob pv rt k bv ev ib ie amt p s w' res :
  fair ord -> reach b w -> allowed b w (ORequest o rt k bv ev ib ie amt p s) -> source_at b w o ob pv -> o <> s -> vty ev = vty bv ->
  step ord w (ORequest o rt k bv ev ib ie amt p s) = Some (w', ORes res) ->
  only_set_changed s w w' /\ exists sb' l, set_at w' s sb' /\ o_parent sb' = Some pv /\ o_recs sb' = list_to_set l /\
    request_set ord w ob rt k bv ev ib ie amt p = Some (res, l).
Proof.
  intros Hf HR HA HS Hos Ht H. pose proof (source_obj _ _ _ _ _ HS) as Ho. pose proof (source_vault_at _ _ _ _ _ HR HS) as Hpv.
  cbn [step] in H. unfold guard_op in H. destruct (is_obj w o && is_set w s) eqn:G; [|done]. apply andb_true_iff in G as [_ G]. apply is_set_true in G as (sb & Hsb & Hst).
  assert (Ev : vcast (vty bv) ev = ev) by (unfold vcast; by rewrite decide_True). rewrite Ev in H.
  destruct (request_ok b ord w o ob rt k bv ev ib ie amt p s sb) as (w1 & res1 & E & _ & Hso & _ & _ & Hres); try done.
  { apply reach_inv, HR. }
  { intros Hb pv' Hpv' sb0 pb Hsb0 Hpb Hne. replace sb0 with sb in * by congruence. eapply (leftovers_target_inv b); [apply reach_inv, HR|done..|]. by eapply HA. }
  { intros _. destruct (request ord w o rt k bv ev ib ie amt p s); [eauto|done]. }
  rewrite E in H. cbn in H. injection H as <- <-. split; [by apply set_only_spec|].
  destruct (Hres pv Hpv Hos) as (sb' & l & H1 & H2 & H3 & H4 & H5). exists sb', l. done.
Qed.

(** C09: a request without limit fills the set with exactly the records filed under a value that satisfies the comparison and that
    pass the predicate; a wrong key or type is reported and leaves the set empty. Nothing else changes. *)
Lemma t_C09_request_exact :
  forall b ord w o ob pv rt k bv ev ib ie p s w' res, fair ord -> reach b w -> allowed b w (ORequest o rt k bv ev ib ie None p s) ->
    source_at b w o ob pv -> o <> s -> vty ev = vty bv ->
    step ord w (ORequest o rt k bv ev ib ie None p s) = Some (w', ORes res) ->
    only_set_changed s w w' /\ exists sb', set_at w' s sb' /\ o_parent sb' = Some pv /\
    match get_key_type ob k with
    | None => res = bad WrongKey k (Some (vty bv)) None /\ o_recs sb' = ∅
    | Some t => if decide (t = vty bv)
                then res = okres Success k (Some (vty bv)) (Some (vty bv)) /\
                     forall r, r ∈ o_recs sb' <-> matching ob rt k bv ev ib ie r /\ passes w p r
                else res = bad WrongType k (Some (vty bv)) (Some t) /\ o_recs sb' = ∅
    end.
Proof.
  intros b ord w o ob pv rt k bv ev ib ie p s w' res Hf HR HA HS Hos Ht H.
  destruct (request_step _ _ _ _ _ _ _ _ _ _ _ _ _ _ _ _ _ Hf HR HA HS Hos Ht H) as (H0 & sb' & l & H1 & H2 & H3 & E). split; [done|].
  exists sb'. split; [done|]. split; [done|]. pose proof (request_set_exact _ _ _ _ _ _ _ _ _ _ _ _ _ _ _ _ Hf HR HS Ht E) as HX.
  destruct (get_key_type ob k) as [t|]; [destruct (decide (t = vty bv))|].
  - destruct HX as (-> & c & _ & Hc & _ & Hl & _). split; [done|]. intros r. rewrite H3, elem_of_list_to_set, Hl. cbn [limit]. by rewrite Hc.
  - destruct HX as [-> ->]. done.
  - destruct HX as [-> ->]. done.
Qed.
(** C04, C09: every record a request (with or without limit) returns is a valid record of the source that stores a value satisfying the comparison. *)
Lemma t_C04_request_sound :
  forall b ord w o ob pv rt k bv ev ib ie amt p s w' res sb' r, fair ord -> reach b w -> allowed b w (ORequest o rt k bv ev ib ie amt p s) ->
    source_at b w o ob pv -> o <> s -> vty ev = vty bv ->
    step ord w (ORequest o rt k bv ev ib ie amt p s) = Some (w', ORes res) -> set_at w' s sb' -> r ∈ o_recs sb' ->
    r ∈ o_recs ob /\ valid_rec w r /\ passes w p r /\ (exists v, stored w r k = Some v /\ sat rt bv ev ib ie v) /\
    exists pb, vault_at w pv pb /\ r ∈ o_recs pb.
Proof.
  intros b ord w o ob pv rt k bv ev ib ie amt p s w' res sb' r Hf HR HA HS Hos Ht H [HV' _] Hr.
  destruct (request_step _ _ _ _ _ _ _ _ _ _ _ _ _ _ _ _ _ Hf HR HA HS Hos Ht H) as (H0 & sb'' & l & [H1 _] & H2 & H3 & E).
  assert (sb'' = sb') as -> by congruence. rewrite H3, elem_of_list_to_set in Hr.
  pose proof (request_set_exact _ _ _ _ _ _ _ _ _ _ _ _ _ _ _ _ Hf HR HS Ht E) as HX.
  destruct (get_key_type ob k) as [t|] eqn:Ek; [destruct (decide (t = vty bv))|].
  - destruct HX as (-> & c & _ & Hc & _ & Hl & _). apply Hl in Hr as [Hr Hp]. apply limit_elem, Hc in Hr.
    destruct (sat_matching _ _ _ _ _ _ _ _ _ _ _ _ HR HS (mk_is_Some _ _ Ek) Hr) as (R1 & R2 & R3).
    split; [done|]. split; [done|]. split; [done|]. split; [done|]. destruct (source_parent _ _ _ _ _ HR HS) as (pb & Hpb & Hsub). exists pb. split; [done|]. by apply Hsub.
  - destruct HX as [_ ->]. by apply elem_of_nil in Hr.
  - destruct HX as [_ ->]. by apply elem_of_nil in Hr.
Qed.
(** C09: an inverted interval, or an interval with equal ends one of which is excluded, returns nothing. *)
Lemma t_C09_empty_interval :
  forall b ord w o ob pv k bv ev ib ie amt p s w' res sb', fair ord -> reach b w -> allowed b w (ORequest o RInterval k bv ev ib ie amt p s) ->
    source_at b w o ob pv -> o <> s -> vty ev = vty bv ->
    vlt ev bv \/ (bv = ev /\ (ib = false \/ ie = false)) ->
    step ord w (ORequest o RInterval k bv ev ib ie amt p s) = Some (w', ORes res) -> set_at w' s sb' -> o_recs sb' = ∅.
Proof.
  intros b ord w o ob pv k bv ev ib ie amt p s w' res sb' Hf HR HA HS Hos Ht Hi H HV'. apply elem_of_equiv_empty_L. intros r Hr.
  destruct (t_C04_request_sound _ _ _ _ _ _ _ _ _ _ _ _ _ _ _ _ _ _ _ Hf HR HA HS Hos Ht H HV' Hr) as (_ & _ & _ & (v & _ & H1 & H2) & _).
  assert (Hbx : vle bv v) by (destruct ib; [done|by apply vlt_vle]). assert (Hxe : vle v ev) by (destruct ie; [done|by apply vlt_vle]).
  destruct Hi as [Hi|[-> Hi]].
  - assert (Hbe : vle bv ev) by (by eapply vle_trans). unfold vle, vlt in *. congruence.
  - assert (v = ev) as -> by (by apply vle_antisym). destruct Hi as [-> | ->]; by eapply vlt_irrefl.
Qed.
(** C09: no request on a vault runs past the end of an index, whatever the arguments. *)
Lemma t_C09_no_overrun :
  forall b ord w o ob rt k bv ev ib ie amt p, fair ord -> reach b w -> vault_at w o ob -> vty ev = vty bv ->
    is_Some (request_set ord w ob rt k bv ev ib ie amt p).
Proof.
  intros b ord w o ob rt k bv ev ib ie amt p Hf HR HV Ht. apply request_set_def; [done| |done].
  eapply queryable_vault; [by apply (vault_vok b w HR o)|]. intros r Hr. destruct (vault_valid b w HR o ob r HV Hr) as (rc & Hrc & _). eauto.
Qed.

(** C11: a limited request returns a part of the unlimited answer, of at most n records; without predicate exactly min(n, matches). *)
Lemma t_C11_request_limit :
  forall b ord w o ob pv rt k bv ev ib ie n p s w' res sb', fair ord -> reach b w -> allowed b w (ORequest o rt k bv ev ib ie (Some n) p s) ->
    source_at b w o ob pv -> o <> s -> vty ev = vty bv -> get_key_type ob k = Some (vty bv) ->
    step ord w (ORequest o rt k bv ev ib ie (Some n) p s) = Some (w', ORes res) -> set_at w' s sb' ->
    exists all, (forall r, r ∈ (all : gset nat) <-> matching ob rt k bv ev ib ie r) /\ o_recs sb' ⊆ all /\
      size (o_recs sb') <= n /\ (p = None -> size (o_recs sb') = Nat.min n (size all)).
Proof.
  intros b ord w o ob pv rt k bv ev ib ie n p s w' res sb' Hf HR HA HS Hos Ht Ek H [HV' _].
  destruct (request_step _ _ _ _ _ _ _ _ _ _ _ _ _ _ _ _ _ Hf HR HA HS Hos Ht H) as (H0 & sb'' & l & [H1 _] & H2 & H3 & E).
  assert (sb'' = sb') as -> by congruence.
  pose proof (request_set_exact _ _ _ _ _ _ _ _ _ _ _ _ _ _ _ _ Hf HR HS Ht E) as HX. rewrite Ek in HX. rewrite decide_True in HX by done.
  destruct HX as (_ & c & Hn & Hc & Hsl & Hl & Hp). cbn [limit] in *. exists (list_to_set c). rewrite H3.
  assert (Hnl : NoDup l) by (eapply sublist_NoDup; [exact Hsl|by apply NoDup_take]).
  split; [|split; [|split]].
  - intros r. by rewrite elem_of_list_to_set.
  - intros r. rewrite !elem_of_list_to_set. intros Hr. apply Hl in Hr as [Hr _]. rewrite <- (take_drop n c). apply elem_of_app. by left.
  - rewrite size_list_to_set by done. apply sublist_length in Hsl. rewrite take_length in Hsl. lia.
  - intros ->. rewrite !size_list_to_set by done. rewrite (Hp eq_refl), take_length. done.
Qed.

(** C10: a complex request succeeds exactly when every comparison names an existing key with a value of its type; then the set holds the
    records satisfying the boolean combination; otherwise an error is reported and the set is empty. *)
Lemma t_C10_complex_request_exact :
  forall b ord w o ob pv q s w' res, fair ord -> reach b w -> allowed b w (OComplex o q s) ->
    source_at b w o ob pv -> o <> s ->
    step ord w (OComplex o q s) = Some (w', ORes res) ->
    only_set_changed s w w' /\ exists sb', set_at w' s sb' /\ o_parent sb' = Some pv /\
    ((well_keyed ob q /\ res = okres Success "" None None /\ forall r, r ∈ o_recs sb' <-> matches w ob q r) \/
     (~ well_keyed ob q /\ res_ok res = false /\ (res_code res = WrongKey \/ res_code res = WrongType) /\ o_recs sb' = ∅)).
Proof.
  intros b ord w o ob pv q s w' res Hf HR HA HS Hos H. pose proof (source_obj _ _ _ _ _ HS) as Ho. pose proof (source_vault_at _ _ _ _ _ HR HS) as Hpv.
  cbn [step] in H. unfold guard_op in H. destruct (is_obj w o && is_set w s) eqn:G; [|done]. apply andb_true_iff in G as [_ G]. apply is_set_true in G as (sb & Hsb & Hst).
  destruct HA as [A1 A2]. destruct (complex_ok b ord w o ob q s sb) as (w1 & res1 & E & _ & Hso & _ & _ & Hres); try done.
  { apply reach_inv, HR. }
  { intros Hb pv' Hpv' sb0 pb Hsb0 Hpb Hne. replace sb0 with sb in * by congruence. eapply (leftovers_target_inv b); [apply reach_inv, HR|done..|]. by eapply A1. }
  { intros _. destruct (complex_request ord w o q s); [eauto|done]. }
  rewrite E in H. cbn in H. injection H as <- <-. split; [by apply set_only_spec|].
  destruct (Hres pv Hpv Hos) as (sb' & rs & H1 & H2 & H3 & H4 & H5). exists sb'. split; [done|]. split; [done|].
  pose proof (eval_req_exact _ _ _ _ _ _ _ _ Hf HR HS H1) as HX. destruct rs as [e|l].
  - right. destruct H5 as [-> H5]. destruct HX as (X1 & X2 & X3). done.
  - left. destruct H5 as [-> H5]. destruct HX as (X1 & X2). split; [done|]. split; [done|]. intros r. by rewrite H5, elem_of_list_to_set.
Qed.

(** ** Lookups *)
Lemma ref_only_spec w w' : ref_only w w' -> only_refs_changed w w'.
Proof.
  intros H. split; [apply (ro_objs _ _ H)|]. split.
  - intros r. by rewrite !valid_rec_live, (ro_live _ _ H).
  - intros r k. by rewrite !stored_val_of, (ro_live _ _ H).
Qed.
(** C04: GetRecord finds a record exactly if one is filed under the value; the record it finds is a valid record of the source holding the
    value; the reference is bound to the vault. Only the given reference changes. *)
Lemma t_C04_getrecord_exact :
  forall b ord w o ob pv k v f rf w' res, fair ord -> reach b w -> allowed b w (OGetRecord o k v f) -> source_at b w o ob pv ->
    w_refs w !! f = Some rf -> step ord w (OGetRecord o k v f) = Some (w', ORes res) ->
    only_refs_changed w w' /\ exists rf', w_refs w' = <[f := rf']> (w_refs w) /\
    match get_key_type ob k with
    | None => res = bad WrongKey k (Some (vty v)) None /\ f_rec rf' = f_rec rf
    | Some t => if decide (t = vty v) then
         (exists r, res = okres Success k (Some (vty v)) (Some t) /\ rf' = Ref (Some r) (Some pv) /\ filed ob k v r /\
            r ∈ o_recs ob /\ valid_rec w' r /\ stored w' r k = Some v) \/
         (res = bad WrongValue k (Some (vty v)) (Some t) /\ rf' = Ref None (Some pv) /\ forall r, ~ filed ob k v r)
       else res = bad WrongType k (Some (vty v)) (Some t) /\ f_rec rf' = f_rec rf
    end.
Proof.
  intros b ord w o ob pv k v f rf w' res Hf HR HA HS Hrf H. pose proof (reach_inv _ _ HR) as HI.
  assert (Hg : ref_only w w' /\ exists rf' same, w_refs w' = <[f := rf']> (w_refs w) /\ get_answer ob k v rf same pv rf' res).
  { pose proof (source_obj _ _ _ _ _ HS) as Ho. cbn [step] in H. unfold guard_op in H. destruct (is_obj w o && is_ref w f); [|done].
    destruct HS as [[HV ->]|(-> & HV & Hp)]; destruct HV as [_ Hs].
    - destruct (get_record_vault_ok b ord w o ob k v f rf) as (w1 & res1 & rf' & E & _ & Hro & Hr & Hga); try done.
      rewrite E in H. cbn in H. injection H as <- <-. eauto 10.
    - destruct (get_record_set_ok true ord w o ob k v f rf) as (w1 & res1 & E & _ & Hga); try done.
      { intros p pb r Hp' Hpb Hr Hl. eapply HA; [by split|done|done|by exists rf|by apply valid_rec_live]. }
      rewrite E in H. cbn in H. injection H as <- <-. rewrite Hp in Hga. destruct Hga as (rf' & ? & ? & ?). eauto 10. }
  destruct Hg as (Hro & rf' & same & Hr & Hga). pose proof (ref_only_spec _ _ Hro) as Hoc. split; [done|]. exists rf'. split; [done|].
  destruct Hoc as (_ & Hval & Hst).
  unfold get_key_type. destruct Hga as [Hk|t d Hk Hne|t d Hk -> Hn|t d r Hk -> Hfd]; rewrite Hk; cbn.
  - done.
  - by rewrite decide_False.
  - rewrite decide_True by done. right. done.
  - rewrite decide_True by done. left. exists r. split; [done|]. split; [done|]. split; [done|]. rewrite Hst, Hval.
    destruct (source_filed b w o ob pv k v r HR HS) as (H1 & H2 & H3); [unfold get_key_type; rewrite Hk; eauto|by left|]. done.
Qed.

Lemma get_records_exact b ord w o ob pv k v amt res l : fair ord -> reach b w -> source_at b w o ob pv -> get_records ord w o k v amt = Some (res, l) ->
  match get_key_type ob k with
  | None => res = bad WrongKey k (Some (vty v)) None /\ l = []
  | Some t => if decide (t = vty v) then exists c, NoDup c /\ (forall r, r ∈ c <-> filed ob k v r) /\
       l = limit1 amt c /\ res = match c with [] => bad WrongValue k (Some (vty v)) (Some t) | _ => okres Success k (Some (vty v)) (Some t) end
     else res = bad WrongType k (Some (vty v)) (Some t) /\ l = []
  end.
Proof.
  intros Hf HR HS H. pose proof (source_obj _ _ _ _ _ HS) as Ho. unfold get_records in H. rewrite Ho in H. cbn [mbind option_bind] in H.
  rewrite (source_guard _ _ _ _ _ HS) in H. unfold get_key_type. destruct (o_keys ob !! k) as [[t d]|] eqn:Ek; cbn; [|by injection H as <- <-].
  destruct (decide (t = vty v)) as [->|Hne]; [|by injection H as <- <-].
  destruct (source_good _ _ _ _ _ _ _ HR HS Ek) as (ix & Hix & G). rewrite Hix in H. cbn [mbind option_bind] in H.
  exists (ord (snd <$> equal_range v (ix_hash ix))). split; [apply fair_NoDup; [done|]; apply NoDup_equal_range_snd, (g_hnd _ _ _ G)|]. split.
  - intros r. rewrite fair_elem by done. rewrite elem_equal_range_snd. unfold filed. rewrite Hix. split; [eauto|]. by intros (? & [= <-] & ?).
  - destruct (ord (snd <$> equal_range v (ix_hash ix))) as [|x c]; injection H as <- <-; [|done]. by destruct amt as [[|[|]]|].
Qed.
(** C04: GetRecords without limit lists each record filed under the value exactly once, and these are valid records of the source that
    hold the value. *)
Lemma t_C04_getrecords_exact :
  forall b ord w o ob pv k v res l, fair ord -> reach b w -> source_at b w o ob pv -> get_records ord w o k v None = Some (res, l) ->
    NoDup l /\
    match get_key_type ob k with
    | None => res = bad WrongKey k (Some (vty v)) None /\ l = []
    | Some t => if decide (t = vty v) then
        (forall r, r ∈ l <-> filed ob k v r) /\ (forall r, r ∈ l -> r ∈ o_recs ob /\ valid_rec w r /\ stored w r k = Some v) /\
        res = if decide (l = []) then bad WrongValue k (Some (vty v)) (Some t) else okres Success k (Some (vty v)) (Some t)
      else res = bad WrongType k (Some (vty v)) (Some t) /\ l = []
    end.
Proof.
  intros b ord w o ob pv k v res l Hf HR HS H. pose proof (get_records_exact _ _ _ _ _ _ _ _ _ _ _ Hf HR HS H) as HX.
  destruct (get_key_type ob k) as [t|] eqn:Ek; [|by destruct HX as [-> ->]; split; [constructor|]].
  destruct (decide (t = vty v)) as [->|]; [|by destruct HX as [-> ->]; split; [constructor|]].
  destruct HX as (c & Hn & Hc & -> & ->). cbn [limit1]. split; [done|]. split; [done|]. split.
  - intros r Hr. apply Hc in Hr. destruct (source_filed b w o ob pv k v r HR HS) as (H1 & H2 & H3); [by rewrite Ek|by left|]. done.
  - by destruct c.
Qed.
(** C11: GetRecords with a limit n >= 1 lists min(n, matches) of them (a limit of 0 lists one: C11_getrecords_zero_refuted). *)
Lemma t_C11_getrecords_limit :
  forall b ord w o ob pv k v n res l, fair ord -> reach b w -> source_at b w o ob pv -> get_key_type ob k = Some (vty v) ->
    get_records ord w o k v (Some n) = Some (res, l) ->
    NoDup l /\ exists all, (forall r, r ∈ (all : gset nat) <-> filed ob k v r) /\ (forall r, r ∈ l -> r ∈ all) /\
      length l = Nat.min (Nat.max 1 n) (size all).
Proof.
  intros b ord w o ob pv k v n res l Hf HR HS Ek H. pose proof (get_records_exact _ _ _ _ _ _ _ _ _ _ _ Hf HR HS H) as HX.
  rewrite Ek in HX. rewrite decide_True in HX by done. destruct HX as (c & Hn & Hc & -> & _). split; [by apply limit1_NoDup|].
  exists (list_to_set c). split; [|split].
  - intros r. by rewrite elem_of_list_to_set.
  - intros r Hr. apply elem_of_list_to_set. by eapply limit1_elem.
  - cbn [limit1]. rewrite take_length, size_list_to_set by done. done.
Qed.

(** ** Sorting *)
Lemma sorted_records_exact b w o ob pv k rev amt l : reach b w -> source_at b w o ob pv -> sorted_records w o k rev amt = Some l ->
  match o_keys ob !! k with
  | None => l = []
  | Some _ => exists ix, o_idx ob !! k = Some ix /\ good (o_recs ob) (val_of (live w) k) ix /\ l = limit amt ((if rev then reverse else id) (snd <$> ix_tree ix))
  end.
Proof.
  intros HR HS H. pose proof (source_obj _ _ _ _ _ HS) as Ho. unfold sorted_records in H. rewrite Ho in H. cbn [mbind option_bind] in H.
  rewrite (source_guard _ _ _ _ _ HS) in H. destruct (o_keys ob !! k) as [td|] eqn:Ek; [|by injection H as <-].
  destruct (source_good _ _ _ _ _ _ _ HR HS Ek) as (ix & Hix & G). rewrite Hix in H. cbn [mbind option_bind] in H. injection H as <-. eauto.
Qed.
Lemma vsorted_lookup (l : list (value * nat)) i j a c : vsorted l -> i <= j -> l !! i = Some a -> l !! j = Some c -> vle a.1 c.1.
Proof.
  intros Hs. revert i j. induction Hs as [|x l Hs IH Hf]; intros i j Hij Hi Hj; [done|]. destruct i as [|i].
  - injection Hi as ->. destruct j as [|j]; [injection Hj as ->; apply vle_refl|]. rewrite Forall_forall in Hf. apply (Hf c). by eapply elem_of_list_lookup_2.
  - destruct j as [|j]; [lia|]. eapply (IH i j); [lia|done..].
Qed.
(** C12, C04: GetSortedRecords lists exactly the records filed in the ordered index, each once, in non-decreasing order of the value
    they hold; all are valid records of the source. *)
Lemma t_C12_sorted_order :
  forall b w o ob pv k l, reach b w -> source_at b w o ob pv -> is_Some (get_key_type ob k) -> sorted_records w o k false None = Some l ->
    NoDup l /\ (forall r, r ∈ l <-> exists v, filed_ord ob k v r) /\
    (forall r, r ∈ l -> r ∈ o_recs ob /\ valid_rec w r) /\
    (forall i j ri rj, i <= j -> l !! i = Some ri -> l !! j = Some rj ->
       exists vi vj, stored w ri k = Some vi /\ stored w rj k = Some vj /\ vle vi vj).
Proof.
  intros b w o ob pv k l HR HS Hk0 H. pose proof (sorted_records_exact _ _ _ _ _ _ _ _ _ HR HS H) as HX.
  pose proof Hk0 as Hk. unfold get_key_type in Hk. apply fmap_is_Some in Hk as [td Hk]. rewrite Hk in HX. destruct HX as (ix & Hix & G & ->). cbn [limit id].
  split; [eapply NoDup_snd; [apply (g_tree _ _ _ G)|apply (g_tnd _ _ _ G)]|].
  assert (Hl : forall r, r ∈ snd <$> ix_tree ix <-> exists v, filed_ord ob k v r).
  { intros r. rewrite elem_of_list_fmap. split.
    - intros ([v r'] & -> & Hin). exists v, ix. done.
    - intros (v & ix' & Hix' & Hin). assert (ix' = ix) as -> by congruence. by exists (v, r). }
  split; [done|]. split.
  - intros r Hr. apply Hl in Hr as [v Hv]. destruct (source_filed b w o ob pv k v r HR HS Hk0) as (H1 & H2 & H3); [by right|]. done.
  - intros i j ri rj Hij Hi Hj. rewrite list_lookup_fmap in Hi, Hj. pose proof (g_sorted _ _ _ G) as Hs. pose proof (g_tree _ _ _ G) as Hsd. revert Hs Hsd Hi Hj.
    generalize (ix_tree ix : list (value * nat)). intros t Hs Hsd Hi Hj.
    destruct (t !! i) as [[vi ri']|] eqn:Ei; [|done]. destruct (t !! j) as [[vj rj']|] eqn:Ej; [|done]. cbn in Hi, Hj. injection Hi as ->. injection Hj as ->.
    exists vi, vj. rewrite !stored_val_of. destruct (Hsd vi ri) as [_ ->]; [by eapply elem_of_list_lookup_2|]. destruct (Hsd vj rj) as [_ ->]; [by eapply elem_of_list_lookup_2|].
    split; [done|]. split; [done|]. by eapply (vsorted_lookup t i j (vi, ri) (vj, rj)).
Qed.
(** C12, C11: the reverse listing is the exact reversal; a limit n gives the first n. *)
Lemma t_C12_reverse_and_limit :
  forall w o k l, sorted_records w o k false None = Some l ->
    sorted_records w o k true None = Some (reverse l) /\
    forall n, sorted_records w o k false (Some n) = Some (take n l) /\ sorted_records w o k true (Some n) = Some (take n (reverse l)).
Proof.
  intros w o k l H. unfold sorted_records in *. destruct (w_objs w !! o) as [ob|]; [|done]. cbn [mbind option_bind] in *.
  destruct (o_static_set ob && bool_decide (o_parent ob = None)).
  { injection H as <-. split; [done|]. intros n. rewrite reverse_nil, !take_nil. done. }
  destruct (o_keys ob !! k) as [td|].
  2:{ injection H as <-. split; [done|]. intros n. rewrite reverse_nil, !take_nil. done. }
  destruct (o_idx ob !! k) as [ix|]; [|done]. cbn in *. injection H as <-. done.
Qed.
(** C12: on a missing key the listing is empty. *)
Lemma t_C12_unknown_key_empty :
  forall b w o ob pv k rev amt, reach b w -> source_at b w o ob pv -> get_key_type ob k = None -> sorted_records w o k rev amt = Some [].
Proof.
  intros b w o ob pv k rev amt HR HS Hk. unfold sorted_records. rewrite (source_obj _ _ _ _ _ HS). cbn [mbind option_bind]. rewrite (source_guard _ _ _ _ _ HS).
  unfold get_key_type in Hk. by destruct (o_keys ob !! k).
Qed.
(** C12: SortBy calls the function on a prefix of the sorted listing (reversed if asked), with the call number and the record; it goes on
    as long as the function returns true, the limit is not reached and records remain. *)
Lemma visit_while_spec f amt l : forall i,
  let vs := visit_while f amt i l in
  vs = take (length vs) l /\ (forall n, amt = Some n -> length vs <= n - i) /\
  (forall j r, S j < length vs -> vs !! j = Some r -> f (i + j) r = true) /\
  (length vs < length l -> (exists n, amt = Some n /\ n <= i + length vs) \/ (exists r, last vs = Some r /\ f (i + pred (length vs)) r = false)).
Proof.
  induction l as [|x l IH]; intros i; cbn [visit_while].
  - cbn. split; [done|]. split; [intros; lia|]. split; [done|]. lia.
  - destruct (match amt with Some n => n <=? i | None => false end) eqn:El.
    + destruct amt as [n|]; [|done]. apply Nat.leb_le in El. cbn. split; [done|]. split; [intros; lia|]. split; [done|]. intros _. left. exists n. split; [done|lia].
    + assert (Hn : forall n, amt = Some n -> i < n). { intros n ->. apply Nat.leb_gt in El. done. }
      destruct (f i x) eqn:Ef.
      * specialize (IH (S i)). cbv zeta in IH. set (vs := visit_while f amt (S i) l) in *. destruct IH as (H1 & H2 & H3 & H4). cbn [length take]. split; [by rewrite <- H1|].
        split; [intros n Hn'; specialize (H2 n Hn'); specialize (Hn n Hn'); lia|]. split.
        -- intros j r Hj Hr. destruct j as [|j]; [injection Hr as <-; by rewrite Nat.add_0_r|]. cbn in Hr. rewrite Nat.add_succ_r. apply (H3 j r); [lia|done].
        -- intros Hl. destruct H4 as [(n & Hn' & Hle)|(r & Hla & Hfr)]; [lia|left; exists n; split; [done|lia]|].
           right. exists r. destruct vs as [|y vs']; [done|]. split; [done|]. cbn in *. by rewrite Nat.add_succ_r.
      * cbn. split; [done|]. split; [intros n Hn'; specialize (Hn n Hn'); lia|]. split; [intros; lia|]. intros _. right. exists x. split; [done|]. by rewrite Nat.add_0_r.
Qed.
Lemma t_C12_sort_by :
  forall w o k rev amt f l vs, sorted_records w o k rev None = Some l -> sort_by w o k rev amt f = Some vs ->
    vs = take (length vs) l /\ (forall n, amt = Some n -> length vs <= n) /\
    (forall j r, S j < length vs -> vs !! j = Some r -> f j r = true) /\
    (length vs < length l -> amt = Some (length vs) \/ exists r, last vs = Some r /\ f (pred (length vs)) r = false).
Proof.
  intros w o k rev amt f l vs Hl H. unfold sort_by in H. rewrite Hl in H. cbn [mbind option_bind] in H. injection H as <-.
  destruct (visit_while_spec f amt l 0) as (H1 & H2 & H3 & H4). cbv zeta in *. split; [done|]. split; [intros n Hn; specialize (H2 n Hn); lia|]. split; [done|].
  intros Hlt. destruct (H4 Hlt) as [(n & Hn & Hle)|?]; [|by right]. left. subst amt. specialize (H2 n eq_refl). f_equal. lia.
Qed.
