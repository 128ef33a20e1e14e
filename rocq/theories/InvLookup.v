(** Lookups that fill references: GetRecord, GetRecords, GetSortedRecords. *)
From Verif Require Export InvCreate.
Open Scope nat_scope.

(** What GetRecord does to the reference and answers. *)
Definition found (ob : obj) (k : string) (v : value) (r : nat) : Prop := exists ix, o_idx ob !! k = Some ix /\ (v, r) ∈ ix_hash ix.

Inductive get_answer (ob : obj) (k : string) (v : value) (rf : vref) (same : option nat) (src : nat) : vref -> opres -> Prop :=
  | GaKey : o_keys ob !! k = None -> get_answer ob k v rf same src (Ref (f_rec rf) same) (bad WrongKey k (Some (vty v)) None)
  | GaType t d : o_keys ob !! k = Some (t, d) -> t <> vty v ->
      get_answer ob k v rf same src (Ref (f_rec rf) same) (bad WrongType k (Some (vty v)) (Some t))
  | GaNone t d : o_keys ob !! k = Some (t, d) -> t = vty v -> (forall r, ~ found ob k v r) ->
      get_answer ob k v rf same src (Ref None (Some src)) (bad WrongValue k (Some (vty v)) (Some t))
  | GaSome t d r : o_keys ob !! k = Some (t, d) -> t = vty v -> found ob k v r ->
      get_answer ob k v rf same src (Ref (Some r) (Some src)) (okres Success k (Some (vty v)) (Some t)).

Lemma set_ref_same w f rf : w_refs w !! f = Some rf -> set_ref f rf w = w.
Proof. intros H. unfold set_ref. rewrite insert_id by done. apply world_eta. Qed.
Lemma ref_only_refl w : RInv (w_recs w) (w_refs w) [] -> ref_only w w.
Proof. by split. Qed.

(** GetRecord of the base class, before the record set redirects the reference. *)
Lemma vault_get_record_spec ord w o ob k v f rf :
  fair ord -> RInv (w_recs w) (w_refs w) [] -> w_objs w !! o = Some ob -> w_refs w !! f = Some rf ->
  (forall td, o_keys ob !! k = Some td -> is_Some (o_idx ob !! k)) ->
  (is_Some (vault_get_record ord w o k v f) \/ forall r, found ob k v r -> is_Some (w_recs w !! r)) ->
  exists w' res rf', vault_get_record ord w o k v f = Some (w', res) /\ ref_only w w' /\ w_refs w' = <[f := rf']> (w_refs w) /\
    get_answer ob k v rf (f_vlt rf) o rf' res.
Proof.
  intros Hfo HR Ho Hf Hix HD. unfold vault_get_record in *. rewrite Ho in *. cbn [mbind option_bind] in *.
  assert (Hrf : <[f := Ref (f_rec rf) (f_vlt rf)]> (w_refs w) = w_refs w). { rewrite insert_id; [done|]. destruct rf; done. }
  destruct (o_keys ob !! k) as [[t d]|] eqn:Ek.
  2:{ eexists _, _, _. split; [done|]. split; [by apply ref_only_refl|]. split; [|by constructor]. by rewrite Hrf. }
  destruct (decide (t = vty v)) as [Ht|Ht].
  2:{ eexists _, _, _. split; [done|]. split; [by apply ref_only_refl|]. split; [|by econstructor]. by rewrite Hrf. }
  destruct (Hix _ eq_refl) as [ix Eix]. rewrite Eix in *. cbn [mbind option_bind] in *.
  destruct (ord (snd <$> equal_range v (ix_hash ix))) as [|r l] eqn:El.
  - destruct (set_record_spec w f rf None o HR Hf) as (w' & E & Hro & Hrefs); [done|]. rewrite E. cbn [mbind option_bind].
    eexists _, _, _. split; [done|]. split; [done|]. split; [done|]. eapply GaNone; [done|done|]. intros r (ix' & Hix' & Hr).
    assert (ix' = ix) as -> by congruence. apply elem_equal_range_snd in Hr. rewrite <- (fair_elem_list ord _ _ Hfo) in Hr. rewrite El in Hr. by apply elem_of_nil in Hr.
  - assert (Hfd : found ob k v r).
    { exists ix. split; [done|]. apply elem_equal_range_snd. rewrite <- (fair_elem_list ord _ _ Hfo), El. by left. }
    assert (is_Some (w_recs w !! r)) as Hlr.
    { destruct HD as [HD|HD]; [|by apply HD]. unfold set_record, add_ref in HD. rewrite Hf in HD. cbn [mbind option_bind] in HD.
      destruct (w_recs w !! r); [eauto|]. by destruct HD. }
    destruct (set_record_spec w f rf (Some r) o HR Hf) as (w' & E & Hro & Hrefs); [by intros ? [= <-]|]. rewrite E. cbn [mbind option_bind].
    eexists _, _, _. split; [done|]. split; [done|]. split; [done|]. by eapply GaSome.
Qed.

(** Indexes of every object: present for each key; entries of a set are records of its parent. *)
Lemma Inv_index b w o ob k td :
  Inv b w -> w_objs w !! o = Some ob -> (o_static_set ob = true -> b = true /\ o_parent ob <> None) -> o_keys ob !! k = Some td -> is_Some (o_idx ob !! k).
Proof.
  intros HI Ho Hb Hk. destruct (o_static_set ob) eqn:Hst.
  - destruct (Hb eq_refl) as [-> Hp]. destruct (o_parent ob) as [p|] eqn:Ep; [|done].
    destruct (Inv_set_facts _ _ _ _ _ HI Ho Hst Ep) as (pb & _ & _ & _ & _ & Hpar). destruct (st_idx _ _ _ _ (sp_strict _ _ _ _ _ Hpar eq_refl) _ _ Hk) as (ix & H & _). eauto.
  - destruct (v_idx _ _ (vi_vault _ _ _ _ (inv_obj _ _ HI) _ _ Ho Hst) _ _ Hk) as (ix & H & _). eauto.
Qed.
Lemma found_vault b w o ob k v r td :
  Inv b w -> w_objs w !! o = Some ob -> o_static_set ob = false -> o_keys ob !! k = Some td -> found ob k v r ->
  r ∈ o_recs ob /\ val_of (live w) k r = Some v.
Proof.
  intros HI Ho Hst Hk (ix & Hix & Hr). destruct (v_idx _ _ (vi_vault _ _ _ _ (inv_obj _ _ HI) _ _ Ho Hst) _ _ Hk) as (ix' & Hix' & (G & _) & _).
  assert (ix' = ix) as -> by congruence. by apply (g_hash _ _ _ G).
Qed.
Lemma found_strict w o ob k v r td p :
  Inv true w -> w_objs w !! o = Some ob -> o_static_set ob = true -> o_parent ob = Some p -> o_keys ob !! k = Some td -> found ob k v r ->
  r ∈ o_recs ob /\ val_of (live w) k r = Some v.
Proof.
  intros HI Ho Hst Hp Hk (ix & Hix & Hr). destruct (Inv_set_facts _ _ _ _ _ HI Ho Hst Hp) as (pb & _ & _ & _ & _ & Hpar).
  destruct (st_idx _ _ _ _ (sp_strict _ _ _ _ _ Hpar eq_refl) _ _ Hk) as (ix' & Hix' & (G & _)).
  assert (ix' = ix) as -> by congruence. by apply (g_hash _ _ _ G).
Qed.
Lemma val_of_live L k r v : val_of L k r = Some v -> is_Some (L !! r).
Proof. unfold val_of. destruct (L !! r); [eauto|done]. Qed.

Lemma get_record_vault_ok b ord w o ob k v f rf :
  fair ord -> Inv b w -> w_objs w !! o = Some ob -> o_static_set ob = false -> w_refs w !! f = Some rf ->
  exists w' res rf', get_record ord w o k v f = Some (w', res) /\ Inv b w' /\ ref_only w w' /\ w_refs w' = <[f := rf']> (w_refs w) /\
    get_answer ob k v rf (f_vlt rf) o rf' res.
Proof.
  intros Hfo HI Ho Hst Hf. unfold get_record. rewrite Ho. cbn [mbind option_bind]. rewrite Hst.
  assert (Hix : forall td, o_keys ob !! k = Some td -> is_Some (o_idx ob !! k)). { intros td. apply (Inv_index b w o); [done|done|]. congruence. }
  assert (Hfd : forall r, o_keys ob !! k <> None -> found ob k v r -> r ∈ o_recs ob /\ is_Some (live w !! r)).
  { intros r Hk Hr. destruct (o_keys ob !! k) as [td|] eqn:Ek; [|done]. destruct (found_vault _ _ _ _ _ _ _ _ HI Ho Hst Ek Hr) as [H1 H2].
    split; [done|]. by eapply val_of_live. }
  destruct (vault_get_record_spec ord w o ob k v f rf) as (w' & res & rf' & E & Hro & Hrefs & Ha); [done|apply HI|done|done|done| |].
  { destruct (o_keys ob !! k) eqn:Ek.
    - right. intros r Hr. apply live_is_some. by apply Hfd.
    - left. unfold vault_get_record. rewrite Ho. cbn [mbind option_bind]. rewrite Ek. eauto. }
  exists w', res, rf'. split; [done|]. split; [|done]. eapply (Inv_ref_only b w); [done|done|]. rewrite Hrefs. apply vlt_ok_insert; [apply HI|].
  intros r Hr. destruct Ha as [Hk|t d Hk Ht|t d Hk Ht Hn|t d r' Hk Ht Hr']; cbn in *; try done.
  - by eapply (inv_vlt _ _ HI).
  - by eapply (inv_vlt _ _ HI).
  - injection Hr as ->. exists o. split; [done|]. intros ob' Hob' _ _. assert (ob' = ob) as -> by congruence. apply Hfd; [congruence|done].
Qed.

Lemma get_record_set_ok b ord w s sb k v f rf :
  fair ord -> Inv b w -> w_objs w !! s = Some sb -> o_static_set sb = true -> w_refs w !! f = Some rf ->
  (forall p pb r, o_parent sb = Some p -> w_objs w !! p = Some pb -> f_rec rf = Some r -> is_Some (live w !! r) -> r ∈ o_recs pb) ->
  Def b (get_record ord w s k v f) ->
  exists w' res, get_record ord w s k v f = Some (w', res) /\ Inv b w' /\
    match o_parent sb with
    | None => w' = w /\ res = bad ParentVaultNotValid k (Some (vty v)) None
    | Some p => exists rf', ref_only w w' /\ w_refs w' = <[f := rf']> (w_refs w) /\ get_answer sb k v rf (Some p) p rf' res
    end.
Proof.
  intros Hfo HI Hs Hst Hf Hown HD. unfold get_record in *. rewrite Hs in *. cbn [mbind option_bind] in *. rewrite Hst in *.
  destruct (o_parent sb) as [p|] eqn:Ep; [|eexists _, _; done]. destruct (Inv_set_facts _ _ _ _ _ HI Hs Hst Ep) as (pb & Hpb & Hpst & _ & _ & Hpar). rewrite Hpb in *. cbn [mbind option_bind] in *.
  destruct (o_keys sb !! k) as [[t d]|] eqn:Ek.
  2:{ assert (E : vault_get_record ord w s k v f = Some (w, bad WrongKey k (Some (vty v)) None)). { unfold vault_get_record. rewrite Hs. cbn [mbind option_bind]. by rewrite Ek. }
      rewrite E in *. cbn [mbind option_bind] in *. rewrite Hf in *. cbn [mbind option_bind] in *. eexists _, _. split; [done|].
      assert (Hro : ref_only w (set_ref f (Ref (f_rec rf) (Some p)) w)).
      { split; try done. cbn. pose proof (RInv_swap (w_recs w) (w_refs w) f rf (Ref (f_rec rf) (Some p)) []) as Hsw.
        assert (RInv (w_recs w) (<[f := Ref (f_rec rf) (Some p)]> (w_refs w)) []) as H; [|done].
        destruct (inv_ref _ _ HI) as [R1 R2 R3 R4]. split; try done.
        - intros f' rf' r Hf' Hr. apply lookup_insert_Some in Hf' as [[<- <-]|[_ Hf']]; [by eapply R1|by eapply R1].
        - intros r rc Hr. rewrite (R3 _ _ Hr). f_equal. rewrite count_insert. cbn. rewrite (count_delete _ _ _ _ Hf). done. }
      split; [|eexists; split; [done|]; split; [done|]; by constructor].
      eapply (Inv_ref_only b w); [done|done|]. cbn. apply vlt_ok_insert; [apply HI|]. cbn. intros r Hr. exists p. split; [done|].
      intros ob' Hob' _ Hl. assert (ob' = pb) as -> by congruence. by eapply Hown. }
  assert (Hix : is_Some (o_idx sb !! k) \/ t <> vty v).
  { destruct (decide (t = vty v)); [left|by right]. destruct b.
    - eapply (Inv_index true w s); [done|done|naive_solver|done].
    - destruct HD as [x HD]; [done|]. unfold vault_get_record in HD. rewrite Hs in HD. cbn [mbind option_bind] in HD. rewrite Ek, decide_True in HD by done.
      destruct (o_idx sb !! k); [eauto|done]. }
  assert (Hgen : forall w', (forall rf', w_refs w' = <[f := rf']> (w_refs w) -> ref_only w w' -> ref_only w (set_ref f (Ref (f_rec rf') (Some p)) w'))).
  { intros w' rf' Hrefs Hro. destruct Hro as [O1 O2 O3 O4 O5]. split; try done. cbn. rewrite Hrefs, insert_insert. rewrite Hrefs in O5.
    destruct O5 as [R1 R2 R3 R4]. split; try done.
    - intros f' rf2 r Hf' Hr. apply lookup_insert_Some in Hf' as [[<- <-]|[Hne Hf']].
      + eapply (R1 f); [by rewrite lookup_insert|done].
      + eapply (R1 f'); [by rewrite lookup_insert_ne|done].
    - intros r rc Hr. rewrite (R3 _ _ Hr). f_equal. rewrite !count_insert. done. }
  destruct (decide (t = vty v)) as [Ht|Ht].
  - destruct Hix as [Hix|]; [|done].
    destruct (vault_get_record_spec ord w s sb k v f rf) as (w' & res & rf' & E & Hro & Hrefs & Ha); [done|apply HI|done|done|done| |].
    { destruct b.
      - right. intros r Hr. destruct (found_strict _ _ _ _ _ _ _ _ HI Hs Hst Ep Ek Hr) as [H1 H2]. apply live_is_some. by eapply val_of_live.
      - left. destruct HD as [x HD]; [done|]. destruct (vault_get_record ord w s k v f); [eauto|done]. }
    rewrite E in *. cbn [mbind option_bind] in *. rewrite Hrefs, lookup_insert in *. cbn [mbind option_bind] in *. eexists _, _. split; [done|].
    assert (Ha' : get_answer sb k v rf (Some p) p (Ref (f_rec rf') (Some p)) res).
    { destruct Ha as [Hk|t' d' Hk Ht'|t' d' Hk Ht' Hn|t' d' r' Hk Ht' Hr']; cbn; [by constructor|by econstructor|by econstructor|by econstructor]. }
    pose proof (Hgen w' rf' Hrefs Hro) as Hro2. split.
    + eapply (Inv_ref_only b w); [done|done|]. cbn. rewrite Hrefs, insert_insert. apply vlt_ok_insert; [apply HI|]. cbn. intros r Hr. exists p. split; [done|].
      intros ob' Hob' _ Hl. assert (ob' = pb) as -> by congruence.
      destruct Ha as [Hk|t' d' Hk Ht'|t' d' Hk Ht' Hn|t' d' r' Hk Ht' (ix & Hix' & Hr')]; cbn in Hr; try congruence.
      injection Hr as ->. eapply (sp_idx _ _ _ _ _ Hpar k ix (v, r)); [done|by left|done].
    + eexists. split; [done|]. split; [|done]. cbn. by rewrite Hrefs, insert_insert.
  - assert (E : vault_get_record ord w s k v f = Some (w, bad WrongType k (Some (vty v)) (Some t))). { unfold vault_get_record. rewrite Hs. cbn [mbind option_bind]. by rewrite Ek, decide_False. }
    rewrite E in *. cbn [mbind option_bind] in *. rewrite Hf in *. cbn [mbind option_bind] in *. eexists _, _. split; [done|].
    assert (Hro : ref_only w (set_ref f (Ref (f_rec rf) (Some p)) w)).
    { apply (Hgen w rf); [by rewrite insert_id|apply ref_only_refl, HI]. }
    split; [|eexists; split; [done|]; split; [done|]; by econstructor].
    eapply (Inv_ref_only b w); [done|done|]. cbn. apply vlt_ok_insert; [apply HI|]. cbn. intros r Hr. exists p. split; [done|].
    intros ob' Hob' _ Hl. assert (ob' = pb) as -> by congruence. by eapply Hown.
Qed.

(** ** Lists of results *)
Lemma assign_refs_ok b vlt rs : forall fs w,
  Inv b w -> (forall r ob, r ∈ rs -> w_objs w !! vlt = Some ob -> o_static_set ob = false -> is_Some (live w !! r) -> r ∈ o_recs ob) ->
  (is_Some (assign_refs w vlt rs fs) \/ forall r, r ∈ rs -> is_Some (live w !! r)) ->
  exists w', assign_refs w vlt rs fs = Some w' /\ Inv b w' /\ ref_only w w' /\
    (forall f, f ∉ fs -> w_refs w' !! f = w_refs w !! f) /\
    (forall f, is_Some (w_refs w' !! f) <-> is_Some (w_refs w !! f)) /\
    (NoDup fs -> forall i f r, fs !! i = Some f -> rs !! i = Some r -> is_Some (w_refs w !! f) -> w_refs w' !! f = Some (Ref (Some r) (Some vlt))).
Proof.
  induction rs as [|r rs IH]; intros fs w HI Hin HD.
  { exists w. destruct fs; (split; [done|]); (split; [done|]); (split; [apply ref_only_refl, HI|]); done. }
  destruct fs as [|f fs]; [exists w; split; [done|]; split; [done|]; split; [apply ref_only_refl, HI|]; done|].
  cbn [assign_refs] in *. destruct (w_refs w !! f) as [rf|] eqn:Ef.
  - assert (is_Some (w_recs w !! r)) as Hlr.
    { destruct HD as [HD|HD]; [|apply live_is_some, HD; by left]. unfold set_record, add_ref in HD. rewrite Ef in HD. cbn [mbind option_bind] in HD.
      destruct (w_recs w !! r); [eauto|]. by destruct HD. }
    destruct (set_record_spec w f rf (Some r) vlt) as (w1 & E & Hro & Hrefs); [apply HI|done|by intros ? [= <-]|]. rewrite E in *. cbn [mbind option_bind] in *.
    assert (HI1 : Inv b w1).
    { eapply (Inv_ref_only b w); [done|done|]. rewrite Hrefs. apply vlt_ok_insert; [apply HI|]. cbn. intros ? [= <-]. exists vlt. split; [done|].
      intros ob Hob Hst Hl. eapply Hin; [by left|done..]. }
    destruct Hro as [O1 O2 O3 O4 O5].
    destruct (IH fs w1) as (w' & E' & HI' & Hro' & H1 & H2 & H3); [done|..].
    { intros x ob Hx. rewrite O1, O2. apply Hin. by right. } { destruct HD as [HD|HD]; [by left|right]. intros x Hx. rewrite O2. apply HD. by right. }
    exists w'. split; [done|]. split; [done|]. split; [eapply ref_only_trans; [|done]; by split|]. split; [|split].
    + intros f' Hf'. apply not_elem_of_cons in Hf' as [Hne Hf']. rewrite H1 by done. rewrite Hrefs, lookup_insert_ne; [done|congruence].
    + intros f'. rewrite H2, Hrefs. rewrite lookup_insert_is_Some'. split; [intros [<-|?]; [by rewrite Ef|done]|by right].
    + intros Hn [|i] f' r' Hf' Hr' Hs.
      * cbn in Hf', Hr'. injection Hf' as <-. injection Hr' as <-. apply NoDup_cons in Hn as [Hn _]. rewrite H1 by done. rewrite Hrefs. by rewrite lookup_insert.
      * apply NoDup_cons in Hn as [_ Hn]. eapply (H3 Hn i); [done|done|]. rewrite Hrefs. apply lookup_insert_is_Some'. by right.
  - destruct (IH fs w) as (w' & E' & HI' & Hro' & H1 & H2 & H3); [done|..].
    { intros x ob Hx. apply Hin. by right. } { destruct HD as [HD|HD]; [by left|right]. intros x Hx. apply HD. by right. }
    exists w'. split; [done|]. split; [done|]. split; [done|]. split; [|split; [done|]].
    + intros f' Hf'. apply not_elem_of_cons in Hf' as [Hne Hf']. auto.
    + intros Hn [|i] f' r' Hf' Hr' Hs.
      * cbn in Hf'. injection Hf' as <-. rewrite Ef in Hs. by destruct Hs.
      * apply NoDup_cons in Hn as [_ Hn]. by eapply (H3 Hn i).
Qed.

Lemma get_records_spec ord w o ob k v amt :
  fair ord -> w_objs w !! o = Some ob ->
  (is_Some (get_records ord w o k v amt) \/ forall td, o_keys ob !! k = Some td -> is_Some (o_idx ob !! k)) ->
  exists res l, get_records ord w o k v amt = Some (res, l) /\ (forall r, r ∈ l -> found ob k v r /\ is_Some (o_keys ob !! k)) /\
    (l <> [] -> o_static_set ob = true -> o_parent ob <> None).
Proof.
  intros Hf Ho HD. unfold get_records in *. rewrite Ho in *. cbn [mbind option_bind] in *. destruct (o_static_set ob && bool_decide (o_parent ob = None)) eqn:E0.
  { eexists _, _. split; [done|]. split; [|done]. intros r Hr. by apply elem_of_nil in Hr. }
  assert (Hp : o_static_set ob = true -> o_parent ob <> None). { intros E. rewrite E in E0. cbn in E0. by apply bool_decide_eq_false in E0. }
  destruct (o_keys ob !! k) as [[t d]|] eqn:Ek.
  2:{ eexists _, _. split; [done|]. split; [|done]. intros r Hr. by apply elem_of_nil in Hr. }
  destruct (decide (t = vty v)).
  2:{ eexists _, _. split; [done|]. split; [|done]. intros r Hr. by apply elem_of_nil in Hr. }
  assert (is_Some (o_idx ob !! k)) as [ix Hix].
  { destruct HD as [HD|HD]; [|by eapply HD]. destruct (o_idx ob !! k); [eauto|]. by destruct HD. }
  rewrite Hix in *. cbn [mbind option_bind] in *. destruct (ord (snd <$> equal_range v (ix_hash ix))) as [|r0 l] eqn:El.
  { eexists _, _. split; [done|]. split; [|done]. intros r Hr. by apply elem_of_nil in Hr. }
  eexists _, _. split; [done|]. split; [|done]. intros r Hr. apply limit1_elem in Hr. rewrite <- El in Hr. split; [|eauto].
  rewrite (fair_elem_list ord _ _ Hf) in Hr. apply elem_equal_range_snd in Hr. by exists ix.
Qed.
Definition found_tree (ob : obj) (k : string) (r : nat) : Prop := exists ix v, o_idx ob !! k = Some ix /\ (v, r) ∈ ix_tree ix.
Lemma sorted_records_spec w o ob k rev amt :
  w_objs w !! o = Some ob ->
  (is_Some (sorted_records w o k rev amt) \/ forall td, o_keys ob !! k = Some td -> is_Some (o_idx ob !! k)) ->
  exists l, sorted_records w o k rev amt = Some l /\ (forall r, r ∈ l -> found_tree ob k r /\ is_Some (o_keys ob !! k)) /\
    (l <> [] -> o_static_set ob = true -> o_parent ob <> None).
Proof.
  intros Ho HD. unfold sorted_records in *. rewrite Ho in *. cbn [mbind option_bind] in *. destruct (o_static_set ob && bool_decide (o_parent ob = None)) eqn:E0.
  { eexists. split; [done|]. split; [|done]. intros r Hr. by apply elem_of_nil in Hr. }
  assert (Hp : o_static_set ob = true -> o_parent ob <> None). { intros E. rewrite E in E0. cbn in E0. by apply bool_decide_eq_false in E0. }
  destruct (o_keys ob !! k) as [[t d]|] eqn:Ek.
  2:{ eexists. split; [done|]. split; [|done]. intros r Hr. by apply elem_of_nil in Hr. }
  assert (is_Some (o_idx ob !! k)) as [ix Hix].
  { destruct HD as [HD|HD]; [|by eapply HD]. destruct (o_idx ob !! k); [eauto|]. by destruct HD. }
  rewrite Hix in *. cbn [mbind option_bind] in *. eexists. split; [done|]. split; [|done]. intros r Hr. split; [|eauto]. apply limit_elem in Hr.
  assert (r ∈ snd <$> ix_tree ix) as Hr' by (destruct rev; [by rewrite elem_of_reverse in Hr|done]).
  apply elem_of_list_fmap in Hr' as ([v r'] & -> & Hr'). by exists ix, v.
Qed.

(** Records listed by an index of a vault are live records of it; entries of a set's index, if live, are records of its parent. *)
Lemma found_tree_vault b w o ob k r td :
  Inv b w -> w_objs w !! o = Some ob -> o_static_set ob = false -> o_keys ob !! k = Some td -> found_tree ob k r -> r ∈ o_recs ob /\ is_Some (live w !! r).
Proof.
  intros HI Ho Hst Hk (ix & v & Hix & Hr). destruct (v_idx _ _ (vi_vault _ _ _ _ (inv_obj _ _ HI) _ _ Ho Hst) _ _ Hk) as (ix' & Hix' & (G & _) & _).
  assert (ix' = ix) as -> by congruence. destruct (g_tree _ _ _ G _ _ Hr) as [H1 H2]. split; [done|]. by eapply val_of_live.
Qed.
Lemma found_tree_strict w o ob k r td p :
  Inv true w -> w_objs w !! o = Some ob -> o_static_set ob = true -> o_parent ob = Some p -> o_keys ob !! k = Some td -> found_tree ob k r ->
  r ∈ o_recs ob /\ is_Some (live w !! r).
Proof.
  intros HI Ho Hst Hp Hk (ix & v & Hix & Hr). destruct (Inv_set_facts _ _ _ _ _ HI Ho Hst Hp) as (pb & _ & _ & _ & _ & Hpar).
  destruct (st_idx _ _ _ _ (sp_strict _ _ _ _ _ Hpar eq_refl) _ _ Hk) as (ix' & Hix' & (G & _)).
  assert (ix' = ix) as -> by congruence. destruct (g_tree _ _ _ G _ _ Hr) as [H1 H2]. split; [done|]. by eapply val_of_live.
Qed.
Lemma index_lists b w o ob k r (l : list nat) :
  Inv b w -> w_objs w !! o = Some ob -> (found_tree ob k r \/ exists v, found ob k v r) -> is_Some (o_keys ob !! k) ->
  (o_static_set ob = true -> o_parent ob <> None) ->
  (b = true -> is_Some (live w !! r)) /\
  (forall src sb, source_vault o ob = Some src -> w_objs w !! src = Some sb -> o_static_set sb = false -> is_Some (live w !! r) -> r ∈ o_recs sb) /\
  (o_static_set ob = false -> is_Some (live w !! r)).
Proof.
  intros HI Ho Hr [td Hk] Hp. destruct (o_static_set ob) eqn:Hst.
  - destruct (o_parent ob) as [p|] eqn:Ep; [|by destruct Hp]. destruct (Inv_set_facts _ _ _ _ _ HI Ho Hst Ep) as (pb & Hpb & _ & _ & _ & Hpar). split; [|split; [|done]].
    + intros ->. destruct Hr as [Hr|[v Hr]]; [by eapply (found_tree_strict w o ob k r td p)|]. destruct (found_strict _ _ _ _ _ _ _ _ HI Ho Hst Ep Hk Hr) as [_ H]. by eapply val_of_live.
    + intros src sb Hsrc Hsb _ Hl. unfold source_vault in Hsrc. rewrite Hst, Ep in Hsrc. injection Hsrc as <-. assert (sb = pb) as -> by congruence.
      destruct Hr as [(ix & v & Hix & Hr)|(v & ix & Hix & Hr)]; eapply (sp_idx _ _ _ _ _ Hpar k ix (v, r)); eauto.
  - assert (r ∈ o_recs ob /\ is_Some (live w !! r)) as [H1 H2].
    { destruct Hr as [Hr|[v Hr]]; [by eapply (found_tree_vault b w o ob k r td)|]. destruct (found_vault _ _ _ _ _ _ _ _ HI Ho Hst Hk Hr) as [H1 H]. split; [done|]. by eapply val_of_live. }
    split; [done|]. split; [|done]. intros src sb Hsrc Hsb _ _. unfold source_vault in Hsrc. rewrite Hst in Hsrc. congruence.
Qed.

Lemma get_records_step_ok b ord w o ob k v amt fs :
  fair ord -> Inv b w -> w_objs w !! o = Some ob ->
  let m := '(res, l) ← get_records ord w o k v amt; w' ← assign_refs w (default o (source_vault o ob)) l fs; Some (w', res) in
  Def b m -> exists w' res, m = Some (w', res) /\ Inv b w' /\ ref_only w w' /\ (forall f, f ∉ fs -> w_refs w' !! f = w_refs w !! f).
Proof.
  intros Hf HI Ho m HD. subst m.
  destruct (get_records_spec ord w o ob k v amt) as (res & l & E & Hl & Hp); [done|done|..].
  { destruct (get_records ord w o k v amt) as [x|] eqn:Eg; [eauto|]. right. intros td Hk. destruct b; [|by destruct (HD eq_refl)].
    destruct (decide (o_static_set ob = true /\ o_parent ob = None)) as [[E1 E2]|Hnn].
    - unfold get_records in Eg. rewrite Ho in Eg. cbn [mbind option_bind] in Eg. rewrite E1, E2 in Eg. done.
    - eapply (Inv_index true w o); [done|done| |done]. naive_solver. }
  rewrite E in *. cbn [mbind option_bind] in *.
  destruct (assign_refs_ok b (default o (source_vault o ob)) l fs w) as (w' & E' & HI' & Hro & H1 & _); [done|..].
  - intros r sb Hr Hsb Hsst Hlr. destruct (Hl _ Hr) as [Hfd Hk]. assert (Hne : l <> []) by (intros ->; by apply elem_of_nil in Hr).
    specialize (Hp Hne). destruct (index_lists b w o ob k r l HI Ho) as (_ & H2 & _); [eauto|done|done|]. eapply H2; [|done|done|done].
    unfold source_vault in *. destruct (o_static_set ob); [|done]. destruct (o_parent ob); [done|]. by destruct Hp.
  - destruct b.
    + right. intros r Hr. destruct (Hl _ Hr) as [Hfd Hk]. assert (Hne : l <> []) by (intros ->; by apply elem_of_nil in Hr).
      specialize (Hp Hne). destruct (index_lists true w o ob k r l HI Ho) as (H2 & _ & _); eauto.
    + left. destruct HD as [x HD]; [done|]. destruct (assign_refs _ _ _ _); [eauto|done].
  - rewrite E'. cbn [mbind option_bind]. eauto 10.
Qed.
Lemma sorted_step_ok b w o ob k rev amt fs :
  Inv b w -> w_objs w !! o = Some ob ->
  let m := l ← sorted_records w o k rev amt; assign_refs w o l fs in
  Def b m -> exists w', m = Some w' /\ Inv b w' /\ ref_only w w' /\ (forall f, f ∉ fs -> w_refs w' !! f = w_refs w !! f).
Proof.
  intros HI Ho m HD. subst m.
  destruct (sorted_records_spec w o ob k rev amt) as (l & E & Hl & Hp); [done|..].
  { destruct (sorted_records w o k rev amt) as [x|] eqn:Eg; [eauto|]. right. intros td Hk. destruct b; [|by destruct (HD eq_refl)].
    destruct (decide (o_static_set ob = true /\ o_parent ob = None)) as [[E1 E2]|Hnn].
    - unfold sorted_records in Eg. rewrite Ho in Eg. cbn [mbind option_bind] in Eg. rewrite E1, E2 in Eg. done.
    - eapply (Inv_index true w o); [done|done| |done]. naive_solver. }
  rewrite E in *. cbn [mbind option_bind] in *.
  destruct (assign_refs_ok b o l fs w) as (w' & E' & HI' & Hro & H1 & _); [done|..].
  - intros r sb Hr Hsb Hsst Hlr. assert (sb = ob) as -> by congruence. destruct (Hl _ Hr) as [Hfd Hk].
    destruct (index_lists b w o ob k r l HI Ho) as (_ & H2 & _); [eauto|done|congruence|]. eapply (H2 o); [|done|done|done]. unfold source_vault. by rewrite Hsst.
  - destruct b.
    + right. intros r Hr. destruct (Hl _ Hr) as [Hfd Hk]. assert (Hne : l <> []) by (intros ->; by apply elem_of_nil in Hr).
      specialize (Hp Hne). destruct (index_lists true w o ob k r l HI Ho) as (H2 & _ & _); eauto.
    + left. by apply HD.
  - rewrite E'. eauto 10.
Qed.
