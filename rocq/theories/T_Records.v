(** Proofs of the properties about single records: C01, C02, C03, C05, C06, C07, C08. *)
From Verif Require Export T_Base.
Open Scope nat_scope.

(** C01: no two records of a vault hold equal values for a key listed by GetUniqueKeys(). *)
Lemma t_C01_unique_keys_stay_unique :
  forall b w o ob k r1 r2, reach b w -> vault_at w o ob -> k ∈ get_unique_keys ob ->
    r1 ∈ o_recs ob -> r2 ∈ o_recs ob -> r1 <> r2 ->
    exists v1 v2, stored w r1 k = Some v1 /\ stored w r2 k = Some v2 /\ v1 <> v2.
Proof.
  intros b w o ob k r1 r2 HR HV Hk H1 H2 Hne.
  destruct (filed_uniq b w HR o ob k r1 HV Hk H1) as (v1 & S1 & _). destruct (filed_uniq b w HR o ob k r2 HV Hk H2) as (v2 & S2 & _).
  exists v1, v2. split; [done|]. split; [done|]. intros ->. apply Hne. eapply (uniq_inj b w HR o ob k); [done..|congruence].
Qed.

(** ** CreateRecord *)
Lemma conflict_taken w ob data k : is_Some (data !! k) -> conflict w ob data k <-> taken w ob k (data !! k).
Proof.
  intros [v0 Hv0]. unfold conflict, taken. split.
  - intros (r & v & Hr & Hv & Hd). exists r. split; [done|]. by rewrite stored_val_of, Hv, Hd.
  - intros (r & Hr & Hs). exists r, v0. rewrite Hv0 in *. rewrite stored_val_of in Hs. done.
Qed.
Lemma overlay_some ob ps k : keys_ok ob -> Forall (param_ok ob) ps -> is_Some (o_keys ob !! k) <-> is_Some (overlay ps (o_tmpl ob) !! k).
Proof.
  intros HK HP. rewrite <- given_overlay. unfold given. pose proof (k_tmpl _ HK k) as Ht.
  assert (Htm : is_Some (o_keys ob !! k) <-> is_Some (o_tmpl ob !! k)).
  { destruct (o_tmpl ob !! k), (o_keys ob !! k); try done; split; intros [? ?]; eauto; done. }
  destruct (last (filter _ ps)) as [p|] eqn:E; [|done]. apply last_Some in E as (l' & E).
  assert (Hp : p ∈ filter (fun p : string * value => p.1 = k) ps). { rewrite E. apply elem_of_app. right. by left. }
  apply elem_of_list_filter in Hp as [<- Hp]. rewrite Forall_forall in HP. destruct (HP p Hp) as (td & -> & _). split; eauto.
Qed.
Lemma create_step b ord w o ob f ps w' out :
  reach b w -> vault_at w o ob -> step ord w (OCreateRecord o f ps) = Some (w', ORes out) ->
  create_outcome w o ob f ps w' out /\ (forall f0, f = Some f0 -> is_Some (w_refs w !! f0)).
Proof.
  intros HR [Ho Hs] H. cbn [step] in H. unfold guard_op in H.
  destruct (is_vault w o && match f with Some f0 => is_ref w f0 | None => true end) eqn:G; [|done].
  apply andb_true_iff in G as [_ G].
  assert (Hf : forall f0, f = Some f0 -> is_Some (w_refs w !! f0)). { intros f0 ->. apply is_ref_true in G as [rf Hrf]. eauto. }
  destruct (create_record_ok b w o ob f ps (reach_inv _ _ HR) Ho Hs Hf) as (w1 & res & E & _ & Hout). rewrite E in H. cbn in H. injection H as <- <-. done.
Qed.

(** C02: a failed CreateRecord changes neither records nor vaults, sets, indexes or references. *)
Lemma t_C02_failed_create_changes_nothing :
  forall b ord w o ob f ps w' res, reach b w -> vault_at w o ob ->
    step ord w (OCreateRecord o f ps) = Some (w', ORes res) -> res_ok res = false ->
    w_recs w' = w_recs w /\ w_objs w' = w_objs w /\ w_refs w' = w_refs w.
Proof.
  intros b ord w o ob f ps w' res HR HV H Hr. destruct (create_step _ _ _ _ _ _ _ _ _ HR HV H) as [[(p1 & p & p2 & _ & _ & _ & -> & _)|[(_ & k1 & k & k2 & td & _ & _ & _ & _ & -> & _)|(_ & _ & _ & Hok & _)]] _].
  - done.
  - done.
  - congruence.
Qed.
(** C02, C03: CreateRecord succeeds exactly when every parameter fits and no unique value is taken; otherwise it names the first
    parameter that does not fit, or the first unique key (in key order) whose value is taken. *)
Lemma t_C02_create_succeeds_iff :
  forall b ord w o ob f ps w' res, reach b w -> vault_at w o ob ->
    step ord w (OCreateRecord o f ps) = Some (w', ORes res) ->
    (res_ok res = true <-> Forall (fits ob) ps /\ forall k, k ∈ get_unique_keys ob -> ~ taken w ob k (given ob ps k)) /\
    (res_ok res = false ->
       (exists ps1 p ps2, ps = ps1 ++ p :: ps2 /\ Forall (fits ob) ps1 /\ ~ fits ob p /\
          res = match get_key_type ob p.1 with
                | None => bad WrongKey p.1 (Some (vty p.2)) None
                | Some t => bad WrongType p.1 (Some (vty p.2)) (Some t)
                end) \/
       (Forall (fits ob) ps /\ exists ks1 k ks2, get_unique_keys ob = ks1 ++ k :: ks2 /\ taken w ob k (given ob ps k) /\
          (forall k', k' ∈ ks1 -> ~ taken w ob k' (given ob ps k')) /\
          res = bad UniqueKeyValueAlredyInSet k (get_key_type ob k) None)).
Proof.
  intros b ord w o ob f ps w' res HR HV H.
  assert (Hfit : forall l, Forall (param_ok ob) l <-> Forall (fits ob) l).
  { intros l. rewrite !Forall_forall. split; intros HF p Hp; apply fits_param_ok || apply fits_param_ok; auto. }
  pose proof (vault_keys b w HR _ _ HV) as HK.
  assert (Hc : forall k, Forall (param_ok ob) ps -> k ∈ o_uniq ob -> conflict w ob (overlay ps (o_tmpl ob)) k <-> taken w ob k (given ob ps k)).
  { intros k HP Hk. rewrite given_overlay. apply conflict_taken. apply overlay_some; [done..|]. by apply (k_uniq _ HK). }
  destruct (create_step _ _ _ _ _ _ _ _ _ HR HV H) as [[(p1 & p & p2 & E & F1 & F2 & -> & ->)|[(F & k1 & k & k2 & td & E & Hk & N & C & -> & ->)|(F & N & _ & Hok & _)]] _].
  - split.
    + split.
      * unfold param_err. destruct (o_keys ob !! p.1); done.
      * intros [HF _]. exfalso. apply Hfit in HF. apply F2. rewrite Forall_forall in HF. apply HF. rewrite E. apply elem_of_app. right. by left.
    + intros _. left. exists p1, p, p2. split; [done|]. split; [by apply Hfit|]. split; [by rewrite fits_param_ok|].
      unfold param_err, get_key_type. by destruct (o_keys ob !! p.1) as [[t d]|].
  - assert (Hku : k ∈ o_uniq ob). { rewrite E. apply elem_of_app. right. by left. }
    split.
    + split; [done|]. intros [_ HN]. exfalso. by apply (HN k Hku), Hc.
    + intros _. right. split; [by apply Hfit|]. exists k1, k, k2. split; [done|]. split; [by apply Hc|]. split.
      * intros k' Hk' Ht. apply (N k' Hk'). apply Hc; [done| |done]. rewrite E. apply elem_of_app. by left.
      * unfold get_key_type. by rewrite Hk.
  - split; [|congruence]. split; [|done]. intros _. split; [by apply Hfit|]. intros k Hk Ht. by apply (N k Hk), Hc.
Qed.

Lemma filed_obj_add L ob r l k v x :
  vault_ok L ob -> r ∉ o_recs ob -> typed (o_keys ob) l -> (k ∈ o_uniq ob -> forall x v, x ∈ o_recs ob -> val_of L k x = Some v -> l !! k <> Some v) -> is_Some (o_keys ob !! k) ->
  (filed (obj_add l r ob) k v x <-> filed ob k v x \/ (x = r /\ l !! k = Some v)) /\
  (filed_ord (obj_add l r ob) k v x <-> filed_ord ob k v x \/ (x = r /\ l !! k = Some v)).
Proof.
  intros Hv Hr Ht Hu [td Hk]. destruct (v_idx _ _ Hv _ _ Hk) as (ix & Hix & (G & M & _) & _).
  destruct td as [t d]. destruct (get_typed_typed _ _ _ _ _ d Ht Hk) as (v0 & Hv0 & Hty & Eg).
  assert (Hix' : o_idx (obj_add l r ob) !! k = Some (idx_add v0 r ix).1). { rewrite lookup_obj_add, Hix. cbn. rewrite Hk. unfold adder. cbn. by rewrite Eg. }
  unfold filed, filed_ord. rewrite Hix', Hix.
  assert (Hm : forall e, (e ∈ ix_hash (idx_add v0 r ix).1 <-> e = (v0, r) \/ e ∈ ix_hash ix) /\ (e ∈ ix_tree (idx_add v0 r ix).1 <-> e = (v0, r) \/ e ∈ ix_tree ix)).
  { intros e. unfold idx_add, hash_emplace, tree_emplace. destruct (ix_multi ix) eqn:Em.
    - cbn. rewrite elem_of_app, elem_of_list_singleton, tree_insert_elem. tauto.
    - specialize (M eq_refl).
      assert (has_value v0 (ix_hash ix) = false) as ->.
      { apply not_true_iff_false. intros Hh. apply has_value_spec in Hh as [y Hy]. apply (g_hash _ _ _ G) in Hy as [Hy1 Hy2]. by eapply (Hu M y v0). }
      assert (has_value v0 (ix_tree ix) = false) as ->.
      { apply not_true_iff_false. intros Hh. apply has_value_spec in Hh as [y Hy]. apply (g_tree _ _ _ G) in Hy as [Hy1 Hy2]. by eapply (Hu M y v0). }
      cbn. rewrite elem_of_app, elem_of_list_singleton, tree_insert_elem. tauto. }
  split; split.
  - intros (ix1 & [= <-] & Hin). apply Hm in Hin as [[= -> ->]|Hin]; [by right|left; by eauto].
  - intros [(ix1 & [= <-] & Hin)|[-> Hl]]; (eexists; split; [done|]; apply Hm); [by right|left; congruence].
  - intros (ix1 & [= <-] & Hin). apply Hm in Hin as [[= -> ->]|Hin]; [by right|left; by eauto].
  - intros [(ix1 & [= <-] & Hin)|[-> Hl]]; (eexists; split; [done|]; apply Hm); [by right|left; congruence].
Qed.

(** C03: a successful CreateRecord adds exactly one record, holding the given values, filed under all its keys. *)
Lemma t_C03_create_stores_exactly :
  forall b ord w o ob f ps w' res, reach b w -> vault_at w o ob ->
    step ord w (OCreateRecord o f ps) = Some (w', ORes res) -> res_ok res = true ->
    exists r ob', w_recs w !! r = None /\ (forall o' ob', w_objs w !! o' = Some ob' -> r ∉ o_recs ob') /\
      vault_at w' o ob' /\ o_recs ob' = {[r]} ∪ o_recs ob /\
      (forall k, stored w' r k = given ob ps k) /\
      (forall x k, x <> r -> stored w' x k = stored w x k) /\
      get_keys ob' = get_keys ob /\ get_unique_keys ob' = get_unique_keys ob /\ o_keys ob' = o_keys ob /\ o_tmpl ob' = o_tmpl ob /\ o_sets ob' = o_sets ob /\
      (forall k v x, is_Some (get_key_type ob k) ->
         (filed ob' k v x <-> filed ob k v x \/ (x = r /\ given ob ps k = Some v)) /\
         (filed_ord ob' k v x <-> filed_ord ob k v x \/ (x = r /\ given ob ps k = Some v))) /\
      (forall x, x <> o -> w_objs w' !! x = w_objs w !! x) /\
      match f with
      | Some f => w_refs w' = <[f := Ref (Some r) (Some o)]> (w_refs w)
      | None => w_refs w' = w_refs w
      end.
Proof.
  intros b ord w o ob f ps w' res HR HV H Hok. pose proof (reach_inv _ _ HR) as HI. pose proof HV as [Ho Hs].
  destruct (create_step _ _ _ _ _ _ _ _ _ HR HV H) as [[(p1 & p & p2 & E & F1 & F2 & -> & ->)|[(F & k1 & k & k2 & td & E & Hk & N & C & -> & ->)|(F & N & Hw & _)]] _].
  { unfold param_err in Hok. by destruct (o_keys ob !! p.1). }
  { done. }
  set (data := overlay ps (o_tmpl ob)) in *. set (w1 := created o ob data w) in *.
  assert (Hfresh : w_recs w !! w_next w = None).
  { apply eq_None_not_Some. intros Hx. apply (inv_heap _ _ HI) in Hx. lia. }
  assert (Hlt : forall o' ob', w_objs w !! o' = Some ob' -> w_next w ∉ o_recs ob').
  { intros o' ob' Ho' Hin. destruct (o_static_set ob') eqn:Es.
    - pose proof (so_brecs _ _ _ _ _ _ (vi_set _ _ _ _ (inv_obj _ _ HI) _ _ Ho' Es) _ Hin). lia.
    - assert (is_Some (live w !! w_next w)) as [l Hl] by (by eapply (Inv_vault_live b w o' ob')).
      apply live_Some in Hl as (rc & Hrc & _). congruence. }
  assert (Hlive : forall x, live w' !! x = live w1 !! x).
  { intros x. destruct f; [|by rewrite Hw]. destruct Hw as [Hro _]. by rewrite (ro_live _ _ Hro). }
  assert (Hobjs : w_objs w' = w_objs w1).
  { destruct f; [|by rewrite Hw]. destruct Hw as [Hro _]. by rewrite (ro_objs _ _ Hro). }
  exists (w_next w), (obj_add data (w_next w) ob). split; [done|]. split; [done|].
  split. { split; [rewrite Hobjs; cbn; by rewrite lookup_insert|done]. }
  split; [done|]. split.
  { intros k. rewrite stored_val_of, given_overlay. unfold val_of. rewrite Hlive. unfold w1. rewrite live_created. rewrite decide_True by done. done. }
  split.
  { intros x k Hx. rewrite !stored_val_of. unfold val_of. rewrite Hlive. unfold w1. rewrite live_created. rewrite decide_False by done. done. }
  split; [done|]. split; [done|]. split; [done|]. split; [done|]. split; [done|]. split.
  { intros k v x Hk. assert (is_Some (o_keys ob !! k)). { unfold get_key_type in Hk. by apply fmap_is_Some in Hk. }
    rewrite given_overlay. fold data. apply (filed_obj_add (live w)); [by eapply (vault_vok b w HR)|by eapply Hlt| | |done].
    - unfold data. apply typed_overlay; [by apply (k_tmpl _ (vault_keys b w HR _ _ HV))|done].
    - intros Hu y u Hy Hval Hdat. apply (N k Hu). exists y, u. done. }
  split. { intros x Hx. rewrite Hobjs. cbn. by rewrite lookup_insert_ne. }
  destruct f; [by destruct Hw|by rewrite Hw].
Qed.
