(** Lemmas for C27: exactly what copying a vault produces. *)
From Verif Require Export T_Idx.
Open Scope nat_scope.

Definition all_multi (ob : obj) : Prop := forall k td, o_keys ob !! k = Some td -> exists ix, o_idx ob !! k = Some ix /\ ix_multi ix = true.
Lemma filed_obj_add_multi ob r l k v x :
  all_multi ob -> typed (o_keys ob) l -> is_Some (o_keys ob !! k) ->
  (filed (obj_add l r ob) k v x <-> filed ob k v x \/ (x = r /\ l !! k = Some v)) /\
  (filed_ord (obj_add l r ob) k v x <-> filed_ord ob k v x \/ (x = r /\ l !! k = Some v)).
Proof.
  intros Hm Ht [td Hk]. destruct (Hm _ _ Hk) as (ix & Hix & Em). destruct td as [t d]. destruct (get_typed_typed _ _ _ _ _ d Ht Hk) as (v0 & Hv0 & Hty & Eg).
  assert (Hix' : o_idx (obj_add l r ob) !! k = Some (idx_add v0 r ix).1). { rewrite lookup_obj_add, Hix. cbn. rewrite Hk. unfold adder. cbn. by rewrite Eg. }
  unfold filed, filed_ord. rewrite Hix', Hix.
  assert (HM : forall e, (e ∈ ix_hash (idx_add v0 r ix).1 <-> e = (v0, r) \/ e ∈ ix_hash ix) /\ (e ∈ ix_tree (idx_add v0 r ix).1 <-> e = (v0, r) \/ e ∈ ix_tree ix)).
  { intros e. unfold idx_add, hash_emplace, tree_emplace. rewrite Em. cbn. rewrite elem_of_app, elem_of_list_singleton, tree_insert_elem. tauto. }
  split; split.
  - intros (ix1 & [= <-] & Hin). apply HM in Hin as [[= -> ->]|Hin]; [by right|left; by eauto].
  - intros [(ix1 & [= <-] & Hin)|[-> Hl]]; (eexists; split; [done|]; apply HM); [by right|left; congruence].
  - intros (ix1 & [= <-] & Hin). apply HM in Hin as [[= -> ->]|Hin]; [by right|left; by eauto].
  - intros [(ix1 & [= <-] & Hin)|[-> Hl]]; (eexists; split; [done|]; apply HM); [by right|left; congruence].
Qed.
Lemma all_multi_add ob r l : all_multi ob -> all_multi (obj_add l r ob).
Proof.
  intros Hm k td Hk. change (o_keys ob !! k = Some td) in Hk. destruct (Hm _ _ Hk) as (ix & Hix & Em). rewrite lookup_obj_add, Hix. cbn. rewrite Hk. eexists. split; [done|].
  unfold adder, idx_add, hash_emplace. rewrite Em. cbn. done.
Qed.
Lemma copy_loop_obj dst rs : forall w db w',
  w_objs w !! dst = Some db -> all_multi db -> (forall x, is_Some (w_recs w !! x) -> x < w_next w) ->
  (forall r, r ∈ rs -> exists rc, w_recs w !! r = Some rc /\ typed (o_keys db) (r_data rc)) ->
  foldM (copy_one dst) w rs = Some w' ->
  exists db', w_objs w' !! dst = Some db' /\ db' = ob_idx (o_idx db') (ob_recs (o_recs db') db) /\
    forall k v x, is_Some (o_keys db !! k) ->
      (filed db' k v x <-> filed db k v x \/ exists i r rc, rs !! i = Some r /\ w_recs w !! r = Some rc /\ x = w_next w + i /\ r_data rc !! k = Some v) /\
      (filed_ord db' k v x <-> filed_ord db k v x \/ exists i r rc, rs !! i = Some r /\ w_recs w !! r = Some rc /\ x = w_next w + i /\ r_data rc !! k = Some v).
Proof.
  induction rs as [|r rs IH]; intros w db w' Hd Hm Hb Hr H; cbn [foldM] in H.
  - injection H as <-. exists db. split; [done|]. split; [by destruct db|]. intros k v x _.
    split; (split; [by left|]; intros [?|(i & r & rc & E & _)]; [done|]; by rewrite lookup_nil in E).
  - destruct (Hr r) as (rc & Hrc & Ht); [by left|]. rewrite (copy_one_eq _ _ _ _ _ Hrc Hd) in H. cbn [mbind option_bind] in H.
    destruct (IH (created dst db (r_data rc) w) (obj_add (r_data rc) (w_next w) db) w') as (db' & D1 & D2 & D3); [cbn; by rewrite lookup_insert|by apply all_multi_add| | |exact H|].
    + intros x Hx. cbn in Hx |- *. apply lookup_insert_is_Some' in Hx as [<-|Hx]; [lia|]. apply Hb in Hx. lia.
    + intros x Hx. destruct (Hr x) as (rx & Hrx & Htx); [by right|]. exists rx. split; [|done]. cbn. rewrite lookup_insert_ne; [done|].
      intros <-. apply mk_is_Some in Hrx. apply Hb in Hrx. lia.
    + exists db'. split; [done|]. split; [rewrite D2 at 1; done|]. intros k v x Hk. destruct (D3 k v x Hk) as [F1 F2].
      destruct (filed_obj_add_multi db (w_next w) (r_data rc) k v x Hm Ht Hk) as [G1 G2].
      assert (HE : ((x = w_next w /\ r_data rc !! k = Some v) \/
          (exists i y ry, rs !! i = Some y /\ w_recs (created dst db (r_data rc) w) !! y = Some ry /\ x = w_next (created dst db (r_data rc) w) + i /\ r_data ry !! k = Some v)) <->
          (exists i y ry, (r :: rs) !! i = Some y /\ w_recs w !! y = Some ry /\ x = w_next w + i /\ r_data ry !! k = Some v)).
      { split.
        - intros [[-> Hv]|(i & y & ry & E1 & E2 & -> & Hv)].
          + exists 0, r, rc. split; [done|]. split; [done|]. split; [lia|done].
          + exists (S i), y, ry. split; [done|]. split; [|split; [cbn; lia|done]]. cbn in E2. rewrite lookup_insert_ne in E2; [done|].
            intros <-. destruct (Hr (w_next w)) as (ry' & Hry & _); [right; by eapply elem_of_list_lookup_2|]. apply mk_is_Some in Hry. apply Hb in Hry. lia.
        - intros (i & y & ry & E1 & E2 & -> & Hv). destruct i as [|i].
          + left. cbn in E1. injection E1 as ->. rewrite Hrc in E2. injection E2 as ->. split; [lia|done].
          + right. exists i, y, ry. split; [done|]. split; [|split; [cbn; lia|done]]. cbn. rewrite lookup_insert_ne; [done|].
            intros <-. apply mk_is_Some in E2. apply Hb in E2. lia. }
      split; [rewrite F1, G1, <- HE|rewrite F2, G2, <- HE]; (split; [intros [[?|?]|?]; auto|intros [?|[?|?]]; auto]).
Qed.

(** The common part of copy construction and copy assignment, from the world [w1] in which the target is empty. *)
Lemma copy_facts b ord w1 dst src sb db w' :
  fair ord -> Inv b w1 -> w_objs w1 !! src = Some sb -> o_static_set sb = false -> o_recs db = ∅ -> o_sets db = ∅ -> o_static_set db = false ->
  foldM (copy_one dst) (set_obj dst (copy_target sb db) w1) (ord (elements (o_recs sb))) = Some w' ->
  copied dst (ord (elements (o_recs sb))) (set_obj dst (copy_target sb db) w1) w' ->
  exists db', vault_at w' dst db' /\ equal_keys sb db' /\ (forall k, o_tmpl db' !! k = snd <$> o_keys sb !! k) /\ o_sets db' = ∅ /\
    copied_records w1 w' (o_recs sb) (o_recs db') /\ indexed w' db'.
Proof.
  intros Hf HI Hs Hst Hdr Hds Hdst H Hc. set (rs := ord (elements (o_recs sb))) in *. set (w2 := set_obj dst (copy_target sb db) w1) in *.
  pose proof (vi_vault _ _ _ _ (inv_obj _ _ HI) _ _ Hs Hst) as Hvs.
  assert (Hty : forall k t d, o_keys sb !! k = Some (t, d) -> vty d = t). { intros k t d Hk. by apply (k_type _ (v_keys _ _ Hvs) _ _ _ Hk). }
  assert (Hlive : forall r, r ∈ rs -> exists rc, w_recs w1 !! r = Some rc /\ r_valid rc = true /\ typed (o_keys (copy_target sb db)) (r_data rc)).
  { intros r Hr. apply fair_elem in Hr; [|done]. apply elem_of_elements in Hr. destruct (v_recs _ _ Hvs _ Hr) as (l & Hl & Ht). unfold live in Hl. rewrite lookup_live_of in Hl.
    destruct (w_recs w1 !! r) as [rc|]; [|done]. exists rc. split; [done|]. cbn in Hl. unfold live_rec in Hl. destruct (r_valid rc); [|done]. injection Hl as <-.
    split; [done|]. cbn. apply typed_map; done. }
  assert (Hd2 : w_objs w2 !! dst = Some (copy_target sb db)) by (cbn; by rewrite lookup_insert).
  assert (Hb2 : forall x, is_Some (w_recs w2 !! x) -> x < w_next w2) by apply HI.
  destruct (copy_loop_obj dst rs w2 (copy_target sb db) w' Hd2) as (db' & D1 & D2 & D3); [| done| |exact H|].
  { intros k td. cbn. rewrite !lookup_fmap. destruct (o_keys sb !! k) as [td0|]; [|done]. intros _. by eexists. }
  { intros r Hr. destruct (Hlive r Hr) as (rc & E & _ & Ht). by exists rc. }
  destruct (cp_dst _ _ _ _ Hc _ Hd2) as (db1 & Hdb1 & _ & _ & Hrecs). assert (db1 = db') as -> by congruence. clear Hdb1.
  assert (Hin : forall x, x ∈ o_recs db' <-> exists i r, rs !! i = Some r /\ x = w_next w1 + i).
  { intros x. rewrite Hrecs. change (o_recs (copy_target sb db)) with (o_recs db). rewrite Hdr. change (w_next w2) with (w_next w1). split.
    - intros [Hx|Hx]; [by apply not_elem_of_empty in Hx|]. destruct (lookup_lt_is_Some_2 rs (x - w_next w1)) as [r Hr]; [lia|]. exists (x - w_next w1), r. split; [done|lia].
    - intros (i & r & E & ->). right. apply lookup_lt_Some in E. lia. }
  assert (Hnew : forall i r rc, rs !! i = Some r -> w_recs w1 !! r = Some rc -> w_recs w' !! (w_next w1 + i) = Some (Recd (r_data rc) true 0 ∅)).
  { intros i r rc E Hrc. destruct (cp_new _ _ _ _ Hc _ _ E) as (rc' & E1 & E2). change (w_recs w1 !! r = Some rc') in E1. by assert (rc' = rc) as -> by congruence. }
  exists db'. split; [|split; [|split; [|split; [|split]]]].
  - split; [done|]. by rewrite D2.
  - rewrite D2. split; [done|]. split; [done|]. intros k. unfold get_key_type. cbn. rewrite lookup_fmap. destruct (o_keys sb !! k) as [[t d]|] eqn:Ek; [|done]. cbn. by rewrite (Hty _ _ _ Ek).
  - intros k. rewrite D2. cbn. by rewrite lookup_fmap.
  - rewrite D2. done.
  - exists (zip rs (seq (w_next w1) (length rs))). split; [|split].
    + rewrite fst_zip by (rewrite seq_length; lia). apply Hf.
    + rewrite snd_zip by (rewrite seq_length; lia). apply NoDup_Permutation; [apply NoDup_seq|apply NoDup_elements|]. intros x. rewrite elem_of_elements, Hin. rewrite elem_of_seq. split.
      * intros Hx. destruct (lookup_lt_is_Some_2 rs (x - w_next w1)) as [r Hr]; [lia|]. exists (x - w_next w1), r. split; [done|lia].
      * intros (i & r & E & ->). apply lookup_lt_Some in E. lia.
    + intros r r' Hp. apply elem_of_list_lookup in Hp as [i Hi]. apply lookup_zip_with_Some in Hi as (r1 & r1' & [= <- <-] & E1 & E2).
      apply lookup_seq in E2 as [-> _]. destruct (Hlive r) as (rc & Hrc & Hval & _); [by eapply elem_of_list_lookup_2|]. pose proof (Hnew _ _ _ E1 Hrc) as En. split; [|split].
      * destruct (w_recs w1 !! (w_next w1 + i)) as [x|] eqn:Ex; [|done]. apply mk_is_Some in Ex. apply (Hb2 (w_next w1 + i)) in Ex. change (w_next w2) with (w_next w1) in Ex. lia.
      * eexists. split; [exact En|done].
      * intros k. unfold stored. rewrite En, Hrc. cbn. by rewrite Hval.
  - intros k [t Hk] v x. assert (Hk' : is_Some (o_keys (copy_target sb db) !! k)). { rewrite D2 in Hk. unfold get_key_type in Hk. destruct (o_keys _ !! k) eqn:E in Hk; [|done]. cbn in E |- *. by rewrite E. }
    destruct (D3 k v x Hk') as [F1 F2].
    assert (HN : (~ filed (copy_target sb db) k v x) /\ ~ filed_ord (copy_target sb db) k v x).
    { split; (intros (ix & E1 & E2); cbn in E1; rewrite lookup_fmap in E1; destruct (o_keys sb !! k); [|done]; injection E1 as <-; by apply elem_of_nil in E2). }
    assert (HE : (exists i r rc, rs !! i = Some r /\ w_recs w2 !! r = Some rc /\ x = w_next w2 + i /\ r_data rc !! k = Some v) <-> x ∈ o_recs db' /\ stored w' x k = Some v).
    { rewrite Hin. split.
      - intros (i & r & rc & E1 & E2 & -> & Hv). split; [by exists i, r|]. change (w_next w2) with (w_next w1). unfold stored. rewrite (Hnew i r rc E1 E2). done.
      - intros [(i & r & E & ->) Hsv]. destruct (Hlive r) as (rc & Hrc & _); [by eapply elem_of_list_lookup_2|]. exists i, r, rc. split; [done|]. split; [done|]. split; [done|].
        unfold stored in Hsv. rewrite (Hnew _ _ _ E Hrc) in Hsv. done. }
    rewrite F1, F2, HE. tauto.
Qed.

(** C27: copying a vault gives a new vault with the same keys and copies of its records, found by all queries; nothing else changes. *)
Lemma t_C27_copy_exact :
  forall b ord w dst src sb w' out, fair ord -> reach b w -> vault_at w src sb -> w_objs w !! dst = None -> unmentioned w dst -> step ord w (OCopyVault dst src) = Some (w', out) ->
    out = OUnit /\ w_refs w' = w_refs w /\ (forall o, o <> dst -> w_objs w' !! o = w_objs w !! o) /\ (forall r, is_Some (w_recs w !! r) -> w_recs w' !! r = w_recs w !! r) /\
    exists db, vault_at w' dst db /\ equal_keys sb db /\ (forall k, o_tmpl db !! k = snd <$> o_keys sb !! k) /\ o_sets db = ∅ /\
      copied_records w w' (o_recs sb) (o_recs db) /\ indexed w' db.
Proof.
  intros b ord w dst src sb w' out Hf HR [Hs Hst] Hd Hun H. pose proof (reach_inv _ _ HR) as HI. cbn [step] in H.
  apply guard_inv in H as [(Hg & _)|[_ H]].
  { unfold is_vault, is_obj in Hg. rewrite Hs, Hst, Hd in Hg. done. }
  apply unit_inv in H as [H ->].
  destruct (copy_construct_vault_ok b ord w dst src sb) as (w1 & E & Hc & _); try done; [by apply unmentioned_unused; auto|]. assert (w1 = w') as -> by congruence.
  split; [done|]. split; [by rewrite (cp_refs _ _ _ _ Hc)|]. split; [|split].
  - intros o Ho. rewrite (cp_objs _ _ _ _ Hc) by done. cbn. by rewrite lookup_insert_ne.
  - intros r Hr. apply (cp_old _ _ _ _ Hc). by apply HI.
  - apply (copy_facts b ord w dst src sb new_vault w'); try done. rewrite <- H. unfold copy_construct_vault.
    rewrite (copy_body_eq ord _ dst src sb new_vault); try done.
    + unfold set_obj. cbn. by rewrite insert_insert.
    + cbn. rewrite lookup_insert_ne; [done|congruence].
    + cbn. by rewrite lookup_insert.
Qed.

(** C27: assigning a vault to another ends the contents of the target and gives it the keys and copies of the records of the source. *)
Lemma t_C27_assign_exact :
  forall b ord w dst src sb db w' out, fair ord -> reach b w -> vault_at w src sb -> vault_at w dst db -> dst <> src -> step ord w (OAssignVault dst src) = Some (w', out) ->
    out = OUnit /\ w_refs w' = w_refs w /\ (forall r, r ∈ o_recs db -> ~ valid_rec w' r) /\
    (forall o ob, vault_at w o ob -> o <> dst -> vault_same w w' o ob) /\
    exists db', vault_at w' dst db' /\ equal_keys sb db' /\ (forall k, o_tmpl db' !! k = snd <$> o_keys sb !! k) /\ o_sets db' = ∅ /\
      copied_records w w' (o_recs sb) (o_recs db') /\ indexed w' db'.
Proof.
  intros b ord w dst src sb db w' out Hf HR [Hs Hst] [Hd Hdst] Hne H. pose proof (reach_inv _ _ HR) as HI. cbn [step] in H.
  apply guard_inv in H as [(Hg & _)|[_ H]].
  { unfold is_vault in Hg. rewrite Hs, Hst, Hd, Hdst in Hg. done. }
  apply unit_inv in H as [H ->].
  destruct (copy_assign_vault_ok b ord w dst src sb db) as (w1 & w2 & E & E1 & Hdrop & HI1 & Hc & _); try done; [by eapply Some_Def|]. assert (w2 = w') as -> by congruence.
  assert (Hlv : forall r, r ∉ o_recs db -> is_Some (w_recs w !! r) -> forall k, stored w' r k = stored w r k /\ (valid_rec w r -> valid_rec w' r)).
  { intros r Hr Hrs. assert (E0 : w_recs w' !! r = w_recs w1 !! r). { apply (cp_old _ _ _ _ Hc). change (r < w_next w1). rewrite (dr_next _ _ _ Hdrop). by apply HI. }
    pose proof (dr_live _ _ _ Hdrop r) as L. rewrite decide_False in L; [|intros (ob & ? & ?); congruence].
    intros k. split.
    - transitivity (stored w1 r k); [unfold stored; by rewrite E0|]. rewrite !stored_val_of. unfold val_of. destruct (live w1 !! r) as [[]|]; destruct (live w !! r) as [[]|]; cbn in L |- *; congruence.
    - intros Hv. assert (Hv1 : valid_rec w1 r). { apply valid_rec_live. apply valid_rec_live in Hv as [x Hx]. rewrite Hx in L. destruct (live w1 !! r); [eauto|done]. }
      unfold valid_rec. rewrite E0. exact Hv1. }
  split; [done|]. split; [by rewrite (cp_refs _ _ _ _ Hc), <- (dr_refs _ _ _ Hdrop)|]. split; [|split].
  - intros r Hr Hv. assert (Hrs : is_Some (w_recs w !! r)). { destruct (vault_valid b w HR _ _ _ (conj Hd Hdst) Hr) as (rc & Hrc & _). eauto. }
    assert (E0 : w_recs w' !! r = w_recs w1 !! r). { apply (cp_old _ _ _ _ Hc). change (r < w_next w1). rewrite (dr_next _ _ _ Hdrop). by apply HI. }
    unfold valid_rec in Hv. rewrite E0 in Hv. apply valid_rec_live in Hv as [x Hx]. pose proof (dr_live _ _ _ Hdrop r) as L. rewrite decide_True in L by eauto. by rewrite Hx in L.
  - intros o ob [Ho Hos] Hod. exists ob. split; [split; [|done]|].
    + rewrite (cp_objs _ _ _ _ Hc) by done. cbn. rewrite lookup_insert_ne by done. rewrite (dr_objs _ _ _ Hdrop); [done|done|]. intros (s1 & S1 & S2 & _). congruence.
    + split; [by destruct ob|]. intros r Hr. pose proof (vault_valid b w HR _ _ _ (conj Ho Hos) Hr) as Hv.
      assert (Hrd : r ∉ o_recs db). { intros Hrd. apply Hod. eapply (vi_disj _ _ _ _ (inv_obj _ _ HI)); [exact Ho|exact Hos|exact Hd|exact Hdst|exact Hr|exact Hrd]. }
      assert (Hrs : is_Some (w_recs w !! r)). { destruct Hv as (rc & Hrc & _). eauto. } split; [by apply (Hlv r Hrd Hrs ""%string)|]. intros k. by apply Hlv.
  - pose proof (dr_o _ _ _ Hdrop _ Hd) as Hd1. rewrite Hdst in Hd1.
    assert (Hs1 : w_objs w1 !! src = Some sb). { rewrite (dr_objs _ _ _ Hdrop src); [done|congruence|]. intros (? & ? & ? & _). congruence. }
    set (db1 := Obj false (o_isset db) ∅ ∅ ∅ [] [] ∅ ∅ (o_parent db) []) in *.
    destruct (copy_facts b ord w1 dst src sb db1 w') as (db' & F1 & F2 & F3 & F4 & (rs & R1 & R2 & R3) & F6); try done.
    { rewrite <- H. unfold copy_assign_vault. rewrite decide_False by done. rewrite E1. cbn [mbind option_bind]. symmetry. apply (copy_body_eq ord w1 dst src sb db1); done. }
    exists db'. do 4 (split; [done|]). split; [|done]. exists rs. split; [done|]. split; [done|]. intros r r' Hp. destruct (R3 _ _ Hp) as (P1 & P2 & P3).
    assert (Hr : r ∈ o_recs sb). { apply elem_of_elements. rewrite <- R1. by apply (elem_of_list_fmap_1 fst _ _ Hp). }
    assert (Hrd : r ∉ o_recs db). { intros Hrd. apply Hne. symmetry. eapply (vi_disj _ _ _ _ (inv_obj _ _ HI)); [exact Hs|exact Hst|exact Hd|exact Hdst|exact Hr|exact Hrd]. }
    split; [|split; [done|]].
    + destruct (w_recs w !! r') as [x|] eqn:Ex; [|done]. exfalso. 
      assert (r' ∈ o_recs db') as Hr'. { apply elem_of_elements. rewrite <- R2. by apply (elem_of_list_fmap_1 snd _ _ Hp). }
      assert (L1 : r' < w_next w1). { rewrite (dr_next _ _ _ Hdrop). apply HI. eauto. }
      destruct (cp_dst _ _ _ _ Hc (copy_target sb db1)) as (db2 & D1 & _ & _ & D4). { cbn. by rewrite lookup_insert. }
      destruct F1 as [F1 _]. assert (db2 = db') as -> by congruence. apply D4 in Hr' as [Hr'|Hr']; [by apply not_elem_of_empty in Hr'|]. cbn in Hr'. lia.
    + intros k. rewrite P3. pose proof (dr_live _ _ _ Hdrop r) as L. rewrite decide_False in L; [|intros (ob & ? & ?); congruence].
      rewrite !stored_val_of. unfold val_of. destruct (live w1 !! r) as [[]|]; destruct (live w !! r) as [[]|]; cbn in L |- *; congruence.
Qed.
