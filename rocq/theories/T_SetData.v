(** Proofs of the properties about SetData and GetData: C05, C07, C08, C21. *)
From Verif Require Export T_Records.
Open Scope nat_scope.

Lemma idx_set_mem recs val ix old v r : good recs val ix -> ix_multi ix = true -> val r = Some old -> forall e,
  (e ∈ ix_hash (idx_set old v r ix) <-> e = (v, r) \/ (e ∈ ix_hash ix /\ (e.1, r) ∉ ix_hash ix)) /\
  (e ∈ ix_tree (idx_set old v r ix) <-> e = (v, r) \/ (e ∈ ix_tree ix /\ (e.1, r) ∉ ix_tree ix)).
Proof.
  intros G Hm Hv e. unfold idx_set. rewrite Hm. cbn [ix_hash ix_tree]. unfold tree_emplace. rewrite multi_emplace, tree_insert_elem. split.
  - destruct (decide ((old, r) ∈ ix_hash ix)) as [Hi|Hi].
    + rewrite elem_erase_value. split; (intros [?|[H1 H2]]; [by left|right]).
      * split; [done|]. intros H3. apply (g_hash _ _ _ G) in H3 as [_ H3]. congruence.
      * split; [|done]. intros E. apply H2. by rewrite E.
    + split; (intros [?|H1]; [by left|right]); [|tauto]. split; [done|]. intros H3. pose proof (g_hash _ _ _ G _ _ H3) as [_ H4]. assert (e.1 = old) by congruence. congruence.
  - destruct (decide ((old, r) ∈ ix_tree ix)) as [Hi|Hi].
    + rewrite elem_erase_value. split; (intros [?|[H1 H2]]; [by left|right]).
      * split; [done|]. intros H3. apply (g_tree _ _ _ G) in H3 as [_ H3]. congruence.
      * split; [|done]. intros E. apply H2. by rewrite E.
    + split; (intros [?|H1]; [by left|right]); [|tauto]. split; [done|]. intros H3. pose proof (g_tree _ _ _ G _ _ H3) as [_ H4]. assert (e.1 = old) by congruence. congruence.
Qed.

(** How one object's indexes change when record [r] gets [v] under [k]. *)
Definition refiled (ob ob' : obj) (r : nat) (k : string) (v : value) : Prop :=
  ob' = ob_idx (o_idx ob') ob /\
  forall k' v' x,
    (filed ob' k' v' x <-> if decide (k' = k) then (v' = v /\ x = r) \/ (filed ob k v' x /\ ~ filed ob k v' r) else filed ob k' v' x) /\
    (filed_ord ob' k' v' x <-> if decide (k' = k) then (v' = v /\ x = r) \/ (filed_ord ob k v' x /\ ~ filed_ord ob k v' r) else filed_ord ob k' v' x).

Lemma refiled_set_obj_data L recs ob r k v d ix data :
  o_keys ob !! k = Some (vty v, d) -> o_idx ob !! k = Some ix -> good recs (val_of L k) ix -> ix_multi ix = true ->
  val_of L k r = Some (get_typed data k (vty v) (vzero (vty v))) -> refiled ob (set_obj_data data r k v ob) r k v.
Proof.
  intros Hk Hix G Hm Hv. split; [apply set_obj_data_shape|].
  assert (E : set_obj_data data r k v ob = ob_idx (<[k := idx_set (get_typed data k (vty v) (vzero (vty v))) v r ix]> (o_idx ob)) ob).
  { unfold set_obj_data. rewrite Hk, Hix. rewrite decide_True by done. by rewrite Hm. }
  intros k' v' x. rewrite E. unfold filed, filed_ord. cbn [o_idx ob_idx]. destruct (decide (k' = k)) as [->|Hne].
  - rewrite lookup_insert, Hix. destruct (idx_set_mem _ _ _ _ v r G Hm Hv (v', x)) as [M1 M2]. split; split.
    + intros (ix' & [= <-] & Hin). apply M1 in Hin as [[= -> ->]|[H1 H2]]; [by left|right]. split; [by eauto|]. intros (ix' & [= <-] & H3). by apply H2.
    + intros [[-> ->]|[(ix' & [= <-] & H1) H2]]; (eexists; split; [done|]; apply M1); [by left|right]. split; [done|]. intros H3. apply H2. eauto.
    + intros (ix' & [= <-] & Hin). apply M2 in Hin as [[= -> ->]|[H1 H2]]; [by left|right]. split; [by eauto|]. intros (ix' & [= <-] & H3). by apply H2.
    + intros [[-> ->]|[(ix' & [= <-] & H1) H2]]; (eexists; split; [done|]; apply M2); [by left|right]. split; [done|]. intros H3. apply H2. eauto.
  - by rewrite lookup_insert_ne.
Qed.

(** The answer SetData gives for a valid record of vault [ob]. *)
Lemma set_data_answer_ok ob k v : res_ok (set_data_answer ob k v) = true <-> get_key_type ob k = Some (vty v) /\ k ∉ get_unique_keys ob.
Proof.
  unfold set_data_answer, get_key_type, get_unique_keys. destruct (o_keys ob !! k) as [[t d]|]; cbn; [|split; [done|by intros [? _]]].
  destruct (decide (t = vty v)) as [->|Hne]; [|split; [done|intros [[= ?] _]; done]]. destruct (decide (k ∈ o_uniq ob)); cbn; split; try done. by intros [_ ?].
Qed.

Lemma set_data_step b ord w f r o ob k v w' res :
  fair ord -> reach b w -> allowed b w (OSetData f k v) -> denotes w f r -> bound_to w f o -> vault_at w o ob ->
  step ord w (OSetData f k v) = Some (w', ORes res) ->
  (valid_rec w r -> r ∈ o_recs ob /\ res = set_data_answer ob k v) /\
  (~ valid_rec w r -> res = bad DataRecordNotValid k (Some (vty v)) None) /\
  (res_ok res = false -> w' = w) /\
  (res_ok res = true -> exists rc, w_recs w !! r = Some rc /\ r_valid rc = true /\ w' = data_set r k v o rc w).
Proof.
  intros Hf HR HA (rf & Hrf & Hr) (rf' & Hrf' & Ho') HV H. assert (rf' = rf) as -> by congruence. pose proof (reach_inv _ _ HR) as HI. pose proof HV as [Ho Hs].
  cbn [step] in H. unfold guard_op, is_ref in H. rewrite bool_decide_true in H by eauto.
  destruct (ref_set_data_ok b ord w f rf k v Hf HI Hrf (HA _ Hrf)) as (w1 & res1 & E & _ & Hout).
  { intros _. destruct (ref_set_data ord w f k v) as [[]|]; [eauto|done]. }
  rewrite E in H. cbn in H. injection H as <- <-.
  assert (Hin : valid_rec w r -> r ∈ o_recs ob).
  { intros Hv. apply valid_rec_live in Hv. destruct (inv_vlt _ _ HI f rf r Hrf Hr) as (o2 & Ho2 & Hb). assert (o2 = o) as -> by congruence. by apply (Hb ob). }
  destruct Hout as [(-> & Hok & H1 & H2)|(r2 & o2 & ob2 & rc & Hr2 & Ho2 & Hob2 & Hs2 & Hin2 & Hrc & -> & Hok & ->)].
  - split; [|split; [|split; [done|congruence]]].
    + intros Hv. split; [auto|]. apply valid_rec_live in Hv. by eapply H2.
    + intros Hv. apply H1. rewrite Hr. apply eq_None_not_Some. by rewrite <- valid_rec_live.
  - assert (r2 = r) as -> by congruence. assert (o2 = o) as -> by congruence. assert (ob2 = ob) as -> by congruence.
    assert (Hv : valid_rec w r) by (by eapply (vault_valid b w HR)).
    split; [done|]. split; [done|]. split; [congruence|]. intros _. exists rc. split; [done|]. destruct Hv as (rc' & Hrc' & Hv). split; [congruence|done].
Qed.

(** C08: rejected SetData changes nothing and says why; on a valid record of the vault it is accepted exactly for existing
    non-unique keys of the value's type. *)
Lemma t_C08_setdata_answer :
  forall b ord w f r o ob k v w' res, fair ord -> reach b w -> allowed b w (OSetData f k v) ->
    denotes w f r -> bound_to w f o -> vault_at w o ob ->
    step ord w (OSetData f k v) = Some (w', ORes res) ->
    (res_ok res = false -> w' = w) /\
    (~ valid_rec w r -> res = bad DataRecordNotValid k (Some (vty v)) None) /\
    (valid_rec w r -> res = match get_key_type ob k with
                            | None => bad WrongKey k (Some (vty v)) None
                            | Some t => if decide (t = vty v) then
                                          if decide (k ∈ get_unique_keys ob) then bad UniqueKeyValueAlredyInSet k (Some (vty v)) (Some t)
                                          else okres Success k (Some (vty v)) (Some t)
                                        else bad WrongType k (Some (vty v)) (Some t)
                            end).
Proof.
  intros b ord w f r o ob k v w' res Hf HR HA Hd Hb HV H. destruct (set_data_step _ _ _ _ _ _ _ _ _ _ _ Hf HR HA Hd Hb HV H) as (H1 & H2 & H3 & _).
  split; [done|]. split; [done|]. intros Hv. destruct (H1 Hv) as [_ ->]. unfold set_data_answer, get_key_type, get_unique_keys.
  destruct (o_keys ob !! k) as [[t d]|]; done.
Qed.
(** C08: the same through a reference that denotes no record. *)
Lemma t_C08_setdata_empty_ref :
  forall ord w f k v w' res, w_refs w !! f = Some (Ref None None) ->
    step ord w (OSetData f k v) = Some (w', ORes res) -> w' = w /\ res = bad DataRecordNotValid k (Some (vty v)) None.
Proof.
  intros ord w f k v w' res Hf H. cbn [step] in H. unfold guard_op, is_ref in H. rewrite bool_decide_true in H by eauto.
  unfold ref_set_data in H. rewrite Hf in H. cbn in H. by injection H as <- <-.
Qed.

(** C07: after a successful SetData the record holds the new value and nothing else changed its value. *)
Lemma t_C07_read_your_write :
  forall b ord w f r o ob k v w' res, fair ord -> reach b w -> allowed b w (OSetData f k v) ->
    denotes w f r -> bound_to w f o -> vault_at w o ob ->
    step ord w (OSetData f k v) = Some (w', ORes res) -> res_ok res = true ->
    r ∈ o_recs ob /\ stored w' r k = Some v /\
    (forall r' k', (r', k') <> (r, k) -> stored w' r' k' = stored w r' k') /\
    w_refs w' = w_refs w /\ (forall x, valid_rec w' x <-> valid_rec w x) /\
    (forall f2 rf2, w_refs w' !! f2 = Some rf2 -> f_rec rf2 = Some r -> f_vlt rf2 = Some o ->
       ref_get_data w' rf2 k (vty v) = Some (okres Success k (Some (vty v)) (Some (vty v)), Some v)).
Proof.
  intros b ord w f r o ob k v w' res Hf HR HA Hd Hb HV H Hok. destruct (set_data_step _ _ _ _ _ _ _ _ _ _ _ Hf HR HA Hd Hb HV H) as (H1 & _ & _ & H4).
  destruct (H4 Hok) as (rc & Hrc & Hval & ->). destruct H1 as [Hin ->]; [by exists rc|]. split; [done|].
  apply set_data_answer_ok in Hok as [Hk Hu].
  assert (Hst : forall x k', stored (data_set r k v o rc w) x k' = if decide (x = r /\ k' = k) then Some v else stored w x k').
  { intros x k'. unfold stored. cbn. destruct (decide (x = r)) as [->|Hx].
    - rewrite lookup_insert, Hrc. cbn. rewrite Hval. destruct (decide (r = r /\ k' = k)) as [[_ ->]|Hn]; [by rewrite lookup_insert|].
      rewrite lookup_insert_ne; [done|]. intros ->. by apply Hn.
    - rewrite lookup_insert_ne by done. rewrite decide_False; [done|]. by intros [? _]. }
  split; [rewrite Hst; by rewrite decide_True|]. split. { intros r' k' Hne. rewrite Hst. rewrite decide_False; [done|]. intros [-> ->]. done. }
  split; [done|]. split.
  { intros x. unfold valid_rec. cbn. destruct (decide (x = r)) as [->|Hx].
    - rewrite lookup_insert. split; intros (rc' & E & Hv); [exists rc; done|]. assert (rc' = rc) as -> by congruence. eexists. split; [done|]. done.
    - by rewrite lookup_insert_ne. }
  intros f2 rf2 Hf2 Hr2 Ho2. unfold ref_get_data. rewrite Hr2, Ho2. cbn [mbind option_bind]. destruct HV as [Ho Hs].
  cbn [w_objs w_recs data_set]. rewrite lookup_upd_on, Ho. cbn [fmap option_fmap option_map mbind option_bind]. rewrite decide_True by set_solver.
  rewrite lookup_insert. cbn [mbind option_bind]. change (r_valid (rd_data (<[k:=v]> (r_data rc)) rc)) with (r_valid rc). rewrite Hval.
  rewrite set_obj_data_shape. cbn [o_keys ob_idx]. unfold get_key_type in Hk. destruct (o_keys ob !! k) as [[t d]|]; [|done]. cbn in Hk. injection Hk as ->.
  rewrite decide_True by done. change (r_data (rd_data (<[k:=v]> (r_data rc)) rc)) with (<[k:=v]> (r_data rc)). rewrite lookup_insert. by rewrite decide_True.
Qed.

(** C07: what GetData answers through a reference bound to a vault. *)
Lemma t_C07_getdata_exact :
  forall b w f rf r o ob k t, reach b w -> w_refs w !! f = Some rf -> f_rec rf = Some r -> f_vlt rf = Some o -> vault_at w o ob ->
    exists res got, ref_get_data w rf k t = Some (res, got) /\
    (~ valid_rec w r -> res = bad DataRecordNotValid k (Some t) None /\ got = None) /\
    (valid_rec w r -> match get_key_type ob k with
       | None => res = bad WrongKey k (Some t) None /\ got = None
       | Some t' => if decide (t' = t) then res = okres Success k (Some t) (Some t') /\ got = stored w r k /\ is_Some got
                    else res = bad WrongType k (Some t) (Some t') /\ got = None
       end).
Proof.
  intros b w f rf r o ob k t HR Hf Hr Ho' HV. pose proof HV as [Ho Hs]. pose proof (reach_inv _ _ HR) as HI. unfold ref_get_data. rewrite Hr, Ho'. cbn [mbind option_bind].
  rewrite Ho. cbn [mbind option_bind]. destruct (ri_refs _ _ _ (inv_ref _ _ HI) f rf r Hf Hr) as [rc Hrc]. rewrite Hrc. cbn [mbind option_bind].
  destruct (r_valid rc) eqn:Hv.
  2:{ eexists _, _. split; [done|]. split; [done|]. intros (rc' & E & Hv'). congruence. }
  assert (HvR : valid_rec w r) by (by exists rc).
  assert (Hin : r ∈ o_recs ob).
  { destruct (inv_vlt _ _ HI f rf r Hf Hr) as (o2 & Ho2 & Hb). assert (o2 = o) as -> by congruence. apply (Hb ob); try done. by apply valid_rec_live. }
  unfold get_key_type. destruct (o_keys ob !! k) as [[t' d]|] eqn:Ek; cbn.
  - destruct (decide (t' = t)) as [->|Hne].
    + eexists _, _. split; [done|]. split; [done|]. intros _. split; [done|].
      destruct (vault_stored b w HR o ob r k _ HV Hin Ek) as (v & Hst & Hty). rewrite Hst. unfold stored in Hst. rewrite Hrc in Hst. cbn in Hst. rewrite Hv in Hst.
      rewrite Hst. cbn in Hty. rewrite decide_True by done. eauto.
    + eexists _, _. split; [done|]. split; [done|]. done.
  - eexists _, _. split; [done|]. split; [done|]. done.
Qed.

(** C05: exactly what SetData does to the vault's indexes: the record is refiled, and every record filed under the old value
    together with it is no longer filed. *)
Lemma t_C05_setdata_effect_on_index :
  forall b ord w f r o ob k v w' res, fair ord -> reach b w -> allowed b w (OSetData f k v) ->
    denotes w f r -> bound_to w f o -> vault_at w o ob ->
    step ord w (OSetData f k v) = Some (w', ORes res) -> res_ok res = true ->
    exists ob', vault_at w' o ob' /\ ob' = ob_idx (o_idx ob') ob /\
    forall k' v' x,
      (filed ob' k' v' x <-> if decide (k' = k) then (v' = v /\ x = r) \/ (filed ob k v' x /\ ~ filed ob k v' r) else filed ob k' v' x) /\
      (filed_ord ob' k' v' x <-> if decide (k' = k) then (v' = v /\ x = r) \/ (filed_ord ob k v' x /\ ~ filed_ord ob k v' r) else filed_ord ob k' v' x).
Proof.
  intros b ord w f r o ob k v w' res Hf HR HA Hd Hb HV H Hok. destruct (set_data_step _ _ _ _ _ _ _ _ _ _ _ Hf HR HA Hd Hb HV H) as (H1 & _ & _ & H4).
  destruct (H4 Hok) as (rc & Hrc & Hval & ->). destruct H1 as [Hin ->]; [by exists rc|]. apply set_data_answer_ok in Hok as [Hk Hu].
  pose proof HV as [Ho Hs]. exists (set_obj_data (r_data rc) r k v ob). split.
  { split; [|by rewrite set_obj_data_shape]. cbn. rewrite lookup_upd_on, Ho. cbn. rewrite decide_True by set_solver. done. }
  unfold get_key_type in Hk. destruct (o_keys ob !! k) as [[t d]|] eqn:Ek; [|done]. cbn in Hk. injection Hk as ->.
  destruct (vault_index b w HR o ob k _ HV Ek) as (ix & Hix & (G & M & _) & _).
  assert (Hm : ix_multi ix = true). { destruct (ix_multi ix); [done|]. by destruct (Hu (M eq_refl)). }
  assert (Hl : live w !! r = Some (r_data rc, r_deps rc)). { apply live_Some. eauto. }
  destruct (v_recs _ _ (vault_vok b w HR _ _ HV) _ Hin) as (l & Hl' & Ht). rewrite Hl in Hl'. injection Hl' as <-.
  apply (refiled_set_obj_data (live w) (o_recs ob) ob r k v d ix); [done..|].
  apply (val_of_typed (live w) (o_keys ob) k (vty v, d) r (r_data rc, r_deps rc) _ Hl Ht Ek).
Qed.
(** C05 (restricted): records whose value differs from the old value of the changed record stay filed as before, under every key. *)
Lemma t_C05_setdata_keeps_others_partial :
  forall b ord w f r o ob k v w' res x k', fair ord -> reach b w -> allowed b w (OSetData f k v) ->
    denotes w f r -> bound_to w f o -> vault_at w o ob ->
    step ord w (OSetData f k v) = Some (w', ORes res) -> res_ok res = true ->
    x <> r -> is_Some (get_key_type ob k') -> (k' = k -> stored w x k <> stored w r k) ->
    exists ob', vault_at w' o ob' /\ stored w' x k' = stored w x k' /\
      forall v', (filed ob' k' v' x <-> filed ob k' v' x) /\ (filed_ord ob' k' v' x <-> filed_ord ob k' v' x).
Proof.
  intros b ord w f r o ob k v w' res x k' Hf HR HA Hd Hb HV H Hok Hne Hk' Hdiff.
  destruct (t_C05_setdata_effect_on_index _ _ _ _ _ _ _ _ _ _ _ Hf HR HA Hd Hb HV H Hok) as (ob' & HV' & _ & Heff).
  destruct (t_C07_read_your_write _ _ _ _ _ _ _ _ _ _ _ Hf HR HA Hd Hb HV H Hok) as (_ & _ & Hsame & _).
  exists ob'. split; [done|]. split; [apply Hsame; congruence|]. intros v'. destruct (Heff k' v' x) as [E1 E2]. rewrite E1, E2.
  destruct (decide (k' = k)) as [->|Hkk]; [|done].
  assert (Hkk : is_Some (o_keys ob !! k)). { unfold get_key_type in Hk'. by apply fmap_is_Some in Hk'. }
  assert (Hn : filed ob k v' x \/ filed_ord ob k v' x -> ~ filed ob k v' r /\ ~ filed_ord ob k v' r).
  { intros Hx. destruct (filed_sound b w HR o ob k v' x HV Hkk Hx) as [_ Sx].
    split; intros Hr'; (destruct (filed_sound b w HR o ob k v' r HV Hkk) as [_ Sr]; [by auto|]); apply Hdiff; congruence. }
  split; (split; [intros [[_ ?]|[? _]]; [done|done]|intros Hx; right; split; [done|apply Hn; auto]]).
Qed.

(** C21: a set of the safe class that holds the record refiles it in the same way; other sets are unchanged. *)
Lemma t_C21_sets_follow_updates :
  forall ord w f r o ob k v w' res s sb, fair ord -> reach true w -> allowed true w (OSetData f k v) ->
    denotes w f r -> bound_to w f o -> vault_at w o ob ->
    step ord w (OSetData f k v) = Some (w', ORes res) -> res_ok res = true ->
    set_at w s sb ->
    if decide (r ∈ o_recs sb) then
      exists sb', set_at w' s sb' /\ sb' = ob_idx (o_idx sb') sb /\ filed sb' k v r /\ filed_ord sb' k v r /\
        (forall v', v' <> v -> ~ filed sb' k v' r /\ ~ filed_ord sb' k v' r)
    else w_objs w' !! s = Some sb.
Proof.
  intros ord w f r o ob k v w' res s sb Hf HR HA Hd Hb HV H Hok [Hs Hst]. destruct (set_data_step _ _ _ _ _ _ _ _ _ _ _ Hf HR HA Hd Hb HV H) as (H1 & _ & _ & H4).
  destruct (H4 Hok) as (rc & Hrc & Hval & ->). destruct H1 as [Hin ->]; [by exists rc|]. apply set_data_answer_ok in Hok as [Hk Hu].
  pose proof (reach_inv _ _ HR) as HI. pose proof HV as [Ho Hos].
  assert (Hl : live w !! r = Some (r_data rc, r_deps rc)). { apply live_Some. eauto. }
  assert (Hso : s <> o) by (intros ->; congruence).
  destruct (decide (r ∈ o_recs sb)) as [Hr|Hr].
  - pose proof (vi_set _ _ _ _ (inv_obj _ _ HI) _ _ Hs Hst) as HS.
    destruct (o_parent sb) as [p|] eqn:Ep.
    2:{ apply (so_none _ _ _ _ _ _ HS) in Ep as (_ & _ & _ & _ & _ & E). rewrite E in Hr. by apply not_elem_of_empty in Hr. }
    destruct (so_some _ _ _ _ _ _ HS _ Ep) as (pb & Hpb & Hpst & _ & Hpar). pose proof (sp_strict _ _ _ _ _ Hpar eq_refl) as HSt.
    assert (p = o) as ->.
    { eapply (vi_disj _ _ _ _ (inv_obj _ _ HI) p pb o ob r); try done. by apply (st_recs _ _ _ _ HSt). }
    assert (pb = ob) as -> by congruence.
    assert (Hds : s ∈ r_deps rc). { exact (st_deps _ _ _ _ HSt r (r_data rc, r_deps rc) Hr Hl). }
    assert (exists d, o_keys sb !! k = Some (vty v, d)) as [d Ek].
    { pose proof (f_equal (fun m : gmap string vtype => m !! k) (st_keys _ _ _ _ HSt)) as E. cbn in E. rewrite !lookup_fmap in E. unfold get_key_type in Hk. rewrite Hk in E.
      destruct (o_keys sb !! k) as [[t d]|]; [|done]. cbn in E. injection E as ->. eauto. }
    destruct (st_idx _ _ _ _ HSt _ _ Ek) as (ix & Hix & G & M & _).
    assert (Hm : ix_multi ix = true). { destruct (ix_multi ix); [done|]. destruct Hu. unfold get_unique_keys. rewrite <- (st_uniq _ _ _ _ HSt). by apply M. }
    destruct (v_recs _ _ (vault_vok true w HR _ _ HV) _ Hin) as (l & Hl' & Ht). rewrite Hl in Hl'. injection Hl' as <-.
    assert (exists d0, o_keys ob !! k = Some (vty v, d0)) as [d0 Ek0].
    { unfold get_key_type in Hk. destruct (o_keys ob !! k) as [[t d0]|]; [|done]. cbn in Hk. injection Hk as ->. eauto. }
    assert (HF : refiled sb (set_obj_data (r_data rc) r k v sb) r k v).
    { apply (refiled_set_obj_data (live w) (o_recs sb) sb r k v d ix); [done..|].
      apply (val_of_typed (live w) (o_keys ob) k (vty v, d0) r (r_data rc, r_deps rc) _ Hl Ht Ek0). }
    exists (set_obj_data (r_data rc) r k v sb). split.
    { split; [|by rewrite set_obj_data_shape]. cbn. rewrite lookup_upd_on, Hs. cbn. rewrite decide_True; [done|]. apply elem_of_union. by right. }
    destruct HF as [E HF]. split; [done|]. split; [|split].
    + apply HF. rewrite decide_True by done. by left.
    + apply HF. rewrite decide_True by done. by left.
    + intros v' Hv'. split; intros Hx; apply HF in Hx; rewrite decide_True in Hx by done; destruct Hx as [[? _]|[? ?]]; done.
  - cbn. rewrite lookup_upd_on, Hs. cbn. rewrite decide_False; [done|]. intros Hd'. apply elem_of_union in Hd' as [Hd'|Hd']; [by apply elem_of_singleton in Hd'|].
    destruct (vi_deps _ _ _ _ (inv_obj _ _ HI) r _ s Hl Hd') as [_ Hx]. destruct (Hx eq_refl) as (sb' & Hsb' & Hr'). congruence.
Qed.
