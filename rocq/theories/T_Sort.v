(** Proofs of C12 (stability): where CreateRecord and SetData put a record in the sorted listing. *)
From Verif Require Export T_SetData T_Query.
Open Scope nat_scope.

Lemma tree_insert_split v r l : vsorted l ->
  exists l1 l2, l = l1 ++ l2 /\ tree_insert v r l = l1 ++ (v, r) :: l2 /\ Forall (fun e => vle e.1 v) l1 /\ Forall (fun e => vlt v e.1) l2.
Proof.
  induction 1 as [|[v' r'] l Hs IH Hf]; cbn [tree_insert].
  - exists [], []. by repeat constructor.
  - destruct (vltb v v') eqn:E.
    + exists [], ((v', r') :: l). split; [done|]. split; [done|]. split; [constructor|]. constructor; [done|].
      rewrite Forall_forall in *. intros e He. specialize (Hf e He). unfold ventry in Hf. cbn in Hf. by eapply vlt_le_trans.
    + destruct IH as (l1 & l2 & -> & -> & H1 & H2). exists ((v', r') :: l1), l2. split; [done|]. split; [done|]. split; [|done]. constructor; [|done].
      cbn. exact E.
Qed.

(** C12: a new record is listed after all records with an equal or smaller value and before all records with a greater one; the others
    keep their order. *)
Lemma t_C12_create_after_equals :
  forall b ord w o ob f ps w' res k v l l', reach b w -> vault_at w o ob ->
    step ord w (OCreateRecord o f ps) = Some (w', ORes res) -> res_ok res = true -> given ob ps k = Some v ->
    sorted_records w o k false None = Some l -> sorted_records w' o k false None = Some l' ->
    exists r l1 l2, w_recs w !! r = None /\ l = l1 ++ l2 /\ l' = l1 ++ r :: l2 /\
      (forall x, x ∈ l1 -> exists vx, stored w x k = Some vx /\ vle vx v) /\
      (forall x, x ∈ l2 -> exists vx, stored w x k = Some vx /\ vlt v vx).
Proof.
  intros b ord w o ob f ps w' res k v l l' HR HV H Hok Hgv Hl Hl'. pose proof (reach_inv _ _ HR) as HI. pose proof HV as [Ho Hs].
  destruct (create_step _ _ _ _ _ _ _ _ _ HR HV H) as [[(p1 & p & p2 & E & F1 & F2 & -> & ->)|[(F & k1 & k0 & k2 & td & E & Hk & N & C & -> & ->)|(F & N & Hw & _)]] _].
  { unfold param_err in Hok. by destruct (o_keys ob !! p.1). }
  { done. }
  rewrite given_overlay in Hgv. set (data := overlay ps (o_tmpl ob)) in *. pose proof (vault_keys b w HR _ _ HV) as HK.
  assert (Ht : typed (o_keys ob) data) by (apply typed_overlay; [apply HK|done]).
  assert (Hobj : w_objs w' !! o = Some (obj_add data (w_next w) ob)).
  { destruct f as [f|]; [destruct Hw as [Hro _]; rewrite (ro_objs _ _ Hro)|rewrite Hw]; cbn; by rewrite lookup_insert. }
  destruct (o_keys ob !! k) as [[t d]|] eqn:Ek.
  2:{ specialize (Ht k). rewrite Ek, Hgv in Ht. done. }
  destruct (vault_index b w HR o ob k _ HV Ek) as (ix & Hix & (G & M & _) & _).
  destruct (get_typed_typed _ _ _ _ _ d Ht Ek) as (v0 & Hv0 & Hty & Eg). assert (v0 = v) as -> by congruence.
  assert (Hix' : o_idx (obj_add data (w_next w) ob) !! k = Some (idx_add v (w_next w) ix).1).
  { rewrite lookup_obj_add, Hix. cbn. rewrite Ek. unfold adder. cbn. by rewrite Eg. }
  assert (Hst' : o_static_set (obj_add data (w_next w) ob) = false) by done.
  unfold sorted_records in Hl, Hl'. rewrite Ho in Hl. rewrite Hobj in Hl'. cbn [mbind option_bind] in Hl, Hl'. rewrite Hs in Hl. rewrite Hst' in Hl'. cbn [andb] in Hl, Hl'.
  change (o_keys (obj_add data (w_next w) ob)) with (o_keys ob) in Hl'. rewrite Ek in Hl, Hl'. rewrite Hix in Hl. rewrite Hix' in Hl'. cbn [mbind option_bind limit id] in Hl, Hl'.
  injection Hl as <-. injection Hl' as <-.
  assert (Htr : ix_tree (idx_add v (w_next w) ix).1 = tree_insert v (w_next w) (ix_tree ix)).
  { unfold idx_add, hash_emplace, tree_emplace. destruct (ix_multi ix) eqn:Em; [done|]. specialize (M eq_refl).
    assert (forall y, r_valid y = r_valid y) by done.
    assert (Hno : forall y, ~ (y ∈ o_recs ob /\ val_of (live w) k y = Some v)). { intros y [Hy1 Hy2]. apply (N k M). exists y, v. done. }
    assert (has_value v (ix_hash ix) = false) as ->. { apply has_value_false. intros y Hy. apply (Hno y). by apply (g_hash _ _ _ G). }
    assert (has_value v (ix_tree ix) = false) as ->. { apply has_value_false. intros y Hy. apply (Hno y). by apply (g_tree _ _ _ G). }
    done. }
  rewrite Htr. destruct (tree_insert_split v (w_next w) (ix_tree ix) (g_sorted _ _ _ G)) as (l1 & l2 & E1 & E2 & H1 & H2).
  exists (w_next w), (snd <$> l1), (snd <$> l2). split; [|split; [by rewrite E1, fmap_app|split; [by rewrite E2, fmap_app|]]].
  { apply eq_None_not_Some. intros Hx. apply (inv_heap _ _ HI) in Hx. lia. }
  assert (Hin : forall e, e ∈ l1 \/ e ∈ l2 -> stored w e.2 k = Some e.1).
  { intros [ve re] He. rewrite stored_val_of. apply (g_tree _ _ _ G). rewrite E1. by apply elem_of_app. }
  rewrite Forall_forall in H1, H2. split; intros x Hx; apply elem_of_list_fmap in Hx as (e & -> & He).
  - exists e.1. split; [apply Hin; by left|by apply H1].
  - exists e.1. split; [apply Hin; by right|by apply H2].
Qed.

(** C12: SetData moves the record behind all records with an equal or smaller new value; the records that shared the old value leave the
    listing (see C05), all others keep their order. *)
Lemma t_C12_setdata_after_equals :
  forall b ord w f r o ob k v w' res l l', fair ord -> reach b w -> allowed b w (OSetData f k v) ->
    denotes w f r -> bound_to w f o -> vault_at w o ob ->
    step ord w (OSetData f k v) = Some (w', ORes res) -> res_ok res = true ->
    sorted_records w o k false None = Some l -> sorted_records w' o k false None = Some l' ->
    exists l1 l2, l1 ++ l2 = (if decide (r ∈ l) then filter (fun x => stored w x k <> stored w r k) l else l) /\ l' = l1 ++ r :: l2 /\
      (forall x, x ∈ l1 -> exists vx, stored w x k = Some vx /\ vle vx v) /\
      (forall x, x ∈ l2 -> exists vx, stored w x k = Some vx /\ vlt v vx).
Proof.
  intros b ord w f r o ob k v w' res l l' Hf HR HA Hd Hb HV H Hok Hl Hl'. destruct (set_data_step _ _ _ _ _ _ _ _ _ _ _ Hf HR HA Hd Hb HV H) as (H1 & _ & _ & H4).
  destruct (H4 Hok) as (rc & Hrc & Hval & ->). destruct H1 as [Hin ->]; [by exists rc|]. apply set_data_answer_ok in Hok as [Hk Hu].
  pose proof HV as [Ho Hs]. unfold get_key_type in Hk. destruct (o_keys ob !! k) as [[t d]|] eqn:Ek; [|done]. cbn in Hk. injection Hk as ->.
  destruct (vault_index b w HR o ob k _ HV Ek) as (ix & Hix & (G & M & _) & _).
  assert (Hm : ix_multi ix = true). { destruct (ix_multi ix); [done|]. by destruct (Hu (M eq_refl)). }
  assert (Hlv : live w !! r = Some (r_data rc, r_deps rc)). { apply live_Some. eauto. }
  destruct (v_recs _ _ (vault_vok b w HR _ _ HV) _ Hin) as (l0 & Hl0 & Ht). rewrite Hlv in Hl0. injection Hl0 as <-.
  set (old := get_typed (r_data rc) k (vty v) (vzero (vty v))).
  assert (Hold : val_of (live w) k r = Some old). { apply (val_of_typed (live w) (o_keys ob) k (vty v, d) r (r_data rc, r_deps rc) _ Hlv Ht Ek). }
  assert (Hobj : w_objs (data_set r k v o rc w) !! o = Some (ob_idx (<[k := idx_set old v r ix]> (o_idx ob)) ob)).
  { cbn. rewrite lookup_upd_on, Ho. cbn. rewrite decide_True by set_solver. f_equal. unfold set_obj_data. rewrite Ek, Hix. rewrite decide_True by done. by rewrite Hm. }
  unfold sorted_records in Hl, Hl'. rewrite Ho in Hl. rewrite Hobj in Hl'. cbn [mbind option_bind o_static_set ob_idx o_keys o_idx o_parent] in Hl, Hl'. rewrite Hs in Hl, Hl'. cbn [andb] in Hl, Hl'.
  rewrite Ek in Hl, Hl'. rewrite Hix in Hl. rewrite lookup_insert in Hl'. cbn [mbind option_bind limit id] in Hl, Hl'.
  apply (inj Some) in Hl, Hl'. subst l l'.
  set (t := if decide ((old, r) ∈ ix_tree ix) then erase_value old (ix_tree ix) else ix_tree ix).
  assert (Htr : ix_tree (idx_set old v r ix) = tree_insert v r t). { unfold idx_set. rewrite Hm. done. }
  rewrite Htr. clear Htr.
  assert (Hts : vsorted t). { unfold t. destruct (decide _); [by apply vsorted_filter, (g_sorted _ _ _ G)|apply (g_sorted _ _ _ G)]. }
  assert (Htin : forall e, e ∈ t -> e ∈ ix_tree ix). { intros e. unfold t. destruct (decide _); [|done]. by intros [_ He]%elem_erase_value. }
  assert (Hrl : r ∈ snd <$> ix_tree ix <-> (old, r) ∈ ix_tree ix).
  { rewrite elem_of_list_fmap. split; [|by exists (old, r)]. intros ([ve re] & E & He). cbn in E. subst re. pose proof (g_tree _ _ _ G _ _ He) as [_ E]. rewrite Hold in E. injection E as ->. done. }
  assert (Htl : snd <$> t = (if decide (r ∈ snd <$> ix_tree ix) then filter (fun x => stored w x k <> stored w r k) (snd <$> ix_tree ix) else snd <$> ix_tree ix)).
  { unfold t. destruct (decide (r ∈ snd <$> ix_tree ix)) as [Hi|Hi].
    - rewrite decide_True by by apply Hrl. unfold erase_value.
      assert (Hst : forall e, e ∈ ix_tree ix -> stored w e.2 k = Some e.1). { intros [ve re] He. rewrite stored_val_of. by apply (g_tree _ _ _ G). }
      rewrite (stored_val_of w r k), Hold. revert Hst. clear. generalize (ix_tree ix : list (value * nat)). intros q Hst. induction q as [|e q IH]; [done|].
      specialize (IH (fun e' He' => Hst e' (elem_of_list_further _ _ _ He'))). assert (E : stored w e.2 k = Some e.1) by (apply Hst; by left).
      destruct (decide (e.1 = old)) as [Hn|Hn].
      + rewrite (filter_cons_False (fun e0 : value * nat => e0.1 <> old)) by naive_solver. rewrite fmap_cons.
        rewrite (filter_cons_False (fun x => stored w x k <> Some old)) by (rewrite ?E; first [tauto | congruence]). exact IH.
      + rewrite (filter_cons_True (fun e0 : value * nat => e0.1 <> old)) by (rewrite ?E; first [tauto | congruence]). rewrite !fmap_cons.
        rewrite (filter_cons_True (fun x => stored w x k <> Some old)) by (rewrite ?E; first [tauto | congruence]). f_equal. exact IH.
    - rewrite decide_False; [done|]. by rewrite <- Hrl. }
  rewrite <- Htl. destruct (tree_insert_split v r t Hts) as (l1 & l2 & E1 & E2 & H1 & H2). exists (snd <$> l1), (snd <$> l2). rewrite E2.
  split; [by rewrite E1, fmap_app|]. split; [by rewrite fmap_app|].
  assert (Hin2 : forall e, e ∈ l1 \/ e ∈ l2 -> stored w e.2 k = Some e.1).
  { intros [ve re] He. rewrite stored_val_of. apply (g_tree _ _ _ G), Htin. rewrite E1. by apply elem_of_app. }
  rewrite Forall_forall in H1, H2. split; intros x Hx; apply elem_of_list_fmap in Hx as (e & -> & He).
  - exists e.1. split; [apply Hin2; by left|by apply H1].
  - exists e.1. split; [apply Hin2; by right|by apply H2].
Qed.
