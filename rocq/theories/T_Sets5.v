(** Lemmas for C23: what the set algebra does to the answers of the resulting set. *)
From Verif Require Export T_Sets4.
Open Scope nat_scope.

(** What a set needs for records of vault [pb] to be added to it. *)
Record addable (L : gmap nat lrec) (sb pb : obj) : Prop := Addable {
  ad_recs : o_recs sb ⊆ o_recs pb;
  ad_vault : vault_ok L pb;
  ad_keys : (fst <$> o_keys sb) = (fst <$> o_keys pb);
  ad_idx : forall k td, o_keys sb !! k = Some td -> exists ix, o_idx sb !! k = Some ix /\ good (o_recs sb) (val_of L k) ix /\ (ix_multi ix = false -> k ∈ o_uniq pb)
}.
Lemma strict_addable L s sb pb : vault_ok L pb -> strict L s sb pb -> addable L sb pb.
Proof.
  intros Hv [S1 S2 S3 S4 S5 S6 S7 S8]. split; try done. intros k td Hk. destruct (S8 _ _ Hk) as (ix & Hix & G & M & _). exists ix. split; [done|]. split; [done|]. rewrite <- S5. done.
Qed.
Lemma vault_inj L pb k r r' v : vault_ok L pb -> k ∈ o_uniq pb -> r ∈ o_recs pb -> r' ∈ o_recs pb -> val_of L k r = Some v -> val_of L k r' = Some v -> r = r'.
Proof.
  intros Hv Hu Hr Hr' E E'. destruct (k_uniq _ (v_keys _ _ Hv) _ Hu) as [td Hk]. destruct (v_idx _ _ Hv _ _ Hk) as (ix & Hix & (G & _ & U) & M).
  specialize (M Hu). destruct (U Hu) as [C _]. destruct (C r Hr) as (v1 & V1 & I1), (C r' Hr') as (v2 & V2 & I2). assert (v1 = v) as -> by congruence. assert (v2 = v) as -> by congruence.
  pose proof (g_huniq _ _ _ G M) as N. clear - N I1 I2. induction (ix_hash ix) as [|[a b] l IH]; [by apply elem_of_nil in I1|]. cbn in N. apply NoDup_cons in N as [N1 N2].
  assert (Hf : forall x, (v, x) ∈ l -> v ∈ l.*1). { intros x Hx. apply elem_of_list_fmap. by exists (v, x). }
  apply elem_of_cons in I1 as [E1|I1], I2 as [E2|I2]; [congruence|injection E1 as -> ->|injection E2 as -> ->|by apply IH]; destruct N1; eauto.
Qed.
Lemma ad_val L sb pb r k td : addable L sb pb -> r ∈ o_recs pb -> o_keys sb !! k = Some td -> exists l, L !! r = Some l /\ val_of L k r = Some (get_typed l.1 k td.1 td.2).
Proof.
  intros HA Hr Hk. destruct (v_recs _ _ (ad_vault _ _ _ HA) _ Hr) as (l & Hl & Ht). exists l. split; [done|].
  pose proof (f_equal (fun m => m !! k) (ad_keys _ _ _ HA)) as E. cbn in E. rewrite !lookup_fmap, Hk in E. cbn in E.
  destruct (o_keys pb !! k) as [td'|] eqn:E'; [|done]. cbn in E. injection E as E. rewrite E. by eapply val_of_typed.
Qed.
Lemma has_value_new L recs pb k v r ix : good recs (val_of L k) ix -> recs ⊆ o_recs pb -> vault_ok L pb -> k ∈ o_uniq pb -> r ∈ o_recs pb -> r ∉ recs -> val_of L k r = Some v ->
  has_value v (ix_hash ix) = false /\ has_value v (ix_tree ix) = false.
Proof.
  intros G Hs Hv Hu Hr Hn E. split; apply has_value_false; intros r' Hin.
  - apply (g_hash _ _ _ G) in Hin as [H1 H2]. assert (r = r') as ->; [|done]. by eapply (vault_inj L pb k); eauto.
  - apply (g_tree _ _ _ G) in Hin as [H1 H2]. assert (r = r') as ->; [|done]. by eapply (vault_inj L pb k); eauto.
Qed.
Lemma filed_add L sb pb r l k v x :
  addable L sb pb -> r ∈ o_recs pb -> r ∉ o_recs sb -> L !! r = Some l -> is_Some (o_keys sb !! k) ->
  (filed (obj_add l.1 r sb) k v x <-> filed sb k v x \/ (x = r /\ val_of L k r = Some v)) /\
  (filed_ord (obj_add l.1 r sb) k v x <-> filed_ord sb k v x \/ (x = r /\ val_of L k r = Some v)).
Proof.
  intros HA Hr Hn Hl [td Hk]. destruct (ad_idx _ _ _ HA _ _ Hk) as (ix & Hix & G & M). destruct (ad_val _ _ _ _ _ _ HA Hr Hk) as (l' & Hl' & Hval). assert (l' = l) as -> by congruence.
  set (v0 := get_typed l.1 k td.1 td.2) in *.
  assert (Hix' : o_idx (obj_add l.1 r sb) !! k = Some (idx_add v0 r ix).1). { rewrite lookup_obj_add, Hix, Hk. done. }
  assert (HH : forall e, (e ∈ ix_hash (idx_add v0 r ix).1 <-> e ∈ ix_hash ix \/ e = (v0, r)) /\ (e ∈ ix_tree (idx_add v0 r ix).1 <-> e ∈ ix_tree ix \/ e = (v0, r))).
  { intros e. unfold idx_add, hash_emplace, tree_emplace. destruct (ix_multi ix) eqn:Em; cbn.
    - rewrite elem_of_app, elem_of_list_singleton, elem_tree_insert. clear. tauto.
    - destruct (has_value_new L (o_recs sb) pb k v0 r ix G (ad_recs _ _ _ HA) (ad_vault _ _ _ HA) (M eq_refl) Hr Hn Hval) as [-> ->]. cbn.
      rewrite elem_of_app, elem_of_list_singleton, elem_tree_insert. clear. tauto. }
  unfold filed, filed_ord. rewrite Hix', Hix, Hval. split.
  - split; [intros (ix1 & E & Hin); injection E as <-; apply HH in Hin as [Hin|Hin]; [left; eauto|injection Hin as -> ->; by right]|].
    intros [(ix1 & E & Hin)|[-> E]]; (eexists; split; [done|]); apply HH; [injection E as <-; by left|injection E as ->; by right].
  - split; [intros (ix1 & E & Hin); injection E as <-; apply HH in Hin as [Hin|Hin]; [left; eauto|injection Hin as -> ->; by right]|].
    intros [(ix1 & E & Hin)|[-> E]]; (eexists; split; [done|]); apply HH; [injection E as <-; by left|injection E as ->; by right].
Qed.
Lemma good_add L recs pb k v r ix : good recs (val_of L k) ix -> recs ⊆ o_recs pb -> vault_ok L pb -> (ix_multi ix = false -> k ∈ o_uniq pb) -> r ∈ o_recs pb -> r ∉ recs -> val_of L k r = Some v ->
  good ({[r]} ∪ recs) (val_of L k) (idx_add v r ix).1 /\ ix_multi (idx_add v r ix).1 = ix_multi ix.
Proof.
  intros G Hs Hv Hu Hr Hn E. pose proof G as [G1 G2 G3 G4 G5 G6 G7].
  assert (N1 : (v, r) ∉ ix_hash ix) by (by eapply sound_notin). assert (N2 : (v, r) ∉ ix_tree ix) by (by eapply sound_notin).
  assert (S1 : forall l, sound recs (val_of L k) l -> forall l' : entries, (forall e, e ∈ l' -> e = (v, r) \/ e ∈ l) -> sound ({[r]} ∪ recs) (val_of L k) l').
  { intros l Hl l' Hl' a b Hin. apply Hl' in Hin as [E'|Hin]; [injection E' as -> ->; split; [clear; set_solver|done]|]. apply Hl in Hin as [X1 X2]. split; [clear - X1; set_solver|done]. }
  unfold idx_add. destruct (hash_emplace (ix_multi ix) v r (ix_hash ix)) as [h ok] eqn:Eh.
  assert (Hb : ok = true).
  { revert Eh. unfold hash_emplace. destruct (ix_multi ix) eqn:Em; [by intros [= _ <-]|]. destruct (has_value_new L recs pb k v r ix G Hs Hv (Hu eq_refl) Hr Hn E) as [-> _]. by intros [= _ <-]. }
  subst ok. assert (Eh' : h = (hash_emplace (ix_multi ix) v r (ix_hash ix)).1) by (by rewrite Eh). cbn. split; [|done]. split; cbn; try done.
  - eapply (S1 (ix_hash ix)); [done|]. intros e He. rewrite Eh' in He. by eapply elem_hash_emplace.
  - eapply (S1 (ix_tree ix)); [done|]. intros e He. by eapply elem_tree_emplace.
  - rewrite Eh'. by apply NoDup_hash_emplace.
  - by apply NoDup_tree_emplace.
  - by apply sorted_tree_emplace.
  - intros Em. rewrite Eh', Em. apply uniq_hash_emplace. by apply G6.
  - intros Em. rewrite Em. apply uniq_tree_emplace. by apply G7.
Qed.
Lemma addable_add L sb pb r l : addable L sb pb -> r ∈ o_recs pb -> r ∉ o_recs sb -> L !! r = Some l -> addable L (obj_add l.1 r sb) pb.
Proof.
  intros HA Hr Hn Hl. split; [|apply (ad_vault _ _ _ HA)|apply (ad_keys _ _ _ HA)|].
  - pose proof (ad_recs _ _ _ HA). cbn. clear - H Hr. set_solver.
  - intros k td Hk. change (o_keys sb !! k = Some td) in Hk. destruct (ad_idx _ _ _ HA _ _ Hk) as (ix & Hix & G & M). destruct (ad_val _ _ _ _ _ _ HA Hr Hk) as (l' & Hl' & Hval). assert (l' = l) as -> by congruence.
    rewrite lookup_obj_add, Hix. cbn. rewrite Hk. eexists. split; [done|]. unfold adder.
    destruct (good_add L (o_recs sb) pb k _ r ix G (ad_recs _ _ _ HA) (ad_vault _ _ _ HA) M Hr Hn Hval) as [G' E']. split; [exact G'|]. rewrite E'. done.
Qed.

(** Adding records of a list to a set. *)
Lemma take_un_fold s l w sb pb w' :
  addable (live w) sb pb -> w_objs w !! s = Some sb -> (forall r, r ∈ l -> r ∈ o_recs pb) ->
  foldM (fun w r => sb' ← w_objs w !! s; if decide (r ∈ o_recs sb') then Some w else set_take_unregistered s w r) w l = Some w' ->
  exists sb', w_objs w' !! s = Some sb' /\ addable (live w') sb' pb /\ same_schema sb sb' /\ o_parent sb' = o_parent sb /\ o_static_set sb' = o_static_set sb /\
    (forall r, r ∈ o_recs sb' <-> r ∈ o_recs sb \/ r ∈ l) /\ live w' = live w /\
    forall k v r, is_Some (o_keys sb !! k) ->
      (filed sb' k v r <-> filed sb k v r \/ (r ∈ l /\ r ∉ o_recs sb /\ val_of (live w) k r = Some v)) /\
      (filed_ord sb' k v r <-> filed_ord sb k v r \/ (r ∈ l /\ r ∉ o_recs sb /\ val_of (live w) k r = Some v)).
Proof.
  revert w sb. induction l as [|r l IH]; intros w sb HA Hs Hl H; cbn [foldM] in H.
  { injection H as <-. exists sb. split; [done|]. split; [done|]. split; [done|]. split; [done|]. split; [done|]. split; [intros r; rewrite elem_of_nil; clear; tauto|]. split; [done|].
    intros k v r _. rewrite elem_of_nil. clear; tauto. }
  rewrite Hs in H. cbn [mbind option_bind] in H. assert (Hl' : forall x, x ∈ l -> x ∈ o_recs pb) by (intros x Hx; apply Hl; by right). destruct (decide (r ∈ o_recs sb)) as [Hr|Hr].
  - destruct (IH _ _ HA Hs Hl' H) as (sb' & H1 & H2 & H3 & H4 & H5 & H6 & H7 & H8). exists sb'. split; [done|]. split; [done|]. split; [done|]. split; [done|]. split; [done|]. split.
    { intros x. rewrite H6, elem_of_cons. split; [tauto|]. intros [?|[->|?]]; auto. }
    split; [done|]. intros k v x Hk. destruct (H8 k v x Hk) as [F1 F2]. rewrite F1, F2, elem_of_cons. split; (split; [tauto|]); intros [?|([->|?] & ? & ?)]; auto; done.
  - assert (Hrp : r ∈ o_recs pb) by (apply Hl; by left). destruct (v_recs _ _ (ad_vault _ _ _ HA) _ Hrp) as (lr & Hlr & _).
    assert (exists rc, w_recs w !! r = Some rc /\ lr.1 = r_data rc) as (rc & Hrc & Edata).
    { unfold live in Hlr. rewrite lookup_live_of in Hlr. destruct (w_recs w !! r) as [rc|]; [|done]. exists rc. split; [done|]. cbn in Hlr. unfold live_rec in Hlr. destruct (r_valid rc); [|done]. by injection Hlr as <-. }
    assert (ET : set_take_unregistered s w r = Some (set_obj s (obj_add lr.1 r sb) w)) by (unfold set_take_unregistered; rewrite Hs, Hrc; cbn [mbind option_bind]; by rewrite Edata).
    rewrite ET in H. cbn [mbind option_bind] in H.
    assert (Elive : live (set_obj s (obj_add lr.1 r sb) w) = live w) by done.
    destruct (IH (set_obj s (obj_add lr.1 r sb) w) (obj_add lr.1 r sb)) as (sb' & H1 & H2 & H3 & H4 & H5 & H6 & H7 & H8); try done.
    { rewrite Elive. by apply addable_add. }
    { cbn. by rewrite lookup_insert. }
    exists sb'. split; [done|]. split; [done|]. split; [done|]. split; [done|]. split; [done|]. split.
    { intros x. rewrite H6, elem_of_cons. cbn. rewrite elem_of_union, elem_of_singleton. clear. tauto. }
    split; [done|]. intros k v x Hk. destruct (H8 k v x Hk) as [F1 F2]. destruct (filed_add (live w) sb pb r lr k v x HA Hrp Hr Hlr Hk) as [A1 A2]. rewrite Elive in F1, F2.
    rewrite F1, F2, A1, A2, elem_of_cons. cbn. rewrite not_elem_of_union, not_elem_of_singleton.
    destruct (decide (x = r)) as [->|Hx]; [assert (Hrr : r = r) by done; clear - Hr Hrr; tauto|clear - Hr Hx; tauto].
Qed.

(** C23: Join files every record it adds under its current values, on top of what the set had filed. *)
Lemma t_C23_join_answers :
  forall ord w s a sb ab w' res, fair ord -> reach true w -> set_at w s sb -> set_at w a ab -> step ord w (OJoin s a) = Some (w', ORes res) -> res_ok res = true ->
    exists sb', set_at w' s sb' /\ o_parent sb' = o_parent sb /\ same_schema sb sb' /\
      forall k v r, is_Some (get_key_type sb k) ->
        (filed sb' k v r <-> filed sb k v r \/ (r ∈ o_recs ab /\ r ∉ o_recs sb /\ stored w r k = Some v)) /\
        (filed_ord sb' k v r <-> filed_ord sb k v r \/ (r ∈ o_recs ab /\ r ∉ o_recs sb /\ stored w r k = Some v)).
Proof.
  intros ord w s a sb ab w' res Hf HR HS HA H Hok. pose proof (reach_inv _ _ HR) as HI. pose proof HS as [Hs Hst]. pose proof HA as [Ha Hat].
  cbn [step] in H. rewrite (set_guard _ _ _ HS), (set_guard _ _ _ HA) in H. cbn [andb guard_op] in H. apply res_inv in H as (res' & H & [= <-]).
  unfold set_join in H. rewrite Hs, Ha in H. cbn [mbind option_bind] in H. unfold algebra_check in H. destruct (o_parent sb) as [p|] eqn:Ep; [|injection H as <- <-; done].
  destruct (o_parent ab) as [p'|] eqn:Ep'; [|injection H as <- <-; done]. destruct (decide (p' = p)) as [->|]; [|injection H as <- <-; done].
  destruct (decide (s = a)) as [|Hne]; [injection H as <- <-; done|]. destruct (foldM _ _ _) as [w1|] eqn:E; [|done]. cbn [mbind option_bind] in H. injection H as <- <-.
  destruct (Inv_set_facts _ _ _ _ _ HI Hs Hst Ep) as (pb & Hpb & Hpst & _ & _ & Hpar). destruct (Inv_set_facts _ _ _ _ _ HI Ha Hat Ep') as (pb' & Hpb' & _ & _ & _ & Hpar'). assert (pb' = pb) as -> by congruence.
  pose proof (vi_vault _ _ _ _ (inv_obj _ _ HI) _ _ Hpb Hpst) as VO.
  destruct (take_un_fold s (ord (elements (o_recs ab))) w sb pb w1) as (sb' & H1 & H2 & H3 & H4 & H5 & H6 & H7 & H8); try done.
  { eapply strict_addable; [done|]. by apply (sp_strict _ _ _ _ _ Hpar). }
  { intros r Hr. apply WorldProofs.fair_elem in Hr; [|done]. by apply (st_recs _ _ _ _ (sp_strict _ _ _ _ _ Hpar' eq_refl)). }
  exists sb'. split; [split; [done|congruence]|]. split; [congruence|]. split; [done|]. intros k v r Hk. unfold get_key_type in Hk. apply fmap_is_Some in Hk. destruct (H8 k v r Hk) as [F1 F2].
  rewrite F1, F2, <- stored_val_of. rewrite (WorldProofs.fair_elem ord) by done. done.
Qed.

(** C23: the result of a Union of two sets answers every query completely. *)
Lemma t_C23_union_answers :
  forall ord w x y z xb yb zb w' res, fair ord -> reach true w -> set_at w x xb -> set_at w y yb -> set_at w z zb ->
    step ord w (OUnion x y z) = Some (w', ORes res) -> res_ok res = true ->
    exists zb', set_at w' z zb' /\ equal_keys xb zb' /\ indexed w' zb'.
Proof.
  intros ord w x y z xb yb zb w' res Hf HR HX HY HZ H Hok. pose proof HX as [Hx Hxs]. pose proof HY as [Hy Hys]. pose proof HZ as [Hz Hzs].
  cbn [step] in H. rewrite (set_guard _ _ _ HX), (set_guard _ _ _ HY), (set_guard _ _ _ HZ) in H. cbn [andb guard_op] in H. apply res_inv in H as (res' & H & [= <-]).
  unfold set_union in H. rewrite Hx, Hy in H. cbn [mbind option_bind] in H. destruct (decide _) as [|Hd]; [injection H as <- <-; done|].
  destruct (o_parent xb) as [p|] eqn:Ep; [|injection H as <- <-; done]. destruct (o_parent yb) as [p'|] eqn:Ep'; [|injection H as <- <-; done].
  destruct (decide (p = p')) as [<-|]; [|injection H as <- <-; done].
  destruct (copy_assign_set ord w z x) as [w1|] eqn:E; [|done]. cbn [mbind option_bind] in H.
  assert (Hzx : z <> x) by (intros ->; apply Hd; auto). assert (Hzy : z <> y) by (intros ->; apply Hd; auto).
  assert (ST : step ord w (OAssignSet z x) = Some (w1, OUnit)). { cbn [step]. rewrite (set_guard _ _ _ HX), (set_guard _ _ _ HZ). cbn [andb guard_op]. by rewrite E. }
  destruct (t_C25_assign_exact true ord w z x xb zb w1 OUnit) as (Honly & _ & zb1 & Z1 & Z2 & Z3 & _ & _ & Z6); try done.
  destruct (Z6 eq_refl) as [EK IX]. pose proof (reach_step true ord w (OAssignSet z x) w1 OUnit HR Hf) as HR1. specialize (HR1 ltac:(done) ST).
  assert (HY1 : set_at w1 y yb).
  { destruct (copy_assign_set_ok true ord w z x xb zb) as (w2 & sb' & E2 & _ & Hso & _); try done; [by apply (reach_inv true)|]. assert (w2 = w1) as -> by congruence. by eapply set_only_other; [done|by apply not_eq_sym|done]. }
  assert (ST2 : step ord w1 (OJoin z y) = Some (w', ORes res)). { cbn [step]. rewrite (set_guard _ _ _ Z1), (set_guard _ _ _ HY1). cbn [andb guard_op]. by rewrite H. }
  destruct (t_C23_join_answers ord w1 z y zb1 yb w' res Hf HR1 Z1 HY1 ST2 Hok) as (zb' & J1 & J2 & J3 & J4).
  destruct (t_C23_join_exact true ord w1 z y zb1 yb w' _ Hf HR1 Z1 HY1 ST2) as (res2 & [= <-] & _ & _ & _ & J5). destruct (J5 Hok) as (J6 & _ & zb2 & J7 & _ & J8).
  assert (zb2 = zb') as ->. { destruct J1 as [J1 _], J7 as [J7 _]. congruence. }
  exists zb'. split; [done|]. destruct J3 as (K1 & K2 & K3 & K4). split.
  { destruct EK as (E1 & E2 & E3). unfold equal_keys, get_keys, get_unique_keys, get_key_type in *. rewrite K1, K2, K3. done. }
  intros k Hk v r. assert (Hk1 : is_Some (get_key_type zb1 k)) by (unfold get_key_type in *; by rewrite K1 in Hk). destruct (J4 k v r Hk1) as [F1 F2]. destruct (IX k Hk1 v r) as [I1 I2].
  destruct J6 as (_ & _ & J9 & _). rewrite F1, F2, I1, I2, J9, J8, elem_of_union. clear. destruct (decide (r ∈ o_recs zb1)); tauto.
Qed.

(** Intersection visits the records of the smaller operand. *)
Lemma take_filter_fold s (big : gset nat) l w sb w' :
  w_objs w !! s = Some sb -> NoDup l -> (forall r, r ∈ l -> r ∉ o_recs sb) ->
  foldM (fun w r => if decide (r ∈ big) then set_take_unregistered s w r else Some w) w l = Some w' ->
  foldM (fun w r => sb' ← w_objs w !! s; if decide (r ∈ o_recs sb') then Some w else set_take_unregistered s w r) w (filter (fun r => r ∈ big) l) = Some w'.
Proof.
  revert w sb. induction l as [|r l IH]; intros w sb Hs Hnd Hn H; cbn [foldM] in H; [done|]. apply NoDup_cons in Hnd as [Hnr Hnd]. rewrite filter_cons.
  assert (Hn' : forall x, x ∈ l -> x ∉ o_recs sb) by (intros x Hx; apply Hn; by right). destruct (decide (r ∈ big)) as [Hb|Hb].
  - cbn [foldM]. rewrite Hs. cbn [mbind option_bind]. rewrite decide_False by (apply Hn; by left).
    destruct (set_take_unregistered s w r) as [w1|] eqn:E; [|done]. cbn [mbind option_bind] in H |- *.
    unfold set_take_unregistered in E. rewrite Hs in E. cbn [mbind option_bind] in E. destruct (w_recs w !! r) as [rc|]; [|done]. cbn [mbind option_bind] in E. injection E as <-.
    eapply (IH _ (obj_add (r_data rc) r sb)); [cbn; by rewrite lookup_insert|done| |done]. intros x Hx. cbn. rewrite not_elem_of_union, not_elem_of_singleton. split; [|by apply Hn']. intros ->. done.
  - cbn [mbind option_bind] in H. by eapply IH.
Qed.

(** C23: the result of an Intersection of two sets answers every query completely. *)
Lemma t_C23_intersection_answers :
  forall ord w x y z xb yb zb w' res, fair ord -> reach true w -> set_at w x xb -> set_at w y yb -> set_at w z zb ->
    step ord w (OIntersection x y z) = Some (w', ORes res) -> res_ok res = true ->
    exists zb', set_at w' z zb' /\ equal_keys xb zb' /\ indexed w' zb'.
Proof.
  intros ord w a b res ab bb rb w' rs Hf HR HX HY HZ H Hok. pose proof HX as [Ha Hat]. pose proof HY as [Hb Hbt]. pose proof HZ as [Hr Hrt]. pose proof (reach_inv _ _ HR) as HI.
  cbn [step] in H. rewrite (set_guard _ _ _ HX), (set_guard _ _ _ HY), (set_guard _ _ _ HZ) in H. cbn [andb guard_op] in H. apply res_inv in H as (res' & H & E'). injection E' as <-.
  unfold set_intersection in H. rewrite Ha, Hb in H. cbn [mbind option_bind] in H.
  destruct (decide (a = b \/ a = res \/ b = res)) as [|Hd]; [injection H as <- <-; done|].
  destruct (o_parent ab) as [p|] eqn:Ep; [|injection H as <- <-; done].
  destruct (o_parent bb) as [p'|] eqn:Ep'; [|injection H as <- <-; done].
  destruct (decide (p = p')) as [<-|]; [|injection H as <- <-; done].
  destruct (set_reset ord w res) as [w1|] eqn:Er; [|done]. cbn [mbind option_bind] in H.
  destruct (set_reset_ok true ord w res rb) as [Hc Hci]; try done.
  assert (w1 = reset_result res rb w) as -> by congruence. clear Er Hc.
  destruct (reset_result_obj res rb w true HI Hr Hrt) as (db1 & Hdb1 & R1 & R2 & R3 & R4 & R5 & R6 & R7 & R8 & R9 & R10 & R11).
  pose proof (set_only_reset_result true res rb w HI Hr Hrt) as Hso.
  assert (Hra : a <> res) by (intros ->; apply Hd; auto). assert (Hrb : b <> res) by (intros ->; apply Hd; auto).
  destruct (Inv_set_facts _ _ _ _ _ HI Ha Hat Ep) as (pb0 & Hpb0 & Hpst0 & _ & _ & Hpar).
  destruct (Inv_set_facts _ _ _ _ _ HI Hb Hbt Ep') as (pb0' & Hpb0' & _ & _ & _ & Hparb). assert (pb0' = pb0) as -> by congruence.
  pose proof (sp_strict _ _ _ _ _ Hpar eq_refl) as STa. pose proof (sp_strict _ _ _ _ _ Hparb eq_refl) as STb.
  assert (Hrp : p <> res) by congruence.
  destruct (set_only_obj _ _ _ _ _ Hso Hrp Hpb0) as (pb1 & Hpb1 & Epb1 & _).
  rewrite Hdb1 in H. cbn [mbind option_bind] in H.
  match type of H with (copy_keys _ ?W _ _ ≫= ?K) = _ =>
    destruct (copy_keys ord W ab res) as [w3|] eqn:Eck; [|done]; cbn [mbind option_bind] in H;
    pose proof (bind_tail ord (reset_result res rb w) res p db1 ab pb1 Hf Hdb1 (not_eq_sym Hrp) Hpb1) as Hbt2 end.
  rewrite Eck in Hbt2. cbn [mbind option_bind] in Hbt2.
  destruct (w_objs w3 !! res) as [rb3|]; [|done]. cbn [mbind option_bind] in H, Hbt2.
  match type of H with (?X ≫= _) = _ => destruct X as [pb2|]; [|done] end. cbn [mbind option_bind] in H, Hbt2.
  assert (E2 := Hbt2 ltac:(done) ltac:(done) ltac:(done) ltac:(done) ltac:(done) ltac:(done) ltac:(done)). apply (inj Some) in E2. rewrite E2 in H. clear E2 Hbt2.
  set (wb := bind_world res p ab pb1 (o_bad db1) (reset_result res rb w)) in *.
  assert (Kpb : o_keys pb1 = o_keys pb0 /\ o_recs pb1 = o_recs pb0 /\ o_order pb1 = o_order pb0 /\ o_uniq pb1 = o_uniq pb0 /\ o_static_set pb1 = o_static_set pb0) by (rewrite Epb1; done).
  destruct Kpb as (K1 & K2 & K3 & K4 & K5).
  assert (HIb : Inv true wb).
  { apply bind_world_inv; try done.
    - intros sbx Hsbx. assert (sbx = db1) as -> by congruence. done.
    - congruence.
    - apply target_ok_true; [done|]. intros sbx Hsbx. congruence.
    - intros _. rewrite K1, K3, K4. destruct STa as [S1 S2 S3 S4 S5 S6 S7 S8]. done. }
  set (pbx := ob_sets ({[res]} ∪ o_sets pb1) pb1) in *. set (zb0 := bound_obj p ab (o_bad db1)) in *.
  assert (Hpbx : w_objs wb !! p = Some pbx) by (cbn; by rewrite lookup_insert).
  assert (Hzb0 : w_objs wb !! res = Some zb0) by (cbn; rewrite lookup_insert_ne by done; by rewrite lookup_insert).
  assert (EK0 : forall k, o_keys zb0 !! k = o_keys ab !! k). { intros k. cbn. rewrite lookup_fmap. destruct (o_keys ab !! k) as [[t d]|] eqn:Ek; [|done]. cbn. by rewrite (st_type _ _ _ _ STa k t d Ek). }
  assert (AD : addable (live wb) zb0 pbx).
  { split.
    - cbn. clear. set_solver.
    - apply (vi_vault _ _ _ _ (inv_obj _ _ HIb) _ _ Hpbx). cbn. congruence.
    - apply map_eq. intros k. rewrite !lookup_fmap, EK0. cbn. rewrite K1. pose proof (f_equal (fun m => m !! k) (st_keys _ _ _ _ STa)) as E. cbn in E. by rewrite !lookup_fmap in E.
    - intros k td Hk. rewrite EK0 in Hk. exists (Idx true [] []). split; [cbn; by rewrite lookup_fmap, Hk|]. split; [apply good_empty|done]. }
  destruct (if size (o_recs ab) <? size (o_recs bb) then (o_recs ab, o_recs bb) else (o_recs bb, o_recs ab)) as [small big] eqn:Esb.
  destruct (foldM _ _ _) as [w6|] eqn:E6; [|done]. cbn in H. injection H as <- <-.
  assert (Hsm : small ⊆ o_recs pb0). { pose proof (st_recs _ _ _ _ STa). pose proof (st_recs _ _ _ _ STb). destruct (size (o_recs ab) <? size (o_recs bb)); by injection Esb as <- <-. }
  apply (take_filter_fold _ _ _ _ zb0) in E6; [|done|rewrite (Hf _); apply NoDup_elements|intros r _; cbn; apply not_elem_of_empty].
  destruct (take_un_fold res (filter (fun r => r ∈ big) (ord (elements small))) wb zb0 pbx w6 AD Hzb0) as (zb' & H1 & H2 & H3 & H4 & H5 & H6 & H7 & H8); [|exact E6|].
  { intros r Hin. apply elem_of_list_filter in Hin as [_ Hin]. apply WorldProofs.fair_elem in Hin; [|done]. cbn. rewrite K2. by apply Hsm. }
  exists zb'. split; [split; [done|by rewrite H5]|]. destruct H3 as (S1 & S2 & S3 & S4). split.
  { unfold equal_keys, get_keys, get_unique_keys, get_key_type. rewrite S1, S2, S3. split; [done|]. split; [done|]. intros k. by rewrite EK0. }
  intros k Hk v r. unfold get_key_type in Hk. rewrite S1 in Hk. apply fmap_is_Some in Hk. destruct (H8 k v r Hk) as [F1 F2]. rewrite F1, F2, stored_val_of, H7, H6. cbn.
  assert (Z : forall k v r, ~ filed zb0 k v r /\ ~ filed_ord zb0 k v r).
  { clear. intros k v r. unfold filed, filed_ord. cbn. rewrite lookup_fmap. destruct (o_keys ab !! k); cbn; split; intros (ix & E & Hin); try done; injection E as <-; by apply elem_of_nil in Hin. }
  destruct (Z k v r) as [Z1 Z2]. assert (Z3 : r ∉ (∅ : gset nat)) by apply not_elem_of_empty. clear - Z1 Z2 Z3. tauto.
Qed.

(** Exclude and Intersect visit the records of the set. *)
Lemma subtract_fold ord s p (kc : bool) (X : gset nat) l w sb w' :
  Inv false w -> set_at w s sb -> o_parent sb = Some p -> NoDup l -> (forall r, r ∈ l -> r ∈ o_recs sb) ->
  foldM (fun (w : world) (r : nat) => if bool_decide (r ∈ X) then (if kc then Some w else '(w', _) ← remove_record ord w s r; Some w')
                    else (if kc then '(w', _) ← remove_record ord w s r; Some w' else Some w)) w l = Some w' ->
  foldM (fun (w : world) (r : nat) => detach (dfuel w) ord w s r) w (filter (fun r => bool_decide (r ∈ X) <> kc) l) = Some w'.
Proof.
  revert w sb. induction l as [|r l IH]; intros w sb HI HS Hp Hnd Hin H; [done|]. apply NoDup_cons in Hnd as [Hnr Hnd]. rewrite filter_cons. pose proof HS as [Hs Hst].
  assert (Hin' : forall x, x ∈ l -> x ∈ o_recs sb) by (intros x Hx; apply Hin; by right). destruct (decide (bool_decide (r ∈ X) <> kc)) as [Hd|Hd].
  - cbn [foldM]. assert (E2 : ('(w', _) ← remove_record ord w s r; foldM (fun (w : world) (r : nat) => if bool_decide (r ∈ X) then (if kc then Some w else '(w', _) ← remove_record ord w s r; Some w')
                    else (if kc then '(w', _) ← remove_record ord w s r; Some w' else Some w)) w' l) = Some w').
    { cbn [foldM] in H. destruct (bool_decide (r ∈ X)), kc; try done; destruct (remove_record ord w s r) as [[w2 c]|]; done. }
    assert (ER : remove_record ord w s r = (w' ← detach (dfuel w) ord w s r; Some (w', true))) by (unfold remove_record; rewrite Hs; cbn [mbind option_bind]; by rewrite decide_True by (apply Hin; by left)).
    rewrite ER in E2. destruct (detach (dfuel w) ord w s r) as [w1|] eqn:E; [|done]. cbn [mbind option_bind] in E2 |- *. unfold dfuel in E.
    destruct (detach_set_ok _ _ _ _ _ _ _ _ HI Hs Hst Hp E) as (rc & Hrc & -> & HI1).
    eapply (IH _ (drop_rec (r_data rc) r sb)); [done|split; [cbn; by rewrite lookup_insert|done]|done|done| |done].
    intros x Hx. cbn. apply elem_of_difference. split; [by apply Hin'|]. intros ->%elem_of_singleton. done.
  - eapply IH; [done|done|done|done|done|]. cbn [foldM] in H. destruct (bool_decide (r ∈ X)), kc; try done; by destruct Hd.
Qed.
Lemma subtract_answers kc ord w s a sb ab w' res : fair ord -> reach true w -> set_at w s sb -> set_at w a ab -> set_subtract kc ord w s a = Some (w', res) -> res_ok res = true ->
  exists sb', set_at w' s sb' /\ o_parent sb' = o_parent sb /\ same_schema sb sb' /\
    forall k v r, is_Some (get_key_type sb k) ->
      (filed sb' k v r <-> filed sb k v r /\ ~ (r ∈ o_recs sb /\ bool_decide (r ∈ o_recs ab) <> kc)) /\
      (filed_ord sb' k v r <-> filed_ord sb k v r /\ forall x, x ∈ o_recs sb -> bool_decide (x ∈ o_recs ab) <> kc -> ~ filed_ord sb k v x).
Proof.
  intros Hf HR HS HA H Hok. pose proof HS as [Hs Hst]. pose proof HA as [Ha Hat]. pose proof (Inv_wide _ _ (reach_inv _ _ HR)) as HI.
  unfold set_subtract in H. rewrite Hs, Ha in H. cbn [mbind option_bind] in H. unfold algebra_check in H. destruct (o_parent sb) as [p|] eqn:Ep; [|injection H as <- <-; done].
  destruct (o_parent ab) as [p'|] eqn:Ep'; [|injection H as <- <-; done]. destruct (decide (p' = p)) as [->|]; [|injection H as <- <-; done].
  destruct (decide (s = a)) as [|Hne]; [injection H as <- <-; done|]. destruct (foldM _ _ _) as [w1|] eqn:E; [|done]. cbn [mbind option_bind] in H. injection H as <- <-.
  destruct (safe_set _ _ _ _ HR HS Ep) as [Hix Hval].
  assert (ND : NoDup (ord (elements (o_recs sb)))) by (rewrite (Hf _); apply NoDup_elements).
  apply (subtract_fold ord s p kc (o_recs ab) _ w sb) in E; try done.
  2:{ intros r Hr. by apply WorldProofs.fair_elem in Hr. }
  destruct (detach_set_exact ord s p (filter (fun r => bool_decide (r ∈ o_recs ab) <> kc) (ord (elements (o_recs sb)))) w sb w1 HI HS Ep Hix Hval) as (_ & sb' & H2 & L1 & L2 & L3 & L4); [| |exact E|].
  { by apply NoDup_filter. }
  { intros r Hr. apply elem_of_list_filter in Hr as [_ Hr]. by apply WorldProofs.fair_elem in Hr. }
  exists sb'. split; [done|]. split; [congruence|]. split; [done|]. intros k v r Hk. destruct (L4 k v r Hk) as [F1 F2]. rewrite F1, F2, elem_of_list_filter, (WorldProofs.fair_elem ord) by done. split.
  - clear. tauto.
  - split; intros [G1 G2]; (split; [done|]).
    + intros x Hx Hb. apply G2. apply elem_of_list_filter. rewrite (WorldProofs.fair_elem ord) by done. done.
    + intros x Hx. apply elem_of_list_filter in Hx as [Hb Hx]. apply WorldProofs.fair_elem in Hx; [|done]. by apply G2.
Qed.

Lemma set_filed_in w s sb k v r : reach true w -> set_at w s sb -> is_Some (get_key_type sb k) -> filed sb k v r -> r ∈ o_recs sb.
Proof.
  intros HR HS Hk (ix & Hix & Hin). unfold get_key_type in Hk. apply fmap_is_Some in Hk as [td Hk]. destruct (o_parent sb) as [p|] eqn:Ep.
  - destruct (safe_set _ _ _ _ HR HS Ep) as [[_ V] _]. destruct (V _ _ Hk) as (ix' & Hix' & G). assert (ix' = ix) as -> by congruence. by apply (g_hash _ _ _ G) in Hin as [? _].
  - destruct HS as [Hs Hst]. pose proof (vi_set _ _ _ _ (inv_obj _ _ (reach_inv _ _ HR)) _ _ Hs Hst) as SO. destruct (so_none _ _ _ _ _ _ SO Ep) as (_ & _ & E & _). by rewrite E in Hk.
Qed.
(** C23: Exclude takes the removed records out of the answers of the set by equality, and out of its answers in order together with all records that share a value with one of them. *)
Lemma t_C23_exclude_answers :
  forall ord w s a sb ab w' res, fair ord -> reach true w -> set_at w s sb -> set_at w a ab -> step ord w (OExclude s a) = Some (w', ORes res) -> res_ok res = true ->
    exists sb', set_at w' s sb' /\ o_parent sb' = o_parent sb /\ same_schema sb sb' /\
      forall k v r, is_Some (get_key_type sb k) ->
        (filed sb' k v r <-> filed sb k v r /\ r ∉ o_recs ab) /\
        (filed_ord sb' k v r <-> filed_ord sb k v r /\ forall x, x ∈ o_recs sb -> x ∈ o_recs ab -> ~ filed_ord sb k v x).
Proof.
  intros ord w s a sb ab w' res Hf HR HS HA H Hok. cbn [step] in H. rewrite (set_guard _ _ _ HS), (set_guard _ _ _ HA) in H. cbn [andb guard_op] in H. apply res_inv in H as (res' & H & E). injection E as <-.
  destruct (subtract_answers false ord w s a sb ab w' res Hf HR HS HA H Hok) as (sb' & H1 & H2 & H3 & H4). exists sb'. split; [done|]. split; [done|]. split; [done|].
  intros k v r Hk. destruct (H4 k v r Hk) as [F1 F2]. rewrite F1, F2.
  assert (BD : forall x, bool_decide (x ∈ o_recs ab) <> false <-> x ∈ o_recs ab). { intros x. rewrite not_false_iff_true. apply bool_decide_eq_true. }
  split.
  - rewrite BD. split; intros [G1 G2]; (split; [done|]); [|clear - G2; tauto]. intros Hin. apply G2. split; [|done]. by eapply set_filed_in.
  - split; intros [G1 G2]; (split; [done|]); intros x Hx Hy; apply G2; try done; by apply BD.
Qed.
(** C23: the same for Intersect. *)
Lemma t_C23_intersect_answers :
  forall ord w s a sb ab w' res, fair ord -> reach true w -> set_at w s sb -> set_at w a ab -> step ord w (OIntersect s a) = Some (w', ORes res) -> res_ok res = true ->
    exists sb', set_at w' s sb' /\ o_parent sb' = o_parent sb /\ same_schema sb sb' /\
      forall k v r, is_Some (get_key_type sb k) ->
        (filed sb' k v r <-> filed sb k v r /\ r ∈ o_recs ab) /\
        (filed_ord sb' k v r <-> filed_ord sb k v r /\ forall x, x ∈ o_recs sb -> x ∉ o_recs ab -> ~ filed_ord sb k v x).
Proof.
  intros ord w s a sb ab w' res Hf HR HS HA H Hok. cbn [step] in H. rewrite (set_guard _ _ _ HS), (set_guard _ _ _ HA) in H. cbn [andb guard_op] in H. apply res_inv in H as (res' & H & E). injection E as <-.
  destruct (subtract_answers true ord w s a sb ab w' res Hf HR HS HA H Hok) as (sb' & H1 & H2 & H3 & H4). exists sb'. split; [done|]. split; [done|]. split; [done|].
  intros k v r Hk. destruct (H4 k v r Hk) as [F1 F2]. rewrite F1, F2.
  assert (BD : forall x, bool_decide (x ∈ o_recs ab) <> true <-> x ∉ o_recs ab). { intros x. rewrite not_true_iff_false. apply bool_decide_eq_false. }
  split.
  - rewrite BD. split; intros [G1 G2]; (split; [done|]); [|clear - G2; tauto]. apply dec_stable. intros Hin. apply G2. split; [|done]. by eapply set_filed_in.
  - split; intros [G1 G2]; (split; [done|]); intros x Hx Hy; apply G2; try done; by apply BD.
Qed.
