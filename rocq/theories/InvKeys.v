(** Key operations keep the invariant: UpdateKey, RemoveKey, AddKey. *)
From Verif Require Export InvSetData.
Open Scope nat_scope.

(** A general frame: the contents of the records of vault [o] change by [G], [o] and its sets change their keys and
    indexes, everything else stays. *)
Definition set_kept (sb sb' : obj) : Prop :=
  o_static_set sb' = o_static_set sb /\ o_isset sb' = o_isset sb /\ o_sets sb' = o_sets sb /\ o_parent sb' = o_parent sb /\ o_recs sb' = o_recs sb /\
  forall k ix e, o_idx sb' !! k = Some ix -> e ∈ ix_hash ix \/ e ∈ ix_tree ix ->
    e.2 ∈ o_recs sb \/ exists ix0, o_idx sb !! k = Some ix0 /\ (e ∈ ix_hash ix0 \/ e ∈ ix_tree ix0).

Lemma key_change_inv b w w' o ob ob' (G : nat -> gmap string value -> gmap string value) :
  Inv b w -> w_objs w !! o = Some ob -> o_static_set ob = false ->
  w_refs w' = w_refs w -> w_next w' = w_next w ->
  (forall x, (fun rc => (r_valid rc, r_refs rc)) <$> w_recs w' !! x = (fun rc => (r_valid rc, r_refs rc)) <$> w_recs w !! x) ->
  (forall x, live w' !! x = (fun l => if decide (x ∈ o_recs ob) then (G x l.1, l.2) else l) <$> live w !! x) ->
  w_objs w' !! o = Some ob' -> o_static_set ob' = false -> o_sets ob' = o_sets ob -> o_recs ob' = o_recs ob -> vault_ok (live w') ob' ->
  (forall x, x <> o -> match w_objs w !! x, w_objs w' !! x with
     | None, None => True
     | Some xb, Some xb' => if decide (o_static_set xb = true /\ o_parent xb = Some o)
         then set_kept xb xb' /\ (b = true -> strict (live w') x xb' ob') else xb' = xb
     | _, _ => False end) ->
  Inv b w'.
Proof.
  intros HI Ho Hst Hrefs Hnext Hsame HL Ho' Hst' Hsets Hrecs Hvok Hx.
  pose proof (inv_obj _ _ HI) as HV.
  assert (Hsome : forall x, is_Some (live w' !! x) <-> is_Some (live w !! x)) by (intros x; rewrite HL; by rewrite fmap_is_Some).
  assert (Hheap : forall x, is_Some (w_recs w' !! x) <-> is_Some (w_recs w !! x)).
  { intros x. specialize (Hsame x). destruct (w_recs w' !! x), (w_recs w !! x); try done; split; eauto. }
  split.
  - intros x Hxx. rewrite Hnext. by apply HI, Hheap.
  - rewrite Hrefs. eapply RInv_same; [|apply HI]. done.
  - rewrite Hnext. eapply (VInv_vault_change b (w_objs w) _ (live w) _ (w_next w) (w_next w) o ob ob'); try done.
    + intros x Hne. specialize (Hx x Hne). destruct (w_objs w !! x) as [xb|] eqn:Ex, (w_objs w' !! x) as [xb'|] eqn:Ex'; try done.
      destruct (decide (o_static_set xb = true /\ o_parent xb = Some o)) as [[Hxs Hxp]|]; [|done].
      destruct Hx as [(K1 & K2 & K3 & K4 & K5 & K6) Hstr]. pose proof (vi_set _ _ _ _ HV _ _ Ex Hxs) as [B1 B2 B3 B4 B5 B6].
      destruct (B6 _ Hxp) as (ob0 & Hob0 & _ & _ & [P1 P2 P3]). assert (ob0 = ob) as -> by congruence.
      split; [congruence|]. split; [congruence|]. split; [congruence|]. split; [congruence|]. split; [|split; [|split]].
      * intros k ix e Hix He. destruct (K6 _ _ _ Hix He) as [He2|(ix0 & Hix0 & He0)]; eauto.
      * rewrite K5. done.
      * intros k ix e Hix He Hle. rewrite Hrecs. apply Hsome in Hle. destruct (K6 _ _ _ Hix He) as [He2|(ix0 & Hix0 & He0)]; eauto.
      * rewrite K5, Hrecs. intros r Hr Hl. apply P2; [done|]. by apply Hsome.
      * done.
    + intros r Hr _. rewrite HL. destruct (live w !! r); [|done]. cbn. by rewrite decide_False.
    + rewrite Hrecs. done.
    + intros r Hr. by eapply Inv_live_bound.
    + rewrite Hrecs. done.
    + rewrite Hrecs. intros r l' s Hr Hl' Hs. rewrite HL in Hl'. destruct (live w !! r) as [l|] eqn:El; [|done]. cbn in Hl'.
      rewrite decide_True in Hl' by done. injection Hl' as <-. cbn in Hs.
      destruct (vi_deps _ _ _ _ HV _ _ _ El Hs) as [D1 D2]. split.
      * intros sb Hsb. destruct (D1 _ Hsb) as [D3 D4]. split; [done|]. intros p Hp. destruct (D4 _ Hp) as (pb & Hpb & Hpst & Hin).
        by eapply (vi_disj _ _ _ _ HV).
      * intros Hb. destruct (D2 Hb) as (sb & Hsb & Hin). destruct (D1 _ Hsb) as [D3 _].
        assert (Hso : s <> o) by congruence. specialize (Hx s Hso). rewrite Hsb in Hx. destruct (w_objs w' !! s) as [sb'|]; [|done].
        exists sb'. split; [done|]. destruct (decide _); [|by subst]. destruct Hx as [(_ & _ & _ & _ & K5 & _) _]. by rewrite K5.
  - rewrite Hrefs. eapply vlt_ok_frame; [apply HI|]. intros f rf r x xb' Hf Hr Hxb' Hxs Hl. split; [by apply Hsome|].
    destruct (decide (x = o)) as [->|Hne].
    + assert (xb' = ob') as -> by congruence. exists ob. rewrite Hrecs. done.
    + specialize (Hx x Hne). rewrite Hxb' in Hx. destruct (w_objs w !! x) as [xb|]; [|done]. exists xb. split; [done|].
      destruct (decide _) as [[Hxs2 _]|]; [|by subst]. destruct Hx as [(K1 & _) _]. congruence.
Qed.

Lemma set_kept_refl sb : set_kept sb sb.
Proof. repeat (split; [done|]). eauto. Qed.

(** ** UpdateKey *)
Lemma typed_insert keys data k t d v : typed keys data -> vty v = t -> typed (<[k := (t, d)]> keys) (<[k := v]> data).
Proof.
  intros H Hv k'. destruct (decide (k' = k)) as [->|]; [by rewrite !lookup_insert|]. rewrite !lookup_insert_ne by done. apply H.
Qed.
Lemma typed_insert_l keys data k t d v : typed keys data -> keys !! k = Some (t, d) -> vty v = t -> typed keys (<[k := v]> data).
Proof.
  intros H Hk Hv k'. destruct (decide (k' = k)) as [->|]; [by rewrite lookup_insert, Hk|]. rewrite lookup_insert_ne by done. apply H.
Qed.
Lemma typed_delete keys data k : typed keys data -> typed (delete k keys) (delete k data).
Proof.
  intros H k'. destruct (decide (k' = k)) as [->|]; [by rewrite !lookup_delete|]. rewrite !lookup_delete_ne by done. apply H.
Qed.

Definition update_key_answer (ob : obj) (k : string) (d : value) : opres :=
  match o_keys ob !! k with
  | None => bad WrongKey k (Some (vty d)) None
  | Some (t, _) => if decide (t = vty d) then
                     if decide (k ∈ o_uniq ob) then bad UniqueKey k (Some (vty d)) (Some t)
                     else okres Success k (Some (vty d)) (Some (vty d))
                   else bad WrongType k (Some (vty d)) (Some t)
  end.

Lemma update_key_ok b w o ob k d :
  Inv b w -> w_objs w !! o = Some ob -> o_static_set ob = false ->
  exists w', update_key w o k d = Some (w', update_key_answer ob k d) /\ Inv b w' /\
    w' = if res_ok (update_key_answer ob k d) then set_obj o (ob_tmpl (<[k := d]> (o_tmpl ob)) ob) w else w.
Proof.
  intros HI Ho Hst. unfold update_key, update_key_answer. rewrite Ho. cbn [mbind option_bind].
  destruct (o_keys ob !! k) as [[t d0]|] eqn:Ek; [|by eauto].
  destruct (decide (t = vty d)) as [->|]; [|by eauto]. destruct (decide (k ∈ o_uniq ob)) as [Hu|Hu]; [by eauto|].
  eexists. split; [done|]. split; [|done].
  pose proof (vi_vault _ _ _ _ (inv_obj _ _ HI) _ _ Ho Hst) as Hv.
  eapply (key_change_inv b w _ o ob (ob_tmpl (<[k := d]> (o_tmpl ob)) ob) (fun _ x => x)); try done.
  - intros x. change (live (set_obj o (ob_tmpl (<[k:=d]> (o_tmpl ob)) ob) w)) with (live w). destruct (live w !! x) as [[]|]; [|done]. cbn. by destruct (decide _).
  - cbn. by rewrite lookup_insert.
  - change (live (set_obj o (ob_tmpl (<[k:=d]> (o_tmpl ob)) ob) w)) with (live w). destruct Hv as [H1 H2 [K1 K2 K3 K4 K5 K6] H4 H5]. split; try done. split; try done.
    cbn. by eapply typed_insert_l.
  - intros x Hx. cbn. rewrite lookup_insert_ne by done. destruct (w_objs w !! x) as [xb|] eqn:Ex; [|done].
    destruct (decide _) as [[Hxs Hxp]|]; [|done]. split; [apply set_kept_refl|]. intros Hb.
    destruct (Inv_set_facts _ _ _ _ _ HI Ex Hxs Hxp) as (pb & Hpb & _ & _ & _ & Hpar). assert (pb = ob) as -> by congruence.
    pose proof (sp_strict _ _ _ _ _ Hpar Hb) as [S1 S2 S3 S4 S5 S6 S7 S8]. by split.
Qed.

(** ** RemoveKey *)
Definition unkey (k : string) (ob : obj) : obj := match o_keys ob !! k with None => ob | Some _ => remove_key_obj k ob end.
Definition rd_erase (k : string) (rc : recd) : recd := rd_data (delete k (r_data rc)) rc.
Definition key_removed (k : string) (o : nat) (ob : obj) (w : world) : world :=
  World (upd_on (fun _ => rd_erase k) (o_recs ob) (w_recs w)) (upd_on (fun _ => unkey k) ({[o]} ∪ o_sets ob) (w_objs w)) (w_refs w) (w_next w).

Lemma remove_key_eq b ord w o ob k td :
  fair ord -> Inv b w -> w_objs w !! o = Some ob -> o_static_set ob = false -> o_keys ob !! k = Some td ->
  remove_key ord w o k = Some (key_removed k o ob w, true).
Proof.
  intros Hf HI Ho Hst Hk. unfold remove_key. rewrite Ho. cbn [mbind option_bind]. rewrite Hk.
  pose proof (vi_vault _ _ _ _ (inv_obj _ _ HI) _ _ Ho Hst) as Hv. rewrite (v_isset _ _ Hv).
  rewrite (foldM_recs (rec_erase k) (fun _ => rd_erase k)); [|done|apply NoDup_elements|].
  2:{ intros r Hr. apply elem_of_elements in Hr. cbn. by eapply vault_recs_heap. }
  cbn [mbind option_bind]. rewrite list_to_set_elements_L.
  set (w2 := w_set_recs _ _).
  assert (Hso : o ∉ o_sets ob).
  { intros Hin. destruct (vi_sets _ _ _ _ (inv_obj _ _ HI) _ _ _ Ho Hst Hin) as (sb & Hsb & Hss & _). congruence. }
  rewrite (foldM_objs _ (fun _ => unkey k) (fun _ db => o_isset db = true)).
  - cbn. f_equal. f_equal. unfold key_removed, w_set_objs, w2. cbn. f_equal. rewrite list_to_set_ord by done.
    apply map_eq. intros x. rewrite !lookup_upd_on. destruct (decide (x = o)) as [->|Hne].
    + rewrite lookup_insert, Ho. cbn. rewrite decide_False by done. rewrite decide_True by set_solver. unfold unkey. by rewrite Hk.
    + rewrite lookup_insert_ne by done. destruct (w_objs w !! x); [|done]. cbn. repeat case_decide; try done; set_solver.
  - intros w' d db _ Hd Hs. unfold remove_key_set, unkey. rewrite Hd. cbn [mbind option_bind]. destruct (o_keys db !! k); [by rewrite Hs|].
    f_equal. rewrite <- (world_eta w') at 1. unfold set_obj. f_equal. by rewrite insert_id.
  - by apply fair_NoDup.
  - intros d Hd. apply fair_elem in Hd; [|done]. destruct (vi_sets _ _ _ _ (inv_obj _ _ HI) _ _ _ Ho Hst Hd) as (sb & Hsb & Hss & _).
    exists sb. cbn. rewrite lookup_insert_ne by (intros ->; done). split; [done|]. by apply (vi_set _ _ _ _ (inv_obj _ _ HI) _ _ Hsb Hss).
Qed.

Lemma live_key_removed k o ob w x :
  live (key_removed k o ob w) !! x = (fun l => if decide (x ∈ o_recs ob) then (delete k l.1, l.2) else l) <$> live w !! x.
Proof.
  unfold live. cbn. rewrite !lookup_live_of, lookup_upd_on. destruct (w_recs w !! x) as [rc|]; [|done]. cbn.
  destruct (decide (x ∈ o_recs ob)); unfold live_rec; cbn; by destruct (r_valid rc).
Qed.
Lemma val_of_key_removed k o ob w x k' : x ∈ o_recs ob ->
  val_of (live (key_removed k o ob w)) k' x = if decide (k' = k) then None else val_of (live w) k' x.
Proof.
  intros Hx. unfold val_of. rewrite live_key_removed. destruct (live w !! x) as [l|]; cbn; [|by destruct (decide _)].
  rewrite decide_True by done. cbn. destruct (decide (k' = k)) as [->|]; [by rewrite lookup_delete|by rewrite lookup_delete_ne].
Qed.

Lemma elem_remove_first k l x : NoDup l -> x ∈ remove_first k l <-> x ∈ l /\ x <> k.
Proof.
  induction 1 as [|y l Hy Hn IH]; cbn; [set_solver|]. destruct (decide (y = k)) as [->|]; [set_solver|].
  rewrite !elem_of_cons, IH. naive_solver.
Qed.
Lemma NoDup_remove_first k l : NoDup l -> NoDup (remove_first k l).
Proof.
  induction 1 as [|y l Hy Hn IH]; cbn; [constructor|]. destruct (decide (y = k)) as [->|]; [done|]. constructor; [|done].
  rewrite elem_remove_first by done. tauto.
Qed.
Lemma StronglySorted_filter_str (P : string -> Prop) `{forall x, Decision (P x)} l : StronglySorted strlt l -> StronglySorted strlt (filter P l).
Proof.
  induction 1 as [|y l Hs IH Hy]; [rewrite filter_nil; constructor|]. rewrite filter_cons. destruct (decide (P y)); [|done]. constructor; [done|].
  rewrite Forall_forall in *. intros x Hx. apply elem_of_list_filter in Hx as [_ Hx]. auto.
Qed.

Lemma unkey_vault_ok b w o ob k td :
  Inv b w -> w_objs w !! o = Some ob -> o_static_set ob = false -> o_keys ob !! k = Some td ->
  vault_ok (live (key_removed k o ob w)) (remove_key_obj k ob).
Proof.
  intros HI Ho Hst Hk. pose proof (vi_vault _ _ _ _ (inv_obj _ _ HI) _ _ Ho Hst) as [H1 H2 [K1 K2 K3 K4 K5 K6] H4 H5].
  split; [done|done| | |].
  - split; cbn.
    + by apply typed_delete.
    + intros k' t d Hd. apply lookup_delete_Some in Hd as [_ Hd]. eauto.
    + by apply NoDup_remove_first.
    + intros k'. rewrite elem_remove_first by done. rewrite K4. rewrite lookup_delete_is_Some. naive_solver.
    + intros k' Hk'. apply elem_of_list_filter in Hk' as [Hne Hk']. apply lookup_delete_is_Some. split; [done|auto].
    + by apply StronglySorted_filter_str.
  - cbn. intros r Hr. destruct (H4 _ Hr) as (l & Hl & Ht). rewrite live_key_removed, Hl. cbn. eexists. split; [done|].
    rewrite decide_True by done. cbn. by apply typed_delete.
  - cbn. intros k' td' Hk'. apply lookup_delete_Some in Hk' as [Hne Hk']. rewrite lookup_delete_ne by done.
    destruct (H5 _ _ Hk') as (ix & Hix & (G1 & G2 & G3) & Hm). exists ix. split; [done|]. split.
    + eapply (idx_ok_frame (live w)). { intros r Hr. rewrite val_of_key_removed by done. by rewrite decide_False. }
      split; [done|]. split.
      * intros Hmm. apply elem_of_list_filter. auto.
      * intros Hu. apply elem_of_list_filter in Hu as [_ Hu]. auto.
    + intros Hu. apply elem_of_list_filter in Hu as [_ Hu]. auto.
Qed.

Lemma unkey_kept k sb : set_kept sb (unkey k sb).
Proof.
  unfold unkey. destruct (o_keys sb !! k); [|apply set_kept_refl]. repeat (split; [done|]). cbn. intros k' ix e Hix He.
  apply lookup_delete_Some in Hix as [_ Hix]. eauto.
Qed.

Lemma remove_key_ok b ord w o ob k :
  fair ord -> Inv b w -> w_objs w !! o = Some ob -> o_static_set ob = false ->
  exists w', remove_key ord w o k = Some (w', bool_decide (is_Some (o_keys ob !! k))) /\ Inv b w' /\
    w' = if decide (is_Some (o_keys ob !! k)) then key_removed k o ob w else w.
Proof.
  intros Hf HI Ho Hst. destruct (o_keys ob !! k) as [td|] eqn:Ek.
  2:{ unfold remove_key. rewrite Ho. cbn [mbind option_bind]. rewrite Ek. exists w. done. }
  rewrite (remove_key_eq b _ _ _ ob _ td) by done. rewrite bool_decide_true by eauto. rewrite decide_True by eauto.
  eexists. split; [done|]. split; [|done].
  assert (Hso : o ∉ o_sets ob).
  { intros Hin. destruct (vi_sets _ _ _ _ (inv_obj _ _ HI) _ _ _ Ho Hst Hin) as (sb & Hsb & Hss & _). congruence. }
  eapply (key_change_inv b w _ o ob (remove_key_obj k ob) (fun _ => delete k)); try done.
  - intros x. cbn. rewrite lookup_upd_on. destruct (w_recs w !! x); [|done]. cbn. by destruct (decide _).
  - intros x. apply live_key_removed.
  - cbn. rewrite lookup_upd_on, Ho. cbn. rewrite decide_True by set_solver. unfold unkey. by rewrite Ek.
  - by eapply unkey_vault_ok.
  - intros x Hx. cbn. rewrite lookup_upd_on. destruct (w_objs w !! x) as [xb|] eqn:Ex; [|done]. cbn.
    destruct (decide (o_static_set xb = true /\ o_parent xb = Some o)) as [[Hxs Hxp]|Hn].
    + destruct (Inv_set_facts _ _ _ _ _ HI Ex Hxs Hxp) as (pb & Hpb & _ & Hin & _ & Hpar). assert (pb = ob) as -> by congruence.
      rewrite decide_True by set_solver. split; [apply unkey_kept|]. intros Hb.
      pose proof (sp_strict _ _ _ _ _ Hpar Hb) as [S1 S2 S3 S4 S5 S6 S7 S8].
      assert (Hks : is_Some (o_keys xb !! k)).
      { pose proof (f_equal (fun m => m !! k) S1) as E. cbn in E. rewrite !lookup_fmap, Ek in E. destruct (o_keys xb !! k); [eauto|done]. }
      destruct Hks as [tds Hks]. unfold unkey. rewrite Hks. split; cbn.
      * by rewrite !fmap_delete, S1.
      * intros k' t d Hd. apply lookup_delete_Some in Hd as [_ Hd]. eauto.
      * by apply typed_delete.
      * by rewrite S4.
      * by rewrite S5.
      * done.
      * intros r l Hr Hl. rewrite live_key_removed in Hl. destruct (live w !! r) as [l0|] eqn:El; [|done]. cbn in Hl. injection Hl as <-.
        pose proof (S7 _ _ Hr El). by destruct (decide _).
      * intros k' td' Hk'. apply lookup_delete_Some in Hk' as [Hne Hk']. rewrite lookup_delete_ne by done.
        destruct (S8 _ _ Hk') as (ix & Hix & (G1 & G2 & G3)). exists ix. split; [done|].
        eapply (idx_ok_frame (live w)). { intros r Hr. rewrite val_of_key_removed by auto. by rewrite decide_False. }
        split; [done|]. split.
        -- intros Hmm. apply elem_of_list_filter. auto.
        -- intros Hu. apply elem_of_list_filter in Hu as [_ Hu]. auto.
    + destruct (decide (x ∈ {[o]} ∪ o_sets ob)) as [Hin|]; [|done]. exfalso.
      apply elem_of_union in Hin as [?%elem_of_singleton|Hin]; [done|].
      destruct (vi_sets _ _ _ _ (inv_obj _ _ HI) _ _ _ Ho Hst Hin) as (sb & Hsb & Hss & Hsp). apply Hn. split; congruence.
Qed.
