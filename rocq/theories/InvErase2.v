(** EraseRecord, EraseRecords, RemoveRecord on vaults and sets. *)
From Verif Require Export InvErase.
Open Scope nat_scope.

Definition same_shape (ob ob' : obj) : Prop := ob' = ob_recs (o_recs ob') (ob_idx (o_idx ob') ob).
Lemma same_shape_refl ob : same_shape ob ob.
Proof. by destruct ob. Qed.
Lemma same_shape_trans a c d : same_shape a c -> same_shape c d -> same_shape a d.
Proof. unfold same_shape. intros -> ->. done. Qed.
Lemma same_shape_drop data r ob : same_shape ob (drop_rec data r ob).
Proof. done. Qed.
Lemma same_shape_drop_if data r ob : same_shape ob (drop_rec_if data r ob).
Proof. unfold drop_rec_if. destruct (decide _); [done|apply same_shape_refl]. Qed.

(** Records [X] of vault [o] are gone. *)
Record erased (o : nat) (X : gset nat) (w w' : world) : Prop := Erased {
  er_refs : w_refs w' = w_refs w;
  er_next : w_next w' = w_next w;
  er_live : forall x, live w' !! x = if decide (x ∈ X) then None else live w !! x;
  er_heap : forall x, is_Some (w_recs w' !! x) -> is_Some (w_recs w !! x);
  er_o : forall ob, w_objs w !! o = Some ob -> exists ob', w_objs w' !! o = Some ob' /\ same_shape ob ob' /\ o_recs ob' = o_recs ob ∖ X;
  er_idx : forall ob ob', w_objs w !! o = Some ob -> w_objs w' !! o = Some ob' -> forall k v r, is_Some (o_keys ob !! k) ->
    (filed ob' k v r <-> filed ob k v r /\ r ∉ X) /\
    (filed_ord ob' k v r <-> filed_ord ob k v r /\ forall x, x ∈ X -> ~ filed_ord ob k v x);
  er_objs : forall x, x <> o -> match w_objs w !! x, w_objs w' !! x with
    | None, None => True
    | Some xb, Some xb' => same_shape xb xb' /\ (~ set_of w o x -> xb' = xb) /\
        forall r, r ∈ o_recs xb' <-> r ∈ o_recs xb /\ ~ (r ∈ X /\ exists l, live w !! r = Some l /\ x ∈ l.2)
    | _, _ => False end
}.
Lemma erased_refl o w : erased o ∅ w w.
Proof.
  split; try done.
  - intros ob Ho. exists ob. split; [done|]. split; [apply same_shape_refl|]. by rewrite difference_empty_L.
  - intros ob ob' Ho Ho' k v r _. assert (ob' = ob) as -> by congruence. split; split; try tauto.
    + intros H. split; [done|apply not_elem_of_empty].
    + intros H. split; [done|]. intros x Hx. by apply not_elem_of_empty in Hx.
  - intros x Hx. destruct (w_objs w !! x) as [xb|]; [|done]. split; [apply same_shape_refl|]. split; [done|]. intros r. set_solver.
Qed.
Lemma shape_set_of w w' o x xb xb' :
  w_objs w !! x = Some xb -> w_objs w' !! x = Some xb' -> same_shape xb xb' -> set_of w' o x <-> set_of w o x.
Proof.
  intros H H' E. unfold set_of. rewrite H, H'. split; intros (y & [= <-] & Hs & Hp).
  - exists xb. rewrite E in Hs, Hp. done.
  - exists xb'. rewrite E. done.
Qed.
Lemma erased_trans o X Y w1 w2 w3 : erased o X w1 w2 -> erased o Y w2 w3 -> X ## Y -> erased o (X ∪ Y) w1 w3.
Proof.
  intros [A1 A2 A3 A4 A5 A7 A6] [B1 B2 B3 B4 B5 B7 B6] HXY. split; try congruence; try auto.
  - intros x. rewrite B3, A3. clear A7 B7 A5 B5 A6 B6 A4 B4. destruct (decide (x ∈ X)), (decide (x ∈ Y)), (decide (x ∈ X ∪ Y)); try done; set_solver.
  - intros ob Ho. destruct (A5 _ Ho) as (ob2 & Ho2 & S2 & R2). destruct (B5 _ Ho2) as (ob3 & Ho3 & S3 & R3).
    exists ob3. split; [done|]. split; [by eapply same_shape_trans|]. rewrite R3, R2. clear. set_solver.
  - intros ob ob3 Ho Ho3 k v r Hk. destruct (A5 _ Ho) as (ob2 & Ho2 & S2 & R2).
    destruct (A7 _ _ Ho Ho2 k v r Hk) as [F1 G1].
    assert (Hk2 : is_Some (o_keys ob2 !! k)) by (by rewrite S2).
    destruct (B7 _ _ Ho2 Ho3 k v r Hk2) as [F2 G2]. split.
    + rewrite F2, F1. rewrite not_elem_of_union. tauto.
    + rewrite G2, G1. split; [intros [[H1 H2] H3]|intros [H1 H2]].
      * split; [done|]. intros x Hx Hfx. destruct (A7 _ _ Ho Ho2 k v x Hk) as [_ Gx]. apply elem_of_union in Hx as [Hx|Hx]; [by eapply H2|].
        apply (H3 x Hx), Gx. done.
      * split; [split; [done|]|].
        -- intros x Hx. apply H2. by apply elem_of_union_l.
        -- intros x Hx Hfx. destruct (A7 _ _ Ho Ho2 k v x Hk) as [_ Gx]. apply Gx in Hfx as [Hfx _]. apply (H2 x); [by apply elem_of_union_r|done].
  - intros x Hx. clear A7 B7 A5 B5. specialize (A6 x Hx). specialize (B6 x Hx).
    destruct (w_objs w1 !! x) as [a|] eqn:E1, (w_objs w2 !! x) as [a2|] eqn:E2, (w_objs w3 !! x) as [a3|] eqn:E3; try done.
    destruct A6 as (S2 & N2 & R2), B6 as (S3 & N3 & R3). split; [by eapply same_shape_trans|]. split.
    + intros Hn. rewrite N3, N2; try done. by rewrite (shape_set_of w1 w2 _ _ _ _ E1 E2 S2).
    + intros r. rewrite R3, R2. rewrite A3. destruct (decide (r ∈ X)) as [HrX|HrX].
      * assert (r ∉ Y) by set_solver. split; [intros [[H1 H2] H3]|intros [H1 H2]].
        -- split; [done|]. intros [H4 H5]. apply H2. done.
        -- split; [|by intros [? _]]. split; [done|]. intros [_ H3]. apply H2. split; [set_solver|done].
      * split; [intros [[H1 H2] H3]|intros [H1 H2]].
        -- split; [done|]. intros [H4 H5]. apply H3. split; [set_solver|done].
        -- split; [split; [done|by intros [? _]]|]. intros [H3 H4]. apply H2. split; [set_solver|done].
Qed.

Lemma filed_drop L ob r l k v x :
  vault_ok L ob -> r ∈ o_recs ob -> L !! r = Some l -> is_Some (o_keys ob !! k) ->
  (filed (drop_rec l.1 r ob) k v x <-> filed ob k v x /\ x <> r) /\ (filed_ord (drop_rec l.1 r ob) k v x <-> filed_ord ob k v x /\ ~ filed_ord ob k v r).
Proof.
  intros Hv Hr Hl [td Hk]. destruct (v_idx _ _ Hv _ _ Hk) as (ix & Hix & (G & _) & _). destruct (v_recs _ _ Hv _ Hr) as (l' & Hl' & Ht).
  assert (l' = l) as -> by congruence. pose proof (val_of_typed L (o_keys ob) k td r l (vzero td.1) Hl Ht Hk) as Hval.
  set (v0 := get_typed l.1 k td.1 (vzero td.1)) in *.
  assert (Hix' : o_idx (drop_rec l.1 r ob) !! k = Some (idx_erase v0 r ix)). { rewrite lookup_drop_rec, Hix. cbn. by rewrite Hk. }
  unfold filed, filed_ord. rewrite Hix', Hix. split.
  - split.
    + intros (ix1 & [= <-] & Hin). cbn in Hin. apply elem_erase_entry in Hin as [Hne Hin]; [|apply G]. split; [by eauto|]. intros ->.
      apply (g_hash _ _ _ G) in Hin as [_ Hin']. congruence.
    + intros [(ix1 & [= <-] & Hin) Hne]. eexists. split; [done|]. cbn. apply elem_erase_entry; [apply G|]. split; [congruence|done].
  - split.
    + intros (ix1 & [= <-] & Hin). cbn in Hin. destruct (decide ((v0, r) ∈ ix_tree ix)) as [Hi|Hi].
      * apply elem_erase_value in Hin as [Hne Hin]. split; [by eauto|]. intros (ix1 & [= <-] & Hr1). apply (g_tree _ _ _ G) in Hr1 as [_ Hr1].
        cbn in Hne. congruence.
      * split; [by eauto|]. intros (ix1 & [= <-] & Hr1). pose proof (g_tree _ _ _ G _ _ Hr1) as [_ Hr2]. congruence.
    + intros [(ix1 & [= <-] & Hin) Hne]. eexists. split; [done|]. cbn. destruct (decide ((v0, r) ∈ ix_tree ix)) as [Hi|Hi]; [|done].
      apply elem_erase_value. split; [|done]. cbn. intros ->. apply Hne. eauto.
Qed.

Lemma detached_erased b w o ob r rc :
  Inv b w -> w_objs w !! o = Some ob -> o_static_set ob = false -> r ∈ o_recs ob -> w_recs w !! r = Some rc ->
  erased o {[r]} w (detached o r rc w).
Proof.
  intros HI Ho Hst Hr Hrc.
  destruct (deps_facts _ _ _ _ _ _ HI Ho Hst Hr Hrc) as (Hval & Hl & Hod & Hd & Hdb). split; try done.
  - intros x. rewrite live_detached. destruct (decide (x = r)), (decide (x ∈ {[r]})); try done; set_solver.
  - intros x [xc Hx]. cbn in Hx. rewrite lookup_invalidate_on in Hx. destruct (w_recs w !! x) eqn:E; [eauto|done].
  - intros ob' Hob'. assert (ob' = ob) as -> by congruence. exists (drop_rec (r_data rc) r ob). split; [|done].
    cbn. rewrite lookup_detach_objs, Ho. cbn. rewrite decide_False by done. by rewrite decide_True by done.
  - intros ob1 ob' Ho1 Ho' k v x Hk. assert (ob1 = ob) as -> by congruence.
    cbn in Ho'. rewrite lookup_detach_objs, Ho in Ho'. cbn in Ho'. rewrite decide_False in Ho' by done. rewrite decide_True in Ho' by done.
    apply (inj Some) in Ho' as <-. pose proof (vi_vault _ _ _ _ (inv_obj _ _ HI) _ _ Ho Hst) as Hv.
    destruct (filed_drop (live w) ob r (r_data rc, r_deps rc) k v x Hv Hr Hl Hk) as [F1 F2]. cbn [fst id] in *. unfold id. split.
    + rewrite F1. by rewrite elem_of_singleton.
    + rewrite F2. split; [intros [H1 H2]; split; [done|]; by intros y ->%elem_of_singleton|]. intros [H1 H2]. split; [done|]. apply H2. by apply elem_of_singleton.
  - intros x Hx. cbn. rewrite lookup_detach_objs. destruct (w_objs w !! x) as [xb|] eqn:Ex; [|done]. cbn.
    rewrite (decide_False (P := x = o)) by done. cbn. destruct (decide (x ∈ r_deps rc)) as [Hxd|Hxd]; cbn.
    + split; [apply same_shape_drop_if|]. split.
      * intros Hn. destruct (Hd _ _ Hxd Ex) as (D1 & D2 & [D3|[D3 D4]]); [destruct Hn; by exists xb|].
        unfold drop_rec_if. rewrite decide_False; [done|]. rewrite D4. apply not_elem_of_empty.
      * intros y. unfold drop_rec_if. destruct (decide (r ∈ o_recs xb)); cbn.
        -- rewrite elem_of_difference, elem_of_singleton. split; [intros [H1 H2]; split; [done|]; by intros [? _]|].
           intros [H1 H2]. split; [done|]. intros ->. apply H2. split; [done|]. eauto.
        -- split; [intros H1; split; [done|]; intros [->%elem_of_singleton _]; done|by intros [? _]].
    + split; [apply same_shape_refl|]. split; [done|]. intros y. split; [|by intros [? _]]. intros Hy. split; [done|].
      intros [->%elem_of_singleton (l & Hl2 & Hin)]. rewrite Hl in Hl2. injection Hl2 as <-. done.
Qed.

Lemma detach_fold b ord o l w ob :
  fair ord -> Inv b w -> w_objs w !! o = Some ob -> o_static_set ob = false -> NoDup l -> (forall r, r ∈ l -> r ∈ o_recs ob) ->
  Def b (foldM (fun w r => detach (dfuel w) ord w o r) w l) ->
  exists w', foldM (fun w r => detach (dfuel w) ord w o r) w l = Some w' /\ Inv b w' /\ erased o (list_to_set l) w w'.
Proof.
  revert w ob. induction l as [|r l IH]; intros w ob Hf HI Ho Hst Hn Hl HD; cbn [foldM] in *.
  - exists w. split; [done|]. split; [done|]. apply erased_refl.
  - apply NoDup_cons in Hn as [Hns Hn]. change (dfuel w) with (S (S (size (w_objs w)))) in *.
    destruct (detach_ok b (size (w_objs w)) ord w o ob r) as (rc & Hrc & E & HI1); try done. { apply Hl. by left. } { by eapply Def_bind. }
    rewrite E in *. cbn [mbind option_bind] in *.
    pose proof (detached_erased _ _ _ _ _ _ HI Ho Hst (Hl _ ltac:(by left)) Hrc) as He.
    destruct (er_o _ _ _ _ He _ Ho) as (ob1 & Ho1 & Hs1 & Hr1).
    destruct (IH (detached o r rc w) ob1) as (w' & E' & HI' & He'); try done.
    + rewrite Hs1. done.
    + intros x Hx. rewrite Hr1. apply elem_of_difference. split; [apply Hl; by right|]. intros ->%elem_of_singleton. done.
    + exists w'. split; [done|]. split; [done|]. cbn. eapply erased_trans; [done|done|]. set_solver.
Qed.

(** Sets, wide class. *)
Lemma detach_set_fold ord s p l w sb w' :
  Inv false w -> w_objs w !! s = Some sb -> o_static_set sb = true -> o_parent sb = Some p ->
  foldM (fun w r => detach (dfuel w) ord w s r) w l = Some w' ->
  Inv false w' /\ set_only s w w' /\ exists sb', w_objs w' !! s = Some sb' /\ same_shape sb sb' /\ o_recs sb' = o_recs sb ∖ list_to_set l.
Proof.
  revert w sb. induction l as [|r l IH]; intros w sb HI Hs Hst Hp H; cbn [foldM] in H.
  - injection H as <-. split; [done|]. split; [apply set_only_refl|]. exists sb. split; [done|]. split; [apply same_shape_refl|]. cbn. by rewrite difference_empty_L.
  - destruct (detach (dfuel w) ord w s r) as [w1|] eqn:E; [|done]. cbn [mbind option_bind] in H. unfold dfuel in E.
    destruct (detach_set_ok _ _ _ _ _ _ _ _ HI Hs Hst Hp E) as (rc & Hrc & -> & HI1).
    destruct (IH _ (drop_rec (r_data rc) r sb) HI1) as (H1 & H2 & sb' & H3 & H4 & H5); try done.
    { cbn. by rewrite lookup_insert. }
    split; [done|]. split; [eapply set_only_trans; [apply set_only_set|done]|]. exists sb'. split; [done|].
    split; [eapply same_shape_trans; [apply same_shape_drop|done]|]. rewrite H5. cbn. clear. set_solver.
Qed.

(** ** The operations *)
Lemma vault_hash_sound L ob k td ix v r :
  vault_ok L ob -> o_keys ob !! k = Some td -> o_idx ob !! k = Some ix -> (v, r) ∈ ix_hash ix -> r ∈ o_recs ob /\ val_of L k r = Some v.
Proof.
  intros Hv Hk Hix Hin. destruct (v_idx _ _ Hv _ _ Hk) as (ix' & Hix' & (G & _) & _). assert (ix' = ix) as -> by congruence.
  by apply (g_hash _ _ _ G) in Hin.
Qed.
Lemma vault_hash_nodup L ob k td ix : vault_ok L ob -> o_keys ob !! k = Some td -> o_idx ob !! k = Some ix -> NoDup (ix_hash ix).
Proof.
  intros Hv Hk Hix. destruct (v_idx _ _ Hv _ _ Hk) as (ix' & Hix' & (G & _) & _). assert (ix' = ix) as -> by congruence. apply G.
Qed.
Lemma NoDup_take {A} n (l : list A) : NoDup l -> NoDup (take n l).
Proof. intros H. rewrite <- (take_drop n l) in H. by apply NoDup_app in H as [H _]. Qed.
Lemma limit1_NoDup {A} amt (l : list A) : NoDup l -> NoDup (limit1 amt l).
Proof. destruct amt; [apply NoDup_take|done]. Qed.

(** The answer of an erasure by value that erases nothing. *)
Definition erase_refused (ob : obj) (k : string) (v : value) (res : opres) : Prop :=
  (o_keys ob !! k = None /\ res = bad WrongKey k (Some (vty v)) None) \/
  (exists t d, o_keys ob !! k = Some (t, d) /\ t <> vty v /\ res = bad WrongType k (Some (vty v)) (Some t)) \/
  (exists t d, o_keys ob !! k = Some (t, d) /\ t = vty v /\ (forall r, ~ filed ob k v r) /\ res = bad WrongValue k (Some (vty v)) (Some t)).
Lemma erase_record_ok b ord w o ob k v :
  fair ord -> Inv b w -> w_objs w !! o = Some ob -> o_static_set ob = false -> Def b (erase_record ord w o k v) ->
  exists w' res, erase_record ord w o k v = Some (w', res) /\ Inv b w' /\
   ((w' = w /\ res_ok res = false /\ erase_refused ob k v res) \/
    (res_ok res = true /\ exists r, filed ob k v r /\ val_of (live w) k r = Some v /\ r ∈ o_recs ob /\ erased o {[r]} w w')).
Proof.
  intros Hf HI Ho Hst HD. unfold erase_record in *. rewrite Ho in *. cbn [mbind option_bind] in *.
  pose proof (vi_vault _ _ _ _ (inv_obj _ _ HI) _ _ Ho Hst) as Hv.
  destruct (o_keys ob !! k) as [[t d]|] eqn:Ek; [|eexists _, _; split; [done|]; split; [done|]; left; split; [done|]; split; [done|]; by left].
  destruct (decide (t = vty v)) as [Et|Et]; [|eexists _, _; split; [done|]; split; [done|]; left; split; [done|]; split; [done|]; right; left; by exists t, d].
  destruct (v_idx _ _ Hv _ _ Ek) as (ix & Hix & _). rewrite Hix in *. cbn [mbind option_bind] in *.
  destruct (ord (snd <$> equal_range v (ix_hash ix))) as [|r l] eqn:El.
  { eexists _, _. split; [done|]. split; [done|]. left. split; [done|]. split; [done|]. right. right. exists t, d. split; [done|]. split; [done|]. split; [|done].
    intros r (ix' & Hix' & Hr). assert (ix' = ix) as -> by congruence. apply elem_equal_range_snd in Hr. apply (fair_elem_list ord _ _ Hf) in Hr. rewrite El in Hr. by apply elem_of_nil in Hr. }
  assert (Hr : r ∈ snd <$> equal_range v (ix_hash ix)). { apply (fair_elem_list ord _ _ Hf). rewrite El. by left. }
  apply elem_of_equal_range_snd in Hr || apply elem_equal_range_snd in Hr.
  destruct (vault_hash_sound _ _ _ _ _ _ _ Hv Ek Hix Hr) as [Hro Hrv].
  destruct (detach_ok b (size (w_objs w)) ord w o ob r) as (rc & Hrc & E & HI1); try done. { by eapply Def_bind. }
  unfold dfuel. rewrite E. cbn. eexists _, _. split; [done|]. split; [done|]. right. split; [done|]. exists r. split; [by exists ix|]. split; [done|]. split; [done|].
  by eapply detached_erased.
Qed.

Lemma erase_records_ok b ord w o ob k v amt :
  fair ord -> Inv b w -> w_objs w !! o = Some ob -> o_static_set ob = false -> Def b (erase_records ord w o k v amt) ->
  exists w' res, erase_records ord w o k v amt = Some (w', res) /\ Inv b w' /\
   ((w' = w /\ res_ok res = false /\ erase_refused ob k v res) \/
    (res_ok res = true /\ exists ix l, o_idx ob !! k = Some ix /\ l = limit1 amt (ord (snd <$> equal_range v (ix_hash ix))) /\ l <> [] /\ NoDup l /\
      (forall r, r ∈ l -> val_of (live w) k r = Some v /\ r ∈ o_recs ob) /\ erased o (list_to_set l) w w')).
Proof.
  intros Hf HI Ho Hst HD. unfold erase_records in *. rewrite Ho in *. cbn [mbind option_bind] in *.
  pose proof (vi_vault _ _ _ _ (inv_obj _ _ HI) _ _ Ho Hst) as Hv.
  destruct (o_keys ob !! k) as [[t d]|] eqn:Ek; [|eexists _, _; split; [done|]; split; [done|]; left; split; [done|]; split; [done|]; by left].
  destruct (decide (t = vty v)) as [Et|Et]; [|eexists _, _; split; [done|]; split; [done|]; left; split; [done|]; split; [done|]; right; left; by exists t, d].
  destruct (v_idx _ _ Hv _ _ Ek) as (ix & Hix & _). rewrite Hix in *. cbn [mbind option_bind] in *.
  set (l := ord (snd <$> equal_range v (ix_hash ix))) in *.
  assert (Hn : NoDup l). { subst l. rewrite (Hf _). by apply NoDup_equal_range_snd, (vault_hash_nodup _ _ _ _ _ Hv Ek Hix). }
  assert (Hin : forall r, r ∈ limit1 amt l -> val_of (live w) k r = Some v /\ r ∈ o_recs ob).
  { intros r Hr. apply limit1_elem in Hr. subst l. rewrite (fair_elem_list ord _ _ Hf) in Hr. apply elem_equal_range_snd in Hr.
    by destruct (vault_hash_sound _ _ _ _ _ _ _ Hv Ek Hix Hr). }
  destruct l as [|r0 l0] eqn:El.
  { eexists _, _. split; [done|]. split; [done|]. left. split; [done|]. split; [done|]. right. right. exists t, d. split; [done|]. split; [done|]. split; [|done].
    intros r (ix' & Hix' & Hr). assert (ix' = ix) as -> by congruence. apply elem_equal_range_snd in Hr. apply (fair_elem_list ord _ _ Hf) in Hr. fold l in Hr. rewrite El in Hr. by apply elem_of_nil in Hr. }
  destruct (detach_fold b ord o (limit1 amt (r0 :: l0)) w ob) as (w' & E & HI' & He); try done.
  { by apply limit1_NoDup. } { intros r Hr. by apply Hin. } { by eapply Def_bind. }
  rewrite E. cbn. eexists _, _. split; [done|]. split; [done|]. right. split; [done|].
  exists ix, (limit1 amt (r0 :: l0)). split; [done|]. split; [by rewrite <- El|].
  split. { destruct amt as [n0|]; [|done]. cbn. destruct n0; done. }
  split; [|done]. by apply limit1_NoDup.
Qed.

Lemma erase_record_set_ok ord w s sb p k v w' res :
  Inv false w -> w_objs w !! s = Some sb -> o_static_set sb = true -> o_parent sb = Some p ->
  erase_record ord w s k v = Some (w', res) -> Inv false w' /\ set_only s w w'.
Proof.
  intros HI Hs Hst Hp H. unfold erase_record in H. rewrite Hs in H. cbn [mbind option_bind] in H.
  destruct (o_keys sb !! k) as [[t d]|] eqn:Ek; [|injection H as <- <-; by split; [|apply set_only_refl]].
  destruct (decide (t = vty v)); [|injection H as <- <-; by split; [|apply set_only_refl]].
  destruct (o_idx sb !! k) as [ix|]; [|done]. cbn [mbind option_bind] in H.
  destruct (ord _) as [|r l]; [injection H as <- <-; by split; [|apply set_only_refl]|].
  destruct (detach _ _ _ _ _) as [w1|] eqn:E; [|done]. cbn in H. injection H as <- <-. unfold dfuel in E.
  destruct (detach_set_ok _ _ _ _ _ _ _ _ HI Hs Hst Hp E) as (rc & Hrc & -> & HI1). split; [done|apply set_only_set].
Qed.
Lemma erase_records_set_ok ord w s sb p k v amt w' res :
  Inv false w -> w_objs w !! s = Some sb -> o_static_set sb = true -> o_parent sb = Some p ->
  erase_records ord w s k v amt = Some (w', res) -> Inv false w' /\ set_only s w w'.
Proof.
  intros HI Hs Hst Hp H. unfold erase_records in H. rewrite Hs in H. cbn [mbind option_bind] in H.
  destruct (o_keys sb !! k) as [[t d]|] eqn:Ek; [|injection H as <- <-; by split; [|apply set_only_refl]].
  destruct (decide (t = vty v)); [|injection H as <- <-; by split; [|apply set_only_refl]].
  destruct (o_idx sb !! k) as [ix|]; [|done]. cbn [mbind option_bind] in H.
  destruct (ord _) as [|r l]; [injection H as <- <-; by split; [|apply set_only_refl]|].
  destruct (foldM _ _ _) as [w1|] eqn:E; [|done]. cbn in H. injection H as <- <-.
  destruct (detach_set_fold _ _ _ _ _ _ _ HI Hs Hst Hp E) as (H1 & H2 & _). done.
Qed.

Lemma remove_record_ok b ord w o ob r :
  fair ord -> Inv b w -> w_objs w !! o = Some ob -> o_static_set ob = false -> Def b (remove_record ord w o r) ->
  exists w', remove_record ord w o r = Some (w', bool_decide (r ∈ o_recs ob)) /\ Inv b w' /\
    (if decide (r ∈ o_recs ob) then erased o {[r]} w w' else w' = w).
Proof.
  intros Hf HI Ho Hst HD. unfold remove_record in *. rewrite Ho in *. cbn [mbind option_bind] in *.
  destruct (decide (r ∈ o_recs ob)) as [Hin|Hni]; [|rewrite bool_decide_false by done; by eauto].
  destruct (detach_ok b (size (w_objs w)) ord w o ob r) as (rc & Hrc & E & HI1); try done. { by eapply Def_bind. }
  unfold dfuel. rewrite E. cbn. rewrite bool_decide_true by done. eexists. split; [done|]. split; [done|]. by eapply detached_erased.
Qed.
