(** Completeness of queries over histories (C05, C06, C46, C47). *)
From Verif Require Export FindSpec.
From Verif Require Import T_Base T_Records T_SetData T_Query T_Erase T_Frame T_Frame2 T_Keys T_Keys2 T_Drop T_Refs T_Sets3 T_Idx.
From Verif Require Export VaultModel Spec FindSpec.
Open Scope nat_scope.

Definition found (w : world) (o : nat) (k : string) : Prop := exists ob, vault_at w o ob /\ is_Some (get_key_type ob k) /\ findable w ob k.

Lemma found_same w w' o k ob ob' : vault_at w o ob -> vault_at w' o ob' -> is_Some (get_key_type ob k) -> get_key_type ob' k = get_key_type ob k ->
  o_idx ob' !! k = o_idx ob !! k -> o_recs ob' = o_recs ob -> (forall r, r ∈ o_recs ob -> stored w' r k = stored w r k) -> findable w ob k -> found w' o k.
Proof.
  intros HV HV' Hk Ek Ei Er Es Hfi. exists ob'. split; [done|]. split; [by rewrite Ek|]. intros v r. destruct (Hfi v r) as [F1 F2].
  assert (Ef : (filed ob' k v r <-> filed ob k v r) /\ (filed_ord ob' k v r <-> filed_ord ob k v r)) by (unfold filed, filed_ord; by rewrite Ei). destruct Ef as [-> ->].
  rewrite F1, F2, Er. split; split; intros [H1 H2]; split; auto; by rewrite ?Es in * by done.
Qed.

(** One assignment through a reference. *)
Lemma set_data_found b ord w f k' v w' res o ob k r :
  fair ord -> reach b w -> allowed b w (OSetData f k' v) -> step ord w (OSetData f k' v) = Some (w', ORes res) ->
  vault_at w o ob -> is_Some (get_key_type ob k) -> findable w ob k -> denotes w f r -> r ∈ o_recs ob ->
  (k' = k -> forall x, x ∈ o_recs ob -> r <> x -> stored w r k <> stored w x k) ->
  exists ob', vault_at w' o ob' /\ is_Some (get_key_type ob' k) /\ findable w' ob' k /\ o_recs ob' = o_recs ob /\
    (forall x, x <> r -> stored w' x k = stored w x k) /\ (res_ok res = true -> stored w' r k = if decide (k' = k) then Some v else stored w r k) /\
    (forall f2 x, denotes w' f2 x <-> denotes w f2 x) /\ (forall k2 v2, allowed b w' (OSetData f k2 v2)).
Proof.
  intros Hf HR HA H HV Hk Hfi Hd Hr Hsh. pose proof (reach_inv _ _ HR) as HI. pose proof HV as [Ho Hs]. pose proof Hd as (rf & Hrf & Hrr).
  destruct (inv_vlt _ _ HI f rf r Hrf Hrr) as (o2 & Ho2 & Hb). pose proof (HA _ Hrf) as Hfit.
  pose proof H as H0. cbn [step] in H0. unfold guard_op, is_ref in H0. rewrite bool_decide_true in H0 by eauto. apply res_inv in H0 as (res1 & H0 & [= <-]).
  destruct (ref_set_data_ok b ord w f rf k' v Hf HI Hrf Hfit (Some_Def _ _ _ H0)) as (w1 & res2 & E & _ & Hc). pose proof (eq_trans (eq_sym H0) E) as E2. apply (inj Some) in E2. injection E2 as <- <-.
  destruct Hc as [(-> & Hok & _)|(r1 & o1 & ob1 & rc & Hr1 & Ho1 & Hob1 & Hs1 & Hin1 & Hrc & _ & Hok & Ew)].
  - exists ob. split; [done|]. split; [done|]. split; [done|]. split; [done|]. split; [done|]. split; [by rewrite Hok|]. split; [done|]. intros k2 v2 rf2 Hrf2. assert (rf2 = rf) as -> by congruence. done.
  - assert (r1 = r) as -> by congruence. assert (o1 = o) as -> by (by eapply (vi_disj _ _ _ _ (inv_obj _ _ HI))). assert (ob1 = ob) as -> by congruence.
    assert (Hbt : bound_to w f o) by (by exists rf).
    destruct (t_C05_setdata_effect_on_index _ _ _ _ _ _ _ _ _ _ _ Hf HR HA Hd Hbt HV H Hok) as (ob' & HV' & Eo & Heff).
    destruct (t_C07_read_your_write _ _ _ _ _ _ _ _ _ _ _ Hf HR HA Hd Hbt HV H Hok) as (_ & Hst & Hsame & Hrefs & _).
    assert (Er : o_recs ob' = o_recs ob) by (by rewrite Eo). assert (Ek : get_key_type ob' k = get_key_type ob k) by (by rewrite Eo).
    assert (Hx : forall x, x <> r -> stored w' x k = stored w x k) by (intros x Hx; apply Hsame; congruence).
    assert (Hrk : stored w' r k = if decide (k' = k) then Some v else stored w r k). { destruct (decide (k' = k)) as [<-|Hne]; [done|]. apply Hsame. congruence. }
    exists ob'. split; [done|]. split; [by rewrite Ek|]. split; [|split; [done|split; [done|split; [done|split]]]].
    + intros v' x. destruct (Heff k v' x) as [G1 G2]. destruct (Hfi v' x) as [F1 F2]. destruct (Hfi v' r) as [R1 R2]. rewrite G1, G2, Er. clear G1 G2.
      destruct (decide (k = k')) as [<-|Hne].
      * rewrite F1, F2, R1, R2. rewrite decide_True in Hrk by done. specialize (Hsh eq_refl).
        assert (G : (v' = v /\ x = r) \/ ((x ∈ o_recs ob /\ stored w x k = Some v') /\ ~ (r ∈ o_recs ob /\ stored w r k = Some v')) <-> x ∈ o_recs ob /\ stored w' x k = Some v').
        { destruct (decide (x = r)) as [->|Hne].
          - rewrite Hrk. split; [intros [[-> _]|[[_ E1] E2]]; [done|by destruct E2]|]. intros [_ [= ->]]. by left.
          - rewrite Hx by done. split; [intros [[_ ->]|[? _]]; done|]. intros [X1 X2]. right. split; [done|]. intros [_ X3]. apply (Hsh x X1); congruence. }
        by rewrite G.
      * rewrite F1, F2. rewrite decide_False in Hrk by congruence. assert (Hs2 : stored w' x k = stored w x k) by (destruct (decide (x = r)) as [->|]; auto). by rewrite Hs2.
    + intros f2 x. unfold denotes. by rewrite Hrefs.
    + intros k2 v2 rf2 Hrf2. rewrite Hrefs in Hrf2. assert (rf2 = rf) as -> by congruence. rewrite Ew. by apply ref_fit_data_set.
Qed.
Lemma set_each_found b ord f r o k : forall ps w w' ob,
  fair ord -> reach b w -> set_each ord f w ps w' -> (forall k2 v2, allowed b w (OSetData f k2 v2)) ->
  vault_at w o ob -> is_Some (get_key_type ob k) -> findable w ob k -> denotes w f r -> r ∈ o_recs ob ->
  (forall x ps1 v ps2, x ∈ o_recs ob -> r <> x -> ps = ps1 ++ (k, v) :: ps2 -> assigned (stored w r k) k ps1 <> stored w x k) ->
  reach b w' /\ (forall k2 v2, allowed b w' (OSetData f k2 v2)) /\ denotes w' f r /\
  exists ob', vault_at w' o ob' /\ is_Some (get_key_type ob' k) /\ findable w' ob' k /\ o_recs ob' = o_recs ob /\
    (forall x, x <> r -> stored w' x k = stored w x k) /\ stored w' r k = assigned (stored w r k) k ps.
Proof.
  induction ps as [|[k1 v1] ps IH]; intros w w' ob Hf HR HS HA HV Hk Hfi Hd Hr Hsh.
  { inversion HS; subst. split; [done|]. split; [done|]. split; [done|]. exists ob. done. }
  inversion HS as [|? ? ? w1 res ? ? H1 Hok HS2]; subst.
  destruct (set_data_found b ord w f k1 v1 w1 res o ob k r Hf HR (HA _ _) H1 HV Hk Hfi Hd Hr) as (ob1 & HV1 & Hk1 & Hf1 & Er1 & Hx1 & Hr1 & Hd1 & HA1).
  { intros -> x Hx Hne. by apply (Hsh x [] v1 ps). }
  pose proof (reach_step _ _ _ _ _ _ HR Hf (HA k1 v1) H1) as HR1. specialize (Hr1 Hok).
  destruct (IH w1 w' ob1 Hf HR1 HS2 HA1 HV1 Hk1 Hf1) as (Z1 & Z2 & Z3 & ob' & Z4 & Z5 & Z6 & Z7 & Z8 & Z9); [by apply Hd1|by rewrite Er1| |].
  { intros x ps1 v ps2 Hx Hne E. rewrite (Hx1 x) by congruence. rewrite Hr1. rewrite Er1 in Hx. specialize (Hsh x ((k1, v1) :: ps1) v ps2 Hx Hne). cbn [assigned] in Hsh. apply Hsh. by rewrite E. }
  split; [done|]. split; [done|]. split; [done|]. exists ob'. split; [done|]. split; [done|]. split; [done|]. split; [congruence|]. split.
  - intros x Hx. by rewrite Z8, Hx1 by done.
  - by rewrite Z9, Hr1.
Qed.

(** Rows read from a file. *)
Lemma findable_objs w w' ob ob' k : o_idx ob' = o_idx ob -> o_recs ob' = o_recs ob -> (forall r, r ∈ o_recs ob -> stored w' r k = stored w r k) -> findable w ob k -> findable w' ob' k.
Proof.
  intros Ei Er Es Hfi v r. destruct (Hfi v r) as [F1 F2]. unfold filed, filed_ord in *. rewrite Ei, Er, F1, F2. split; split; intros [H1 H2]; split; auto; by rewrite ?Es in * by done.
Qed.
Lemma created_findable b w o ob data k : Inv b w -> vault_at w o ob -> is_Some (get_key_type ob k) -> findable w ob k -> typed (o_keys ob) data ->
  (forall k, k ∈ o_uniq ob -> ~ conflict w ob data k) -> findable (created o ob data w) (obj_add data (w_next w) ob) k.
Proof.
  intros HI [Ho Hs] Hk Hfi Ht Hc v x. assert (Hk' : is_Some (o_keys ob !! k)) by (unfold get_key_type in Hk; by apply fmap_is_Some in Hk).
  assert (Hn : w_next w ∉ o_recs ob). { intros Hin. assert (is_Some (live w !! w_next w)) as [l Hl] by (by eapply (Inv_vault_live b w o ob)). apply live_Some in Hl as (rc & Hrc & _).
    assert (is_Some (w_recs w !! w_next w)) as Hx by eauto. apply (inv_heap _ _ HI) in Hx. lia. }
  destruct (filed_obj_add (live w) ob (w_next w) data k v x) as [-> ->]; [by apply (vi_vault _ _ _ _ (inv_obj _ _ HI) _ _ Ho Hs)|done|done| |done|].
  { intros Hu y u Hy Hval Hdat. apply (Hc k Hu). exists y, u. done. }
  destruct (Hfi v x) as [-> ->]. cbn [o_recs obj_add].
  assert (G : (x ∈ o_recs ob /\ stored w x k = Some v) \/ (x = w_next w /\ data !! k = Some v) <-> x ∈ {[w_next w]} ∪ o_recs ob /\ stored (created o ob data w) x k = Some v).
  { rewrite stored_val_of, (stored_val_of (created _ _ _ _)). unfold val_of. rewrite live_created. rewrite elem_of_union, elem_of_singleton.
    destruct (decide (x = w_next w)) as [->|Hne]; cbn; [|naive_solver]. split; [intros [[? _]|[_ ?]]; [done|by auto]|]. intros [_ ?]. by right. }
  by rewrite G.
Qed.
Lemma read_loop_found b o k load keys user rows : forall line w ob w',
  Inv b w -> vault_at w o ob -> is_Some (get_key_type ob k) -> findable w ob k -> read_rows_loop w o load keys user line rows = Some w' -> found w' o k.
Proof.
  induction rows as [|row rows IH]; intros line w ob w' HI HV Hk Hfi H; cbn [read_rows_loop] in *; [injection H as <-; by exists ob|]. pose proof HV as [Ho Hst].
  destruct (read_row w o load keys user (S line) row) as [w1|] eqn:E1; [|done]. cbn [mbind option_bind] in H.
  assert (is_Some (row_fields ob load keys user row)) as [[[data ok] wrong] Hrow].
  { destruct (row_fields ob load keys user row) as [|] eqn:E; [eauto|].
    exfalso. unfold read_row in E1. rewrite Ho in E1. cbn [mbind option_bind] in E1. unfold row_fields in E. rewrite E in E1. done. }
  destruct (read_row_ok b w o ob load keys user (S line) row data ok wrong) as (w2 & E2 & HI1 & Ht & He); try done. assert (w2 = w1) as -> by congruence.
  unfold row_effect in He. set (ob1 := add_bad _ ob) in He.
  assert (HV1 : forall ob2, o_static_set ob2 = false -> vault_at (set_obj o ob2 w) o ob2) by (intros ob2 H2; split; [cbn; by rewrite lookup_insert|done]).
  destruct ok; [destruct He as [(Hc & ->)|(ks1 & k1 & ks2 & _ & _ & _ & ->)]|subst w1].
  - eapply (IH _ _ (obj_add data (w_next w) ob1)); [done| |done| |exact H].
    + split; [cbn; by rewrite lookup_insert|done].
    + apply (created_findable b (set_obj o ob1 w) o ob1 data k); [by apply bad_inv|by apply HV1|done| |done|done].
      by eapply (findable_objs w _ ob ob1).
  - eapply (IH _ _ (add_bad [(S line, k1)] ob1)); [done| |done| |exact H].
    + split; [cbn; by rewrite lookup_insert|done].
    + by eapply (findable_objs w _ ob).
  - eapply (IH _ _ ob1); [done|by apply HV1|done| |exact H]. by eapply (findable_objs w _ ob).
Qed.

Lemma step_found b ord w p w' out o ob k :
  fair ord -> reach b w -> allowed b w p -> step ord w p = Some (w', out) -> ~ ends_key o k p -> ~ disturbs w p w' o k ->
  vault_at w o ob -> is_Some (get_key_type ob k) -> findable w ob k -> found w' o k.
Proof.
  intros Hf HR HA H Hn Hd HV Hk Hfi. pose proof (reach_inv _ _ HR) as HI. pose proof HV as [Ho Hs]. assert (HVg := vault_guard _ _ _ HV).
  assert (Hx : forall ob', vault_at w' o ob' -> ob' = ob_sets (o_sets ob') ob -> (forall r, r ∈ o_recs ob -> stored w' r k = stored w r k) -> found w' o k).
  { intros ob' HV' E Hst. eapply (found_same w w' o k ob ob'); try done; by rewrite E. }
  assert (HN : ~ concerns w p o -> found w' o k).
  { intros Hc. destruct (t_C27_independent_step _ _ _ _ _ _ _ _ Hf HR HA H HV Hc) as (ob' & HV' & E & Hst). apply (Hx ob'); [done|done|]. intros r Hr. by apply Hst. }
  assert (HS : forall k1, k1 <> k -> only_key_changed o k1 w w' -> (exists ob', vault_at w' o ob' /\ other_keys_same k1 ob ob') -> found w' o k).
  { intros k1 Hne (_ & _ & Hst & _) (ob' & HV' & (E1 & _ & _ & E2)). destruct (E2 k) as (K1 & _ & _ & K2); [done|]. eapply (found_same w w' o k ob ob'); try done. intros r _. apply Hst. by left. }
  assert (HE : erases_from o p -> found w' o k).
  { intros He. destruct (t_C06_others_found_by_equality _ _ _ _ _ _ _ _ Hf HR HV He H) as (X & ob' & _ & HX & (_ & Hval & Hst & Hob & _) & HV' & F1).
    destruct (t_C06_erase_effect_on_ordered_index _ _ _ _ _ _ _ _ Hf HR HV He H) as (Y & ob2 & _ & HY & (_ & HvalY & _) & HV2 & F2).
    assert (ob2 = ob') as -> by (destruct HV', HV2; congruence). destruct (Hob _ HV) as (ob3 & HV3 & E & Hrec). assert (ob3 = ob') as -> by (destruct HV', HV3; congruence).
    assert (HXY : forall x, x ∈ Y <-> x ∈ X).
    { intros x. assert (HvY : x ∈ Y -> valid_rec w x) by (intros ?; eapply (vault_valid b w HR); [exact HV|auto]). assert (HvX : x ∈ X -> valid_rec w x) by (intros ?; eapply (vault_valid b w HR); [exact HV|auto]).
      specialize (Hval x). specialize (HvalY x). destruct (decide (x ∈ X)), (decide (x ∈ Y)); try done; exfalso; naive_solver. }
    exists ob'. split; [done|]. split; [by rewrite E|]. intros v r. destruct (Hfi v r) as [G1 G2]. rewrite F1, F2, G1, G2, Hrec by done.
    assert (Q : (r ∈ o_recs ob /\ stored w r k = Some v) /\ r ∉ X <-> (r ∈ o_recs ob /\ r ∉ X) /\ stored w' r k = Some v).
    { split; [intros [[? ?] ?]|intros [[? ?] Z]]; (split; [split; try done|try done]); [by rewrite Hst|by rewrite Hst in Z]. }
    rewrite <- Q. split; [done|]. split; intros [[Q1 Q2] Q3]; (split; [done|]).
    - intros HrX. apply (Q3 r); [by apply HXY|]. by apply Hfi.
    - intros x HxY Hxf. apply Hfi in Hxf as [Hxo Hxs]. apply HXY in HxY. apply Hd. exists ob, x, r. split; [done|]. split; [done|]. split; [done|]. split; [by intros ->|]. right. split; [congruence|]. split.
      + rewrite Hval. by intros [_ ?].
      + apply Hval. split; [|done]. by eapply (vault_valid b w HR). }
  assert (HK : forall k1 td, o_keys ob !! k1 = Some td -> schema_op o p -> match p with OAddKey _ k2 _ | OAddUniqueKey _ k2 _ | OAddUniqueKeyFn _ k2 _ _ => k2 = k1 | _ => False end -> found w' o k).
  { intros k1 td Hk1 Hso Hp. assert (w' = w) as ->; [|by exists ob].
    destruct p; cbn in Hp; try done; cbn in Hso; subst; cbn [step] in H; rewrite HVg in H; cbn [guard_op] in H; apply res_inv in H as (res & H & _);
      rewrite (add_key_dup _ _ _ _ _ _ _ _ _ Ho Hk1) in H; by injection H. }
  destruct p; try (apply HN; intros [Hc|[Hc|[Hc|(f1 & r1 & ob1 & _ & _ & _ & Hc)]]]; by cbn in Hc);
    try (destruct (decide (o0 = o)) as [->|Hne]; [|apply HN; intros [Hc|[Hc|[Hc|(f1 & r1 & ob1 & _ & _ & _ & Hc)]]]; by cbn in Hc]).
  - (* OAddKey *) destruct (get_key_type ob k0) as [t|] eqn:Ek; [apply key_type_some in Ek as [d0 Ek]; by eapply HK|].
    destruct (t_C15_addkey_exact _ _ _ _ _ _ _ _ _ Hf HR HV Ek H) as (_ & C1 & _ & ob' & V' & C2 & _). apply (HS k0); [intros ->; rewrite Ek in Hk; by destruct Hk|done|eauto].
  - (* OAddUniqueKey *) destruct (get_key_type ob k0) as [t'|] eqn:Ek; [apply key_type_some in Ek as [d0 Ek]; by eapply HK|].
    assert (k0 <> k) by (intros ->; rewrite Ek in Hk; by destruct Hk). pose proof (t_C16_without_generator _ _ _ _ _ _ _ _ _ Hf HR HV Ek H) as C. destruct (decide _).
    + destruct C as (_ & C1 & ob' & V' & C2 & _). apply (HS k0); [done|done|eauto].
    + destruct C as (_ & ->). eapply (found_same w _ o k ob); [done|split; [cbn; by rewrite lookup_insert|done]|done|done| |done|done|done]. cbn. by rewrite lookup_insert_ne.
  - (* OAddUniqueKeyFn *) destruct (get_key_type ob k0) as [t'|] eqn:Ek; [apply key_type_some in Ek as [d0 Ek]; by eapply HK|].
    assert (k0 <> k) by (intros ->; rewrite Ek in Hk; by destruct Hk). destruct (t_C16_generated_exact _ _ _ _ _ _ _ _ _ _ Hf HR HA HV Ek H) as (rs & _ & C). destruct (decide _).
    + destruct C as (_ & C1 & _ & ob' & V' & C2 & _). apply (HS k0); [done|done|eauto].
    + destruct C as (_ & ->). eapply (found_same w _ o k ob); [done|split; [cbn; by rewrite lookup_insert|done]|done|done| |done|done|done]. cbn. by rewrite lookup_delete_ne.
  - (* OUpdateKey *) pose proof (t_C17_updatekey_exact _ _ _ _ _ _ _ _ _ HR HV H) as C. destruct (get_key_type ob k0) as [t|]; [|destruct C as [-> _]; by exists ob].
    destruct (decide _); [|destruct C as [-> _]; by exists ob]. destruct (decide _); [destruct C as [-> _]; by exists ob|].
    destruct C as (_ & ob' & -> & V' & E & _). eapply (found_same w _ o k ob ob'); try done; by rewrite E.
  - (* ORemoveKey *) destruct (t_C14_removekey_exact _ _ _ _ _ _ _ _ Hf HR HV H) as [_ C]. destruct (decide _); [|subst w'; by exists ob].
    destruct C as (C1 & _ & (ob' & V' & C2 & _) & _). apply (HS k0); [intros ->; by apply Hn|done|eauto].
  - (* OCreateRecord *) pose proof H as H0. cbn [step] in H0. apply guard_inv in H0 as [(_ & -> & _)|[_ H0]]; [by exists ob|]. apply res_inv in H0 as (res & _ & ->).
    destruct (res_ok res) eqn:Hok.
    + destruct (t_C03_create_stores_exactly _ _ _ _ _ _ _ _ _ HR HV H Hok) as (r & ob' & _ & Hfr & V' & Er & S1 & S2 & _ & _ & Ek & _ & _ & F & _).
      exists ob'. split; [done|]. split; [unfold get_key_type; by rewrite Ek|]. intros v x. destruct (F k v x Hk) as [-> ->]. destruct (Hfi v x) as [-> ->]. rewrite Er.
      assert (G : (x ∈ o_recs ob /\ stored w x k = Some v) \/ (x = r /\ given ob ps k = Some v) <-> x ∈ {[r]} ∪ o_recs ob /\ stored w' x k = Some v).
      { rewrite elem_of_union, elem_of_singleton. destruct (decide (x = r)) as [->|Hne].
        - rewrite S1. specialize (Hfr _ _ Ho). naive_solver.
        - rewrite S2 by done. naive_solver. }
      by rewrite G.
    + destruct (t_C02_failed_create_changes_nothing _ _ _ _ _ _ _ _ _ HR HV H Hok) as (E1 & E2 & _). apply (Hx ob); [by split; [rewrite E2|]|by destruct ob|].
      intros r _. unfold stored. by rewrite E1.
  - (* OReadRows *) cbn [step] in H. rewrite HVg in H. cbn [guard_op] in H. apply unit_inv in H as [H _]. unfold read_rows in H. rewrite Ho in H. cbn [mbind option_bind] in H.
    eapply (read_loop_found b o k _ _ _ _ _ _ (ob_bad [] ob)); [by apply bad_inv|split; [cbn; by rewrite lookup_insert|done]|done| |exact H]. by eapply (findable_objs w _ ob).
  - by apply HE.
  - by apply HE.
  - by apply HE.
  - (* OSetData *) pose proof H as H0. cbn [step] in H0. apply guard_inv in H0 as [(_ & -> & _)|[Hg H0]]; [by exists ob|]. apply res_inv in H0 as (res & _ & ->).
    apply is_ref_true in Hg as [rf Hrf]. destruct (f_rec rf) as [r|] eqn:Er; [destruct (decide (r ∈ o_recs ob)) as [Hr|Hr]|].
    + assert (Hde : denotes w f r) by (by exists rf). destruct (set_data_found b ord w f k0 v w' res o ob k r) as (ob' & V' & K' & F' & _); try done; [|by exists ob'].
      intros -> x Hx1 Hne E. apply Hd. exists ob, r, x. split; [done|]. split; [done|]. split; [done|]. split; [done|]. left. done.
    + apply HN. intros [Hc|[Hc|[Hc|(f1 & r1 & ob1 & V1 & R1 & (rf1 & D1 & D2) & Hc)]]]; try by cbn in Hc. cbn in Hc. subst. destruct V1. assert (ob1 = ob) as -> by congruence. assert (rf1 = rf) as -> by congruence. congruence.
    + apply HN. intros [Hc|[Hc|[Hc|(f1 & r1 & ob1 & V1 & R1 & (rf1 & D1 & D2) & Hc)]]]; try by cbn in Hc. cbn in Hc. subst. assert (rf1 = rf) as -> by congruence. congruence.
  - (* OSetMany *) pose proof H as H0. cbn [step] in H0. apply guard_inv in H0 as [(_ & -> & _)|[Hg H0]]; [by exists ob|]. apply res_inv in H0 as (res & _ & ->).
    apply is_ref_true in Hg as [rf Hrf]. destruct (f_rec rf) as [r|] eqn:Er; [destruct (decide (r ∈ o_recs ob)) as [Hr|Hr]|].
    + assert (Hde : denotes w f r) by (by exists rf). destruct (t_C42_setmany_is_sequence ord w f ps w' res) as (ps1 & w1 & ps2 & -> & HE1 & HE2); [by rewrite Hrf|done|].
      assert (Hsh : forall x qs1 v qs2, x ∈ o_recs ob -> r <> x -> ps1 ++ ps2 = qs1 ++ (k, v) :: qs2 -> assigned (stored w r k) k qs1 <> stored w x k).
      { intros x qs1 v qs2 Hx1 Hne E1 E2. apply Hd. exists ob, r, x. split; [done|]. split; [done|]. split; [done|]. split; [done|]. left. split; [done|]. eauto. }
      destruct (set_each_found b ord f r o k ps1 w w1 ob) as (R1 & A1 & D1 & ob1 & V1 & K1 & F1 & E1 & S1 & S2); try done.
      { intros k2 v2 rf2 Hrf2. by apply HA. } { intros x qs1 v qs2 Hx1 Hne E. apply (Hsh x qs1 v (qs2 ++ ps2)); [done|done|]. rewrite E. by rewrite <- app_assoc. }
      destruct ps2 as [|[k2 v2] ps2]; [destruct HE2 as [-> _]; by exists ob1|]. destruct HE2 as [HE2 _].
      destruct (set_data_found b ord w1 f k2 v2 w' res o ob1 k r) as (ob' & V' & K' & F' & _); try done; [by rewrite E1| |by exists ob'].
      intros -> x Hx1 Hne. rewrite S2, S1 by congruence. rewrite E1 in Hx1. by apply (Hsh x ps1 v2 ps2).
    + apply HN. intros [Hc|[Hc|[Hc|(f1 & r1 & ob1 & V1 & R1 & (rf1 & D1 & D2) & Hc)]]]; try by cbn in Hc. cbn in Hc. subst. destruct V1. assert (ob1 = ob) as -> by congruence. assert (rf1 = rf) as -> by congruence. congruence.
    + apply HN. intros [Hc|[Hc|[Hc|(f1 & r1 & ob1 & V1 & R1 & (rf1 & D1 & D2) & Hc)]]]; try by cbn in Hc. cbn in Hc. subst. assert (rf1 = rf) as -> by congruence. congruence.
  - (* ODropData *) destruct (t_C26_dropdata_exact _ _ _ _ _ _ _ Hf HR HV H) as (_ & (ob' & V' & Sc & _ & _ & I) & _).
    assert (Ek : get_key_type ob' k = get_key_type ob k) by (unfold get_key_type; by destruct Sc as (-> & _)). exists ob'. split; [done|]. rewrite Ek. split; [done|]. apply I. by rewrite Ek.
  - (* OMoveVault *) assert (src <> o) by (intros ->; by apply Hn). destruct (decide (dst = o)) as [->|Hne].
    + cbn [step] in H. unfold is_obj in H. rewrite bool_decide_true in H by eauto. cbn in H. injection H as <- <-. by exists ob.
    + apply HN. intros [[Hc|Hc]|[Hc|[[Hc|Hc]|(f1 & r1 & ob1 & _ & _ & _ & Hc)]]]; by cbn in Hc.
  - (* OMoveAssignVault *) apply HN. intros [Hc|[Hc|[Hc|(f1 & r1 & ob1 & _ & _ & _ & Hc)]]]; try by cbn in Hc. apply Hn. by left.
Qed.

(** C46: a unique key is indexed completely in every reachable state: every record of the vault is found under its value of the key, by
    equality and in order, whatever happened before. *)
Lemma t_C46_unique_keys_findable :
  forall b w o ob k, reach b w -> vault_at w o ob -> k ∈ get_unique_keys ob -> findable w ob k.
Proof.
  intros b w o ob k HR HV Hu v r. unfold get_unique_keys in Hu. pose proof (k_uniq _ (vault_keys b w HR _ _ HV) _ Hu) as Hk. split; split.
  - intros H. eapply (filed_sound b w HR); [done|done|by left].
  - intros [Hr Hst]. destruct (filed_uniq b w HR _ _ _ _ HV Hu Hr) as (v' & E & F1 & _). congruence.
  - intros H. eapply (filed_sound b w HR); [done|done|by right].
  - intros [Hr Hst]. destruct (filed_uniq b w HR _ _ _ _ HV Hu Hr) as (v' & E & _ & F2). congruence.
Qed.
(** C46: the same holds of sets filled from the vault (safe class). *)
Lemma t_C46_unique_keys_findable_in_sets :
  forall w s sb o k, reach true w -> set_at w s sb -> o_parent sb = Some o -> k ∈ get_unique_keys sb -> findable w sb k.
Proof.
  intros w s sb o k HR [Hs Hst] Hp Hu v r. unfold get_unique_keys in Hu. pose proof (reach_inv _ _ HR) as HI.
  destruct (so_some _ _ _ _ _ _ (vi_set _ _ _ _ (inv_obj _ _ HI) _ _ Hs Hst) _ Hp) as (pb & Hpb & Hps & _ & SP). pose proof (sp_strict _ _ _ _ _ SP eq_refl) as SS.
  assert (HK : is_Some (o_keys sb !! k)).
  { pose proof Hu as Hu'. rewrite (st_uniq _ _ _ _ SS) in Hu'. destruct (k_uniq _ (vault_keys true w HR o pb (conj Hpb Hps)) _ Hu') as [td Htd].
    pose proof (f_equal (lookup k) (st_keys _ _ _ _ SS)) as E. rewrite !lookup_fmap, Htd in E. destruct (o_keys sb !! k); [eauto|done]. }
  destruct HK as [td HK]. destruct (st_idx _ _ _ _ SS _ _ HK) as (ix & Hix & G & _ & C). destruct (C Hu) as [C1 C2]. destruct (filed_idx _ _ _ Hix v r) as [-> ->]. rewrite stored_val_of. split; split.
  - apply (g_hash _ _ _ G).
  - intros [Hr E]. destruct (C1 _ Hr) as (v' & E' & Hin). congruence.
  - apply (g_tree _ _ _ G).
  - intros [Hr E]. destruct (C2 _ Hr) as (v' & E' & Hin). congruence.
Qed.
(** C47: one operation: a key indexed completely stays so, unless the operation ends the key or the vault, or updates or erases a record whose
    value of the key is shared by another record that stays. *)
Lemma t_C47_stays_findable_step :
  forall b ord w p w' out o ob k, fair ord -> reach b w -> allowed b w p -> step ord w p = Some (w', out) -> ~ ends_key o k p -> ~ disturbs w p w' o k ->
    vault_at w o ob -> is_Some (get_key_type ob k) -> findable w ob k ->
    exists ob', vault_at w' o ob' /\ is_Some (get_key_type ob' k) /\ findable w' ob' k.
Proof. intros b ord w p w' out o ob k Hf HR HA H Hn Hd HV Hk Hfi. by eapply step_found. Qed.
(** C47: whole histories: from the moment a key is indexed completely (as AddKey leaves it), every record is found under its current value as long
    as no record is updated or erased whose value of the key another record shares. *)
Lemma t_C47_stays_findable :
  forall b w w' o ob k, reach b w -> vault_at w o ob -> is_Some (get_key_type ob k) -> findable w ob k -> calm b o k w w' ->
    exists ob', vault_at w' o ob' /\ is_Some (get_key_type ob' k) /\ findable w' ob' k.
Proof.
  intros b w w' o ob k HR HV Hk Hfi HC. assert (reach b w' /\ found w' o k) as [_ ?]; [|done].
  induction HC as [|ord w1 p w2 out HC IH Hf HA Hn H Hd]; [split; [done|by exists ob]|].
  destruct IH as (HR1 & ob1 & V1 & K1 & F1). split; [by eapply reach_step|by eapply step_found].
Qed.
(** C47: AddKey of a new key starts with a complete index. *)
Lemma t_C47_addkey_findable :
  forall b ord w o ob k d w' out, fair ord -> reach b w -> vault_at w o ob -> get_key_type ob k = None ->
    step ord w (OAddKey o k d) = Some (w', out) ->
    exists ob', vault_at w' o ob' /\ get_key_type ob' k = Some (vty d) /\ findable w' ob' k.
Proof.
  intros b ord w o ob k d w' out Hf HR HV Hk H. destruct (t_C15_addkey_exact _ _ _ _ _ _ _ _ _ Hf HR HV Hk H) as (_ & _ & Hst & ob' & V' & (Er & _) & _ & Ek & _ & _ & F).
  exists ob'. split; [done|]. split; [done|]. intros v r. destruct (F v r) as [-> ->]. rewrite Er. split; (split; [intros [-> Hr]; split; auto|intros [Hr E]]); rewrite Hst in E by done; by injection E.
Qed.
Lemma matching_value w ob rt k bv ev ib ie r : findable w ob k ->
  matching ob rt k bv ev ib ie r <-> r ∈ o_recs ob /\ exists v, stored w r k = Some v /\ sat rt bv ev ib ie v.
Proof.
  intros Hfi. assert (G : (exists v, filed_ord ob k v r /\ sat rt bv ev ib ie v) <-> r ∈ o_recs ob /\ exists v, stored w r k = Some v /\ sat rt bv ev ib ie v).
  { split; [intros (v & F & Hs); apply Hfi in F as [? ?]; eauto|]. intros (Hr & v & E & Hs). exists v. split; [by apply Hfi|done]. }
  destruct rt; cbn [matching]; try done. rewrite (proj1 (Hfi _ _)). cbn [sat]. split; [intros [? ?]; eauto|]. intros (? & v & ? & ->). done.
Qed.
(** C47: on a completely indexed key a request returns exactly the records whose current value satisfies the comparison (and that pass the
    predicate). *)
Lemma t_C47_request_by_value :
  forall b ord w o ob pv rt k bv ev ib ie p s w' res, fair ord -> reach b w -> allowed b w (ORequest o rt k bv ev ib ie None p s) ->
    source_at b w o ob pv -> o <> s -> vty ev = vty bv -> get_key_type ob k = Some (vty bv) -> findable w ob k ->
    step ord w (ORequest o rt k bv ev ib ie None p s) = Some (w', ORes res) ->
    exists sb', set_at w' s sb' /\ forall r, r ∈ o_recs sb' <-> r ∈ o_recs ob /\ (exists v, stored w r k = Some v /\ sat rt bv ev ib ie v) /\ passes w p r.
Proof.
  intros b ord w o ob pv rt k bv ev ib ie p s w' res Hf HR HA HV Hne Ht Hk Hfi H.
  destruct (t_C09_request_exact b ord w o ob pv rt k bv ev ib ie p s w' res) as (_ & sb' & S & _ & C); try done.
  rewrite Hk in C. rewrite decide_True in C by done. destruct C as [_ C]. exists sb'. split; [done|]. intros r. rewrite C, (matching_value w) by done. naive_solver.
Qed.
(** C47: if all keys a complex request asks about are completely indexed, it returns exactly the records whose current values satisfy it. *)
Lemma t_C47_complex_by_value :
  forall b ord w o ob pv q s w' res, fair ord -> reach b w -> allowed b w (OComplex o q s) -> source_at b w o ob pv -> o <> s ->
    well_keyed ob q -> (forall k, k ∈ request_keys q -> findable w ob k) ->
    step ord w (OComplex o q s) = Some (w', ORes res) ->
    exists sb', set_at w' s sb' /\ forall r, r ∈ o_recs sb' <-> r ∈ o_recs ob /\ satisfies w q r.
Proof.
  intros b ord w o ob pv q s w' res Hf HR HA HV Hne Hw Hfi H.
  destruct (t_C10_complex_request_exact b ord w o ob pv q s w' res) as (_ & sb' & S & _ & [(_ & _ & C)|(C & _)]); try done.
  exists sb'. split; [done|]. intros r. rewrite C. clear -Hfi. induction q as [l k v p|a IHa c IHc|a IHa c IHc]; cbn [matches satisfies request_keys] in *.
  - rewrite (matching_value w) by (apply Hfi, elem_of_list_singleton; done). naive_solver.
  - rewrite IHa, IHc; [naive_solver|intros k Hk; apply Hfi, elem_of_app; by right|intros k Hk; apply Hfi, elem_of_app; by left].
  - rewrite IHa, IHc; [naive_solver|intros k Hk; apply Hfi, elem_of_app; by right|intros k Hk; apply Hfi, elem_of_app; by left].
Qed.
(** C47: on a completely indexed key GetRecords(key, value) lists exactly the records that hold the value, each once. *)
Lemma t_C47_getrecords_by_value :
  forall b ord w o ob pv k v res l, fair ord -> reach b w -> source_at b w o ob pv -> get_key_type ob k = Some (vty v) -> findable w ob k ->
    get_records ord w o k v None = Some (res, l) -> NoDup l /\ forall r, r ∈ l <-> r ∈ o_recs ob /\ stored w r k = Some v.
Proof.
  intros b ord w o ob pv k v res l Hf HR HS Hk Hfi H. destruct (t_C04_getrecords_exact _ _ _ _ _ _ _ _ _ _ Hf HR HS H) as [Hn C].
  rewrite Hk in C. rewrite decide_True in C by done. destruct C as [C _]. split; [done|]. intros r. rewrite C. apply Hfi.
Qed.
(** C47: on a completely indexed key GetSortedRecords lists all records of the vault or set, each once, in non-decreasing order. *)
Lemma t_C47_sorted_all :
  forall b w o ob pv k l, reach b w -> source_at b w o ob pv -> is_Some (get_key_type ob k) -> findable w ob k -> sorted_records w o k false None = Some l ->
    l ≡ₚ elements (o_recs ob) /\
    (forall i j ri rj, i <= j -> l !! i = Some ri -> l !! j = Some rj -> exists vi vj, stored w ri k = Some vi /\ stored w rj k = Some vj /\ vle vi vj).
Proof.
  intros b w o ob pv k l HR HS Hk Hfi H. destruct (t_C12_sorted_order _ _ _ _ _ _ _ HR HS Hk H) as (Hn & Hl & Hv & Ho). split; [|done].
  apply NoDup_Permutation; [done|apply NoDup_elements|]. intros r. rewrite elem_of_elements. split; [intros Hr; by apply Hv|].
  intros Hr. apply Hl. destruct HS as [[HV ->]|(-> & HS & Hp)].
  - destruct Hk as [t Hk]. apply key_type_some in Hk as [d Hk]. destruct (vault_stored b w HR _ _ _ _ _ HV Hr Hk) as (v & E & _). exists v. by apply Hfi.
  - destruct (source_parent true w o ob pv HR) as (pb & HV & Hsub); [by right|]. destruct (t_C13_set_keys w o ob pv pb HR HS Hp HV) as (_ & _ & Ht & _). rewrite (Ht k) in Hk.
    destruct Hk as [t Hk]. apply key_type_some in Hk as [d Hk]. destruct (vault_stored true w HR _ _ _ _ _ HV (Hsub _ Hr) Hk) as (v & E & _). exists v. by apply Hfi.
Qed.
