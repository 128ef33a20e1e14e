(** Lemmas for C14 and C17: removing and updating keys. *)
From Verif Require Export T_Keys.
Open Scope nat_scope.

Lemma remove_first_filter k l : NoDup l -> remove_first k l = filter (fun x => x <> k) l.
Proof.
  induction 1 as [|x l Hx Hn IH]; [done|]. cbn [remove_first]. destruct (decide (x = k)) as [->|Hne].
  - rewrite (filter_cons_False (fun x => x <> k)) by (intros H; by apply H). clear IH Hn. induction l as [|y l IH]; [done|].
    apply not_elem_of_cons in Hx as [H1 H2]. rewrite filter_cons_True by done. f_equal. by apply IH.
  - rewrite (filter_cons_True (fun x => x <> k)) by done. by rewrite IH.
Qed.
Lemma unkey_same k ob : other_keys_same k ob (unkey k ob) /\ get_key_type (unkey k ob) k = None.
Proof.
  unfold unkey. destruct (o_keys ob !! k) as [td|] eqn:E; [|by (split; [done|]; unfold get_key_type; rewrite E)].
  split; [|unfold get_key_type; cbn; by rewrite lookup_delete]. split; [done|]. split; [done|]. split; [done|]. intros k' Hk'.
  unfold get_key_type, get_unique_keys. cbn. rewrite !lookup_delete_ne by done. split; [done|]. split; [done|]. split; [|done].
  rewrite elem_of_list_filter. tauto.
Qed.

(** C14: RemoveKey answers whether the key existed. If it did, the key is gone from the key lists, from every record and from every lookup of
    the vault, and from the sets filled from the vault; everything about the other keys, and everything else, is as before. *)
Lemma t_C14_removekey_exact :
  forall b ord w o ob k w' out, fair ord -> reach b w -> vault_at w o ob ->
    step ord w (ORemoveKey o k) = Some (w', out) ->
    out = OBool (bool_decide (k ∈ get_keys ob)) /\
    if decide (k ∈ get_keys ob) then
      only_key_changed o k w w' /\ (forall r, r ∈ o_recs ob -> stored w' r k = None) /\
      (exists ob', vault_at w' o ob' /\ other_keys_same k ob ob' /\ get_keys ob' = filter (fun x => x <> k) (get_keys ob) /\
         get_key_type ob' k = None /\ is_key_exist ob' k = false /\ k ∉ get_unique_keys ob' /\ filed_exactly ob' k (fun _ _ => False)) /\
      (forall s sb, set_at w s sb -> o_parent sb = Some o -> exists sb', set_at w' s sb' /\ other_keys_same k sb sb' /\ get_key_type sb' k = None)
    else w' = w.
Proof.
  intros b ord w o ob k w' out Hf HR HV H. pose proof (reach_inv _ _ HR) as HI. pose proof HV as [Ho Hs]. pose proof (vault_keys _ _ HR _ _ HV) as K.
  cbn [step] in H. rewrite (vault_guard _ _ _ HV) in H. cbn [guard_op] in H. apply bool_inv in H as (res & H & ->).
  destruct (remove_key_ok b ord w o ob k Hf HI Ho Hs) as (w1 & E & HI' & Ew). rewrite H in E. injection E as -> ->. subst w1.
  assert (Hk : k ∈ get_keys ob <-> is_Some (o_keys ob !! k)) by apply (k_order _ K).
  split; [f_equal; by apply bool_decide_ext|]. rewrite (decide_ext _ _ _ _ Hk). destruct (decide (is_Some (o_keys ob !! k))) as [[td Htd]|]; [|done].
  pose proof (fun x => live_key_removed k o ob w x) as HL.
  assert (Ho' : forall x, w_objs (key_removed k o ob w) !! x = (fun xb => if decide (x ∈ ({[o]} ∪ o_sets ob : gset nat)) then unkey k xb else xb) <$> w_objs w !! x).
  { intros x. cbn. rewrite lookup_upd_on. by case_decide. }
  split; [|split; [|split]].
  - split; [done|]. split; [|split].
    + intros r. rewrite !valid_rec_live, HL. by rewrite fmap_is_Some.
    + intros r k' Hd. rewrite !stored_val_of. unfold val_of. rewrite HL. destruct (live w !! r) as [l|]; [|done]. cbn. case_decide as E; [|done]. cbn.
      destruct Hd as [Hd|Hd]; [by rewrite lookup_delete_ne|]. by destruct (Hd ob).
    + intros x Hx Hn. rewrite Ho'. destruct (w_objs w !! x) as [xb|] eqn:Ex; [|done]. cbn. case_decide as Hin; [|done]. exfalso.
      apply elem_of_union in Hin as [Hin|Hin]; [by apply elem_of_singleton in Hin|].
      destruct (vi_sets _ _ _ _ (inv_obj _ _ HI) _ _ _ Ho Hs Hin) as (sb & E1 & E2 & E3). assert (sb = xb) as -> by congruence. by apply (Hn xb).
  - intros r Hr. rewrite stored_val_of, val_of_key_removed by done. by rewrite decide_True.
  - exists (unkey k ob). destruct (unkey_same k ob) as [U1 U2]. split; [split|].
    + rewrite Ho', Ho. cbn. by rewrite decide_True by set_solver.
    + unfold unkey. by rewrite Htd.
    + split; [done|]. unfold unkey. rewrite Htd. unfold get_keys, is_key_exist, get_unique_keys, get_key_type. cbn. rewrite !lookup_delete. cbn.
      split; [apply remove_first_filter, K|]. split; [done|]. split; [done|]. split; [rewrite elem_of_list_filter; by intros [? ?]|].
      intros v r. unfold filed, filed_ord. cbn. rewrite lookup_delete. split; (split; [by intros (? & ? & ?)|done]).
  - intros s sb [Hso Hss] Hp. exists (unkey k sb). destruct (unkey_same k sb) as [U1 U2]. split; [|done].
    destruct (so_some _ _ _ _ _ _ (vi_set _ _ _ _ (inv_obj _ _ HI) _ _ Hso Hss) _ Hp) as (pb & Hpb & _ & Hin & _). assert (pb = ob) as -> by congruence.
    split; [rewrite Ho', Hso; cbn; by rewrite decide_True by set_solver|]. unfold unkey. by destruct (o_keys sb !! k).
Qed.

(** C17: UpdateKey is refused without change for unknown, wrongly typed and unique keys. Otherwise only the default of the key changes: no
    record, index or set; GetKeyValue returns the new default and CreateRecord uses it when the key is not given. *)
Lemma t_C17_updatekey_exact :
  forall b ord w o ob k d w' out, reach b w -> vault_at w o ob -> step ord w (OUpdateKey o k d) = Some (w', out) ->
    match get_key_type ob k with
    | None => w' = w /\ out = ORes (bad WrongKey k (Some (vty d)) None)
    | Some t =>
        if decide (t = vty d) then
          if decide (k ∈ get_unique_keys ob) then w' = w /\ out = ORes (bad UniqueKey k (Some (vty d)) (Some t))
          else out = ORes (okres Success k (Some (vty d)) (Some (vty d))) /\
            exists ob', w' = set_obj o ob' w /\ vault_at w' o ob' /\ ob' = ob_tmpl (o_tmpl ob') ob /\
              get_key_value ob' k (vty d) = (okres Success k (Some (vty d)) (Some (vty d)), Some d) /\
              (forall ps, k ∉ (fst <$> ps) -> given ob' ps k = Some d) /\
              (forall ps k', k' <> k \/ k ∈ (fst <$> ps) -> given ob' ps k' = given ob ps k')
        else w' = w /\ out = ORes (bad WrongType k (Some (vty d)) (Some t))
    end.
Proof.
  intros b ord w o ob k d w' out HR HV H. pose proof (reach_inv _ _ HR) as HI. pose proof HV as [Ho Hs].
  cbn [step] in H. rewrite (vault_guard _ _ _ HV) in H. cbn [guard_op] in H. apply res_inv in H as (res & H & ->).
  destruct (update_key_ok b w o ob k d HI Ho Hs) as (w1 & E & HI' & Ew). rewrite H in E. injection E as -> ->. subst w1. unfold update_key_answer, get_key_type, get_unique_keys.
  destruct (o_keys ob !! k) as [[t d']|] eqn:Ek; [|done]. cbn [fmap option_fmap option_map fst]. destruct (decide (t = vty d)) as [->|]; [|done].
  destruct (decide (k ∈ o_uniq ob)) as [|Hu]; [done|]. cbn [res_ok okres]. split; [done|]. eexists. split; [done|].
  split; [split; [cbn; by rewrite lookup_insert|done]|]. split; [done|]. split; [|split].
  - unfold get_key_value. cbn. rewrite Ek. rewrite decide_True by done. rewrite decide_False by done. rewrite lookup_insert, decide_True by done. done.
  - intros ps Hps. unfold given. replace (last _) with (@None (string * value)); [cbn; by rewrite lookup_insert|]. symmetry. apply last_None.
    destruct (filter _ ps) as [|p l] eqn:Ef; [done|]. exfalso. assert (Hp : p ∈ filter (fun q : string * value => q.1 = k) ps) by (rewrite Ef; left).
    apply elem_of_list_filter in Hp as [<- Hp]. apply Hps. apply elem_of_list_fmap. eauto.
  - intros ps k' Hd. unfold given. destruct (last _) as [p|] eqn:El; [done|]. cbn. apply last_None in El. rewrite lookup_insert_ne; [done|]. intros <-.
    destruct Hd as [?|Hd]; [done|]. apply elem_of_list_fmap in Hd as (p & -> & Hp). assert (Hx : p ∈ filter (fun q : string * value => q.1 = p.1) ps) by (by apply elem_of_list_filter).
    rewrite El in Hx. by apply elem_of_nil in Hx.
Qed.
(** C17: the default stays in force until the keys of the vault are changed: a record created later without the key holds it. *)
Lemma t_C17_default_in_force :
  forall b ord w o ob k d w1 f ps w2 res, reach b w -> vault_at w o ob -> o_tmpl ob !! k = Some d ->
    later_if b (fun p => ~ schema_op o p /\ p <> ODelVault o) w w1 ->
    step ord w1 (OCreateRecord o f ps) = Some (w2, ORes res) -> res_ok res = true -> k ∉ (fst <$> ps) ->
    exists r ob2, vault_at w2 o ob2 /\ r ∈ o_recs ob2 /\ ~ valid_rec w1 r /\ stored w2 r k = Some d.
Proof.
  intros b ord w o ob k d w1 f ps w2 res HR HV Hd HL H Hok Hk.
  assert (HX : reach b w1 /\ exists ob1, vault_at w1 o ob1 /\ same_schema ob ob1).
  { clear H. induction HL as [|ord' wa p wb out HL IH Hf HA [HQ1 HQ2] H]; [by (split; [done|]; exists ob)|]. destruct IH as (HR1 & ob1 & HV1 & S1).
    split; [by eapply reach_step|]. destruct (t_C13_keys_change_only_by_key_ops _ _ _ _ _ _ _ _ Hf HR1 HA H HV1 HQ1 HQ2) as (ob2 & HV2 & S2).
    exists ob2. split; [done|]. destruct S1 as (? & ? & ? & ?), S2 as (? & ? & ? & ?). repeat split; congruence. }
  destruct HX as (HR1 & ob1 & HV1 & (_ & _ & _ & Et)).
  destruct (t_C03_create_stores_exactly _ _ _ _ _ _ _ _ _ HR1 HV1 H Hok) as (r & ob2 & Hr & _ & HV2 & Hrec & Hst & _).
  exists r, ob2. split; [done|]. split; [set_solver|]. split; [intros (rc & Hrc & _); congruence|]. rewrite Hst. unfold given.
  replace (last _) with (@None (string * value)); [congruence|]. symmetry. apply last_None.
  destruct (filter _ ps) as [|p l] eqn:Ef; [done|]. exfalso. assert (Hp : p ∈ filter (fun q : string * value => q.1 = k) ps) by (rewrite Ef; left).
  apply elem_of_list_filter in Hp as [<- Hp]. apply Hk. apply elem_of_list_fmap. eauto.
Qed.
