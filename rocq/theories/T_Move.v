(** C25, C44: what moving a vault or a record set really does. *)
From Verif Require Import T_Base T_Frame T_Frame2 T_Query T_Copy T_Sets3 InvMove.
From Verif Require Export VaultModel Spec.
Open Scope nat_scope.

Lemma vault_guard' w o ob : vault_at w o ob -> is_vault w o = true.
Proof. intros [H1 H2]. unfold is_vault. by rewrite H1, H2. Qed.
Lemma free_guard w o : w_objs w !! o = None -> is_obj w o = false.
Proof. intros H. unfold is_obj. rewrite H. apply bool_decide_false. by intros [? ?]. Qed.
Lemma moved_facts w dst src sb : dst <> src -> o_static_set sb = false ->
  vault_at (moved_world dst src sb w) dst sb /\ (exists eb, vault_at (moved_world dst src sb w) src eb /\ bare eb) /\
  (forall k rev amt, w_objs w !! src = Some sb -> sorted_records (moved_world dst src sb w) dst k rev amt = sorted_records w src k rev amt) /\
  (forall x, x <> dst -> x <> src -> w_objs (moved_world dst src sb w) !! x = w_objs w !! x).
Proof.
  intros Hne Hst. split; [split; [cbn; rewrite lookup_insert_ne by done; by rewrite lookup_insert|done]|]. split; [|split].
  - exists new_vault. split; [split; [cbn; by rewrite lookup_insert|done]|done].
  - intros k rev amt Hs. unfold sorted_records. cbn [moved_world set_obj w_objs]. rewrite lookup_insert_ne by done. by rewrite lookup_insert, Hs.
  - intros x N1 N2. cbn. by rewrite !lookup_insert_ne by done.
Qed.

(** C44: moving a vault to a new variable hands over everything it has: the new vault has its keys, unique keys, defaults, records and indexes, hence
    the same answers; the old variable is left without keys and records; records, reference variables and all other vaults and sets are untouched. *)
Lemma t_C44_move_exact :
  forall ord w dst src sb w' out, vault_at w src sb -> w_objs w !! dst = None -> step ord w (OMoveVault dst src) = Some (w', out) ->
    out = OUnit /\ vault_at w' dst sb /\ (exists eb, vault_at w' src eb /\ bare eb) /\
    (forall k rev amt, sorted_records w' dst k rev amt = sorted_records w src k rev amt) /\
    (forall x, x <> dst -> x <> src -> w_objs w' !! x = w_objs w !! x) /\ w_recs w' = w_recs w /\ w_refs w' = w_refs w.
Proof.
  intros ord w dst src sb w' out HV Hd H. pose proof HV as [Hs Hst]. cbn [step] in H. rewrite (free_guard _ _ Hd), (vault_guard' _ _ _ HV) in H. cbn [guard_op negb andb] in H.
  unfold unit_out, move_construct_vault, move_vault_body in H. rewrite Hs in H. cbn [mbind option_bind] in H. injection H as <- <-.
  assert (Hne : dst <> src) by congruence. destruct (moved_facts w dst src sb Hne Hst) as (F1 & F2 & F3 & F4).
  split; [done|]. split; [done|]. split; [done|]. split; [by intros; apply F3|]. split; [done|]. split; done.
Qed.

(** C44: but a reference to a record of the moved vault goes on working through the old variable, whose vault has no keys: every GetData and SetData
    through it is refused as an unknown key, although the record is still valid. *)
Lemma t_C44_references_do_not_follow :
  forall ord w dst src sb w' out f rf r, vault_at w src sb -> w_objs w !! dst = None -> step ord w (OMoveVault dst src) = Some (w', out) ->
    w_refs w !! f = Some rf -> f_rec rf = Some r -> f_vlt rf = Some src -> valid_rec w r ->
    w_refs w' !! f = Some rf /\ valid_rec w' r /\ (forall k t, ref_get_data w' rf k t = Some (bad WrongKey k (Some t) None, None)) /\
    forall k v, step ord w' (OSetData f k v) = Some (w', ORes (bad WrongKey k (Some (vty v)) None)).
Proof.
  intros ord w dst src sb w' out f rf r HV Hd H Hf Hr Hv (rc & Hrc & Hva).
  destruct (t_C44_move_exact ord w dst src sb w' out HV Hd H) as (_ & _ & (eb & [Heb _] & B1 & B2 & B3 & _) & _ & _ & ER & EF).
  assert (Hk : forall k, o_keys eb !! k = None). { intros k. specialize (B3 k). unfold get_key_type in B3. by destruct (o_keys eb !! k). }
  split; [by rewrite EF|]. split; [exists rc; by rewrite ER|]. split.
  - intros k t. unfold ref_get_data. rewrite Hr, Hv. cbn [mbind option_bind]. rewrite Heb, ER, Hrc. cbn [mbind option_bind]. by rewrite Hva, Hk.
  - intros k v. cbn [step]. assert (is_ref w' f = true) as ->. { unfold is_ref. rewrite EF, Hf. by apply bool_decide_true. } cbn [guard_op].
    unfold ref_set_data. rewrite EF, Hf. cbn [mbind option_bind]. rewrite Hr, Hv. cbn [mbind option_bind]. rewrite Heb, ER, Hrc. cbn [mbind option_bind]. rewrite Hva.
    change (dfuel w') with (S (S (size (w_objs w')))). cbn [set_data_to_record]. rewrite Heb, ER, Hrc. cbn [mbind option_bind]. rewrite Hva. cbn [negb]. by rewrite Hk.
Qed.

(** C44: and a record set filled from the moved vault stays bound to the old variable, which does not list it: it keeps its records, and as long as it
    and the old vault are left alone it refuses every reference obtained from the new vault. *)
Lemma t_C44_sets_do_not_follow :
  forall ord w dst src sb w' out s tb, vault_at w src sb -> w_objs w !! dst = None -> step ord w (OMoveVault dst src) = Some (w', out) ->
    set_at w s tb -> o_parent tb = Some src ->
    set_at w' s tb /\ (exists eb, vault_at w' src eb /\ s ∉ o_sets eb) /\
    (forall w2 f rf r, w_objs w2 !! s = w_objs w' !! s -> w_objs w2 !! src = w_objs w' !! src ->
       w_refs w2 !! f = Some rf -> f_rec rf = Some r -> f_vlt rf = Some dst -> valid_rec w2 r ->
       step ord w2 (OSetAdd s f) = Some (w2, ORes (bad ParentVaultNotMatch "" None None))).
Proof.
  intros ord w dst src sb w' out s tb HV Hd H [Hs Hst] Hp. pose proof HV as [Hsrc Hsst].
  destruct (t_C44_move_exact ord w dst src sb w' out HV Hd H) as (_ & _ & (eb & [Heb Hes] & B1 & B2 & B3 & B4 & B5 & B6 & B7) & _ & EO & ER & EF).
  assert (Hs' : w_objs w' !! s = Some tb). { rewrite EO; [done|congruence|congruence]. }
  split; [done|]. split; [exists eb; split; [done|]; rewrite B7; by apply not_elem_of_empty|].
  intros w2 f rf r E1 E2 Hf Hr Hv (rc & Hrc & Hva). cbn [step]. assert (is_set w2 s = true) as ->. { unfold is_set. by rewrite E1, Hs', Hst. }
  assert (is_ref w2 f = true) as ->. { unfold is_ref. rewrite Hf. by apply bool_decide_true. } cbn [guard_op andb].
  unfold set_add_record. rewrite E1, Hs', Hf. cbn [mbind option_bind]. rewrite Hp, E2, Heb. cbn [mbind option_bind]. unfold ref_valid. rewrite Hr, Hrc. cbn [mbind option_bind].
  rewrite Hv, Hva. rewrite bool_decide_false by congruence. done.
Qed.

(** C44: move assignment first ends the contents of the target - its records become invalid, its sets are reset - and then hands over everything
    the source has; the source is left without keys and records. *)
Lemma t_C44_move_assign_exact :
  forall b ord w dst src sb db w' out, fair ord -> reach b w -> vault_at w src sb -> vault_at w dst db -> dst <> src ->
    step ord w (OMoveAssignVault dst src) = Some (w', out) ->
    out = OUnit /\ vault_at w' dst sb /\ (exists eb, vault_at w' src eb /\ bare eb) /\
    (forall k rev amt, sorted_records w' dst k rev amt = sorted_records w src k rev amt) /\
    w_refs w' = w_refs w /\ (forall r, valid_rec w' r <-> valid_rec w r /\ r ∉ o_recs db) /\
    (forall r k, r ∉ o_recs db -> stored w' r k = stored w r k) /\
    (forall s tb, set_at w s tb -> o_parent tb = Some dst -> exists tb', set_at w' s tb' /\ o_parent tb' = None /\ o_recs tb' = ∅) /\
    (forall x xb, w_objs w !! x = Some xb -> x <> dst -> x <> src -> (o_static_set xb = true -> o_parent xb <> Some dst) -> w_objs w' !! x = Some xb).
Proof.
  intros b ord w dst src sb db w' out Hf HR HV HD Hne H. pose proof HV as [Hs Hst]. pose proof HD as [Hd Hdst]. pose proof (reach_inv _ _ HR) as HI.
  cbn [step] in H. rewrite (vault_guard' _ _ _ HV), (vault_guard' _ _ _ HD) in H. cbn [guard_op andb] in H. apply unit_inv in H as [H ->].
  unfold move_assign_vault in H. rewrite decide_False in H by done.
  destruct (drop_vault ord w dst) as [w1|] eqn:E1; [|done]. cbn [mbind option_bind] in H.
  destruct (drop_vault_ok b ord w dst db) as (w1' & E1' & HI1 & Hdr); try done; [by eapply Some_Def|]. assert (w1' = w1) as -> by congruence.
  assert (Hs1 : w_objs w1 !! src = Some sb). { rewrite (dr_objs _ _ _ Hdr); [done|done|]. intros (x & X1 & X2 & _). congruence. }
  unfold move_vault_body in H. rewrite Hs1 in H. cbn [mbind option_bind] in H. injection H as <-.
  destruct (moved_facts w1 dst src sb Hne Hst) as (F1 & F2 & F3 & F4). fold (moved_world dst src sb w1).
  split; [done|]. split; [done|]. split; [done|]. split.
  { intros k rev amt. rewrite F3 by done. unfold sorted_records. by rewrite Hs1, Hs. }
  split; [apply (dr_refs _ _ _ Hdr)|].
  assert (Hl : forall r, fst <$> live w1 !! r = if decide (r ∈ o_recs db) then None else fst <$> live w !! r).
  { intros r. rewrite (dr_live _ _ _ Hdr r). destruct (decide (exists ob, _)) as [(ob & X1 & X2)|N]; destruct (decide (r ∈ o_recs db)) as [Y|Y]; try done.
    - assert (ob = db) as -> by congruence. done.
    - destruct N. by exists db. }
  split; [|split; [|split]].
  - intros r. change (valid_rec (moved_world dst src sb w1) r) with (valid_rec w1 r). rewrite !valid_rec_live. specialize (Hl r). destruct (decide (r ∈ o_recs db)).
    + split; [|by intros [_ ?]]. intros [x Hx]. by rewrite Hx in Hl.
    + split; [intros [x Hx]; rewrite Hx in Hl; split; [|done]; destruct (live w !! r); done|]. intros [[x Hx] _]. rewrite Hx in Hl. destruct (live w1 !! r); done.
  - intros r k Hr. change (stored (moved_world dst src sb w1) r k) with (stored w1 r k). specialize (Hl r). rewrite decide_False in Hl by done. rewrite !stored_val_of. unfold val_of. destruct (live w1 !! r) as [[]|]; destruct (live w !! r) as [[]|]; cbn in Hl |- *; congruence.
  - intros s tb [Htb Hts] Hp. exists (reset_obj tb). split; [|done]. split; [|done]. rewrite F4 by congruence. by apply (dr_sets _ _ _ Hdr).
  - intros x xb Hx N1 N2 Hn. rewrite F4 by done. rewrite (dr_objs _ _ _ Hdr); [done|done|]. intros (y & Y1 & Y2 & Y3). assert (y = xb) as -> by congruence. by destruct (Hn Y2).
Qed.

(** Moving the dependents of records from one set to another changes nothing else. *)
Lemma redep_fold src dst l w w' :
  foldM (fun w r => w' ← erase_dep src w r; add_dep dst w' r) w l = Some w' ->
  w_objs w' = w_objs w /\ w_refs w' = w_refs w /\ (forall r, valid_rec w' r <-> valid_rec w r) /\ (forall r k, stored w' r k = stored w r k) /\
  forall r, match w_recs w !! r with Some rc => exists d, w_recs w' !! r = Some (rd_deps d rc) | None => w_recs w' !! r = None end.
Proof.
  revert w. induction l as [|r l IH]; intros w H; cbn [foldM] in H.
  { injection H as <-. repeat (split; [done|]). intros r. destruct (w_recs w !! r) as [rc|]; [|done]. exists (r_deps rc). by destruct rc. }
  destruct (w_recs w !! r) as [rc|] eqn:Er.
  2:{ assert (E : erase_dep src w r = None) by (unfold erase_dep; by rewrite Er). by rewrite E in H. }
  assert (E : (w' ← erase_dep src w r; add_dep dst w' r) = Some (set_rec r (rd_deps ({[dst]} ∪ r_deps rc ∖ {[src]}) rc) w)).
  { unfold erase_dep, add_dep. rewrite Er. cbn [mbind option_bind set_rec w_recs]. rewrite lookup_insert. cbn. unfold set_rec. cbn. by rewrite insert_insert. }
  rewrite E in H. cbn [mbind option_bind] in H.
  apply IH in H as (H1 & H2 & H3 & H4 & H5). split; [by rewrite H1|]. split; [by rewrite H2|]. split; [|split].
  - intros r'. rewrite H3. unfold valid_rec. cbn [set_rec w_recs]. destruct (decide (r' = r)) as [->|N]; [|by rewrite lookup_insert_ne].
    rewrite lookup_insert, Er. split; intros (x & X1 & X2); injection X1 as <-; eauto.
  - intros r' k. rewrite H4. unfold stored. cbn [set_rec w_recs]. destruct (decide (r' = r)) as [->|N]; [|by rewrite lookup_insert_ne]. by rewrite lookup_insert, Er.
  - intros r'. specialize (H5 r'). cbn [set_rec w_recs] in H5. destruct (decide (r' = r)) as [->|N]; [|by rewrite lookup_insert_ne in H5].
    rewrite lookup_insert in H5. rewrite Er. destruct H5 as (d & ->). exists d. by destruct rc.
Qed.

(** C25: moving a set to a new variable hands over its records, its vault and its keys, but not its indexes: under every key the new set has nothing filed,
    so every sorted listing of it is empty (and so is every query by value or range, theorems C04, C09). The old variable is left unbound and empty; records,
    references, vaults and other sets are untouched. *)
Lemma t_C25_move_exact :
  forall b ord w dst src sb p w' out, fair ord -> reach b w -> set_at w src sb -> o_parent sb = Some p -> w_objs w !! dst = None ->
    step ord w (OMoveSet dst src) = Some (w', out) ->
    out = OUnit /\
    (exists db, set_at w' dst db /\ o_parent db = Some p /\ o_recs db = o_recs sb /\ get_keys db = get_keys sb /\ get_unique_keys db = get_unique_keys sb /\
       (forall k, is_Some (get_key_type db k) <-> is_Some (get_key_type sb k)) /\
       (forall k v r, ~ filed db k v r /\ ~ filed_ord db k v r) /\ forall k rev amt, sorted_records w' dst k rev amt = Some []) /\
    (exists sb', set_at w' src sb' /\ o_parent sb' = None /\ o_recs sb' = ∅) /\
    (forall x xb, x <> dst -> x <> src -> w_objs w !! x = Some xb -> exists xb', w_objs w' !! x = Some xb' /\ xb' = ob_sets (o_sets xb') xb) /\
    w_refs w' = w_refs w /\ (forall r, valid_rec w' r <-> valid_rec w r) /\ (forall r k, stored w' r k = stored w r k).
Proof.
  intros b ord w dst src sb p w' out Hf HR HS Hp Hd H. pose proof HS as [Hs Hst]. pose proof (reach_inv _ _ HR) as HI.
  destruct (Inv_set_facts _ _ _ _ _ HI Hs Hst Hp) as (pb & Hpb & Hpst & _).
  assert (Hne : dst <> src) by congruence. assert (Hdp : dst <> p) by congruence. assert (Hsp : src <> p) by congruence.
  cbn [step] in H. rewrite (free_guard _ _ Hd) in H. assert (HG : is_set w src = true) by (unfold is_set; by rewrite Hs, Hst). rewrite HG in H. cbn [guard_op negb andb] in H. apply unit_inv in H as [H ->].
  unfold move_construct_set, move_set in H. cbn [set_obj w_objs] in H. rewrite (lookup_insert_ne _ dst src) in H by done. rewrite Hs in H. cbn [mbind option_bind] in H. rewrite Hp in H.
  rewrite (lookup_insert_ne _ dst p) in H by done. rewrite Hpb in H. cbn [mbind option_bind] in H. rewrite lookup_insert in H. cbn [mbind option_bind] in H.
  match type of H with (foldM _ ?W _ ≫= _) = _ => destruct (foldM (fun w r => w' ← erase_dep src w r; add_dep dst w' r) W (ord (elements (o_recs sb)))) as [w1|] eqn:E1; [|done] end.
  cbn [mbind option_bind] in H. apply redep_fold in E1 as (R1 & R2 & R3 & R4 & _). cbn [set_obj w_objs w_refs] in R1, R2. rewrite insert_insert in R1.
  rewrite R1, lookup_insert in H. cbn [mbind option_bind] in H.
  match type of H with (copy_keys ord ?W sb dst ≫= _) = _ => destruct (copy_keys_empty ord W sb dst (ob_parent (Some p) (ob_isset true (ob_isset false new_set)))) as (order' & Ec & _); try done end.
  { cbn. by rewrite lookup_insert. }
  rewrite Ec in H. cbn [mbind option_bind set_obj w_objs] in H. rewrite lookup_insert in H. cbn [mbind option_bind] in H.
  rewrite R1, !insert_insert in H. rewrite (lookup_insert_ne _ src p) in H by done. rewrite (lookup_insert_ne _ dst p) in H by done. rewrite Hpb in H. cbn [mbind option_bind] in H.
  injection H as <-. cbn [set_obj w_objs w_refs w_recs].
  split; [done|]. split; [|split; [|split; [|split; [done|split; [|]]]]].
  - eexists. split; [split; [cbn; rewrite lookup_insert_ne by done; rewrite lookup_insert_ne by done; by rewrite lookup_insert|done]|].
    split; [done|]. split; [done|]. split; [done|]. split; [done|]. split; [|split].
    + intros k. unfold get_key_type. cbn. rewrite lookup_fmap. by destruct (o_keys sb !! k) as [[]|].
    + intros k v r. unfold filed, filed_ord. cbn. rewrite lookup_fmap. split; intros (ix & X1 & X2); destruct (o_keys sb !! k); try done; injection X1 as <-; by apply elem_of_nil in X2.
    + intros k rev amt. unfold sorted_records. cbn [set_obj w_objs]. rewrite lookup_insert_ne by done. rewrite lookup_insert_ne by done. rewrite lookup_insert. cbn [mbind option_bind].
      cbn. rewrite !lookup_fmap. destruct (o_keys sb !! k); cbn; [|done]. by destruct rev, amt as [[]|].
  - eexists. split; [split; [cbn; rewrite lookup_insert_ne by done; by rewrite lookup_insert|done]|done].
  - intros x xb N1 N2 Hx. destruct (decide (x = p)) as [->|N3].
    + assert (xb = pb) as -> by congruence. eexists. split; [by rewrite lookup_insert|]. by destruct pb.
    + exists xb. rewrite !lookup_insert_ne by done. split; [rewrite R1; by rewrite lookup_insert_ne|]. by destruct xb.
  - intros r. change (valid_rec w r) with (valid_rec (set_obj dst (ob_isset true (ob_isset false new_set)) (set_obj dst (ob_isset false new_set) w)) r). by rewrite <- R3.
  - intros r k. change (stored w r k) with (stored (set_obj dst (ob_isset true (ob_isset false new_set)) (set_obj dst (ob_isset false new_set) w)) r k). by rewrite <- R4.
Qed.
