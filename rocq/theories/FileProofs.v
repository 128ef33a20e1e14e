(** What ReadFile makes of the rows of a file. *)
From Verif Require Import T_Base Runs T_Records T_Frame2 T_Keys FileSpec.
Open Scope nat_scope.

(** The cells of a row, one after the other. *)
Fixpoint apply_cells (ob : obj) (cells : list (string * text)) (data : gmap string value) : gmap string value :=
  match cells with
  | [] => data
  | (k, s) :: cells' => apply_cells ob cells' (match cell_value ob k s with Some v => <[k := v]> data | None => data end)
  end.
Lemma typed_key_type (ob : obj) data k v : typed (o_keys ob) data -> data !! k = Some v -> get_key_type ob k = Some (vty v).
Proof.
  intros Ht Hd. pose proof (Ht k) as Hk. rewrite Hd in Hk. unfold get_key_type. destruct (o_keys ob !! k) as [[t d]|]; [|done]. cbn. by rewrite Hk.
Qed.
Lemma typed_key_none (ob : obj) data k : typed (o_keys ob) data -> data !! k = None -> get_key_type ob k = None.
Proof.
  intros Ht Hd. pose proof (Ht k) as Hk. rewrite Hd in Hk. unfold get_key_type. destruct (o_keys ob !! k) as [[t d]|]; done.
Qed.
Lemma set_from_cell ob data k s : typed (o_keys ob) data ->
  match set_from_string data k s with
  | None => exists t, get_key_type ob k = Some t /\ from_string t s = FsUB
  | Some None => cell_value ob k s = None
  | Some (Some data') => exists v, cell_value ob k s = Some v /\ data' = <[k := v]> data
  end.
Proof.
  intros Ht. unfold set_from_string, cell_value. destruct (data !! k) as [v|] eqn:Ed.
  - rewrite (typed_key_type ob data k v Ht Ed). cbn [mbind option_bind]. destruct (from_string (vty v) s) eqn:Ef; [by eexists|done|by eexists].
  - by rewrite (typed_key_none ob data k Ht Ed).
Qed.
Lemma read_fields_cells ob strict ks fields : forall data ok, typed (o_keys ob) data ->
  match read_fields strict ks fields data ok with
  | None => (strict = true /\ length ks < length fields) \/ exists c t, c ∈ zip ks fields /\ get_key_type ob c.1 = Some t /\ from_string t c.2 = FsUB
  | Some (data', ok', wrong) =>
      (wrong = None /\ well_formed ob (zip ks fields) /\ data' = apply_cells ob (zip ks fields) data /\ ok' = (if decide (zip ks fields = []) then ok else true)) \/
      exists k, wrong = Some k /\ ok' = false /\ first_wrong ob (zip ks fields) k
  end.
Proof.
  revert fields. induction ks as [|k ks IH]; intros [|s fields] data ok Ht; cbn [read_fields zip zip_with].
  - left. split; [done|]. split; [by apply Forall_nil|done].
  - destruct strict; [left; split; [done|cbn; lia]|]. left. split; [done|]. split; [by apply Forall_nil|done].
  - left. split; [done|]. split; [by apply Forall_nil|done].
  - pose proof (set_from_cell ob data k s Ht) as Hs. destruct (set_from_string data k s) as [[d|]|] eqn:Es; cbn [mbind option_bind].
    + destruct Hs as (v & Hv & ->). specialize (IH fields (<[k:=v]> data) true (typed_from_string _ _ _ _ _ Ht Es)).
      destruct (read_fields strict ks fields _ true) as [[[data' ok'] wrong]|].
      * destruct IH as [(-> & Hwf & -> & ->)|(k' & -> & -> & c1 & s' & c2 & E & H1 & H2)].
        -- left. split; [done|]. split; [by apply Forall_cons; split; [eauto|]|]. cbn [apply_cells]. rewrite Hv. split; [done|].
           by destruct (decide _).
        -- right. exists k'. split; [done|]. split; [done|]. exists ((k, s) :: c1), s', c2. split; [cbn [app]; f_equal; exact E|]. split; [|done]. apply Forall_cons; split; [eauto|done].
      * destruct IH as [[? Hl]|(c & t & Hc & H1 & H2)]; [left; cbn; split; [done|lia]|right]. exists c, t. split; [by right|done].
    + right. exists k. split; [done|]. split; [done|]. exists [], s, (zip ks fields). split; [done|]. split; [by apply Forall_nil|done].
    + destruct Hs as (t & H1 & H2). right. exists (k, s), t. split; [by left|done].
Qed.
Lemma row_fields_cells ob load keys user row : typed (o_keys ob) (o_tmpl ob) ->
  match row_fields ob load keys user row with
  | None => (load = false /\ user = [] /\ length (o_order ob) < length row) \/
      exists c t, c ∈ zip (row_keys ob load keys user) row /\ get_key_type ob c.1 = Some t /\ from_string t c.2 = FsUB
  | Some (data', ok', wrong) =>
      (wrong = None /\ well_formed ob (zip (row_keys ob load keys user) row) /\ data' = apply_cells ob (zip (row_keys ob load keys user) row) (o_tmpl ob) /\
        ok' = (if decide (zip (row_keys ob load keys user) row = []) then false else true)) \/
      exists k, wrong = Some k /\ ok' = false /\ first_wrong ob (zip (row_keys ob load keys user) row) k
  end.
Proof.
  intros Ht. unfold row_fields, row_keys. destruct load; [|destruct user as [|u user]].
  - pose proof (read_fields_cells ob false keys row (o_tmpl ob) false Ht) as H. destruct (read_fields _ _ _ _ _) as [[[? ?] ?]|]; [done|]. destruct H as [[? _]|H]; [done|by right].
  - pose proof (read_fields_cells ob true (o_order ob) row (o_tmpl ob) false Ht) as H. destruct (read_fields _ _ _ _ _) as [[[? ?] ?]|]; [done|]. destruct H as [[_ ?]|H]; [by left|by right].
  - pose proof (read_fields_cells ob false (u :: user) row (o_tmpl ob) false Ht) as H. destruct (read_fields _ _ _ _ _) as [[[? ?] ?]|]; [done|]. destruct H as [[? _]|H]; [done|by right].
Qed.
Lemma apply_cells_value ob cells data k : well_formed ob cells ->
  apply_cells ob cells data !! k = match last (filter (fun c : string * text => c.1 = k) cells) with Some c => cell_value ob k c.2 | None => data !! k end.
Proof.
  revert data. induction cells as [|[k0 s0] cells IH]; intros data Hw; [done|]. apply Forall_cons in Hw as [[v Hv] Hw]. cbn [fst snd] in Hv. cbn [apply_cells]. rewrite Hv, IH by done.
  destruct (decide (k0 = k)) as [->|Hne].
  - rewrite filter_cons_True by done. destruct (filter _ cells) as [|c l] eqn:E; [cbn; by rewrite lookup_insert|].
    rewrite last_cons_cons. destruct (last (c :: l)) eqn:El; [done|]. by apply last_None in El.
  - rewrite filter_cons_False by done. destruct (last _); [done|]. by rewrite lookup_insert_ne.
Qed.

Lemma live_stored w w' r : live w' !! r = live w !! r -> forall k, stored w' r k = stored w r k.
Proof. intros H k. rewrite !stored_val_of. unfold val_of. by rewrite H. Qed.
Lemma live_valid w w' r : live w' !! r = live w !! r -> valid_rec w r -> valid_rec w' r.
Proof. intros H Hv. apply valid_rec_live in Hv. apply valid_rec_live. by rewrite H. Qed.
Lemma recs_below b w o ob r : Inv b w -> w_objs w !! o = Some ob -> o_static_set ob = false -> r ∈ o_recs ob -> r < w_next w.
Proof.
  intros HI Ho Hst Hr. pose proof (vi_vault _ _ _ _ (inv_obj _ _ HI) _ _ Ho Hst) as Hv. destruct (v_recs _ _ Hv r Hr) as (l & Hl & _).
  apply (inv_heap _ _ HI). unfold live in Hl. rewrite lookup_live_of in Hl. destruct (w_recs w !! r); [eauto|done].
Qed.

Lemma cells_same ob ob' k s : o_keys ob' = o_keys ob -> cell_value ob' k s = cell_value ob k s.
Proof. intros H. unfold cell_value, get_key_type. by rewrite H. Qed.
Lemma row_value_same ob ob' cells k : o_keys ob' = o_keys ob -> o_tmpl ob' = o_tmpl ob -> row_value ob' cells k = row_value ob cells k.
Proof. intros H1 H2. unfold row_value. rewrite H2. destruct (last _); [|done]. by apply cells_same. Qed.
Lemma rows_read_same w ob ob' load ks : o_keys ob' = o_keys ob -> o_tmpl ob' = o_tmpl ob -> get_unique_keys ob' = get_unique_keys ob ->
  forall line X rows rs reps, rows_read w ob' load ks line X rows rs reps -> rows_read w ob load ks line X rows rs reps.
Proof.
  intros H1 H2 H3.
  assert (forall c, well_formed ob' c -> well_formed ob c) as Hwf.
  { intros c H. eapply Forall_impl; [exact H|]. intros [k s]. cbn. by rewrite (cells_same ob ob'). }
  assert (forall X c k, clash w ob X c k <-> clash w ob' X c k) as Hcl.
  { intros X c k. unfold clash. by rewrite H3, (row_value_same ob ob'). }
  assert (forall line X c r rep, row_read w ob' load line X c r rep -> row_read w ob load line X c r rep) as Hr.
  { intros line X c r rep H. destruct H as [r Hne Hw Hc Hv Hs|He|k (c1 & s & c2 & E & Hw & Hn)|k k1 k2 Hne Hw E Hc1 Hc2].
    - apply row_accepted; auto; [intros k; rewrite Hcl; auto|intros k; rewrite <- (row_value_same ob ob') by done; auto].
    - by apply row_empty.
    - apply row_malformed. exists c1, s, c2. split; [done|]. split; [auto|]. by rewrite <- (cells_same ob ob').
    - apply (row_clash _ _ _ _ _ _ k k1 k2); auto; [congruence|intros k' Hk'; rewrite Hcl; auto|by rewrite Hcl]. }
  intros line X rows rs reps H. induction H; [constructor|eapply rows_made; eauto|eapply rows_rejected; eauto].
Qed.

Lemma row_fields_some w o ob load keys user line row w1 : w_objs w !! o = Some ob -> read_row w o load keys user line row = Some w1 ->
  is_Some (row_fields ob load keys user row).
Proof.
  intros Ho H. destruct (row_fields ob load keys user row) as [|] eqn:E; [eauto|]. exfalso. unfold read_row in H. rewrite Ho in H. cbn [mbind option_bind] in H.
  unfold row_fields in E. rewrite E in H. done.
Qed.
Lemma stored_created o ob data w r k : stored (created o ob data w) r k = if decide (r = w_next w) then data !! k else stored w r k.
Proof.
  unfold stored, created. cbn. destruct (decide (r = w_next w)) as [->|Hne]; [by rewrite lookup_insert|by rewrite lookup_insert_ne].
Qed.
Lemma read_loop_reads b o load keys user rows : forall line w ob w',
  Inv b w -> w_objs w !! o = Some ob -> o_static_set ob = false -> read_rows_loop w o load keys user line rows = Some w' ->
  exists ob' rs reps, w_objs w' !! o = Some ob' /\ o_static_set ob' = false /\ rows_read w' ob load (row_keys ob load keys user) (S line) (o_recs ob) rows rs reps /\
    o_recs ob' = o_recs ob ∪ list_to_set rs /\ o_bad ob' = o_bad ob ++ reps /\ (forall r, r ∈ rs -> w_next w <= r) /\ NoDup rs.
Proof.
  induction rows as [|row rows IH]; intros line w ob w' HI Ho Hst H; cbn [read_rows_loop] in H.
  { injection H as <-. exists ob, [], []. split; [done|]. split; [done|]. split; [constructor|]. cbn. split; [set_solver|]. split; [by rewrite app_nil_r|].
    split; [intros r Hr; by apply elem_of_nil in Hr|constructor]. }
  destruct (read_row w o load keys user (S line) row) as [w1|] eqn:E1; [|done]. cbn [mbind option_bind] in H.
  destruct (row_fields_some _ _ _ _ _ _ _ _ _ Ho E1) as [[[data ok] wrong] Hrow].
  destruct (read_row_ok b w o ob load keys user (S line) row data ok wrong) as (w2 & E2 & HI1 & Hty & He); try done. assert (w2 = w1) as -> by congruence. clear E2.
  pose proof (row_effect_grown _ _ _ _ _ _ _ _ _ Ho He) as G1. destruct (gr_o _ _ _ G1 _ Ho) as (ob1 & Ho1 & Hsk & Hrec1 & Hrec2).
  pose proof Hsk as (K1 & K2 & K3 & K4 & K5 & K6 & K7 & K8).
  destruct (IH (S line) w1 ob1 w' HI1 Ho1 ltac:(congruence) H) as (ob' & rs & reps & Ho' & Hst' & Hread & Hrecs & Hbad & Hfresh & Hnd).
  pose proof (read_rows_loop_grown b o load keys user rows (S line) w1 ob1 w' HI1 Ho1 ltac:(congruence) H) as G2.
  assert (row_keys ob1 load keys user = row_keys ob load keys user) as Ek by (unfold row_keys; by rewrite K5). rewrite Ek in Hread.
  apply (rows_read_same w' ob ob1) in Hread; [|done|done|unfold get_unique_keys; by rewrite K6].
  pose proof (vi_vault _ _ _ _ (inv_obj _ _ HI) _ _ Ho Hst) as Hv. pose proof (k_tmpl _ (v_keys _ _ Hv)) as Htm.
  pose proof (row_fields_cells ob load keys user row Htm) as Hcells. rewrite Hrow in Hcells. set (cells := zip (row_keys ob load keys user) row) in *.
  assert (Hsame : forall r k, r ∈ o_recs ob -> stored w' r k = stored w r k).
  { intros r k Hr. pose proof (recs_below _ _ _ _ _ HI Ho Hst Hr) as Hlt. rewrite (live_stored w1 w'); [|apply (gr_live _ _ _ G2); pose proof (gr_next _ _ _ G1); lia].
    apply live_stored, (gr_live _ _ _ G1). lia. }
  assert (Hval : well_formed ob cells -> data = apply_cells ob cells (o_tmpl ob) -> forall k, data !! k = row_value ob cells k).
  { intros Hw -> k. by rewrite apply_cells_value. }
  assert (Hcl : well_formed ob cells -> data = apply_cells ob cells (o_tmpl ob) -> forall k, k ∈ o_uniq ob -> conflict w ob data k <-> clash w' ob (o_recs ob) cells k).
  { intros Hw Hd k Hk. rewrite conflict_taken.
    - unfold taken, clash, get_unique_keys. rewrite (Hval Hw Hd). split.
      + intros (r & Hr & Hs). split; [done|]. exists r. by rewrite Hsame.
      + intros (_ & r & Hr & Hs). exists r. by rewrite <- Hsame.
    - destruct (k_uniq _ (v_keys _ _ Hv) _ Hk) as [td Htd]. pose proof (Hty k) as Hx. rewrite Htd in Hx. destruct (data !! k); [eauto|done]. }
  unfold row_effect in He. destruct ok.
  - destruct Hcells as [(-> & Hwf & Hd & Hne)|(k & _ & ? & _)]; [|done]. destruct (decide (cells = [])) as [|Hne']; [done|].
    cbn [row_wrong] in He. rewrite ob_bad_nil in He.
    assert (set_obj o ob w = w) as Ew by (unfold set_obj; rewrite insert_id by done; apply world_eta).
    rewrite Ew in He. destruct He as [(Hno & ->)|(ks1 & k & ks2 & Eu & Hno & Hcf & ->)].
    + set (r := w_next w). assert (ob1 = obj_add data r ob) as -> by (unfold created in Ho1; cbn [w_objs] in Ho1; rewrite lookup_insert in Ho1; by injection Ho1).
      exists ob', (r :: rs), reps. split; [done|]. split; [done|]. cbn in Hrecs.
      assert (r ∉ o_recs ob) as Hr by (intros Hr; pose proof (recs_below _ _ _ _ _ HI Ho Hst Hr); lia).
      cbn in Hfresh. split; [|split; [|split; [done|split]]].
      * apply rows_made; [|done|exact Hread]. apply row_accepted; [done|done| | |].
        -- intros k Hk. pose proof Hk as [Hku _]. by apply (Hno k Hku), Hcl.
        -- apply (live_valid (created o ob data w)); [apply (gr_live _ _ _ G2); cbn; lia|]. exists (Recd data true 0 ∅). cbn. by rewrite lookup_insert.
        -- intros k. rewrite (live_stored (created o ob data w) w') by (apply (gr_live _ _ _ G2); cbn; lia). rewrite stored_created, decide_True by done. by apply Hval.
      * rewrite Hrecs. cbn. clear. set_solver.
      * intros x Hx. apply elem_of_cons in Hx as [->|Hx]; [done|]. specialize (Hfresh x Hx). lia.
      * constructor; [|done]. intros Hx. specialize (Hfresh r Hx). lia.
    + set (k' := k). assert (ob1 = add_bad [(S line, k)] ob) as -> by (unfold set_obj in Ho1; cbn [w_objs] in Ho1; rewrite lookup_insert in Ho1; by injection Ho1). cbn in Hrecs, Hfresh. exists ob', rs, ([(S line, k)] ++ reps).
      split; [done|]. split; [done|]. split; [|split; [done|split; [|split; [|done]]]].
      * eapply rows_rejected; [|exact Hread]. apply (row_clash _ _ _ _ _ _ k ks1 ks2); [done|done|done| |].
        -- intros k0 Hk0 Hc. apply (Hno k0 Hk0). apply Hcl; [done|done| |done]. rewrite Eu. apply elem_of_app. by left.
        -- apply Hcl; [done|done| |done]. rewrite Eu. apply elem_of_app. right. by left.
      * rewrite Hbad. cbn. by rewrite <- app_assoc.
      * intros x Hx. specialize (Hfresh x Hx). lia.
  - assert (ob1 = add_bad (row_wrong load (S line) wrong) ob) as -> by (rewrite He in Ho1; unfold set_obj in Ho1; cbn [w_objs] in Ho1; rewrite lookup_insert in Ho1; by injection Ho1).
    cbn in Hrecs. rewrite He in Hfresh. cbn in Hfresh. exists ob', rs, (row_wrong load (S line) wrong ++ reps). split; [done|]. split; [done|].
    split; [|split; [done|split; [|split; done]]].
    + eapply rows_rejected; [|exact Hread]. destruct Hcells as [(-> & Hwf & Hd & Hne)|(k & -> & _ & Hk)].
      * destruct (decide (cells = [])) as [Hc|]; [|done]. by apply row_empty.
      * by apply row_malformed.
    + rewrite Hbad. cbn. by rewrite <- app_assoc.
Qed.
Lemma row_safe_fields ob load keys user row : typed (o_keys ob) (o_tmpl ob) -> row_safe ob load keys user row -> is_Some (row_fields ob load keys user row).
Proof.
  intros Ht [H1 H2]. pose proof (row_fields_cells ob load keys user row Ht) as H. destruct (row_fields _ _ _ _ _) as [|]; [eauto|].
  destruct H as [(A & B & C)|(c & t & Hc & Hk & Hu)]; [specialize (H1 A B); lia|]. by destruct (H2 c Hc t Hk).
Qed.

(** What SaveToFile writes. *)
Lemma save_fields_joined sep data ks : save_fields ks (Z.of_nat (length ks)) sep data = joined sep (format_csv <$> (data_text data <$> ks)).
Proof.
  induction ks as [|k ks IH]; [done|]. cbn [save_fields length fmap list_fmap]. destruct ks as [|k2 ks].
  - rewrite decide_True by done. cbn. by rewrite app_nil_r.
  - rewrite decide_False by (cbn [length]; lia). replace (Z.of_nat (S (length (k2 :: ks))) - 1)%Z with (Z.of_nat (length (k2 :: ks))) by lia. rewrite IH. done.
Qed.
Lemma save_names_joined sep ks ne : ks <> [] -> save_names ks sep ne = Some (joined sep (tx <$> ks) ++ (if ne then [CR; LF] else [])).
Proof.
  destruct ks as [|k ks]; [done|]. intros _. cbn [save_names]. f_equal. rewrite app_assoc. f_equal. clear ne. revert k. induction ks as [|k2 ks IH]; intros k; [cbn; by rewrite app_nil_r|].
  change (joined sep (tx <$> k :: k2 :: ks)) with (tx k ++ sep ++ joined sep (tx <$> k2 :: ks)). rewrite <- (IH k2). cbn [fmap list_fmap concat]. by rewrite <- !app_assoc.
Qed.
Lemma typed_size ob data : keys_ok ob -> typed (o_keys ob) data -> size data = length (o_order ob).
Proof.
  intros K Ht. rewrite <- (size_list_to_set (C := gset string)) by apply K. rewrite <- size_dom. f_equal. apply leibniz_equiv. intros k.
  rewrite elem_of_dom, elem_of_list_to_set, (k_order _ K). pose proof (Ht k) as Hk. destruct (data !! k), (o_keys ob !! k); split; intros [? ?]; done || eauto.
Qed.
Lemma foldM_lines {A} (f : text -> A -> option text) (g : A -> text) l : (forall acc x, x ∈ l -> f acc x = Some (acc ++ g x)) -> forall acc, foldM f acc l = Some (acc ++ concat (g <$> l)).
Proof.
  induction l as [|x l IH]; intros H acc; [cbn; by rewrite app_nil_r|]. cbn [foldM]. rewrite (H acc x) by (by left). cbn [mbind option_bind]. rewrite IH.
  - cbn [fmap list_fmap concat]. by rewrite <- app_assoc.
  - intros acc' y Hy. apply H. by right.
Qed.
Lemma saved_text b ord w o ob keys sep hk : reach b w -> fair ord -> vault_at w o ob ->
  (hk = true -> keys = [] -> o_order ob <> []) ->
  let ks := match keys with [] => o_order ob | _ => keys end in
  save_file ord w o keys sep hk =
    Some ((if hk then joined sep (tx <$> ks) ++ (if decide (o_order ob = []) then [] else [CR; LF]) else []) ++ concat (record_line w sep ks <$> ord (elements (o_recs ob)))).
Proof.
  intros HR Hf HV Hk ks. pose proof HV as [Ho Hst]. unfold save_file. rewrite Ho. cbn [mbind option_bind].
  assert ((if hk then save_names (match keys with [] => o_order ob | _ => keys end) sep (negb (bool_decide (o_order ob = []))) else Some []) =
    Some (if hk then joined sep (tx <$> ks) ++ (if decide (o_order ob = []) then [] else [CR; LF]) else [])) as ->.
  { destruct hk; [|done]. rewrite save_names_joined; [|destruct keys; [by apply Hk|done]]. fold ks. do 2 f_equal. by destruct (decide _); [rewrite bool_decide_true|rewrite bool_decide_false]. }
  cbn [mbind option_bind]. rewrite (foldM_lines _ (record_line w sep ks)); [done|].
  intros acc r Hr. rewrite (Hf _ : _ ≡ₚ _) in Hr. apply elem_of_elements in Hr. pose proof (vault_valid b w HR _ _ _ HV Hr) as (rc & Hrc & Hva). rewrite Hrc. cbn [mbind option_bind].
  f_equal. f_equal. unfold record_line. f_equal. 
  assert (forall k, data_text (r_data rc) k = field_text w r k) as Ef. { intros k. unfold data_text, field_text, stored. rewrite Hrc. cbn. by rewrite Hva. }
  replace (match keys with [] => Z.of_nat (size (r_data rc)) | _ => Z.of_nat (length keys) end) with (Z.of_nat (length ks)).
  - fold ks. rewrite save_fields_joined. f_equal. f_equal. apply list_fmap_ext. intros _ k _. apply Ef.
  - unfold ks. destruct keys; [|done]. f_equal. symmetry. apply typed_size; [by eapply vault_keys|].
    destruct (v_recs _ _ (vault_vok b w HR _ _ HV) r Hr) as (l & Hl & Ht). unfold live in Hl. rewrite lookup_live_of, Hrc in Hl. cbn in Hl. unfold live_rec in Hl. rewrite Hva in Hl. by injection Hl as <-.
Qed.
