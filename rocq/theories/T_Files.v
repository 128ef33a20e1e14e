(** Saving to and reading from files (C34, C35). *)
From Verif Require Export Spec FileSpec.
From Verif Require Import T_Base T_Records T_Frame2 T_Keys CsvProofs T_Csv FileProofs FileEx.
From Verif Require Export VaultModel Spec.
Open Scope nat_scope.

Lemma read_file_rows w o sep load user handler f w' ok : read_file w o sep load user handler (Some f) = Some (w', ok) <->
  read_rows w o load (loaded_keys load (parse_file sep f)) user (loaded_rows load handler (parse_file sep f)) = Some w' /\ ok = true.
Proof.
  unfold read_file, loaded_keys, loaded_rows. destruct load.
  - destruct (parse_file sep f) as [|line lines]; cbn [tail fmap list_fmap]; destruct (read_rows _ _ _ _ _ _); cbn; split; intros H; try done; try (injection H as -> ->; done); destruct H as [E ->]; congruence.
  - destruct (read_rows _ _ _ _ _ _); cbn; split; intros H; try done; try (injection H as -> ->; done); destruct H as [E ->]; congruence.
Qed.
Lemma read_rows_reads b w o ob load keys user rows w' : reach b w -> vault_at w o ob -> read_rows w o load keys user rows = Some w' ->
  exists ob' rs reps, vault_at w' o ob' /\ rows_read w' ob load (row_keys ob load keys user) 1 (o_recs ob) rows rs reps /\
    o_recs ob' = o_recs ob ∪ list_to_set rs /\ o_bad ob' = reps /\ (forall r, r ∈ rs -> w_recs w !! r = None) /\ NoDup rs /\ grown o w w'.
Proof.
  intros HR HV E. pose proof (reach_inv b w HR) as HI. pose proof HV as [Ho Hst]. unfold read_rows in E. rewrite Ho in E. cbn [mbind option_bind] in E.
  set (w0 := set_obj o (ob_bad [] ob) w) in *.
  assert (Inv b w0) as HI0 by (by apply bad_inv). assert (w_objs w0 !! o = Some (ob_bad [] ob)) as Ho0 by (cbn; by rewrite lookup_insert).
  destruct (read_loop_reads b o load keys user rows 0 w0 _ w' HI0 Ho0 Hst E) as (ob' & rs & reps & Ho' & Hst' & Hread & Hrecs & Hbad & Hfresh & Hnd).
  pose proof (read_rows_loop_grown b o load keys user rows 0 w0 _ w' HI0 Ho0 Hst E) as G.
  exists ob', rs, reps. split; [done|]. split; [|split; [done|split; [done|split; [|split; [done|]]]]].
  - by apply (rows_read_same w' ob (ob_bad [] ob)).
  - intros r Hr. specialize (Hfresh r Hr). cbn in Hfresh. destruct (w_recs w !! r) eqn:Er; [|done]. pose proof (inv_heap _ _ HI r ltac:(eauto)). lia.
  - eapply grown_trans; [|exact G]. split; [done|done| |].
    + intros x Hx. cbn. by rewrite lookup_insert_ne.
    + intros ob0 H0. exists (ob_bad [] ob). assert (ob0 = ob) as -> by congruence. split; [done|]. split; [done|]. split; [auto|done].
Qed.

(** Reading a file is the operation OReadRows on the lines the parser delivers; so everything known about operations holds of it. *)
Lemma t_C35_is_an_operation :
  forall ord w o ob sep load user handler f w' ok, vault_at w o ob ->
    (read_file w o sep load user handler (Some f) = Some (w', ok) <->
     step ord w (OReadRows o load (loaded_keys load (parse_file sep f)) user (loaded_rows load handler (parse_file sep f))) = Some (w', OUnit) /\ ok = true).
Proof.
  intros ord w o ob sep load user handler f w' ok [Ho Hst]. rewrite read_file_rows. cbn [step]. unfold is_vault, guard_op. rewrite Ho, Hst. cbn.
  destruct (read_rows _ _ _ _ _ _); cbn; split; intros [E ->]; split; congruence.
Qed.
(** Every line becomes a record or a report, except empty ones: see [row_read]. The records are new, nothing else is added, and the
    report of the vault is about this file only. *)
Lemma t_C35_loads_exactly_partial :
  forall b w o ob sep load user handler f w' ok, reach b w -> vault_at w o ob ->
    read_file w o sep load user handler (Some f) = Some (w', ok) ->
    ok = true /\ exists ob' rs,
      vault_at w' o ob' /\ o_recs ob' = o_recs ob ∪ list_to_set rs /\ NoDup rs /\ (forall r, r ∈ rs -> w_recs w !! r = None) /\
      (forall r k, r ∈ o_recs ob -> stored w' r k = stored w r k) /\
      rows_read w' ob load (row_keys ob load (loaded_keys load (parse_file sep f)) user) 1 (o_recs ob)
        (loaded_rows load handler (parse_file sep f)) rs (get_errors ob').
Proof.
  intros b w o ob sep load user handler f w' ok HR HV E. apply read_file_rows in E as [E ->]. split; [done|].
  destruct (read_rows_reads b w o ob _ _ _ _ _ HR HV E) as (ob' & rs & reps & HV' & Hread & Hrecs & Hbad & Hfresh & Hnd & G).
  exists ob', rs. split; [done|]. split; [done|]. split; [done|]. split; [done|]. split; [|unfold get_errors; by rewrite Hbad].
  intros r k Hr. apply live_stored, (gr_live _ _ _ G). destruct HV. by eapply recs_below; [by apply reach_inv| | |].
Qed.
(** Reading is defined if no line has more fields than there are keys to take them (with keys neither loaded nor given) and no number is
    out of range. *)
Lemma t_C35_defined :
  forall b w o ob sep load user handler f, reach b w -> vault_at w o ob ->
    Forall (row_safe ob load (loaded_keys load (parse_file sep f)) user) (loaded_rows load handler (parse_file sep f)) ->
    exists w', read_file w o sep load user handler (Some f) = Some (w', true).
Proof.
  intros b w o ob sep load user handler f HR HV Hs. pose proof (vault_keys b w HR _ _ HV) as K. destruct HV as [Ho Hst].
  destruct (read_rows_ok b w o ob load (loaded_keys load (parse_file sep f)) user (loaded_rows load handler (parse_file sep f))) as (w' & E & _); [by apply reach_inv|done|done| |].
  - right. eapply Forall_impl; [exact Hs|]. intros row Hrow. apply row_safe_fields; [apply K|done].
  - exists w'. by apply read_file_rows.
Qed.
(** A file that cannot be opened: the answer is false, the report is emptied, nothing else changes. *)
Lemma t_C35_no_file :
  forall w o ob sep load user handler, vault_at w o ob ->
    exists w' ob', read_file w o sep load user handler None = Some (w', false) /\ vault_at w' o ob' /\ get_errors ob' = [] /\
      o_recs ob' = o_recs ob /\ (forall x, x <> o -> w_objs w' !! x = w_objs w !! x) /\ w_recs w' = w_recs w /\ w_refs w' = w_refs w.
Proof.
  intros w o ob sep load user handler [Ho Hst]. cbn [read_file]. rewrite Ho. cbn [mbind option_bind]. eexists _, (ob_bad [] ob). split; [done|].
  split; [split; [cbn; by rewrite lookup_insert|done]|]. split; [done|]. split; [done|]. split; [|done]. intros x Hx. cbn. by rewrite lookup_insert_ne.
Qed.

(** What SaveToFile writes: the names of the keys if asked for, then one line for every record of the vault. *)
Lemma t_C34_saved_text :
  forall b ord w o ob keys sep hk, reach b w -> fair ord -> vault_at w o ob -> (hk = true -> keys = [] -> o_order ob <> []) ->
    exists rs, rs ≡ₚ elements (o_recs ob) /\
      save_file ord w o keys sep hk = Some (
        (if hk then joined sep (tx <$> (if decide (keys = []) then o_order ob else keys)) ++ (if decide (o_order ob = []) then [] else [CR; LF]) else []) ++
        concat (record_line w sep (if decide (keys = []) then o_order ob else keys) <$> rs)).
Proof.
  intros b ord w o ob keys sep hk HR Hf HV Hk. exists (ord (elements (o_recs ob))). split; [apply Hf|]. rewrite (saved_text b ord w o ob keys sep hk) by done.
  destruct keys as [|k keys]; done.
Qed.

Lemma st_tx k : st (tx k) = k.
Proof. unfold st, tx. apply String.string_of_list_ascii_of_string. Qed.
Lemma zip_lookup_unique (ks : list string) (g : string -> text) k : NoDup ks ->
  filter (fun c : string * text => c.1 = k) (zip ks (g <$> ks)) = if decide (k ∈ ks) then [(k, g k)] else [].
Proof.
  induction ks as [|x ks IH]; intros Hn; [done|]. apply NoDup_cons in Hn as [Hx Hn]. specialize (IH Hn).
  change (zip (x :: ks) (g <$> x :: ks)) with ((x, g x) :: zip ks (g <$> ks)). destruct (decide (x = k)) as [->|Hne].
  - rewrite filter_cons_True by done. rewrite IH. rewrite (decide_False (P := k ∈ ks)) by done. rewrite decide_True by (by left). done.
  - rewrite filter_cons_False by done. rewrite IH. destruct (decide (k ∈ ks)); [rewrite decide_True by (by right)|rewrite decide_False by (rewrite elem_of_cons; naive_solver)]; done.
Qed.
Lemma rows_reload w w' pb hk ks l : forall line X rs reps,
  rows_read w' pb hk ks line X ((fun r => field_text w r <$> ks) <$> l) rs reps -> ks <> [] -> NoDup ks -> NoDup l ->
  (forall r k, r ∈ l -> k ∈ ks -> exists v, stored w r k = Some v /\ cell_value pb k (to_string v) = Some v) ->
  (forall r k, r ∈ l -> k ∉ ks -> stored w r k = None) -> (forall k, k ∉ ks -> o_tmpl pb !! k = None) ->
  (forall k r x, k ∈ get_unique_keys pb -> r ∈ l -> x ∈ X -> stored w' x k <> stored w r k) ->
  (forall k r x, k ∈ get_unique_keys pb -> r ∈ l -> x ∈ l -> x <> r -> stored w x k <> stored w r k) ->
  reps = [] /\ Forall2 (fun r r' => forall k, stored w' r' k = stored w r k) l rs.
Proof.
  induction l as [|r l IH]; intros line X rs reps H Hks Hnk Hnl Hv Hn Ht Hc1 Hc2; cbn [fmap list_fmap] in H.
  { inversion H; subst. done. }
  apply NoDup_cons in Hnl as [Hr Hnl].
  assert (Hval : forall k, row_value pb (zip ks (field_text w r <$> ks)) k = stored w r k).
  { intros k. unfold row_value. rewrite zip_lookup_unique by done. destruct (decide (k ∈ ks)) as [Hk|Hk].
    - cbn [last snd]. destruct (Hv r k ltac:(by left) Hk) as (v & Ev & Ec). unfold field_text. by rewrite Ev, Ec.
    - cbn [last]. rewrite (Ht k Hk). symmetry. apply Hn; [by left|done]. }
  assert (Hwf : well_formed pb (zip ks (field_text w r <$> ks))).
  { apply Forall_forall. intros [k s] Hin. pose proof (elem_of_zip_l _ _ _ _ Hin) as Hk. cbn [fst snd].
    assert (s = field_text w r k) as ->.
    { apply elem_of_list_lookup in Hin as [i Hi]. rewrite lookup_zip_with in Hi. rewrite list_lookup_fmap in Hi. destruct (ks !! i); cbn in Hi; [congruence|done]. }
    destruct (Hv r k ltac:(by left) Hk) as (v & Ev & Ec). unfold field_text. rewrite Ev, Ec. eauto. }
  assert (Hnc : forall k, ~ clash w' pb X (zip ks (field_text w r <$> ks)) k).
  { intros k (Hk & x & Hx & E). rewrite Hval in E. by apply (Hc1 k r x Hk ltac:(by left) Hx). }
  inversion H as [|? ? ? ? r' rs' ? Hrow Hr' Hrest|? ? ? ? rep ? reps' Hrow Hrest]; subst.
  - inversion Hrow as [? _ _ _ _ Hst| | |]; subst.
    edestruct (IH (S line) ({[r']} ∪ X) rs' reps) as [-> HF]; [exact Hrest|done|done|done| | |done| | |].
    + intros r0 k H0. apply Hv. by right.
    + intros r0 k H0. apply Hn. by right.
    + intros k r0 x Hk H0 Hx. apply elem_of_union in Hx as [Hx|Hx].
      * apply elem_of_singleton in Hx as ->. rewrite Hst, Hval. apply Hc2; [done|by right|by left|]. by intros ->.
      * apply Hc1; [done|by right|done].
    + intros k r0 x Hk H0 Hx. apply Hc2; [done|by right|by right].
    + split; [done|]. constructor; [|done]. intros k. by rewrite Hst, Hval.
  - exfalso. inversion Hrow as [|He|k (c1 & s & c2 & E & _ & Ew)|k k1 k2 _ _ Eu _ Hcl]; subst.
    + destruct ks; [done|]. discriminate He.
    + rewrite E in Hwf. apply Forall_app in Hwf as [_ Hwf]. apply Forall_cons in Hwf as [[v Hwf] _]. cbn in Hwf. congruence.
    + by apply (Hnc k).
Qed.
Lemma last_fmap_text {A} (g : A -> text) l : last (g <$> l) = g <$> last l.
Proof. induction l as [|x [|y l] IH]; [done|done|]. exact IH. Qed.

(** Saving a vault and loading the file into a vault with the same keys gives, for every record in order, a new record with the same
    contents, and no report; provided that every text survives the file, the last field of no line is empty, and the records do not
    clash with each other or with the ones that are already there. *)
Lemma t_C34_save_load_partial :
  forall b ord w o p ob pb sep hk (handler : list string -> list text -> list text) f,
    reach b w -> fair ord -> vault_at w o ob -> vault_at w p pb -> plain_sep sep ->
    o_order ob <> [] -> o_order pb = o_order ob -> (forall k, get_key_type pb k = get_key_type ob k) ->
    (forall r k v, r ∈ o_recs ob -> stored w r k = Some v -> survives sep v /\ (last (o_order ob) = Some k -> to_string v <> [])) ->
    (forall k, hk = true -> k ∈ o_order ob -> plain_name sep k /\ (last (o_order ob) = Some k -> k <> ""%string)) ->
    (forall k r x, k ∈ get_unique_keys pb -> r ∈ o_recs ob -> x ∈ o_recs pb -> stored w x k <> stored w r k) ->
    (forall k r x, k ∈ get_unique_keys pb -> r ∈ o_recs ob -> x ∈ o_recs ob -> x <> r -> stored w x k <> stored w r k) ->
    (forall ks row, handler ks row = row) ->
    save_file ord w o [] [sep] hk = Some f ->
    exists w' pb' rs rs', read_file w p sep hk [] handler (Some f) = Some (w', true) /\ vault_at w' p pb' /\ get_errors pb' = [] /\
      rs ≡ₚ elements (o_recs ob) /\ Forall2 (fun r r' => forall k, stored w' r' k = stored w r k) rs rs' /\
      o_recs pb' = o_recs pb ∪ list_to_set rs' /\ NoDup rs' /\ (forall r, r ∈ rs' -> w_recs w !! r = None).
Proof.
  intros b ord w o p ob pb sep hk handler f HR Hf HV HP Hsep Hne Ho Ht Hsv Hnm Hc1 Hc2 Hh Es.
  rewrite (saved_text b ord w o ob [] [sep] hk) in Es by done. rewrite decide_False in Es by done. apply (inj Some) in Es.
  set (l := ord (elements (o_recs ob))) in *. set (ks := o_order ob) in *.
  assert (Hl : forall r, r ∈ l <-> r ∈ o_recs ob) by (intros r; unfold l; rewrite (Hf _ : _ ≡ₚ _); apply elem_of_elements).
  pose proof (vault_keys b w HR _ _ HV) as K. pose proof (vault_keys b w HR _ _ HP) as KP.
  assert (Hkey : forall k, k ∈ ks <-> is_Some (o_keys ob !! k)) by apply K.
  assert (Hlines : parse_file sep f = (if hk then [tx <$> ks] else []) ++ ((fun r => field_text w r <$> ks) <$> l)).
  { assert (f = concat (csv_line sep <$> ((if hk then [tx <$> ks] else []) ++ ((fun r => field_text w r <$> ks) <$> l)))) as ->.
    - rewrite <- Es. rewrite fmap_app, concat_app. f_equal.
      + destruct hk; [|done]. cbn. rewrite app_nil_r. unfold csv_line. f_equal. f_equal. rewrite <- list_fmap_compose. apply list_fmap_ext. intros i k Hi. cbn.
        rewrite format_csv_spec, decide_False; [done|]. apply (Hnm k); [done|]. by eapply elem_of_list_lookup_2.
      + f_equal. rewrite <- list_fmap_compose. done.
    - apply t_C28_roundtrip_partial; [done| |].
      + apply Forall_app. split.
        * destruct hk; [|done]. apply Forall_singleton. apply Forall_fmap, Forall_forall. intros k Hk. destruct (Hnm k) as [(H1 & H2 & H3) _]; [done|done|]. right. done.
        * apply Forall_fmap, Forall_forall. intros r Hr. cbn. apply Forall_fmap, Forall_forall. intros k Hk. cbn. unfold field_text. destruct (stored w r k) as [v|] eqn:E.
          -- by apply (Hsv r k v); [apply Hl|].
          -- apply Hkey in Hk as [td Htd]. apply Hl in Hr. destruct (vault_stored b w HR _ _ _ _ _ HV Hr Htd) as (v & Ev & _). congruence.
      + apply Forall_app. split.
        * destruct hk; [|done]. apply Forall_singleton. rewrite last_fmap_text. destruct (last ks) as [k|] eqn:El; [|done]. cbn. intros E.
          destruct (Hnm k) as [_ H2]; [done|by eapply last_Some_elem_of|]. apply (H2 eq_refl). rewrite <- (st_tx k). by injection E as ->.
        * apply Forall_fmap, Forall_forall. intros r Hr. cbn. rewrite last_fmap_text. destruct (last ks) as [k|] eqn:El; [|done]. cbn. intros E. injection E as E.
          apply last_Some_elem_of in El as Hk. apply Hkey in Hk as [td Htd]. apply Hl in Hr. destruct (vault_stored b w HR _ _ _ _ _ HV Hr Htd) as (v & Ev & _).
          unfold field_text in E. rewrite Ev in E. by apply (Hsv r k v Hr Ev). }
  assert (Hrows : loaded_rows hk handler (parse_file sep f) = (fun r => field_text w r <$> ks) <$> l).
  { rewrite Hlines. destruct hk; [|done]. cbn. rewrite <- list_fmap_compose. apply list_fmap_ext. intros i r _. cbn. apply Hh. }
  assert (Hks : row_keys pb hk (loaded_keys hk (parse_file sep f)) [] = ks).
  { rewrite Hlines. destruct hk; [|done]. cbn. rewrite <- list_fmap_compose. rewrite <- (list_fmap_id ks) at 2. apply list_fmap_ext. intros i k _. cbn. apply st_tx. }
  assert (Hcell : forall r k, r ∈ o_recs ob -> k ∈ ks -> exists v, stored w r k = Some v /\ get_key_type pb k = Some (vty v) /\ from_string (vty v) (to_string v) = FsOk v).
  { intros r k Hr Hk. apply Hkey in Hk as [[t d] Htd]. destruct (vault_stored b w HR _ _ _ _ _ HV Hr Htd) as (v & Ev & Et). exists v. split; [done|]. split.
    - rewrite Ht. unfold get_key_type. rewrite Htd. cbn. cbn in Et. by rewrite Et.
    - by apply (Hsv r k v Hr Ev). }
  destruct (t_C35_defined b w p pb sep hk [] handler f HR HP) as [w' E].
  { rewrite Hrows. apply Forall_fmap, Forall_forall. intros r Hr. apply Hl in Hr. split.
    - intros _ _. cbn. rewrite fmap_length, Ho. done.
    - rewrite Hks. cbn. intros [k s] Hin t Hk. cbn in *. pose proof (elem_of_zip_l _ _ _ _ Hin) as Hin1.
      assert (s = field_text w r k) as ->.
      { apply elem_of_list_lookup in Hin as [i Hi]. rewrite lookup_zip_with in Hi. rewrite list_lookup_fmap in Hi. destruct (ks !! i); cbn in Hi; [congruence|done]. }
      destruct (Hcell r k Hr Hin1) as (v & Ev & Et & Ef). unfold field_text. rewrite Ev. assert (t = vty v) as -> by congruence. by rewrite Ef. }
  pose proof E as E0. apply read_file_rows in E0 as [E0 _].
  destruct (read_rows_reads b w p pb _ _ _ _ _ HR HP E0) as (pb' & rs & reps & HV' & Hread & Hrecs & Hbad & Hfresh & Hnd & G).
  rewrite Hrows, Hks in Hread.
  destruct (rows_reload w w' pb hk ks l _ _ _ _ Hread) as [-> HF].
  - done.
  - apply K.
  - unfold l. rewrite (Hf _ : _ ≡ₚ _). apply NoDup_elements.
  - intros r k Hr Hk. destruct (Hcell r k ltac:(by apply Hl) Hk) as (v & Ev & Et & Ef). exists v. split; [done|]. unfold cell_value. rewrite Et. cbn. by rewrite Ef.
  - intros r k Hr Hk. apply (vault_stored_none b w HR o ob r k HV); [by apply Hl|]. destruct (o_keys ob !! k) eqn:Ek; [|done]. destruct Hk. apply Hkey. eauto.
  - intros k Hk. pose proof (k_tmpl _ KP k) as Hx. destruct (o_tmpl pb !! k) eqn:Ep; [|done]. destruct (o_keys pb !! k) as [td|] eqn:Ek; [|done].
    destruct Hk. rewrite <- Ho. apply (k_order _ KP). eauto.
  - intros k r x Hk Hr Hx. apply Hl in Hr. rewrite (live_stored w w'); [by apply Hc1|]. apply (gr_live _ _ _ G). destruct HP. by eapply recs_below; [by apply reach_inv| | |].
  - intros k r x Hk Hr Hx. apply Hl in Hr, Hx. by apply Hc2.
  - exists w', pb', l, rs. split; [done|]. split; [done|]. split; [done|]. split; [apply Hf|]. split; [done|]. split; [done|]. done.
Qed.

Definition one_key (k : string) (v : value) (vs : list value) : list op :=
  [ONewVault 0; OAddKey 0 k v] ++ ((fun x => OCreateRecord 0 None [(k, x)]) <$> vs).
(** A record whose last text is empty gets the default instead. *)
Lemma t_C34_last_empty_refuted :
  exists w o p ob pb f w' pb' r r', reach true w /\ vault_at w o ob /\ vault_at w p pb /\ o_order pb = o_order ob /\ o_keys pb = o_keys ob /\
    o_recs ob = {[r]} /\ stored w r "s" = Some (VStr "") /\ save_file id_order w o [] [comma] false = Some f /\
    read_file w p comma false [] (fun _ row => row) (Some f) = Some (w', true) /\ vault_at w' p pb' /\ get_errors pb' = [] /\
    o_recs pb' = {[r']} /\ stored w' r' "s" = Some (VStr "x").
Proof.
  set (w := state true ([ONewVault 0; OAddKey 0 "n" (age 1); OAddKey 0 "s" (VStr "x"); ONewVault 1; OAddKey 1 "n" (age 1); OAddKey 1 "s" (VStr "x"); OCreateRecord 0 None [("s", VStr "")]])).
  set (f := saved (save_file id_order w 0 [] [comma] false)). set (w' := after (read_file w 1 comma false [] (fun _ row => row) (Some f))).
  exists w, 0, 1, (ob_at w 0), (ob_at w 1), f, w', (ob_at w' 1), 0, 1. unfold w', f, w. fx.
Qed.
(** A record of a vault with one text key is lost, and not reported, if the text is empty. *)
Lemma t_C34_empty_record_lost_refuted :
  exists w o p ob pb f w' pb' r, reach true w /\ vault_at w o ob /\ vault_at w p pb /\ o_order pb = o_order ob /\ o_keys pb = o_keys ob /\
    o_recs ob = {[r]} /\ save_file id_order w o [] [comma] false = Some f /\
    read_file w p comma false [] (fun _ row => row) (Some f) = Some (w', true) /\ vault_at w' p pb' /\ get_errors pb' = [] /\ o_recs pb' = ∅.
Proof.
  set (w := state true ([ONewVault 0; OAddKey 0 "s" (VStr "x"); ONewVault 1; OAddKey 1 "s" (VStr "x"); OCreateRecord 0 None [("s", VStr "")]])).
  set (f := saved (save_file id_order w 0 [] [comma] false)). set (w' := after (read_file w 1 comma false [] (fun _ row => row) (Some f))).
  exists w, 0, 1, (ob_at w 0), (ob_at w 1), f, w', (ob_at w' 1), 0. unfold w', f, w. fx.
Qed.
(** The names of the keys are not quoted: with a comma in one of them, nothing that was saved with names can be loaded. *)
Lemma t_C34_name_with_comma_refuted :
  exists w o p ob pb f w' pb' r k, reach true w /\ vault_at w o ob /\ vault_at w p pb /\ o_order pb = o_order ob /\ o_keys pb = o_keys ob /\
    o_recs ob = {[r]} /\ save_file id_order w o [] [comma] true = Some f /\
    read_file w p comma true [] (fun _ row => row) (Some f) = Some (w', true) /\ vault_at w' p pb' /\ get_errors pb' = [(2, k)] /\ k ∉ o_order pb /\ o_recs pb' = ∅.
Proof.
  set (w := state true ([ONewVault 0; OAddKey 0 "a,b" (age 1); ONewVault 1; OAddKey 1 "a,b" (age 1); OCreateRecord 0 None []])).
  set (f := saved (save_file id_order w 0 [] [comma] true)). set (w' := after (read_file w 1 comma true [] (fun _ row => row) (Some f))).
  exists w, 0, 1, (ob_at w 0), (ob_at w 1), f, w', (ob_at w' 1), 0, "a"%string. unfold w', f, w. fx.
Qed.
(** Saving the names of a vault without keys is undefined. *)
Lemma t_C34_no_keys_undefined_refuted :
  exists w o ob, reach true w /\ vault_at w o ob /\ save_file id_order w o [] [comma] true = None.
Proof. set (w := state true [ONewVault 0]). exists w, 0, (ob_at w 0). unfold w. fx. Qed.

(** A row with a value of a unique key that is taken is reported with the number of the line before it, if the file starts with names; a
    malformed row in the same place with its own number. *)
Lemma t_C35_line_number_refuted :
  exists w o ob f1 f2 w1 w2 ob1 ob2, reach true w /\ vault_at w o ob /\
    parse_file comma f1 = [[tx "id"]; [tx "1"]; [tx "1"]] /\ parse_file comma f2 = [[tx "id"]; [tx "1"]; [tx "z"]] /\
    read_file w o comma true [] (fun _ row => row) (Some f1) = Some (w1, true) /\ vault_at w1 o ob1 /\ get_errors ob1 = [(2, "id"%string)] /\
    read_file w o comma true [] (fun _ row => row) (Some f2) = Some (w2, true) /\ vault_at w2 o ob2 /\ get_errors ob2 = [(3, "id"%string)].
Proof.
  set (w := state true [ONewVault 0; OAddUniqueKey 0 "id" (TInt I32)]).
  set (f1 := csv_line comma [tx "id"] ++ csv_line comma [tx "1"] ++ csv_line comma [tx "1"]). set (f2 := csv_line comma [tx "id"] ++ csv_line comma [tx "1"] ++ csv_line comma [tx "z"]).
  set (w1 := after (read_file w 0 comma true [] (fun _ row => row) (Some f1))). set (w2 := after (read_file w 0 comma true [] (fun _ row => row) (Some f2))).
  exists w, 0, (ob_at w 0), f1, f2, w1, w2, (ob_at w1 0), (ob_at w2 0). unfold w1, w2, f1, f2, w. fx.
Qed.
(** The numbers count rows, not lines: the malformed number stands in the third line of the file. *)
Lemma t_C35_line_break_refuted :
  exists w o ob f w' ob', reach true w /\ vault_at w o ob /\ f = quote :: tx "a" ++ [LF] ++ tx "b" ++ [quote] ++ tx ",1" ++ [CR; LF] ++ tx "c,z" ++ [CR; LF] /\
    read_file w o comma false [] (fun _ row => row) (Some f) = Some (w', true) /\ vault_at w' o ob' /\ get_errors ob' = [(2, "n"%string)].
Proof.
  set (w := state true [ONewVault 0; OAddKey 0 "s" (VStr "x"); OAddKey 0 "n" (age 1)]). set (f := quote :: tx "a" ++ [LF] ++ tx "b" ++ [quote] ++ tx ",1" ++ [CR; LF] ++ tx "c,z" ++ [CR; LF]).
  set (w' := after (read_file w 0 comma false [] (fun _ row => row) (Some f))). exists w, 0, (ob_at w 0), f, w', (ob_at w' 0). unfold w', w. fx.
Qed.
(** An empty row is neither loaded nor reported. *)
Lemma t_C35_empty_row_refuted :
  exists w o ob f w' ob', reach true w /\ vault_at w o ob /\ parse_file comma f = [[tx "1"]; []; [tx "2"]] /\
    read_file w o comma false [] (fun _ row => row) (Some f) = Some (w', true) /\ vault_at w' o ob' /\ get_errors ob' = [] /\ size (o_recs ob') = 2.
Proof.
  set (w := state true [ONewVault 0; OAddKey 0 "n" (age 1)]). set (f := csv_line comma [tx "1"] ++ csv_line comma [] ++ csv_line comma [tx "2"]).
  set (w' := after (read_file w 0 comma false [] (fun _ row => row) (Some f))). exists w, 0, (ob_at w 0), f, w', (ob_at w' 0). unfold w', f, w. fx.
Qed.
(** A row with more fields than the vault has keys, and a number that is out of range: undefined. *)
Lemma t_C35_extra_field_undefined_refuted :
  exists w o ob f, reach true w /\ vault_at w o ob /\ parse_file comma f = [[tx "1"; tx "2"]] /\ read_file w o comma false [] (fun _ row => row) (Some f) = None.
Proof. set (w := state true [ONewVault 0; OAddKey 0 "n" (age 1)]). exists w, 0, (ob_at w 0), (csv_line comma [tx "1"; tx "2"]). unfold w. fx. Qed.
Lemma t_C35_overflow_undefined_refuted :
  exists w o ob f, reach true w /\ vault_at w o ob /\ parse_file comma f = [[tx "2147483648"]] /\ read_file w o comma false [] (fun _ row => row) (Some f) = None.
Proof. set (w := state true [ONewVault 0; OAddKey 0 "n" (age 1)]). exists w, 0, (ob_at w 0), (csv_line comma [tx "2147483648"]). unfold w. fx. Qed.
