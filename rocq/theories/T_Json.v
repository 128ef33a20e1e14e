(** Records and vaults as JSON and as texts (C36). *)
From Verif Require Export JsonSpec.
From Verif Require Import T_Base T_Sets T_Refuted StringsProofs JsonProofs.
From Verif Require Export VaultModel Spec.
Open Scope nat_scope.

Section Any.
Context (b : bool) (w : world) (HR : reach b w) (ord : order) (Hf : fair ord) (o : nat) (ob : obj) (Ho : w_objs w !! o = Some ob).
Context (Hval : forall r, r ∈ o_recs ob -> valid_rec w r) (Hst : forall r k, r ∈ o_recs ob -> k ∈ o_order ob -> is_Some (stored w r k)).
Context (Hk : forall k, k ∈ o_order ob -> plain_json (tx k)) (Hv : forall r k v, r ∈ o_recs ob -> stored w r k = Some v -> plain_value v).
Lemma ord_elem r : r ∈ ord (elements (o_recs ob)) <-> r ∈ o_recs ob.
Proof. rewrite (Hf _ : _ ≡ₚ _). apply elem_of_elements. Qed.
Lemma ord_length : 0 + length (ord (elements (o_recs ob))) = size (o_recs ob).
Proof. rewrite (Hf _ : _ ≡ₚ _). done. Qed.
Lemma any_values r k : r ∈ ord (elements (o_recs ob)) -> k ∈ o_order ob -> exists v, stored w r k = Some v /\ plain_value v.
Proof. intros Hr Hin. apply ord_elem in Hr. destruct (Hst r k Hr Hin) as [v Ev]. exists v. split; [done|]. by apply (Hv r k). Qed.
Lemma any_object fmt tab (ut : bool) tm (addr : nat -> text) : (ut = true -> plain_json tm) -> (forall r, ut = false -> r ∈ o_recs ob -> plain_json (addr r)) ->
  exists t rs ms, vault_json ord w o fmt tab ut tm addr false = Some t /\ rs ≡ₚ elements (o_recs ob) /\ parse_json t = Some (JObject ms) /\
    Forall2 (fun (e : nat * nat) m => exists l, json_record w (o_order ob) e.2 l /\ m = (record_name ut tm addr e.1 e.2, JObject l)) (imap pair rs) ms.
Proof.
  intros Ht Ha. unfold vault_json. rewrite Ho. cbn [mbind option_bind].
  destruct (records_items w ob fmt tab ut tm addr (ord (elements (o_recs ob))) 0) as (l & El & Hg & HF); [apply ord_length|intros r Hr; by apply Hval, ord_elem|apply any_values|done| |].
  { intros i r Hr. unfold record_name. destruct ut; [|by apply Ha, ord_elem]. apply Forall_app. split; [by apply Ht|apply dec_plain]. }
  rewrite El. cbn [mbind option_bind]. eexists _, (ord (elements (o_recs ob))), (item_member <$> l). split; [done|]. split; [apply Hf|]. split.
  - apply is_json_parse, is_json_object; [done|]. destruct fmt; [by apply (bool_decide_eq_true_1 _)|constructor].
  - rewrite Forall2_fmap_r. eapply Forall2_impl; [exact HF|]. intros e i (m & Hm & E). by exists m.
Qed.
Lemma any_array fmt tab (ut : bool) tm (addr : nat -> text) :
  exists t rs js, vault_json ord w o fmt tab ut tm addr true = Some t /\ rs ≡ₚ elements (o_recs ob) /\ parse_json t = Some (JArray js) /\
    Forall2 (fun r j => exists l, json_record w (o_order ob) r l /\ j = JObject l) rs js.
Proof.
  unfold vault_json. rewrite Ho. cbn [mbind option_bind].
  destruct (records_elems w ob fmt tab ut tm addr (ord (elements (o_recs ob))) 0) as (l & El & Hg & HF); [apply ord_length|intros r Hr; by apply Hval, ord_elem|apply any_values|done|].
  rewrite El. cbn [mbind option_bind]. eexists _, (ord (elements (o_recs ob))), l.*2. split; [done|]. split; [apply Hf|]. split.
  - apply is_json_parse, is_json_array; [done|]. destruct fmt; [by apply (bool_decide_eq_true_1 _)|constructor].
  - rewrite Forall2_fmap_r. eapply Forall2_impl; [exact HF|]. intros r i (m & Hm & E). by exists m.
Qed.
Lemma record_strings_ok r : r ∈ o_recs ob -> exists rc l, w_recs w !! r = Some rc /\ record_strings ob (r_data rc) = Some l /\
  Forall2 (fun k (m : string * text) => exists v, stored w r k = Some v /\ m = (k, to_string v)) (o_order ob) l.
Proof.
  intros Hr. destruct (Hval r Hr) as (rc & E & Hva). exists rc. unfold record_strings.
  assert (forall k, k ∈ o_order ob -> exists v, r_data rc !! k = Some v /\ stored w r k = Some v) as H.
  { intros k Hin. destruct (Hst r k Hr Hin) as [v Ev]. exists v. split; [|done]. unfold stored in Ev. rewrite E in Ev. cbn in Ev. by rewrite Hva in Ev. }
  clear -H E. induction (o_order ob) as [|k ks IH]; [exists []; split; [done|]; split; [done|constructor]|].
  destruct IH as (l & _ & El & HF); [intros k' H'; apply H; by right|]. destruct (H k ltac:(by left)) as (v & Ev & Es). exists ((k, to_string v) :: l). split; [done|]. split.
  - cbn [mapM]. rewrite Ev. cbn [saver_text mbind option_bind]. rewrite El. done.
  - constructor; [|done]. eauto.
Qed.
Lemma any_strings : exists rs ls, vault_strings ord w o = Some ls /\ rs ≡ₚ elements (o_recs ob) /\
  Forall2 (fun r l => Forall2 (fun k (m : string * text) => exists v, stored w r k = Some v /\ m = (k, to_string v)) (o_order ob) l) rs ls.
Proof.
  exists (ord (elements (o_recs ob))). unfold vault_strings. rewrite Ho. cbn [mbind option_bind].
  assert (forall r, r ∈ ord (elements (o_recs ob)) -> r ∈ o_recs ob) as H by (intros r; apply ord_elem).
  assert (exists ls, mapM (fun r => rc ← w_recs w !! r; record_strings ob (r_data rc)) (ord (elements (o_recs ob))) = Some ls /\
    Forall2 (fun r l => Forall2 (fun k (m : string * text) => exists v, stored w r k = Some v /\ m = (k, to_string v)) (o_order ob) l) (ord (elements (o_recs ob))) ls) as (ls & E & HF).
  { induction (ord (elements (o_recs ob))) as [|r rs IH]; [exists []; split; [done|constructor]|]. destruct IH as (ls & E & HF); [intros x Hx; apply H; by right|].
    destruct (record_strings_ok r) as (rc & l & Er & El & Hl); [apply H; by left|]. exists (l :: ls). split; [|by constructor]. cbn [mapM]. rewrite Er. cbn [mbind option_bind]. rewrite El. cbn [mbind option_bind]. rewrite E. done. }
  exists ls. split; [done|]. split; [apply Hf|done].
Qed.
End Any.
Lemma vault_any b w o ob : reach b w -> vault_at w o ob -> (forall r, r ∈ o_recs ob -> valid_rec w r) /\ (forall r k, r ∈ o_recs ob -> k ∈ o_order ob -> is_Some (stored w r k)).
Proof.
  intros HR HV. split; [intros r; by apply (vault_valid b w HR o)|]. intros r k Hr Hk. apply (k_order _ (vault_keys b w HR _ _ HV)) in Hk as [td Htd].
  destruct (vault_stored b w HR _ _ _ _ _ HV Hr Htd) as (v & Ev & _). eauto.
Qed.
Lemma set_any w s sb p : reach true w -> set_at w s sb -> o_parent sb = Some p -> (forall r, r ∈ o_recs sb -> valid_rec w r) /\ (forall r k, r ∈ o_recs sb -> k ∈ o_order sb -> is_Some (stored w r k)).
Proof.
  intros HR [Hs Hst] Hp. pose proof (reach_inv true w HR) as HI. destruct (so_some _ _ _ _ _ _ (vi_set _ _ _ _ (inv_obj _ _ HI) _ _ Hs Hst) p Hp) as (pb & Hpb & Hps & _ & SP).
  pose proof (sp_strict _ _ _ _ _ SP eq_refl) as S. destruct (vault_any true w p pb HR ltac:(done)) as [V1 V2]. split; intros r; [intros Hr; apply V1, (st_recs _ _ _ _ S), Hr|].
  intros k Hr Hk. apply V2; [apply (st_recs _ _ _ _ S), Hr|]. by rewrite <- (st_order _ _ _ _ S).
Qed.

(** The JSON text of a vault is JSON, and what it says is the contents of the vault: as an object, with a name for every record. *)
Lemma t_C36_vault_object_partial :
  forall b ord w o ob fmt tab (ut : bool) tm addr, reach b w -> fair ord -> vault_at w o ob ->
    (forall k, k ∈ o_order ob -> plain_json (tx k)) -> (forall r k v, r ∈ o_recs ob -> stored w r k = Some v -> plain_value v) ->
    (ut = true -> plain_json tm) -> (forall r, ut = false -> r ∈ o_recs ob -> plain_json (addr r)) ->
    exists t rs ms, vault_json ord w o fmt tab ut tm addr false = Some t /\ rs ≡ₚ elements (o_recs ob) /\ parse_json t = Some (JObject ms) /\
      Forall2 (fun (e : nat * nat) m => exists l, json_record w (o_order ob) e.2 l /\ m = (if ut then tm ++ dec (Z.of_nat e.1) else addr e.2, JObject l)) (imap pair rs) ms.
Proof.
  intros b ord w o ob fmt tab ut tm addr HR Hf HV Hk Hv Ht Ha. destruct (vault_any b w o ob HR HV) as [V1 V2]. destruct HV as [Ho _]. by apply any_object.
Qed.
(** As an array. *)
Lemma t_C36_vault_array_partial :
  forall b ord w o ob fmt tab ut tm addr, reach b w -> fair ord -> vault_at w o ob ->
    (forall k, k ∈ o_order ob -> plain_json (tx k)) -> (forall r k v, r ∈ o_recs ob -> stored w r k = Some v -> plain_value v) ->
    exists t rs js, vault_json ord w o fmt tab ut tm addr true = Some t /\ rs ≡ₚ elements (o_recs ob) /\ parse_json t = Some (JArray js) /\
      Forall2 (fun r j => exists l, json_record w (o_order ob) r l /\ j = JObject l) rs js.
Proof.
  intros b ord w o ob fmt tab ut tm addr HR Hf HV Hk Hv. destruct (vault_any b w o ob HR HV) as [V1 V2]. destruct HV as [Ho _]. by apply any_array.
Qed.
(** The same for a set that is bound to a vault. *)
Lemma t_C36_set_object_partial :
  forall ord w s sb p fmt tab (ut : bool) tm addr, reach true w -> fair ord -> set_at w s sb -> o_parent sb = Some p ->
    (forall k, k ∈ o_order sb -> plain_json (tx k)) -> (forall r k v, r ∈ o_recs sb -> stored w r k = Some v -> plain_value v) ->
    (ut = true -> plain_json tm) -> (forall r, ut = false -> r ∈ o_recs sb -> plain_json (addr r)) ->
    exists t rs ms, set_json ord w s fmt tab ut tm addr false = Some t /\ rs ≡ₚ elements (o_recs sb) /\ parse_json t = Some (JObject ms) /\
      Forall2 (fun (e : nat * nat) m => exists l, json_record w (o_order sb) e.2 l /\ m = (if ut then tm ++ dec (Z.of_nat e.1) else addr e.2, JObject l)) (imap pair rs) ms.
Proof.
  intros ord w s sb p fmt tab ut tm addr HR Hf HV Hp Hk Hv Ht Ha. destruct (set_any w s sb p HR HV Hp) as [V1 V2]. destruct HV as [Ho _]. unfold set_json. rewrite Ho. cbn [mbind option_bind]. rewrite Hp. by apply any_object.
Qed.
Lemma t_C36_set_array_partial :
  forall ord w s sb p fmt tab ut tm addr, reach true w -> fair ord -> set_at w s sb -> o_parent sb = Some p ->
    (forall k, k ∈ o_order sb -> plain_json (tx k)) -> (forall r k v, r ∈ o_recs sb -> stored w r k = Some v -> plain_value v) ->
    exists t rs js, set_json ord w s fmt tab ut tm addr true = Some t /\ rs ≡ₚ elements (o_recs sb) /\ parse_json t = Some (JArray js) /\
      Forall2 (fun r j => exists l, json_record w (o_order sb) r l /\ j = JObject l) rs js.
Proof.
  intros ord w s sb p fmt tab ut tm addr HR Hf HV Hp Hk Hv. destruct (set_any w s sb p HR HV Hp) as [V1 V2]. destruct HV as [Ho _]. unfold set_json. rewrite Ho. cbn [mbind option_bind]. rewrite Hp. by apply any_array.
Qed.
(** A reference to a record: the record if it is valid, otherwise an empty object. *)
Lemma t_C36_ref_partial :
  forall b w f r o ob fmt tab, reach b w -> denotes w f r -> bound_to w f o -> vault_at w o ob -> valid_rec w r ->
    (forall k, k ∈ o_order ob -> plain_json (tx k)) -> (forall k v, stored w r k = Some v -> plain_value v) ->
    exists t l, ref_json w f fmt tab = Some t /\ parse_json t = Some (JObject l) /\ json_record w (o_order ob) r l.
Proof.
  intros b w f r o ob fmt tab HR (rf & Hrf & Er) (rf' & Hrf' & Eo) HV Hva Hk Hv. assert (rf' = rf) as -> by congruence. clear Hrf'. pose proof (reach_inv b w HR) as HI. pose proof HV as [Ho Hst].
  assert (r ∈ o_recs ob) as Hr. { destruct (inv_vlt _ _ HI f rf r Hrf Er) as (o' & Eo' & H). assert (o' = o) as -> by congruence. apply H; [done|done|]. by apply valid_rec_live. }
  destruct (vault_any b w o ob HR HV) as [V1 V2]. destruct Hva as (rc & Hrc & Hvr).
  destruct (record_json fmt (tab_of tab) (if fmt then [LF] else []) w ob r rc) as (t & l & Et & Hj & Hl); try done.
  { apply allws_tab. } { destruct fmt; [by apply (bool_decide_eq_true_1 _)|constructor]. } { intros k Hin. destruct (V2 r k Hr Hin) as [v Ev]. exists v. split; [done|]. by apply (Hv k). }
  unfold ref_json. rewrite Hrf. cbn [mbind option_bind]. rewrite Er, Hrc. cbn [mbind option_bind]. rewrite Hvr, Eo. cbn [mbind option_bind]. rewrite Ho. cbn [mbind option_bind]. rewrite Et. cbn [mbind option_bind].
  eexists _, l. split; [done|]. split; [|done]. by apply is_json_parse.
Qed.
Lemma t_C36_ref_not_valid :
  forall b w f rf fmt tab, reach b w -> w_refs w !! f = Some rf -> (forall r, f_rec rf = Some r -> ~ valid_rec w r) ->
    exists t, ref_json w f fmt tab = Some t /\ parse_json t = Some (JObject []).
Proof.
  intros b w f rf fmt tab HR Hrf Hn. pose proof (reach_inv b w HR) as HI. unfold ref_json. rewrite Hrf. cbn [mbind option_bind].
  assert (exists t, t = tx "{" ++ [] ++ (if fmt then [LF] else []) ++ tx "}" /\ parse_json t = Some (JObject [])) as (t & Et & Hp). { eexists. split; [done|]. by destruct fmt. }
  exists t. split; [|done]. subst t. destruct (f_rec rf) as [r|] eqn:Er; [|done]. destruct (ri_refs _ _ _ (inv_ref _ _ HI) f rf r Hrf Er) as [rc Hrc]. rewrite Hrc. cbn [mbind option_bind].
  destruct (r_valid rc) eqn:Hva; [|done]. by destruct (Hn r eq_refl); exists rc.
Qed.
(** A set without a vault gives an empty object. *)
Lemma t_C36_set_not_valid :
  forall ord w s sb fmt tab ut tm addr arr, set_at w s sb -> o_parent sb = None ->
    exists t, set_json ord w s fmt tab ut tm addr arr = Some t /\ parse_json t = Some (JObject []).
Proof. intros ord w s sb fmt tab ut tm addr arr [Hs _] Hp. unfold set_json. rewrite Hs. cbn [mbind option_bind]. rewrite Hp. eexists. split; [done|]. done. Qed.
(** A value can be read off its JSON, if its type is known and can be printed. *)
Lemma t_C36_values_differ :
  forall v v', vty v = vty v' -> (forall n, vty v <> TOther n) -> json_of v = json_of v' -> v = v'.
Proof.
  intros [t z|x|s|n z] [t' z'|x'|s'|n' z'] Ht Hn E; try done; cbn in *; [congruence|congruence| |by destruct (Hn n)].
  injection E as E. f_equal. unfold tx in E. rewrite <- (String.string_of_list_ascii_of_string s), <- (String.string_of_list_ascii_of_string s'). by rewrite E.
Qed.
(** ToStrings: for every record the keys in their order, each with the text of the value. *)
Lemma t_C36_vault_strings :
  forall b ord w o ob, reach b w -> fair ord -> vault_at w o ob ->
    exists rs ls, vault_strings ord w o = Some ls /\ rs ≡ₚ elements (o_recs ob) /\
      Forall2 (fun r l => Forall2 (fun k (m : string * text) => exists v, stored w r k = Some v /\ m = (k, to_string v)) (o_order ob) l) rs ls.
Proof. intros b ord w o ob HR Hf HV. destruct (vault_any b w o ob HR HV) as [V1 V2]. destruct HV as [Ho _]. by apply any_strings. Qed.
Lemma t_C36_set_strings :
  forall ord w s sb, reach true w -> fair ord -> set_at w s sb ->
    exists rs ls, set_strings ord w s = Some ls /\ rs ≡ₚ elements (o_recs sb) /\
      Forall2 (fun r l => Forall2 (fun k (m : string * text) => exists v, stored w r k = Some v /\ m = (k, to_string v)) (o_order sb) l) rs ls.
Proof.
  intros ord w s sb HR Hf HV. pose proof HV as [Ho Hst]. unfold set_strings. rewrite Ho. cbn [mbind option_bind]. destruct (o_parent sb) as [p|] eqn:Hp.
  - destruct (set_any w s sb p HR HV Hp) as [V1 V2]. by apply any_strings.
  - pose proof (reach_inv true w HR) as HI. destruct (so_none _ _ _ _ _ _ (vi_set _ _ _ _ (inv_obj _ _ HI) _ _ Ho Hst) Hp) as (_ & _ & _ & _ & _ & E). exists [], []. rewrite E, elements_empty. done.
Qed.
Lemma t_C36_ref_strings :
  forall b w f r o ob, reach b w -> denotes w f r -> bound_to w f o -> vault_at w o ob -> valid_rec w r ->
    exists l, ref_strings w f = Some l /\ Forall2 (fun k (m : string * text) => exists v, stored w r k = Some v /\ m = (k, to_string v)) (o_order ob) l.
Proof.
  intros b w f r o ob HR (rf & Hrf & Er) (rf' & Hrf' & Eo) HV Hva. assert (rf' = rf) as -> by congruence. clear Hrf'. pose proof (reach_inv b w HR) as HI. pose proof HV as [Ho Hst].
  assert (r ∈ o_recs ob) as Hr. { destruct (inv_vlt _ _ HI f rf r Hrf Er) as (o' & Eo' & H). assert (o' = o) as -> by congruence. apply H; [done|done|]. by apply valid_rec_live. }
  destruct (vault_any b w o ob HR HV) as [V1 V2]. destruct (record_strings_ok w ob V1 V2 r Hr) as (rc & l & Hrc & El & Hl). destruct Hva as (rc' & Hrc' & Hvr). assert (rc' = rc) as -> by congruence.
  exists l. split; [|done]. unfold ref_strings. rewrite Hrf. cbn [mbind option_bind]. rewrite Er, Hrc. cbn [mbind option_bind]. rewrite Hvr, Eo. cbn [mbind option_bind]. rewrite Ho. done.
Qed.

(** Texts are not escaped: a quote, a backslash or a line break in a value or in the name of a key, and the result is not JSON. *)
Lemma t_C36_quote_refuted :
  exists w o ob t, reach true w /\ vault_at w o ob /\ (exists r, o_recs ob = {[r]} /\ stored w r "s" = Some (VStr "a""b")) /\
    vault_json id_order w o false 2 true (tx "Record") (fun _ => []) false = Some t /\ parse_json t = None.
Proof.
  set (w := state true [ONewVault 0; OAddKey 0 "s" (VStr ""); OCreateRecord 0 None [("s"%string, VStr "a""b")]]).
  exists w, 0, (ob_at w 0), (default [] (vault_json id_order w 0 false 2 true (tx "Record") (fun _ => []) false)). unfold w. rx; try (exists 0; rx); try (vm_compute; reflexivity).
Qed.
Lemma t_C36_line_break_refuted :
  exists w o ob t, reach true w /\ vault_at w o ob /\ (exists r, o_recs ob = {[r]} /\ stored w r "s" = Some (VStr (st [LF]))) /\
    vault_json id_order w o false 2 true (tx "Record") (fun _ => []) false = Some t /\ parse_json t = None.
Proof.
  set (w := state true [ONewVault 0; OAddKey 0 "s" (VStr ""); OCreateRecord 0 None [("s"%string, VStr (st [LF]))]]).
  exists w, 0, (ob_at w 0), (default [] (vault_json id_order w 0 false 2 true (tx "Record") (fun _ => []) false)). unfold w. rx; try (exists 0; rx); try (vm_compute; reflexivity).
Qed.
Lemma t_C36_key_with_backslash_refuted :
  exists w o ob t, reach true w /\ vault_at w o ob /\ o_order ob = ["a\"%string] /\
    vault_json id_order w o false 2 true (tx "Record") (fun _ => []) false = Some t /\ parse_json t = None.
Proof.
  set (w := state true [ONewVault 0; OAddKey 0 "a\" (VStr ""); OCreateRecord 0 None []]).
  exists w, 0, (ob_at w 0), (default [] (vault_json id_order w 0 false 2 true (tx "Record") (fun _ => []) false)). unfold w. rx; try (vm_compute; reflexivity).
Qed.
(** Two vaults with different keys and values and the same text: a value that contains quotes is taken for another member. *)
Lemma t_C36_same_text_refuted :
  exists w o p ob pb t, reach true w /\ vault_at w o ob /\ vault_at w p pb /\ o_order ob = ["s"%string] /\ o_order pb = ["s"%string; "t"%string] /\ size (o_recs ob) = 1 /\
    vault_json id_order w o false 2 true (tx "Record") (fun _ => []) false = Some t /\ vault_json id_order w p false 2 true (tx "Record") (fun _ => []) false = Some t /\
    is_Some (parse_json t).
Proof.
  set (w := state true [ONewVault 0; OAddKey 0 "s" (VStr ""); OCreateRecord 0 None [("s"%string, VStr "x"",""t"":""y")];
    ONewVault 1; OAddKey 1 "s" (VStr ""); OAddKey 1 "t" (VStr ""); OCreateRecord 1 None [("s"%string, VStr "x"); ("t"%string, VStr "y")]]).
  exists w, 0, 1, (ob_at w 0), (ob_at w 1), (default [] (vault_json id_order w 0 false 2 true (tx "Record") (fun _ => []) false)). unfold w. rx; try (vm_compute; reflexivity); vm_compute; eauto.
Qed.
(** Values of a type without a text are lost. *)
Lemma t_C36_no_text_refuted :
  exists v v', v <> v' /\ vty v = vty v' /\ json_value (Some v) = json_value (Some v').
Proof. exists (VOther 0 1), (VOther 0 2). split; [done|]. done. Qed.
(** A set whose vault is gone is an object even if an array was asked for. *)
Lemma t_C36_array_of_lost_set_refuted :
  exists w s sb t, reach true w /\ set_at w s sb /\ set_json id_order w s false 2 true (tx "Record") (fun _ => []) true = Some t /\ parse_json t = Some (JObject []).
Proof. set (w := state true [ONewSet 0]). exists w, 0, (ob_at w 0), (tx "{}"). unfold w. rx; try (vm_compute; reflexivity). Qed.
