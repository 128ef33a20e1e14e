(** Lemmas for C13-C17 and C43: keys. *)
From Verif Require Export T_Frame2.
Open Scope nat_scope.

Lemma vault_guard w o ob : vault_at w o ob -> is_vault w o = true.
Proof. intros [Ho Hs]. unfold is_vault. by rewrite Ho, Hs. Qed.
Lemma key_type_some ob k t : get_key_type ob k = Some t -> exists d, o_keys ob !! k = Some (t, d).
Proof. unfold get_key_type. destruct (o_keys ob !! k) as [[? d]|]; [|done]. intros [= <-]. eauto. Qed.
Lemma key_type_none ob k : get_key_type ob k = None -> o_keys ob !! k = None.
Proof. unfold get_key_type. by destruct (o_keys ob !! k). Qed.

(** C13: the key list has no duplicates, lists exactly the existing keys, and all getters agree with it; unique keys are keys. *)
Lemma t_C13_getters_agree :
  forall b w o ob, reach b w -> vault_at w o ob ->
    NoDup (get_keys ob) /\
    (forall k, k ∈ get_keys ob <-> is_key_exist ob k = true) /\
    (forall k, k ∈ get_keys ob <-> is_Some (get_key_type ob k)) /\
    (forall k, k ∈ get_unique_keys ob -> k ∈ get_keys ob) /\
    NoDup (get_unique_keys ob).
Proof.
  intros b w o ob HR HV. pose proof (vault_keys _ _ HR _ _ HV) as K. unfold get_keys, get_unique_keys, is_key_exist, get_key_type.
  split; [apply K|]. split; [|split; [|split]].
  - intros k. rewrite bool_decide_eq_true, (k_order _ K). pose proof (k_tmpl _ K k) as T. destruct (o_tmpl ob !! k), (o_keys ob !! k); try done; split; eauto; by intros [? ?].
  - intros k. rewrite fmap_is_Some. apply (k_order _ K).
  - intros k Hk. apply (k_order _ K), (k_uniq _ K), Hk.
  - pose proof (k_usort _ K) as S. induction S as [|x l S IH F]; constructor; [|done]. intros Hx. rewrite Forall_forall in F. by apply (strlt_irrefl x), F.
Qed.
(** C13: in the safe class a set filled from a vault has the vault's keys, in the same order, with the same types and uniqueness. *)
Lemma t_C13_set_keys :
  forall w s sb o ob, reach true w -> set_at w s sb -> o_parent sb = Some o -> vault_at w o ob ->
    get_keys sb = get_keys ob /\ get_unique_keys sb = get_unique_keys ob /\
    (forall k, get_key_type sb k = get_key_type ob k) /\ (forall k, is_key_exist sb k = is_key_exist ob k).
Proof.
  intros w s sb o ob HR [Hs Hst] Hp HV. pose proof (reach_inv _ _ HR) as HI. pose proof HV as [Ho Hos].
  destruct (so_some _ _ _ _ _ _ (vi_set _ _ _ _ (inv_obj _ _ HI) _ _ Hs Hst) _ Hp) as (pb & Hpb & _ & _ & SP).
  assert (pb = ob) as -> by congruence. destruct (sp_strict _ _ _ _ _ SP eq_refl) as [S1 S2 S3 S4 S5 S6 S7 S8].
  split; [done|]. split; [done|]. assert (Ht : forall k, get_key_type sb k = get_key_type ob k).
  { intros k. unfold get_key_type. rewrite <- !lookup_fmap. by rewrite S1. }
  split; [done|]. intros k. unfold is_key_exist. apply bool_decide_ext. specialize (Ht k). unfold get_key_type in Ht.
  pose proof (k_tmpl _ (vault_keys _ _ HR _ _ HV) k) as T. specialize (S3 k).
  destruct (o_tmpl sb !! k), (o_tmpl ob !! k), (o_keys sb !! k), (o_keys ob !! k); try done; split; eauto; by intros [? ?].
Qed.

(** C43: every record of a vault holds, for each key of the vault and for no other, a value of the key's type; so does the template. *)
Lemma t_C43_types_hold :
  forall b w o ob r k, reach b w -> vault_at w o ob -> r ∈ o_recs ob ->
    vty <$> stored w r k = get_key_type ob k /\ vty <$> o_tmpl ob !! k = get_key_type ob k.
Proof.
  intros b w o ob r k HR HV Hr. unfold get_key_type. destruct (o_keys ob !! k) as [td|] eqn:E.
  - destruct (vault_stored _ _ HR _ _ _ _ _ HV Hr E) as (v & -> & Hv). cbn. rewrite Hv. split; [done|].
    pose proof (k_tmpl _ (vault_keys _ _ HR _ _ HV) k) as T. rewrite E in T. destruct (o_tmpl ob !! k); [|done]. cbn. by rewrite T.
  - rewrite (vault_stored_none _ _ HR _ _ _ _ HV Hr E). split; [done|]. pose proof (k_tmpl _ (vault_keys _ _ HR _ _ HV) k) as T. rewrite E in T.
    by destruct (o_tmpl ob !! k).
Qed.

(** Adding a key that exists. *)
Lemma add_key_dup ord w o ob k d g nol td : w_objs w !! o = Some ob -> o_keys ob !! k = Some td ->
  add_key ord w o k d g nol = Some (w, bad DuplicateKey k (Some (vty d)) (Some td.1)).
Proof. intros Ho Hk. unfold add_key, add_key_local. rewrite Ho. cbn [mbind option_bind]. rewrite Hk. by destruct td. Qed.

(** C15, C16: adding a key that already exists reports DuplicateKey with the types and changes nothing. *)
Lemma t_C15_duplicate_rejected :
  forall ord w o ob k d t w' out p, vault_at w o ob -> get_key_type ob k = Some t ->
    (p = OAddKey o k d \/ (p = OAddUniqueKey o k (vty d)) \/ exists g, p = OAddUniqueKeyFn o k (vty d) g) ->
    step ord w p = Some (w', out) -> w' = w /\ out = ORes (bad DuplicateKey k (Some (vty d)) (Some t)).
Proof.
  intros ord w o ob k d t w' out p HV Ht Hp H. apply key_type_some in Ht as [d' Hk]. pose proof HV as [Ho _].
  destruct Hp as [->|[->|[g ->]]]; cbn [step] in H; rewrite (vault_guard _ _ _ HV) in H; cbn [guard_op] in H; unfold res_out in H;
    rewrite (add_key_dup _ _ _ _ _ _ _ _ _ Ho Hk) in H; cbn in H; rewrite ?vty_vzero in H; by injection H as <- <-.
Qed.

Lemma live_valid_iff w w' : (forall x, (fun rc => (r_valid rc, r_refs rc)) <$> w_recs w' !! x = (fun rc => (r_valid rc, r_refs rc)) <$> w_recs w !! x) ->
  forall r, valid_rec w' r <-> valid_rec w r.
Proof.
  intros H r. unfold valid_rec. specialize (H r). destruct (w_recs w' !! r) as [rc'|], (w_recs w !! r) as [rc|]; cbn in H; try done.
  - injection H as H1 H2. split; intros (? & [= <-] & ?); eexists; (split; [done|]); congruence.
Qed.
Lemma key_added_changes o ob k d uniq V rs w w' : vault_at w o ob -> key_added o k d uniq V rs w w' -> only_key_changed o k w w'.
Proof.
  intros [Ho Hs] [K1 K2 K3 K4 K5 K6 K7]. split; [done|]. split; [by apply live_valid_iff|]. split.
  - intros r k' Hd. rewrite !stored_val_of. unfold val_of. rewrite K3. destruct (live w !! r) as [l|]; [|done]. cbn. case_decide as E; [|done]. cbn.
    destruct E as (ob1 & E1 & E2). assert (ob1 = ob) as -> by congruence. destruct Hd as [Hd|Hd]; [by rewrite lookup_insert_ne|]. by destruct (Hd ob).
  - intros x Hx Hn. apply K6; [done|]. intros (sb & H1 & H2 & H3). by apply (Hn sb).
Qed.
Lemma register_same k d uniq ix ob : o_keys ob !! k = None -> ~ k ∈ o_uniq ob -> other_keys_same k ob (register_key k d uniq ix ob).
Proof.
  intros Hk Hu. split; [done|]. split; [done|]. split; [done|]. intros k' Hk'. unfold get_key_type, get_unique_keys; cbn. rewrite !lookup_insert_ne by done.
  split; [done|]. split; [done|]. split; [|done]. destruct uniq; [|done]. rewrite elem_set_insert. split; [intros [?|?]; done|auto].
Qed.
Lemma filed_idx ob k ix : o_idx ob !! k = Some ix -> forall v r, (filed ob k v r <-> (v, r) ∈ ix_hash ix) /\ (filed_ord ob k v r <-> (v, r) ∈ ix_tree ix).
Proof. intros H v r. unfold filed, filed_ord. rewrite H. split; (split; [by intros (? & [= <-] & ?)|by eexists]). Qed.
Lemma key_ix_filed ob k m V rs : o_idx ob !! k = Some (key_ix m V rs) -> (m = false -> NoDup (V <$> rs)) ->
  filed_exactly ob k (fun v r => v = V r /\ r ∈ rs).
Proof.
  intros H Hn v r. destruct (filed_idx _ _ _ H v r) as [-> ->]. cbn [ix_hash ix_tree key_ix]. rewrite build_tree_perm by (intros ?; rewrite fst_hash_of; auto).
  by rewrite elem_hash_of.
Qed.

(** C15: AddKey of a new key succeeds, appends the key, gives every record of the vault the default under it, files all of them (and
    nothing else) in both indexes, and changes nothing else. *)
Lemma t_C15_addkey_exact :
  forall b ord w o ob k d w' out, fair ord -> reach b w -> vault_at w o ob -> get_key_type ob k = None ->
    step ord w (OAddKey o k d) = Some (w', out) ->
    out = ORes (okres Success k (Some (vty d)) None) /\ only_key_changed o k w w' /\
    (forall r, r ∈ o_recs ob -> stored w' r k = Some d) /\
    exists ob', vault_at w' o ob' /\ other_keys_same k ob ob' /\ get_keys ob' = get_keys ob ++ [k] /\ get_key_type ob' k = Some (vty d) /\
      o_tmpl ob' !! k = Some d /\ get_unique_keys ob' = get_unique_keys ob /\
      filed_exactly ob' k (fun v r => v = d /\ r ∈ o_recs ob).
Proof.
  intros b ord w o ob k d w' out Hf HR HV Hk H. apply key_type_none in Hk. pose proof (reach_inv _ _ HR) as HI. pose proof HV as [Ho Hs].
  cbn [step] in H. rewrite (vault_guard _ _ _ HV) in H. cbn [guard_op] in H. apply res_inv in H as (res & H & ->).
  destruct (add_key_plain_ok b ord w o ob k d Hf HI Ho Hs Hk (Some_Def _ _ _ H)) as (w1 & E & HI' & KA & KS). rewrite H in E. injection E as -> ->.
  split; [done|]. split; [by eapply key_added_changes|]. pose proof KA as [K1 K2 K3 K4 K5 K6 K7].
  destruct (K5 _ Ho) as (P & Ho' & _). pose proof (vault_vok _ _ HR _ _ HV) as VO. split.
  - intros r Hr. rewrite stored_val_of. unfold val_of. rewrite K3. destruct (v_recs _ _ VO _ Hr) as (l & Hl & _). rewrite Hl. cbn.
    rewrite decide_True by eauto. cbn. by rewrite lookup_insert.
  - eexists. split; [by split|]. split; [apply register_same; [done|]; intros Hu; destruct (k_uniq _ (v_keys _ _ VO) _ Hu); congruence|].
    unfold get_keys, get_key_type, get_unique_keys. cbn. rewrite (v_isset _ _ VO), !lookup_insert. cbn. split; [done|]. split; [done|]. split; [done|]. split; [done|].
    intros v r. assert (Hix : o_idx (register_key k d false (key_ix (negb false) (fun _ : nat => d) (ord (elements (o_recs ob)))) ob) !! k
      = Some (key_ix true (fun _ => d) (ord (elements (o_recs ob))))) by (cbn; by rewrite lookup_insert).
    destruct (key_ix_filed _ _ _ _ _ Hix ltac:(done) v r) as [-> ->]. rewrite P, elem_of_elements. done.
Qed.
(** C15: in the safe class the sets filled from the vault get the key too, for exactly their records. *)
Lemma t_C15_sets_get_key :
  forall ord w o ob k d w' out s sb, fair ord -> reach true w -> vault_at w o ob -> get_key_type ob k = None ->
    step ord w (OAddKey o k d) = Some (w', out) -> set_at w s sb -> o_parent sb = Some o ->
    exists sb', set_at w' s sb' /\ other_keys_same k sb sb' /\ get_keys sb' = get_keys sb ++ [k] /\ get_key_type sb' k = Some (vty d) /\
      get_unique_keys sb' = get_unique_keys sb /\ filed_exactly sb' k (fun v r => v = d /\ r ∈ o_recs sb).
Proof.
  intros ord w o ob k d w' out s sb Hf HR HV Hk H HS Hp.
  destruct (t_C13_set_keys _ _ _ _ _ HR HS Hp HV) as (_ & Eu & Et & _). rewrite <- Et in Hk. apply key_type_none in Hk. specialize (Et k).
  unfold get_key_type in Et. rewrite Hk in Et. symmetry in Et. apply key_type_none in Et.
  pose proof (reach_inv _ _ HR) as HI. pose proof HV as [Ho Hs]. pose proof HS as [Hso Hss].
  cbn [step] in H. rewrite (vault_guard _ _ _ HV) in H. cbn [guard_op] in H. apply res_inv in H as (res & H & ->).
  destruct (add_key_plain_ok true ord w o ob k d Hf HI Ho Hs Et (Some_Def _ _ _ H)) as (w1 & E & HI' & KA & KS). rewrite H in E. injection E as -> ->.
  pose proof (KS s sb ltac:(by exists sb) Hso) as E. unfold keyed_set in E. rewrite Hk in E. pose proof (vi_set _ _ _ _ (inv_obj _ _ HI) _ _ Hso Hss) as SO.
  eexists. split; [by split|]. split.
  { apply register_same; [done|]. unfold get_unique_keys in Eu. rewrite Eu. intros Hu. destruct (k_uniq _ (vault_keys _ _ HR _ _ HV) _ Hu); congruence. }
  unfold get_keys, get_key_type, get_unique_keys. cbn. rewrite !lookup_insert. cbn. split; [done|]. split; [done|]. split; [done|].
  intros v r. set (sb' := ob_order _ _).
  assert (Hix : o_idx sb' !! k = Some (key_ix true (fun _ => d) (ord (elements (o_recs sb))))) by (cbn; by rewrite lookup_insert).
  destruct (key_ix_filed _ _ _ _ _ Hix ltac:(done) v r) as [-> ->]. by rewrite (Hf _), elem_of_elements.
Qed.

(** C16: AddUniqueKey with a generator: there is an order of the records such that the key is added exactly when the values generated in
    this order are pairwise distinct; then each record holds its generated value; otherwise the failure is reported and only a leftover
    index without a key (see C16_failed_leaves_index_refuted) may be dropped. *)
Lemma t_C16_generated_exact :
  forall b ord w o ob k t g w' out, fair ord -> reach b w -> allowed b w (OAddUniqueKeyFn o k t g) -> vault_at w o ob -> get_key_type ob k = None ->
    step ord w (OAddUniqueKeyFn o k t g) = Some (w', out) ->
    exists rs, rs ≡ₚ elements (o_recs ob) /\
    if decide (NoDup (generated w g t rs)) then
      out = ORes (okres Success k (Some t) None) /\ only_key_changed o k w w' /\
      (forall i r, rs !! i = Some r -> stored w' r k = generated w g t rs !! i) /\
      exists ob', vault_at w' o ob' /\ other_keys_same k ob ob' /\ get_keys ob' = get_keys ob ++ [k] /\ get_key_type ob' k = Some t /\
        (forall x, x ∈ get_unique_keys ob' <-> x = k \/ x ∈ get_unique_keys ob) /\
        filed_exactly ob' k (fun v r => r ∈ o_recs ob /\ stored w' r k = Some v)
    else out = ORes (bad UniqueKeyValueAlredyInSet k (Some t) None) /\ w' = set_obj o (ob_idx (delete k (o_idx ob)) ob) w.
Proof.
  intros b ord w o ob k t g w' out Hf HR HA HV Hk H. apply key_type_none in Hk. pose proof (reach_inv _ _ HR) as HI. pose proof HV as [Ho Hs].
  cbn [step] in H. rewrite (vault_guard _ _ _ HV) in H. cbn [guard_op] in H. apply res_inv in H as (res & H & ->).
  destruct (add_key_uniq_ok b ord w o ob k (vzero t) g false Hf HI Ho Hs Hk ltac:(intros Hb; right; by eapply HA) (Some_Def _ _ _ H)) as (w1 & res1 & E & HI' & KA).
  rewrite H in E. injection E as -> ->. rewrite decide_False in KA by (by intros [? _]). rewrite vty_vzero in KA. set (rs := ord (elements (o_recs ob))) in *.
  exists rs. split; [apply Hf|].
  assert (EG : gen_vals w g t rs = generated w g t rs).
  { unfold gen_vals, generated. apply imap_ext. intros i x _. unfold gen_val. by destruct (w_recs w !! x). }
  rewrite EG in KA. destruct (decide (NoDup (generated w g t rs))) as [Hn|Hn]; [|by destruct KA as [-> ->]].
  destruct KA as (-> & V & KA & EV). pose proof KA as [K1 K2 K3 K4 K5 K6 K7]. destruct (K5 _ Ho) as (P & Ho' & Hnd).
  pose proof (vault_vok _ _ HR _ _ HV) as VO.
  assert (Hst : forall r, r ∈ o_recs ob -> stored w1 r k = Some (V r)).
  { intros r Hr. rewrite stored_val_of. unfold val_of. rewrite K3. destruct (v_recs _ _ VO _ Hr) as (l & Hl & _). rewrite Hl. cbn.
    rewrite decide_True by eauto. cbn. by rewrite lookup_insert. }
  split; [done|]. split; [by eapply key_added_changes|]. split.
  - intros i r Hi. rewrite <- EV, list_lookup_fmap, Hi. cbn. apply Hst. apply elem_of_elements. rewrite <- P. by apply elem_of_list_lookup_2 in Hi.
  - eexists. split; [by split|]. split; [apply register_same; [done|]; intros Hu; destruct (k_uniq _ (v_keys _ _ VO) _ Hu); congruence|].
    unfold get_keys, get_key_type, get_unique_keys. cbn [o_order o_keys o_uniq register_key]. rewrite (v_isset _ _ VO), !lookup_insert. cbn [fmap option_fmap option_map fst].
    rewrite vty_vzero. split; [done|]. split; [done|]. split; [intros x; apply elem_set_insert|].
    intros v r. set (ob' := register_key _ _ _ _ _).
    assert (Hix : o_idx ob' !! k = Some (key_ix false V rs)) by (cbn; by rewrite lookup_insert).
    assert (EQ : v = V r /\ r ∈ rs <-> r ∈ o_recs ob /\ stored w1 r k = Some v).
    { rewrite P, elem_of_elements. split; intros [H1 H2]; [subst v; auto|]. rewrite Hst in H2 by done. by injection H2 as <-. }
    destruct (key_ix_filed _ _ _ _ _ Hix ltac:(auto) v r) as [-> ->]. done.
Qed.
(** C16: AddUniqueKey without a generator succeeds exactly on an empty vault; otherwise it is refused, and the only trace is an empty index
    that belongs to no key. *)
Lemma t_C16_without_generator :
  forall b ord w o ob k t w' out, fair ord -> reach b w -> vault_at w o ob -> get_key_type ob k = None ->
    step ord w (OAddUniqueKey o k t) = Some (w', out) ->
    if decide (o_recs ob = ∅) then
      out = ORes (okres Success k (Some t) None) /\ only_key_changed o k w w' /\
      exists ob', vault_at w' o ob' /\ other_keys_same k ob ob' /\ get_keys ob' = get_keys ob ++ [k] /\ get_key_type ob' k = Some t /\
        (forall x, x ∈ get_unique_keys ob' <-> x = k \/ x ∈ get_unique_keys ob)
    else out = ORes (bad TryToAddUniqueKeyInNonEmptyVaultWithoutLambda k (Some t) None) /\
         w' = set_obj o (ob_idx (<[k := Idx false [] []]> (o_idx ob)) ob) w.
Proof.
  intros b ord w o ob k t w' out Hf HR HV Hk H. apply key_type_none in Hk. pose proof (reach_inv _ _ HR) as HI. pose proof HV as [Ho Hs].
  cbn [step] in H. rewrite (vault_guard _ _ _ HV) in H. cbn [guard_op] in H. apply res_inv in H as (res & H & ->).
  destruct (add_key_uniq_ok b ord w o ob k (vzero t) (fun _ _ _ => vzero t) true Hf HI Ho Hs Hk ltac:(by left) (Some_Def _ _ _ H)) as (w1 & res1 & E & HI' & KA).
  pose proof (eq_trans (eq_sym H) E) as E2. injection E2 as -> ->. rewrite vty_vzero in KA.
  assert (Hn : ord (elements (o_recs ob)) = [] <-> o_recs ob = ∅).
  { split; intros Hn.
    - pose proof (Hf (elements (o_recs ob))) as P. rewrite Hn in P. apply Permutation_nil in P. by apply leibniz_equiv, elements_empty_iff.
    - rewrite Hn, elements_empty. pose proof (Hf []) as P. symmetry in P. by apply Permutation_nil in P. }
  destruct (decide (o_recs ob = ∅)) as [He|He].
  - rewrite decide_False in KA by (intros [_ Hx]; by apply Hx, Hn). apply Hn in He. rewrite He in KA. rewrite decide_True in KA by constructor.
    destruct KA as (-> & V & KA & EV). pose proof KA as [K1 K2 K3 K4 K5 K6 K7]. destruct (K5 _ Ho) as (P & Ho' & Hnd). pose proof (vault_vok _ _ HR _ _ HV) as VO.
    split; [done|]. split; [by eapply key_added_changes|].
    eexists. split; [by split|]. split; [apply register_same; [done|]; intros Hu; destruct (k_uniq _ (v_keys _ _ VO) _ Hu); congruence|].
    unfold get_keys, get_key_type, get_unique_keys. cbn [o_order o_keys o_uniq register_key]. rewrite (v_isset _ _ VO), !lookup_insert. cbn [fmap option_fmap option_map fst].
    rewrite vty_vzero. split; [done|]. split; [done|]. intros x; apply elem_set_insert.
  - rewrite decide_True in KA by (split; [done|]; intros Hx; by apply He, Hn). by destruct KA as [-> ->].
Qed.
