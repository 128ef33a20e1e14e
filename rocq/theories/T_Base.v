(** Consequences of the invariant used by the property files. *)
From Verif Require Export Runs.
Open Scope nat_scope.

Section Base.
Context (b : bool) (w : world) (HR : reach b w).
Let HI : Inv b w := reach_inv b w HR.

Lemma vault_keys o ob : vault_at w o ob -> keys_ok ob.
Proof. intros [Ho Hs]. apply (v_keys _ _ (vi_vault _ _ _ _ (inv_obj _ _ HI) _ _ Ho Hs)). Qed.
Lemma vault_vok o ob : vault_at w o ob -> vault_ok (live w) ob.
Proof. intros [Ho Hs]. apply (vi_vault _ _ _ _ (inv_obj _ _ HI) _ _ Ho Hs). Qed.
Lemma vault_index o ob k td : vault_at w o ob -> o_keys ob !! k = Some td ->
  exists ix, o_idx ob !! k = Some ix /\ idx_ok (live w) (o_recs ob) (o_uniq ob) k ix /\ (k ∈ o_uniq ob -> ix_multi ix = false).
Proof. intros [Ho Hs] Hk. apply (v_idx _ _ (vi_vault _ _ _ _ (inv_obj _ _ HI) _ _ Ho Hs) _ _ Hk). Qed.
Lemma vault_stored o ob r k td : vault_at w o ob -> r ∈ o_recs ob -> o_keys ob !! k = Some td -> exists v, stored w r k = Some v /\ vty v = td.1.
Proof.
  intros [Ho Hs] Hr Hk. destruct (v_recs _ _ (vi_vault _ _ _ _ (inv_obj _ _ HI) _ _ Ho Hs) _ Hr) as (l & Hl & Ht).
  specialize (Ht k). rewrite Hk in Ht. rewrite stored_val_of. unfold val_of. rewrite Hl. cbn. destruct (l.1 !! k) as [v|]; [eauto|done].
Qed.
Lemma vault_stored_none o ob r k : vault_at w o ob -> r ∈ o_recs ob -> o_keys ob !! k = None -> stored w r k = None.
Proof.
  intros [Ho Hs] Hr Hk. destruct (v_recs _ _ (vi_vault _ _ _ _ (inv_obj _ _ HI) _ _ Ho Hs) _ Hr) as (l & Hl & Ht).
  specialize (Ht k). rewrite Hk in Ht. rewrite stored_val_of. unfold val_of. rewrite Hl. cbn. by destruct (l.1 !! k).
Qed.
Lemma vault_valid o ob r : vault_at w o ob -> r ∈ o_recs ob -> valid_rec w r.
Proof. intros [Ho Hs] Hr. apply valid_rec_live. destruct (v_recs _ _ (vi_vault _ _ _ _ (inv_obj _ _ HI) _ _ Ho Hs) _ Hr) as (l & Hl & _). eauto. Qed.
(** Everything filed is a record of the vault holding that value. *)
Lemma filed_sound o ob k v r : vault_at w o ob -> is_Some (o_keys ob !! k) -> filed ob k v r \/ filed_ord ob k v r -> r ∈ o_recs ob /\ stored w r k = Some v.
Proof.
  intros HV [td Hk] Hf. destruct (vault_index _ _ _ _ HV Hk) as (ix & Hix & (G & _) & _). rewrite stored_val_of.
  destruct Hf as [(ix' & Hix' & Hin)|(ix' & Hix' & Hin)]; assert (ix' = ix) as -> by congruence; [by apply (g_hash _ _ _ G)|by apply (g_tree _ _ _ G)].
Qed.
(** Records are always filed under unique keys. *)
Lemma filed_uniq o ob k r : vault_at w o ob -> k ∈ o_uniq ob -> r ∈ o_recs ob -> exists v, stored w r k = Some v /\ filed ob k v r /\ filed_ord ob k v r.
Proof.
  intros HV Hk Hr. destruct (k_uniq _ (vault_keys _ _ HV) _ Hk) as [td Htd]. destruct (vault_index _ _ _ _ HV Htd) as (ix & Hix & (G & _ & C) & _).
  destruct (C Hk) as [C1 C2]. destruct (C1 _ Hr) as (v & Hv & Hin). destruct (C2 _ Hr) as (v' & Hv' & Hin'). assert (v' = v) as -> by congruence.
  exists v. rewrite stored_val_of. split; [done|]. split; eexists; done.
Qed.
Lemma uniq_inj o ob k r1 r2 : vault_at w o ob -> k ∈ o_uniq ob -> r1 ∈ o_recs ob -> r2 ∈ o_recs ob -> stored w r1 k = stored w r2 k -> r1 = r2.
Proof.
  intros HV Hk H1 H2 E. destruct (filed_uniq _ _ _ _ HV Hk H1) as (v1 & S1 & (ix & Hix & F1) & _). destruct (filed_uniq _ _ _ _ HV Hk H2) as (v2 & S2 & (ix' & Hix' & F2) & _).
  assert (ix' = ix) as -> by congruence. assert (v2 = v1) as -> by congruence.
  destruct (k_uniq _ (vault_keys _ _ HV) _ Hk) as [td Htd]. destruct (vault_index _ _ _ _ HV Htd) as (ix' & Hix2 & (G & _ & C) & M).
  assert (ix' = ix) as -> by congruence. pose proof (g_huniq _ _ _ G (M Hk)) as Hn.
  apply elem_of_list_lookup in F1 as [i Hi]. apply elem_of_list_lookup in F2 as [j Hj].
  assert (i = j). { eapply (NoDup_lookup _ i j v1 Hn); rewrite list_lookup_fmap; [rewrite Hi|rewrite Hj]; done. } congruence.
Qed.
End Base.

Lemma tree_insert_elem v r l e : e ∈ tree_insert v r l <-> e = (v, r) \/ e ∈ l.
Proof.
  induction l as [|[v' r'] l IH]; cbn [tree_insert].
  - rewrite elem_of_list_singleton. split; [by left|]. intros [->|H]; [done|by apply elem_of_nil in H].
  - destruct (vltb v v').
    + by rewrite elem_of_cons.
    + rewrite elem_of_cons, IH, elem_of_cons. tauto.
Qed.
Lemma multi_emplace v r l e : e ∈ (hash_emplace true v r l).1 <-> e = (v, r) \/ e ∈ l.
Proof. cbn. rewrite elem_of_app, elem_of_list_singleton. tauto. Qed.

Lemma given_overlay ob ps k : given ob ps k = overlay ps (o_tmpl ob) !! k.
Proof.
  unfold given, overlay. generalize (o_tmpl ob). induction ps as [|p ps IH] using rev_ind; intros m; [done|].
  rewrite foldl_app, filter_app. cbn [foldl]. destruct (decide (p.1 = k)) as [<-|Hne].
  - rewrite filter_cons, decide_True by done. change (filter _ []) with (@nil (string * value)). rewrite last_snoc, lookup_insert. done.
  - rewrite filter_cons, decide_False by done. change (filter _ []) with (@nil (string * value)). rewrite app_nil_r, lookup_insert_ne by done. apply IH.
Qed.
Lemma fits_param_ok ob p : fits ob p <-> param_ok ob p.
Proof.
  unfold fits, param_ok, get_key_type. split.
  - destruct (o_keys ob !! p.1) as [td|]; [|done]. cbn. intros [= H]. eauto.
  - intros (td & -> & H). cbn. by rewrite H.
Qed.
