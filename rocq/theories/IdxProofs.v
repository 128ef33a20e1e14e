(** The index updates of VaultModel.v keep an index [good]. *)
From Verif Require Export MapProofs Spec.
Open Scope nat_scope.

Definition upd (val : nat -> option value) (r : nat) (v : value) : nat -> option value :=
  fun x => if decide (x = r) then Some v else val x.

Lemma idx_add_multi v r ix : ix_multi (idx_add v r ix).1 = ix_multi ix.
Proof. unfold idx_add. destruct (hash_emplace _ _ _ _) as [h []]; done. Qed.
Lemma idx_erase_multi v r ix : ix_multi (idx_erase v r ix) = ix_multi ix.
Proof. done. Qed.
Lemma idx_set_multi o v r ix : ix_multi (idx_set o v r ix) = ix_multi ix.
Proof. done. Qed.

Lemma good_weaken recs recs' val val' ix :
  (forall r v, r ∈ recs -> val r = Some v -> r ∈ recs' /\ val' r = Some v) -> good recs val ix -> good recs' val' ix.
Proof.
  intros H [Hh Ht]. split; try done; intros v r Hr.
  - destruct (Hh _ _ Hr); auto.
  - destruct (Ht _ _ Hr); auto.
Qed.

Lemma good_add' recs recs' val ix v r :
  good recs val ix -> (v, r) ∉ ix_hash ix -> (v, r) ∉ ix_tree ix -> (forall x, x ∈ recs -> x ∈ recs') -> r ∈ recs' ->
  val r = Some v -> good recs' val (idx_add v r ix).1.
Proof.
  intros [Hh Ht Hnh Hnt Hs Huh Hut] Hn1 Hn2 Hsub Hr Hv.
  assert (Hh' : sound recs' val (ix_hash ix)) by (intros a b Hab; destruct (Hh _ _ Hab); auto).
  assert (Ht' : sound recs' val (ix_tree ix)) by (intros a b Hab; destruct (Ht _ _ Hab); auto).
  unfold idx_add. destruct (hash_emplace _ _ _ _) as [h b] eqn:E. destruct b; [|by split].
  assert (h = (hash_emplace (ix_multi ix) v r (ix_hash ix)).1) as -> by by rewrite E.
  split; cbn.
  - intros a b Hab. apply elem_hash_emplace in Hab as [[= -> ->]|Hab]; [done|auto].
  - intros a b Hab. apply elem_tree_emplace in Hab as [[= -> ->]|Hab]; [done|auto].
  - by apply NoDup_hash_emplace.
  - by apply NoDup_tree_emplace.
  - by apply sorted_tree_emplace.
  - intros Hm. rewrite Hm. apply uniq_hash_emplace. auto.
  - intros Hm. rewrite Hm. apply uniq_tree_emplace. auto.
Qed.
Lemma good_add recs val ix v r :
  good recs val ix -> r ∉ recs -> val r = Some v -> good ({[r]} ∪ recs) val (idx_add v r ix).1.
Proof.
  intros Hg Hr Hv. eapply good_add'; try done; try set_solver.
  - eapply sound_notin; [apply Hg|done].
  - eapply sound_notin; [apply Hg|done].
Qed.

Lemma good_erase recs val ix v r :
  good recs val ix -> (r ∈ recs -> val r = Some v) -> good (recs ∖ {[r]}) val (idx_erase v r ix).
Proof.
  intros [Hh Ht Hnh Hnt Hs Huh Hut] Hv. unfold idx_erase. split; cbn.
  - intros a b Hab. apply elem_erase_entry in Hab as [Hne Hab]; [|done]. destruct (Hh _ _ Hab) as [H1 H2].
    split; [|done]. apply elem_of_difference. split; [done|]. intros Hb. apply elem_of_singleton in Hb. subst.
    apply Hne. f_equal. specialize (Hv H1). congruence.
  - intros a b Hab.
    assert (Hab2 : (a, b) ∈ ix_tree ix) by (destruct (decide _); [by apply elem_erase_value in Hab as [_ ?]|done]).
    destruct (Ht _ _ Hab2) as [H1 H2]. split; [|done]. apply elem_of_difference. split; [done|].
    intros Hb. apply elem_of_singleton in Hb. subst. specialize (Hv H1). assert (a = v) by congruence. subst.
    rewrite decide_True in Hab by done. by apply elem_erase_value in Hab as [? _].
  - rewrite erase_entry_filter by done. by apply NoDup_filter.
  - destruct (decide _); [by apply NoDup_filter|done].
  - destruct (decide _); [by apply vsorted_filter|done].
  - intros Hm. rewrite erase_entry_filter by done. apply NoDup_fst_filter. auto.
  - intros Hm. destruct (decide _); [apply NoDup_fst_filter; auto|auto].
Qed.

Lemma good_set recs val ix old new r :
  good recs val ix -> r ∈ recs -> val r = Some old -> good recs (upd val r new) (idx_set old new r ix).
Proof.
  intros [Hh Ht Hnh Hnt Hs Huh Hut] Hr Hv. unfold idx_set.
  assert (Hshr : forall l, sound recs val l ->
     forall a b, (a, b) ∈ (if decide ((old, r) ∈ l) then erase_value old l else l) ->
       (a, b) ∈ l /\ b <> r).
  { intros l Hl a b Hab. assert (Hab2 : (a, b) ∈ l) by (destruct (decide _); [by apply elem_erase_value in Hab as [_ ?]|done]).
    split; [done|]. intros ->. destruct (Hl _ _ Hab2) as [_ H2]. assert (a = old) by congruence. subst.
    rewrite decide_True in Hab by done. by apply elem_erase_value in Hab as [? _]. }
  split; cbn.
  - intros a b Hab. apply elem_hash_emplace in Hab as [[= -> ->]|Hab].
    + unfold upd. by rewrite decide_True.
    + apply Hshr in Hab as [Hab Hne]; [|done]. destruct (Hh _ _ Hab). unfold upd. by rewrite decide_False.
  - intros a b Hab. apply elem_tree_emplace in Hab as [[= -> ->]|Hab].
    + unfold upd. by rewrite decide_True.
    + apply Hshr in Hab as [Hab Hne]; [|done]. destruct (Ht _ _ Hab). unfold upd. by rewrite decide_False.
  - apply NoDup_hash_emplace; [destruct (decide _); [by apply NoDup_filter|done]|].
    intros Hin. by apply Hshr in Hin as [_ ?].
  - apply NoDup_tree_emplace; [destruct (decide _); [by apply NoDup_filter|done]|].
    intros Hin. by apply Hshr in Hin as [_ ?].
  - apply sorted_tree_emplace. destruct (decide _); [by apply vsorted_filter|done].
  - intros Hm. rewrite Hm. apply uniq_hash_emplace. destruct (decide _); [apply NoDup_fst_filter; auto|auto].
  - intros Hm. rewrite Hm. apply uniq_tree_emplace. destruct (decide _); [apply NoDup_fst_filter; auto|auto].
Qed.

(** Membership after the updates, needed for completeness of unique keys and for set indexes. *)
Lemma idx_add_elem v r ix e :
  e ∈ ix_hash (idx_add v r ix).1 \/ e ∈ ix_tree (idx_add v r ix).1 -> e = (v, r) \/ e ∈ ix_hash ix \/ e ∈ ix_tree ix.
Proof.
  unfold idx_add. destruct (hash_emplace _ _ _ _) as [h b] eqn:E. destruct b; [|tauto]. cbn.
  assert (h = (hash_emplace (ix_multi ix) v r (ix_hash ix)).1) as -> by by rewrite E.
  intros [H|H]; [apply elem_hash_emplace in H|apply elem_tree_emplace in H]; tauto.
Qed.
Lemma idx_erase_elem v r ix e :
  e ∈ ix_hash (idx_erase v r ix) \/ e ∈ ix_tree (idx_erase v r ix) -> e ∈ ix_hash ix \/ e ∈ ix_tree ix.
Proof.
  unfold idx_erase. cbn. intros [H|H].
  - left. induction (ix_hash ix) as [|x l IH]; cbn in *; [done|]. destruct (decide _); [by right|].
    apply elem_of_cons in H as [->|H]; [by left|right; auto].
  - right. destruct (decide _); [by apply elem_erase_value in H as [_ ?]|done].
Qed.
Lemma idx_set_elem old v r ix e :
  e ∈ ix_hash (idx_set old v r ix) \/ e ∈ ix_tree (idx_set old v r ix) -> e = (v, r) \/ e ∈ ix_hash ix \/ e ∈ ix_tree ix.
Proof.
  unfold idx_set. cbn. intros [H|H]; [apply elem_hash_emplace in H|apply elem_tree_emplace in H].
  - destruct H as [->|H]; [by left|]. destruct (decide _); [apply elem_erase_value in H as [_ ?]|]; tauto.
  - destruct H as [->|H]; [by left|]. destruct (decide _); [apply elem_erase_value in H as [_ ?]|]; tauto.
Qed.

(** Completeness. *)
Lemma complete_add recs val ix v r :
  complete recs val (ix_hash ix) -> complete recs val (ix_tree ix) -> good recs val ix ->
  val r = Some v -> (idx_add v r ix).2 = true ->
  complete ({[r]} ∪ recs) val (ix_hash (idx_add v r ix).1) /\ complete ({[r]} ∪ recs) val (ix_tree (idx_add v r ix).1).
Proof.
  intros Hch Hct Hg Hv. unfold idx_add. destruct (hash_emplace _ _ _ _) as [h b] eqn:E. destruct b; [|done].
  intros _. cbn. unfold hash_emplace in E. split.
  - assert (h = ix_hash ix ++ [(v, r)]) as ->.
    { destruct (ix_multi ix); [congruence|]. destruct (has_value v (ix_hash ix)); congruence. }
    intros x Hx. apply elem_of_union in Hx as [Hx|Hx].
    + apply elem_of_singleton in Hx. subst. exists v. split; [done|]. set_solver.
    + destruct (Hch x Hx) as (v' & H1 & H2). exists v'. set_solver.
  - assert (tree_emplace (ix_multi ix) v r (ix_tree ix) = tree_insert v r (ix_tree ix)) as ->.
    { unfold tree_emplace. destruct (ix_multi ix) eqn:Em; [done|].
      destruct (has_value v (ix_hash ix)) eqn:Eh; [congruence|].
      assert (has_value v (ix_tree ix) = false) as ->; [|done].
      apply has_value_false. intros x Hx. rewrite has_value_false in Eh.
      destruct (g_tree _ _ _ Hg _ _ Hx) as [Hxr Hxv]. destruct (Hch x Hxr) as (v' & H1 & H2).
      assert (v' = v) by congruence. subst. by eapply Eh. }
    intros x Hx. apply elem_of_union in Hx as [Hx|Hx].
    + apply elem_of_singleton in Hx. subst. exists v. split; [done|]. apply elem_tree_insert. by left.
    + destruct (Hct x Hx) as (v' & H1 & H2). exists v'. split; [done|]. apply elem_tree_insert. by right.
Qed.

(** Injectivity of values on [recs] (a unique key). *)
Definition inj_on (recs : gset nat) (val : nat -> option value) : Prop :=
  forall a b v, a ∈ recs -> b ∈ recs -> val a = Some v -> val b = Some v -> a = b.

Lemma complete_erase recs val ix v r :
  complete recs val (ix_hash ix) -> complete recs val (ix_tree ix) -> good recs val ix ->
  inj_on recs val -> (r ∈ recs -> val r = Some v) ->
  complete (recs ∖ {[r]}) val (ix_hash (idx_erase v r ix)) /\ complete (recs ∖ {[r]}) val (ix_tree (idx_erase v r ix)).
Proof.
  intros Hch Hct Hg Hi Hv. unfold idx_erase. cbn. split; intros x Hx; apply elem_of_difference in Hx as [Hx Hxr];
    rewrite elem_of_singleton in Hxr.
  - destruct (Hch x Hx) as (v' & H1 & H2). exists v'. split; [done|].
    rewrite erase_entry_filter by apply Hg. apply elem_of_list_filter. split; [congruence|done].
  - destruct (Hct x Hx) as (v' & H1 & H2). exists v'. split; [done|].
    destruct (decide _) as [Hd|]; [|done]. apply elem_erase_value. cbn. split; [|done]. intros ->.
    apply Hxr. destruct (g_tree _ _ _ Hg _ _ Hd). eapply Hi; eauto.
Qed.

Lemma inj_of_complete recs val ix :
  complete recs val (ix_hash ix) -> good recs val ix -> ix_multi ix = false -> inj_on recs val.
Proof.
  intros Hc Hg Hm a b v Ha Hb Hva Hvb. apply (g_huniq _ _ _ Hg) in Hm.
  destruct (Hc a Ha) as (v1 & H1 & H2). destruct (Hc b Hb) as (v2 & H3 & H4).
  assert (v1 = v) by congruence. assert (v2 = v) by congruence. subst.
  clear -Hm H2 H4. induction (ix_hash ix) as [|e l IH]; [by apply elem_of_nil in H2|].
  cbn in Hm. inversion Hm as [|?? Hn Hm']; subst. apply elem_of_cons in H2 as [<-|H2]; apply elem_of_cons in H4 as [H4|H4].
  - congruence.
  - destruct Hn. apply elem_of_list_fmap. by exists (v, b).
  - subst. destruct Hn. apply elem_of_list_fmap. by exists (v, a).
  - auto.
Qed.

(** Index built by AddKey. *)
Lemma build_tree_elem m h e : e ∈ build_tree m h -> e ∈ h.
Proof.
  unfold build_tree. assert (H : forall t, e ∈ foldl (fun t e => tree_emplace m e.1 e.2 t) t h -> e ∈ t \/ e ∈ h).
  { induction h as [|x h IH]; intros t; cbn; [auto|]. intros H. apply IH in H as [H|H]; [|set_solver].
    apply elem_tree_emplace in H as [->|H]; [|auto]. right. destruct x. by left. }
  intros He. apply H in He as [He|He]; [by apply elem_of_nil in He|done].
Qed.
Lemma build_tree_sorted m h : vsorted (build_tree m h).
Proof.
  unfold build_tree. assert (H : forall t, vsorted t -> vsorted (foldl (fun t e => tree_emplace m e.1 e.2 t) t h)).
  { induction h as [|x h IH]; intros t Ht; cbn; [done|]. apply IH. by apply sorted_tree_emplace. }
  apply H. constructor.
Qed.
Lemma build_tree_multi_perm h : build_tree true h ≡ₚ h.
Proof.
  unfold build_tree. assert (H : forall t, foldl (fun t e => tree_emplace true e.1 e.2 t) t h ≡ₚ t ++ h).
  { induction h as [|x h IH]; intros t; cbn; [by rewrite app_nil_r|]. rewrite IH. rewrite tree_insert_perm.
    cbn. destruct x. cbn. rewrite Permutation_middle. done. }
  by rewrite H.
Qed.
Lemma build_tree_uniq_perm h : NoDup (fst <$> h) -> build_tree false h ≡ₚ h.
Proof.
  unfold build_tree. intros Hn.
  assert (H : forall t, NoDup (fst <$> t ++ h) -> foldl (fun t e => tree_emplace false e.1 e.2 t) t h ≡ₚ t ++ h).
  { clear Hn. induction h as [|[v r] h IH]; intros t Ht; cbn [foldl]; [by rewrite app_nil_r|].
    assert (E : tree_emplace false v r t = tree_insert v r t).
    { unfold tree_emplace. assert (has_value v t = false) as ->; [|done]. apply has_value_false.
      intros x Hx. rewrite fmap_app in Ht. apply NoDup_app in Ht as (_ & Ht & _).
      apply (Ht v); [apply elem_of_list_fmap; by exists (v, x)|]. cbn. by left. }
    cbn [fst snd]. rewrite E, IH.
    - rewrite tree_insert_perm. cbn. by rewrite Permutation_middle.
    - rewrite tree_insert_perm. rewrite <- Permutation_middle in Ht. done. }
  by apply H.
Qed.
