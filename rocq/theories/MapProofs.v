(** Lemmas about the index model of MapModel.v. *)
From Verif Require Export MapModel.
Open Scope nat_scope.

Definition ventry (a b : value * nat) : Prop := vle a.1 b.1.
Notation vsorted := (StronglySorted ventry).

Lemma has_value_spec v l : has_value v l = true <-> exists r, (v, r) ∈ l.
Proof.
  unfold has_value. rewrite bool_decide_eq_true, Exists_exists. split.
  - intros ([v' r] & H & Hv). cbn in Hv. subst. eauto.
  - intros (r & H). by exists (v, r).
Qed.
Lemma has_value_false v l : has_value v l = false <-> forall r, (v, r) ∉ l.
Proof.
  split.
  - intros H r Hr. enough (has_value v l = true) by congruence. apply has_value_spec; eauto.
  - intros H. destruct (has_value v l) eqn:E; [|done]. apply has_value_spec in E as [r Hr]. by apply H in Hr.
Qed.

Lemma elem_tree_insert v r l e : e ∈ tree_insert v r l <-> e = (v, r) \/ e ∈ l.
Proof.
  induction l as [|[v' r'] l IH]; cbn [tree_insert].
  - rewrite elem_of_list_singleton. set_solver.
  - destruct (vltb v v'); rewrite !elem_of_cons; [done|]. rewrite IH. set_solver.
Qed.
Lemma tree_insert_perm v r l : tree_insert v r l ≡ₚ (v, r) :: l.
Proof.
  induction l as [|[v' r'] l IH]; cbn [tree_insert]; [done|].
  destruct (vltb v v'); [done|]. rewrite IH. apply Permutation_swap.
Qed.
Lemma tree_insert_sorted v r l : vsorted l -> vsorted (tree_insert v r l).
Proof.
  induction 1 as [|[v' r'] l Hs IH Hl]; cbn [tree_insert].
  - repeat constructor.
  - destruct (vltb v v') eqn:E.
    + constructor; [by constructor|]. constructor; [by apply vlt_vle|].
      eapply Forall_impl; [exact Hl|]. intros e He. unfold ventry in *. cbn in *.
      eapply vle_trans; [by apply vlt_vle|exact He].
    + constructor; [done|]. apply Forall_forall. intros e He. apply elem_tree_insert in He as [->|He].
      * exact E.
      * rewrite Forall_forall in Hl. auto.
Qed.

Lemma elem_erase_value v l e : e ∈ erase_value v l <-> e.1 <> v /\ e ∈ l.
Proof. unfold erase_value. by rewrite elem_of_list_filter. Qed.
Lemma elem_equal_range v l e : e ∈ equal_range v l <-> e.1 = v /\ e ∈ l.
Proof. unfold equal_range. by rewrite elem_of_list_filter. Qed.
Lemma elem_equal_range_snd v l r : r ∈ snd <$> equal_range v l <-> (v, r) ∈ l.
Proof.
  rewrite elem_of_list_fmap. split.
  - intros ([v' r'] & -> & H). apply elem_equal_range in H as [Hv H]. cbn in *. by subst.
  - intros H. exists (v, r). split; [done|]. by apply elem_equal_range.
Qed.
Lemma NoDup_equal_range_snd v l : NoDup l -> NoDup (snd <$> equal_range v l).
Proof.
  intros H. assert (Hn : NoDup (equal_range v l)) by by apply NoDup_filter.
  assert (Hv : Forall (fun e => e.1 = v) (equal_range v l)) by (apply Forall_forall; intros e He; by apply elem_equal_range in He as [? _]).
  clear H. induction Hn as [|[v' r] l' Hni Hn IH]; cbn; [constructor|].
  inversion Hv as [|?? Hv1 Hv2]; subst. cbn in *. constructor; [|by apply IH].
  rewrite elem_of_list_fmap. intros ([v2 r2] & Hr & He). cbn in Hr. subst.
  rewrite Forall_forall in Hv2. apply Hv2 in He as Hf. cbn in Hf. by subst.
Qed.

Lemma vsorted_filter (P : value * nat -> Prop) `{!forall x, Decision (P x)} l : vsorted l -> vsorted (filter P l).
Proof.
  induction 1 as [|e l Hs IH Hl]; [constructor|]. rewrite filter_cons. destruct (decide (P e)); [|done].
  constructor; [done|]. apply Forall_forall. intros x Hx. apply elem_of_list_filter in Hx as [_ Hx].
  rewrite Forall_forall in Hl. auto.
Qed.
Lemma NoDup_fst_filter (P : value * nat -> Prop) `{!forall x, Decision (P x)} l :
  NoDup (fst <$> l) -> NoDup (fst <$> filter P l).
Proof.
  induction l as [|e l IH]; [done|]. rewrite filter_cons, fmap_cons. intros Hnd. inversion Hnd as [|?? H1 H2]; subst.
  destruct (decide (P e)); [|auto]. rewrite fmap_cons. constructor; [|auto].
  rewrite elem_of_list_fmap in *. intros (x & Hx & Hin). apply H1. exists x. split; [done|].
  by apply elem_of_list_filter in Hin as [_ ?].
Qed.

Lemma erase_entry_filter v r l : NoDup l -> erase_entry v r l = filter (fun e => e <> (v, r)) l.
Proof.
  induction 1 as [|e l Hni Hn IH]; cbn [erase_entry]; [done|]. rewrite filter_cons.
  destruct (decide (e = (v, r))) as [->|Hne].
  - rewrite decide_False by (intros H; by apply H). symmetry.
    clear Hn IH. induction l as [|x l IHl]; [done|]. rewrite filter_cons. rewrite decide_True; [f_equal; apply IHl; set_solver|].
    intros ->. apply Hni. by left.
  - rewrite decide_True by done. by f_equal.
Qed.
Lemma elem_erase_entry v r l e : NoDup l -> e ∈ erase_entry v r l <-> e <> (v, r) /\ e ∈ l.
Proof. intros H. rewrite (erase_entry_filter v r l H). by rewrite elem_of_list_filter. Qed.
Lemma erase_entry_notin v r l : (v, r) ∉ l -> erase_entry v r l = l.
Proof.
  induction l as [|e l IH]; cbn [erase_entry]; [done|]. intros H. rewrite decide_False by set_solver.
  f_equal. set_solver.
Qed.

(** ** Bounds *)

Lemma lower_bound_le v l : lower_bound v l <= length l.
Proof. induction l as [|e l IH]; cbn; [lia|]. destruct (vltb e.1 v); cbn; lia. Qed.
Lemma upper_bound_le v l : upper_bound v l <= length l.
Proof. induction l as [|e l IH]; cbn; [lia|]. destruct (vltb v e.1); cbn; lia. Qed.

Lemma take_lower_bound v l : vsorted l -> take (lower_bound v l) l = filter (fun e => vlt e.1 v) l.
Proof.
  induction 1 as [|e l Hs IH Hl]; cbn [lower_bound take]; [done|]. rewrite filter_cons.
  destruct (vltb e.1 v) eqn:E.
  - rewrite decide_True by exact E. cbn. by f_equal.
  - rewrite decide_False by (unfold vlt; congruence). cbn. symmetry.
    clear -E Hl. induction l as [|x l IH]; [done|]. inversion Hl as [|?? H1 H2]; subst. rewrite filter_cons.
    rewrite decide_False; [by apply IH|]. intros H. unfold ventry in H1. cbn in *.
    apply (vlt_irrefl v). eapply vle_lt_trans; [|exact H]. by eapply vle_trans; [exact E|].
Qed.
Lemma drop_lower_bound v l : vsorted l -> drop (lower_bound v l) l = filter (fun e => vle v e.1) l.
Proof.
  induction 1 as [|e l Hs IH Hl]; cbn [lower_bound drop]; [done|]. rewrite filter_cons.
  destruct (vltb e.1 v) eqn:E.
  - rewrite decide_False by (unfold vle; congruence). cbn. done.
  - rewrite decide_True by exact E. cbn. f_equal. clear -E Hl.
    induction l as [|x l IH]; [done|]. inversion Hl as [|?? H1 H2]; subst. rewrite filter_cons.
    rewrite decide_True; [by f_equal; apply IH|]. unfold ventry in H1. by eapply vle_trans; [exact E|].
Qed.
Lemma take_upper_bound v l : vsorted l -> take (upper_bound v l) l = filter (fun e => vle e.1 v) l.
Proof.
  induction 1 as [|e l Hs IH Hl]; cbn [upper_bound take]; [done|]. rewrite filter_cons.
  destruct (vltb v e.1) eqn:E.
  - rewrite decide_False by (unfold vle; congruence). cbn. symmetry.
    clear -E Hl. induction l as [|x l IH]; [done|]. inversion Hl as [|?? H1 H2]; subst. rewrite filter_cons.
    rewrite decide_False; [by apply IH|]. intros H. unfold ventry in H1.
    apply (vlt_irrefl v). eapply vlt_le_trans; [exact E|]. by eapply vle_trans.
  - rewrite decide_True by exact E. cbn. by f_equal.
Qed.
Lemma drop_upper_bound v l : vsorted l -> drop (upper_bound v l) l = filter (fun e => vlt v e.1) l.
Proof.
  induction 1 as [|e l Hs IH Hl]; cbn [upper_bound drop]; [done|]. rewrite filter_cons.
  destruct (vltb v e.1) eqn:E.
  - rewrite decide_True by exact E. cbn. f_equal. clear -E Hl.
    induction l as [|x l IH]; [done|]. inversion Hl as [|?? H1 H2]; subst. rewrite filter_cons.
    rewrite decide_True; [by f_equal; apply IH|]. unfold ventry in H1. by eapply vlt_le_trans; [exact E|].
  - rewrite decide_False by (unfold vlt; congruence). cbn. done.
Qed.
Lemma take_lower_bound_drop v s l : vsorted l -> s <= lower_bound v l ->
  take (lower_bound v l - s) (drop s l) = filter (fun e => vlt e.1 v) (drop s l).
Proof.
  intros Hs Hle. revert s Hle. induction Hs as [|e l Hs IH Hl]; intros s Hle.
  - by rewrite drop_nil, take_nil.
  - destruct s as [|s].
    + rewrite drop_0, Nat.sub_0_r. apply take_lower_bound. by constructor.
    + cbn [lower_bound] in *. destruct (vltb e.1 v) eqn:E; [|lia]. cbn [drop].
      replace (S (lower_bound v l) - S s) with (lower_bound v l - s) by lia. apply IH. lia.
Qed.
Lemma take_upper_bound_drop v s l : vsorted l -> s <= upper_bound v l ->
  take (upper_bound v l - s) (drop s l) = filter (fun e => vle e.1 v) (drop s l).
Proof.
  intros Hs Hle. revert s Hle. induction Hs as [|e l Hs IH Hl]; intros s Hle.
  - by rewrite drop_nil, take_nil.
  - destruct s as [|s].
    + rewrite drop_0, Nat.sub_0_r. apply take_upper_bound. by constructor.
    + cbn [upper_bound] in *. destruct (vltb v e.1) eqn:E; [lia|]. cbn [drop].
      replace (S (upper_bound v l) - S s) with (upper_bound v l - s) by lia. apply IH. lia.
Qed.

Lemma lower_bound_mono a b l : vle a b -> lower_bound a l <= lower_bound b l.
Proof.
  intros H. induction l as [|e l IH]; cbn; [lia|]. destruct (vltb e.1 a) eqn:E.
  - assert (vltb e.1 b = true) as -> by by eapply vlt_le_trans. lia.
  - lia.
Qed.
Lemma upper_bound_mono a b l : vle a b -> upper_bound a l <= upper_bound b l.
Proof.
  intros H. induction l as [|e l IH]; cbn; [lia|]. destruct (vltb a e.1) eqn:E; [lia|].
  assert (vltb b e.1 = false) as ->; [|lia]. change (vle e.1 b). eapply vle_trans; [exact E|done].
Qed.
Lemma lower_upper_bound a b l : vle a b -> lower_bound a l <= upper_bound b l.
Proof.
  intros H. induction l as [|e l IH]; cbn; [lia|]. destruct (vltb e.1 a) eqn:E; [|lia].
  assert (vltb b e.1 = false) as ->; [|lia]. change (vle e.1 b). apply vlt_vle. by eapply vlt_le_trans.
Qed.
Lemma upper_lower_bound a b l : vlt a b -> upper_bound a l <= lower_bound b l.
Proof.
  intros H. induction l as [|e l IH]; cbn; [lia|]. destruct (vltb a e.1) eqn:E; [lia|].
  assert (vltb e.1 b = true) as ->; [|lia]. by eapply vle_lt_trans.
Qed.

(** ** An index that describes a set of records *)

(** [good recs val ix]: the index of one key only holds records of [recs] under their current value [val],
    the tree is sorted, no record is listed twice and unique containers hold each value once. *)
Definition sound (recs : gset nat) (val : nat -> option value) (l : entries) : Prop :=
  forall v r, (v, r) ∈ l -> r ∈ recs /\ val r = Some v.
Definition complete (recs : gset nat) (val : nat -> option value) (l : entries) : Prop :=
  forall r, r ∈ recs -> exists v, val r = Some v /\ (v, r) ∈ l.
Record good (recs : gset nat) (val : nat -> option value) (ix : idx) : Prop := Good {
  g_hash : sound recs val (ix_hash ix);
  g_tree : sound recs val (ix_tree ix);
  g_hnd : NoDup (ix_hash ix);
  g_tnd : NoDup (ix_tree ix);
  g_sorted : vsorted (ix_tree ix);
  g_huniq : ix_multi ix = false -> NoDup (fst <$> ix_hash ix);
  g_tuniq : ix_multi ix = false -> NoDup (fst <$> ix_tree ix)
}.

Lemma good_empty recs val m : good recs val (Idx m [] []).
Proof.
  split; cbn; try (intros ?? H; by apply elem_of_nil in H); try constructor;
    intros; apply NoDup_nil_2.
Qed.

Lemma good_ext recs val val' ix : (forall r, r ∈ recs -> val r = val' r) -> good recs val ix -> good recs val' ix.
Proof.
  intros H [Hh Ht]. split; try done.
  - intros v r Hr. destruct (Hh _ _ Hr). split; [done|]. by rewrite <- H.
  - intros v r Hr. destruct (Ht _ _ Hr). split; [done|]. by rewrite <- H.
Qed.
Lemma complete_ext recs val val' l : (forall r, r ∈ recs -> val r = val' r) -> complete recs val l -> complete recs val' l.
Proof. intros H Hc r Hr. destruct (Hc r Hr) as (v & ? & ?). exists v. by rewrite <- H. Qed.

Lemma sound_notin recs val l v r : sound recs val l -> r ∉ recs -> (v, r) ∉ l.
Proof. intros H Hr Hin. by apply H in Hin as [? _]. Qed.

Lemma NoDup_fst_app (l : entries) v r : NoDup (fst <$> l) -> has_value v l = false -> NoDup (fst <$> (l ++ [(v, r)])).
Proof.
  intros H Hv. rewrite fmap_app. apply NoDup_app. split; [done|]. split; [|apply NoDup_singleton].
  intros x Hx Hx2. cbn in Hx2. apply elem_of_list_singleton in Hx2. subst.
  rewrite has_value_false in Hv. apply elem_of_list_fmap in Hx as ([v' r'] & -> & He). by apply Hv in He.
Qed.
Lemma NoDup_fst_tree_insert (l : entries) v r : NoDup (fst <$> l) -> has_value v l = false -> NoDup (fst <$> tree_insert v r l).
Proof.
  intros H Hv. rewrite tree_insert_perm. cbn. constructor; [|done].
  rewrite has_value_false in Hv. intros Hx. apply elem_of_list_fmap in Hx as ([v' r'] & Hx & He). cbn in Hx. subst. by apply Hv in He.
Qed.

Lemma elem_hash_emplace m v r l e : e ∈ (hash_emplace m v r l).1 -> e = (v, r) \/ e ∈ l.
Proof.
  unfold hash_emplace. destruct m; cbn; [rewrite elem_of_app, elem_of_list_singleton; tauto|].
  destruct (has_value v l); cbn; [tauto|]. rewrite elem_of_app, elem_of_list_singleton; tauto.
Qed.
Lemma elem_tree_emplace m v r l e : e ∈ tree_emplace m v r l -> e = (v, r) \/ e ∈ l.
Proof.
  unfold tree_emplace. destruct m; cbn; [by rewrite elem_tree_insert|].
  destruct (has_value v l); cbn; [tauto|]. by rewrite elem_tree_insert.
Qed.
Lemma NoDup_hash_emplace m v r l : NoDup l -> (v, r) ∉ l -> NoDup (hash_emplace m v r l).1.
Proof.
  intros H Hn. assert (NoDup (l ++ [(v, r)])).
  { apply NoDup_app. split; [done|]. split; [|apply NoDup_singleton]. set_solver. }
  unfold hash_emplace. destruct m; cbn; [done|]. destruct (has_value v l); done.
Qed.
Lemma NoDup_tree_emplace m v r l : NoDup l -> (v, r) ∉ l -> NoDup (tree_emplace m v r l).
Proof.
  intros H Hn. assert (NoDup (tree_insert v r l)) by (rewrite tree_insert_perm; by constructor).
  unfold tree_emplace. destruct m; cbn; [done|]. destruct (has_value v l); done.
Qed.
Lemma sorted_tree_emplace m v r l : vsorted l -> vsorted (tree_emplace m v r l).
Proof.
  intros H. unfold tree_emplace. destruct m; [by apply tree_insert_sorted|].
  destruct (has_value v l); [done|by apply tree_insert_sorted].
Qed.
Lemma uniq_hash_emplace v r l : NoDup (fst <$> l) -> NoDup (fst <$> (hash_emplace false v r l).1).
Proof. intros H. unfold hash_emplace. destruct (has_value v l) eqn:E; [done|]. by apply NoDup_fst_app. Qed.
Lemma uniq_tree_emplace v r l : NoDup (fst <$> l) -> NoDup (fst <$> tree_emplace false v r l).
Proof. intros H. unfold tree_emplace. destruct (has_value v l) eqn:E; [done|]. by apply NoDup_fst_tree_insert. Qed.
