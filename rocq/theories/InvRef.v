(** Reference counting. *)
From Verif Require Export Inv.
Open Scope nat_scope.

Lemma count_delete refs f rf r : refs !! f = Some rf ->
  count refs r = (if decide (f_rec rf = Some r) then 1 else 0) + count (delete f refs) r.
Proof.
  intros H. unfold count. rewrite <- (insert_delete refs f rf H) at 1. 
  destruct (decide (f_rec rf = Some r)) as [E|E].
  - rewrite map_filter_insert_True by done. rewrite map_size_insert_None; [done|].
    rewrite map_filter_lookup_None. left. by rewrite lookup_delete.
  - rewrite map_filter_insert_False by done. rewrite delete_idemp. done.
Qed.
Lemma count_insert refs f rf r :
  count (<[f := rf]> refs) r = (if decide (f_rec rf = Some r) then 1 else 0) + count (delete f refs) r.
Proof.
  rewrite (count_delete _ f rf); [|by rewrite lookup_insert]. by rewrite delete_insert_delete.
Qed.
Lemma count_pos refs f rf r : refs !! f = Some rf -> f_rec rf = Some r -> 0 < count refs r.
Proof. intros H Hr. rewrite (count_delete _ f rf) by done. rewrite decide_True by done. lia. Qed.

Definition opt (m : option nat) : list nat := match m with Some r => [r] | None => [] end.
Lemma occ_opt m r xs : occ r (opt m ++ xs) = (if decide (m = Some r) then 1 else 0) + occ r xs.
Proof.
  destruct m as [x|]; cbn; [|done]. destruct (decide (x = r)), (decide (Some x = Some r)); congruence.
Qed.
Lemma occ_in r xs : r ∈ xs -> 0 < occ r xs.
Proof.
  induction xs as [|x xs IH]; intros H; [by apply elem_of_nil in H|]. cbn.
  apply elem_of_cons in H as [->|H]; [rewrite decide_True by done; lia|]. apply IH in H. lia.
Qed.

(** Swap the target of a reference with a handle. *)
Lemma RInv_swap m refs f rf0 rf xs :
  refs !! f = Some rf0 -> RInv m refs (opt (f_rec rf) ++ xs) -> RInv m (<[f := rf]> refs) (opt (f_rec rf0) ++ xs).
Proof.
  intros Hf [H1 H2 H3 H4]. split; [| | |done].
  - intros g rg r Hg Hr. apply lookup_insert_Some in Hg as [[<- <-]|[? Hg]]; [|eauto].
    apply H2. rewrite Hr. cbn. by left.
  - intros r Hr. apply elem_of_app in Hr as [Hr|Hr].
    + destruct (f_rec rf0) eqn:E; cbn in Hr; [|by apply elem_of_nil in Hr]. apply elem_of_list_singleton in Hr. subst. eauto.
    + apply H2. apply elem_of_app. by right.
  - intros r rc Hr. rewrite (H3 r rc Hr). rewrite !occ_opt, count_insert, (count_delete refs f rf0) by done. lia.
Qed.

Lemma live_of_insert m r rc rc' : m !! r = Some rc -> live_rec rc = live_rec rc' -> live_of (<[r := rc']> m) = live_of m.
Proof.
  intros H E. apply map_eq. intros x. rewrite !lookup_live_of. destruct (decide (x = r)) as [->|].
  - rewrite lookup_insert, H. cbn. by rewrite E.
  - by rewrite lookup_insert_ne.
Qed.

(** [add_ref] takes a handle. *)
Lemma add_ref_eq w r rc : w_recs w !! r = Some rc ->
  add_ref w r = Some (w_set_recs (<[r := rd_refs (S (r_refs rc)) rc]> (w_recs w)) w).
Proof. intros H. unfold add_ref. by rewrite H. Qed.
Lemma RInv_add m refs xs r rc : m !! r = Some rc -> RInv m refs xs ->
  RInv (<[r := rd_refs (S (r_refs rc)) rc]> m) refs (r :: xs) /\
  live_of (<[r := rd_refs (S (r_refs rc)) rc]> m) = live_of m /\
  (forall x, is_Some (<[r := rd_refs (S (r_refs rc)) rc]> m !! x) <-> is_Some (m !! x)).
Proof.
  intros Hr [H1 H2 H3 H4].
  assert (Hs : forall x, is_Some (<[r := rd_refs (S (r_refs rc)) rc]> m !! x) <-> is_Some (m !! x)).
  { intros x. destruct (decide (x = r)) as [->|]; [rewrite lookup_insert, Hr|rewrite lookup_insert_ne by done]; [|done].
    split; eauto. }
  split; [|split].
  - split.
    + intros f rf x Hf Hx. apply Hs. eauto.
    + intros x Hx. apply Hs. apply elem_of_cons in Hx as [->|Hx]; eauto.
    + intros x xc Hx. cbn. apply lookup_insert_Some in Hx as [[<- <-]|[Hne Hx]].
      * rewrite decide_True by done. cbn. rewrite (H3 _ _ Hr). lia.
      * rewrite decide_False by done. cbn. eauto.
    + intros x xc Hx Hv. apply lookup_insert_Some in Hx as [[<- <-]|[Hne Hx]]; [by cbn|eauto].
  - by eapply live_of_insert.
  - done.
Qed.

(** [remove_ref] gives a handle back. *)
Lemma RInv_remove m refs xs r : RInv m refs (r :: xs) ->
  exists m', (forall objs rfs n, remove_ref (World m objs rfs n) r = Some (World m' objs rfs n)) /\
    RInv m' refs xs /\ live_of m' = live_of m /\ (forall x, is_Some (m' !! x) -> is_Some (m !! x)).
Proof.
  intros [H1 H2 H3 H4]. destruct (H2 r) as [rc Hr]; [by left|].
  pose proof (H3 _ _ Hr) as Hc. cbn in Hc. rewrite decide_True in Hc by done.
  destruct (r_refs rc) as [|n] eqn:En; [lia|].
  assert (Hin : forall x, x ∈ xs -> is_Some (m !! x)) by (intros x Hx; apply H2; by right).
  destruct (negb (r_valid rc) && (n =? 0)) eqn:E.
  - exists (delete r m). split; [|split; [|split]].
    + intros. unfold remove_ref. cbn. rewrite Hr. cbn. by rewrite En, E.
    + apply andb_true_iff in E as [Ev E0]. apply Nat.eqb_eq in E0. subst n.
      split.
      * intros f rf x Hf Hx. destruct (decide (x = r)) as [->|]; [|rewrite lookup_delete_ne by done; eauto].
        pose proof (count_pos _ _ _ _ Hf Hx). lia.
      * intros x Hx. destruct (decide (x = r)) as [->|]; [|rewrite lookup_delete_ne by done; eauto].
        pose proof (occ_in _ _ Hx). lia.
      * intros x xc Hx. apply lookup_delete_Some in Hx as [Hne Hx]. rewrite (H3 _ _ Hx). cbn. by rewrite decide_False.
      * intros x xc Hx. apply lookup_delete_Some in Hx as [Hne Hx]. eauto.
    + apply map_eq. intros x. rewrite !lookup_live_of. destruct (decide (x = r)) as [->|].
      * rewrite lookup_delete, Hr. cbn. unfold live_rec. apply andb_true_iff in E as [Ev _].
        by destruct (r_valid rc).
      * by rewrite lookup_delete_ne.
    + intros x Hx. destruct (decide (x = r)) as [->|]; [eauto|by rewrite lookup_delete_ne in Hx].
  - exists (<[r := rd_refs n rc]> m). split; [|split; [|split]].
    + intros. unfold remove_ref. cbn. rewrite Hr. cbn. by rewrite En, E.
    + split.
      * intros f rf x Hf Hx. destruct (decide (x = r)) as [->|]; [by rewrite lookup_insert|rewrite lookup_insert_ne by done; eauto].
      * intros x Hx. destruct (decide (x = r)) as [->|]; [by rewrite lookup_insert|rewrite lookup_insert_ne by done; eauto].
      * intros x xc Hx. apply lookup_insert_Some in Hx as [[<- <-]|[Hne Hx]].
        -- cbn. lia.
        -- rewrite (H3 _ _ Hx). cbn. by rewrite decide_False.
      * intros x xc Hx Hv. apply lookup_insert_Some in Hx as [[<- <-]|[Hne Hx]]; [|eauto].
        cbn in *. rewrite Hv in E. cbn in E. apply Nat.eqb_neq in E. done.
    + by eapply live_of_insert.
    + intros x Hx. destruct (decide (x = r)) as [->|]; [eauto|by rewrite lookup_insert_ne in Hx].
Qed.

(** Changes of records that keep validity and counters. *)
Lemma RInv_same m m' refs xs :
  (forall x, (fun rc => (r_valid rc, r_refs rc)) <$> m' !! x = (fun rc => (r_valid rc, r_refs rc)) <$> m !! x) ->
  RInv m refs xs -> RInv m' refs xs.
Proof.
  intros E [H1 H2 H3 H4].
  assert (Hs : forall x, is_Some (m !! x) -> is_Some (m' !! x)).
  { intros x [rc Hx]. specialize (E x). rewrite Hx in E. destruct (m' !! x); [eauto|done]. }
  assert (Hl : forall x rc', m' !! x = Some rc' -> exists rc, m !! x = Some rc /\ r_valid rc = r_valid rc' /\ r_refs rc = r_refs rc').
  { intros x rc' Hx. specialize (E x). rewrite Hx in E. cbn in E. destruct (m !! x) as [rc|]; [|done]. cbn in E. injection E as E1 E2. eauto. }
  split.
  - intros. eauto.
  - eauto.
  - intros x rc' Hx. destruct (Hl _ _ Hx) as (rc & Hx' & Hv & Hc). rewrite <- Hc. eauto.
  - intros x rc' Hx. destruct (Hl _ _ Hx) as (rc & Hx' & Hv & Hc). rewrite <- Hc, <- Hv. eauto.
Qed.
Lemma RInv_upd m g X refs xs :
  (forall x rc, r_valid (g x rc) = r_valid rc /\ r_refs (g x rc) = r_refs rc) ->
  RInv m refs xs -> RInv (upd_on g X m) refs xs.
Proof.
  intros H. apply RInv_same. intros x. rewrite lookup_upd_on. destruct (m !! x) as [rc|]; cbn; [|done].
  destruct (decide (x ∈ X)); [|done]. destruct (H x rc) as [-> ->]. done.
Qed.
Lemma RInv_insert m refs xs r rc rc' :
  m !! r = Some rc -> r_valid rc' = r_valid rc -> r_refs rc' = r_refs rc -> RInv m refs xs -> RInv (<[r := rc']> m) refs xs.
Proof.
  intros Hr Hv Hc. apply RInv_same. intros x. destruct (decide (x = r)) as [->|].
  - rewrite lookup_insert, Hr. cbn. by rewrite Hv, Hc.
  - by rewrite lookup_insert_ne.
Qed.
Lemma RInv_invalidate m X refs xs : RInv m refs xs -> RInv (invalidate_on X m) refs xs.
Proof.
  intros [H1 H2 H3 H4].
  assert (Hs : forall x, (0 < count refs x + occ x xs) -> is_Some (m !! x) -> is_Some (invalidate_on X m !! x)).
  { intros x Hc [rc Hx]. rewrite lookup_invalidate_on, Hx. cbn. destruct (decide (x ∈ X)); [|eauto].
    unfold inval. rewrite (H3 _ _ Hx). destruct (count refs x + occ x xs) eqn:E; [lia|]. cbn. eauto. }
  assert (Hl : forall x rc', invalidate_on X m !! x = Some rc' ->
     exists rc, m !! x = Some rc /\ r_refs rc = r_refs rc' /\ (rc' = rc \/ r_refs rc <> 0)).
  { intros x rc' Hx. rewrite lookup_invalidate_on in Hx. destruct (m !! x) as [rc|]; [|done]. cbn in Hx. exists rc.
    destruct (decide (x ∈ X)); [|naive_solver]. unfold inval in Hx. destruct (r_refs rc =? 0) eqn:E; [done|].
    injection Hx as <-. apply Nat.eqb_neq in E. naive_solver. }
  split.
  - intros f rf r Hf Hr. apply Hs; [|eauto]. pose proof (count_pos _ _ _ _ Hf Hr). lia.
  - intros r Hr. apply Hs; [|eauto]. pose proof (occ_in _ _ Hr). lia.
  - intros r rc' Hr. destruct (Hl _ _ Hr) as (rc & Hm & Hc & _). rewrite <- Hc. eauto.
  - intros r rc' Hr Hv. destruct (Hl _ _ Hr) as (rc & Hm & Hc & [->|Hn]); [eauto|congruence].
Qed.
Lemma live_invalidate_on X m x : live_of (invalidate_on X m) !! x = if decide (x ∈ X) then None else live_of m !! x.
Proof.
  rewrite !lookup_live_of, lookup_invalidate_on. destruct (m !! x) as [rc|]; cbn; [|by destruct (decide _)].
  destruct (decide (x ∈ X)); [|done]. unfold inval. destruct (r_refs rc =? 0); done.
Qed.
Lemma RInv_new m refs xs r data deps : m !! r = None -> RInv m refs xs -> RInv (<[r := Recd data true 0 deps]> m) refs xs.
Proof.
  intros Hr [H1 H2 H3 H4].
  assert (Hs : forall x, is_Some (m !! x) -> is_Some (<[r := Recd data true 0 deps]> m !! x)).
  { intros x Hx. destruct (decide (x = r)) as [->|]; [by rewrite lookup_insert|by rewrite lookup_insert_ne]. }
  split.
  - eauto.
  - eauto.
  - intros x rc Hx. apply lookup_insert_Some in Hx as [[<- <-]|[Hne Hx]]; [|eauto]. cbn.
    assert (count refs r = 0).
    { unfold count. apply map_size_empty_iff. apply map_filter_empty_iff. intros f rf Hf Hfr. cbn in Hfr.
      destruct (H1 _ _ _ Hf Hfr). congruence. }
    assert (Ho : occ r xs = 0); [|lia].
    assert (Hn : r ∉ xs) by (intros Hin; destruct (H2 _ Hin); congruence).
    clear -Hn. induction xs as [|x xs IH]; [done|]. cbn. rewrite decide_False by set_solver. apply IH. set_solver.
  - intros x rc Hx Hv. apply lookup_insert_Some in Hx as [[<- <-]|[Hne Hx]]; [done|eauto].
Qed.
