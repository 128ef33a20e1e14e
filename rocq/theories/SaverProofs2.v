(** Lemmas about the containers of DataSavers. *)
From Verif Require Export T_Saver SaverProofs.
Open Scope nat_scope.

Definition node_rel (M : contents) (e : string * nat) (f : string * option value) : Prop := e.1 = f.1 /\ M !! (true, e.2) = Some f.2.
Record cok (w : cworld) (s : store) (M : contents) : Prop := Cok {
  ck_d : dok (c_d w) M;
  ck_user : forall x, M !! (false, x) = st_vars s !! (false, x);
  ck_novar : forall n, st_vars s !! (true, n) = None;
  ck_nodes : Forall2 (node_rel M) (c_nodes w) (st_nodes s);
  ck_nodup : NoDup (c_nodes w).*2;
  ck_dom : forall n, is_Some (M !! (true, n)) -> n ∈ (c_nodes w).*2;
  ck_next : forall n, n ∈ (c_nodes w).*2 -> n < c_node w
}.
Lemma cok_init : cok c_init (Store [] ∅) ∅.
Proof.
  split; cbn; [apply dok_init|intros; by rewrite !lookup_empty|intros; by rewrite lookup_empty|constructor|constructor|intros n; rewrite lookup_empty; by intros [? ?]|intros n Hn; by apply elem_of_nil in Hn].
Qed.
Lemma cok_keys w s M : cok w s M -> (c_nodes w).*1 = (st_nodes s).*1.
Proof.
  intros H. pose proof (ck_nodes _ _ _ H) as F. induction F as [|e f l l' [E _] _ IH]; [done|]. cbn. by rewrite E, IH.
Qed.
Lemma cok_node w s M i k n : cok w s M -> c_nodes w !! i = Some (k, n) -> exists c, st_nodes s !! i = Some (k, c) /\ M !! (true, n) = Some c.
Proof. intros H Hi. destruct (Forall2_lookup_l _ _ _ _ _ (ck_nodes _ _ _ H) Hi) as ([k' c] & Hc & E & Hm). cbn in *. subst k'. eauto. Qed.

Lemma positions_spec i k (ns : list (string * nat)) :
  Forall2 (fun n j => exists d, j = i + d /\ ns !! d = Some (k, n)) (snd <$> filter (fun e => e.1 = k) ns) (positions_from i k ns.*1).
Proof.
  revert i. induction ns as [|[x n] ns IH]; intros i; [constructor|]. cbn [fmap list_fmap fst positions_from]. rewrite filter_cons. cbn [fst].
  assert (Hs : Forall2 (fun n0 j => exists d, j = i + d /\ ((x, n) :: ns) !! d = Some (k, n0)) (snd <$> filter (fun e => e.1 = k) ns) (positions_from (S i) k ns.*1)).
  { eapply Forall2_impl; [apply IH|]. intros m j (d & -> & Hd). exists (S d). split; [lia|done]. }
  destruct (decide (x = k)) as [->|Hne]; [|done]. cbn [fmap list_fmap snd]. constructor; [|done]. exists 0. split; [lia|done].
Qed.
Lemma find_chosen w s M ch k : cok w s M ->
  match c_find ch k w, chosen ch k (st_nodes s) with
  | Some n, Some i => exists c, c_nodes w !! i = Some (k, n) /\ st_nodes s !! i = Some (k, c) /\ M !! (true, n) = Some c
  | None, None => k ∉ (st_nodes s).*1
  | _, _ => False
  end.
Proof.
  intros H. unfold c_find, chosen, positions. rewrite <- (cok_keys _ _ _ H). pose proof (positions_spec 0 k (c_nodes w)) as F. set (l := snd <$> _) in *. set (q := positions_from _ _ _) in *.
  rewrite <- (Forall2_length _ _ _ F). destruct (l !! _) as [n|] eqn:El.
  - destruct (Forall2_lookup_l _ _ _ _ _ F El) as (i & -> & d & -> & Hd). destruct (cok_node _ _ _ _ _ _ H Hd) as (c & Hc & Hm). by exists c.
  - assert (l = []) as El'. { destruct l as [|n l]; [done|]. apply lookup_ge_None in El. pose proof (Nat.mod_upper_bound ch (length (n :: l))) as B. cbn in El, B. lia. }
    assert (q = []) as Eq' by (rewrite El' in F; by inversion F). rewrite Eq', lookup_nil.
    intros ([k' n] & -> & Hin)%elem_of_list_fmap. assert (Hn : n ∈ l). { apply elem_of_list_fmap. exists (k', n). split; [done|]. by apply elem_of_list_filter. } rewrite El' in Hn. by apply elem_of_nil in Hn.
Qed.

(** Changing a variable or a node. *)
Lemma cok_set_var w s M d x c : cok w s M -> dok d (<[(false, x) := c]> M) -> cok (with_d d w) (Store (st_nodes s) (<[(false, x) := c]> (st_vars s))) (<[(false, x) := c]> M).
Proof.
  intros [H1 H2 H3 H4 H5 H6 H7] Hd. split; cbn; try done.
  - intros y. destruct (decide (x = y)) as [->|]; [by rewrite !lookup_insert|]. rewrite !lookup_insert_ne by congruence. done.
  - intros n. by rewrite lookup_insert_ne.
  - eapply Forall2_impl; [done|]. intros e f [E1 E2]. split; [done|]. by rewrite lookup_insert_ne.
  - intros n. rewrite lookup_insert_ne by done. apply H6.
Qed.
Lemma cok_set_node w s M d i k n c : cok w s M -> c_nodes w !! i = Some (k, n) -> dok d (<[(true, n) := c]> M) -> cok (with_d d w) (set_node i k c s) (<[(true, n) := c]> M).
Proof.
  intros H Hi Hd. pose proof H as [H1 H2 H3 H4 H5 H6 H7]. split; cbn; try done.
  - intros y. by rewrite lookup_insert_ne.
  - apply Forall2_lookup. intros j. pose proof (proj1 (Forall2_lookup _ _ _) H4 j) as F. destruct (decide (j = i)) as [->|Hne].
    + rewrite list_lookup_insert; [|rewrite <- (Forall2_length _ _ _ H4); by eapply lookup_lt_Some]. rewrite Hi. constructor. split; [done|]. cbn. by rewrite lookup_insert.
    + rewrite list_lookup_insert_ne by done. inversion F as [e f [E1 E2] He Hf|]; [|by constructor]. constructor. split; [done|]. rewrite lookup_insert_ne; [done|]. intros [= Hn].
      apply Hne. eapply (NoDup_lookup _ _ _ _ H5); rewrite list_lookup_fmap; [rewrite <- He; cbn; by rewrite <- Hn|by rewrite Hi].
  - intros n' Hn'. destruct (decide (n' = n)) as [->|]; [|apply H6; by rewrite lookup_insert_ne in Hn' by congruence]. apply elem_of_list_fmap. exists (k, n). split; [done|]. by eapply elem_of_list_lookup_2.
Qed.
Lemma cok_add_node w s M d k n c : cok w s M -> c_node w <= n -> dok d (<[(true, n) := c]> M) ->
  cok (CWorld d (c_nodes w ++ [(k, n)]) (S n)) (Store (st_nodes s ++ [(k, c)]) (st_vars s)) (<[(true, n) := c]> M).
Proof.
  intros [H1 H2 H3 H4 H5 H6 H7] Hn Hd. assert (Hf : n ∉ (c_nodes w).*2) by (intros Hin; apply H7 in Hin; lia). split; cbn; try done.
  - intros y. by rewrite lookup_insert_ne.
  - apply Forall2_app; [|constructor; [|constructor]].
    + apply Forall2_same_length_lookup. split; [by eapply Forall2_length|]. intros j e f He Hf'. pose proof (proj1 (Forall2_lookup _ _ _) H4 j) as F. rewrite He, Hf' in F. inversion F as [? ? [E1 E2]|]; subst. split; [done|].
      rewrite lookup_insert_ne; [done|]. intros [= ->]. apply Hf, elem_of_list_fmap. exists e. split; [done|]. by eapply elem_of_list_lookup_2.
    + split; [done|]. cbn. by rewrite lookup_insert.
  - rewrite fmap_app. apply NoDup_app. split; [done|]. split; [|apply NoDup_singleton]. intros x Hx ->%elem_of_list_singleton. done.
  - intros m Hm. rewrite fmap_app. apply elem_of_app. destruct (decide (m = n)) as [->|]; [right; by apply elem_of_list_singleton|left]. apply H6. by rewrite lookup_insert_ne in Hm by congruence.
  - intros m. rewrite fmap_app. intros [Hm%H7| Hm%elem_of_list_singleton]%elem_of_app; cbn in *; lia.
Qed.
Lemma cok_next w s M d n : cok w s M -> c_node w <= n -> dok d M -> cok (CWorld d (c_nodes w) n) s M.
Proof. intros [H1 H2 H3 H4 H5 H6 H7] Hn Hd. split; cbn; try done. intros m Hm%H7. lia. Qed.
Lemma cok_fresh w s M n : cok w s M -> c_node w <= n -> M !! (true, n) = None.
Proof. intros H Hn. apply eq_None_not_Some. intros Hs. apply (ck_dom _ _ _ H), (ck_next _ _ _ H) in Hs. lia. Qed.

Lemma emplace_ok multi k x c w s M : cok w s M -> st_vars s !! (false, x) = Some c ->
  exists w' M', c_emplace multi k (false, x) w = Some w' /\ cok w' (add_node multi k c s) M' /\ d_calls (c_d w') = d_calls (c_d w).
Proof.
  intros H Hc. unfold c_emplace. destruct (copy_ok (c_d w) M (true, c_node w) (false, x) c) as (d & -> & Hd & C1); [apply H|by eapply cok_fresh|by rewrite (ck_user _ _ _ H)|]. cbn [mbind option_bind].
  unfold add_node. rewrite (cok_keys _ _ _ H). destruct (negb multi && _).
  - destruct (delete_ok d _ (true, c_node w) c Hd) as (d' & -> & Hd' & C2); [by rewrite lookup_insert|]. cbn [mbind option_bind]. rewrite delete_insert in Hd' by (by eapply cok_fresh).
    eexists _, _. split; [done|]. split; [apply cok_next; [done|lia|done]|]. cbn. by rewrite C2.
  - eexists _, _. split; [done|]. split; [by apply cok_add_node|done].
Qed.
Lemma add_ok multi k v f w s M : cok w s M -> exists w' M', c_add multi k v f w = Some w' /\ cok w' (add_node multi k (Some v) s) M' /\ d_calls (c_d w') = d_calls (c_d w).
Proof.
  intros H. unfold c_add, c_emplace. set (n := c_node w). destruct (make_ok (c_d w) M (true, n) v f) as (d & -> & Hd & C1); [apply H|by eapply cok_fresh|]. cbn [mbind option_bind c_d c_nodes c_node].
  assert (Hn : M !! (true, n) = None) by (by eapply cok_fresh). assert (HSn : M !! (true, S n) = None) by (eapply cok_fresh; [done|unfold n; lia]). assert (Hne : (true, S n) <> (true, n)) by (intros [= ?]; lia).
  destruct (copy_ok d _ (true, S n) (true, n) (Some v) Hd) as (d2 & -> & Hd2 & C2); [by rewrite lookup_insert_ne by done|by rewrite lookup_insert|]. cbn [mbind option_bind].
  unfold add_node. rewrite (cok_keys _ _ _ H). destruct (negb multi && _).
  - destruct (delete_ok d2 _ (true, S n) (Some v) Hd2) as (d3 & -> & Hd3 & C3); [by rewrite lookup_insert|]. cbn [mbind option_bind c_d]. rewrite delete_insert in Hd3 by (by rewrite lookup_insert_ne).
    destruct (delete_ok d3 _ (true, n) (Some v) Hd3) as (d4 & -> & Hd4 & C4); [by rewrite lookup_insert|]. cbn [mbind option_bind]. rewrite delete_insert in Hd4 by done.
    eexists _, _. split; [done|]. split; [apply (cok_next w); [done|cbn; unfold n; lia|done]|]. cbn. congruence.
  - cbn [mbind option_bind c_d]. destruct (delete_ok d2 _ (true, n) (Some v) Hd2) as (d3 & -> & Hd3 & C3); [rewrite lookup_insert_ne by done; by rewrite lookup_insert|]. cbn [mbind option_bind].
    rewrite delete_insert_ne in Hd3 by (intros [= ?]; lia). rewrite delete_insert in Hd3 by exact Hn. eexists _, _. split; [done|]. split; [unfold with_d; cbn; apply cok_add_node; [done|unfold n; lia|done]|]. cbn. congruence.
Qed.
Lemma clear_ok w s M : cok w s M -> exists w' M', c_clear w = Some w' /\ cok w' (Store [] (st_vars s)) M' /\ d_calls (c_d w') = d_calls (c_d w).
Proof.
  intros H. unfold c_clear.
  assert (forall ns d M, dok d M -> NoDup ns -> (forall n, n ∈ ns -> is_Some (M !! (true, n))) ->
    exists d' M', delete_nodes ns d = Some d' /\ dok d' M' /\ (forall x, M' !! (false, x) = M !! (false, x)) /\ (forall n, M' !! (true, n) = if decide (n ∈ ns) then None else M !! (true, n)) /\ d_calls d' = d_calls d) as G.
  { clear. induction ns as [|n ns IH]; intros d M Hd Hnd Hall; cbn [delete_nodes].
    - exists d, M. split; [done|]. split; [done|]. split; [done|]. split; [|done]. intros n. rewrite decide_False; [done|apply not_elem_of_nil].
    - apply NoDup_cons in Hnd as [Hn Hnd]. destruct (Hall n) as [c Hc]; [by left|]. destruct (delete_ok d M (true, n) c Hd Hc) as (d1 & -> & Hd1 & C1). cbn [mbind option_bind].
      destruct (IH d1 (delete (true, n) M) Hd1 Hnd) as (d' & M' & E & H1 & H2 & H3 & C2).
      { intros m Hm. rewrite lookup_delete_ne; [apply Hall; by right|]. intros [= <-]. done. }
      exists d', M'. split; [done|]. split; [done|]. split; [intros x; rewrite H2; by rewrite lookup_delete_ne|]. split; [|congruence]. intros m. rewrite H3. destruct (decide (m = n)) as [->|Hne].
      + rewrite lookup_delete. rewrite (decide_True (P := n ∈ n :: ns)) by (by left). by destruct (decide _).
      + rewrite lookup_delete_ne by congruence. destruct (decide (m ∈ ns)); [by rewrite decide_True by (by right)|]. rewrite decide_False; [done|]. intros [?|?]%elem_of_cons; done. }
  destruct (G (c_nodes w).*2 (c_d w) M) as (d' & M' & -> & H1 & H2 & H3 & C); [apply H|apply H|..].
  { intros n ([k n'] & -> & Hin)%elem_of_list_fmap. apply elem_of_list_lookup in Hin as [i Hi]. destruct (cok_node _ _ _ _ _ _ H Hi) as (c & _ & Hm). cbn. by exists c. }
  cbn [mbind option_bind]. eexists _, M'. split; [done|]. split; [|done]. split; cbn; try done.
  - intros x. rewrite H2. apply (ck_user _ _ _ H).
  - apply (ck_novar _ _ _ H).
  - constructor.
  - intros n [c Hc]. rewrite H3 in Hc. destruct (decide (n ∈ (c_nodes w).*2)) as [|Hn]; [done|]. destruct Hn. apply (ck_dom _ _ _ H). by exists c.
  - intros n Hn. by apply elem_of_nil in Hn.
Qed.
Lemma filter_delete (ns : list (string * nat)) i k n : NoDup ns.*2 -> ns !! i = Some (k, n) -> filter (fun e => e.2 <> n) ns = delete i ns.
Proof.
  revert i. induction ns as [|[x m] ns IH]; intros i Hnd Hi; [done|]. cbn in Hnd. apply NoDup_cons in Hnd as [Hm Hnd]. rewrite filter_cons. cbn [snd]. destruct i as [|i]; cbn in Hi.
  - injection Hi as -> ->. rewrite decide_False by (intros K; by apply K). cbn. clear IH. induction ns as [|[y q] ns IH]; [done|]. rewrite filter_cons. cbn [snd]. cbn in Hm, Hnd. apply not_elem_of_cons in Hm as [Hm1 Hm2].
    rewrite decide_True by congruence. f_equal. apply IH; [done|]. by apply NoDup_cons in Hnd as [_ ?].
  - rewrite decide_True; [cbn; f_equal; by apply IH|]. intros ->. apply Hm, elem_of_list_fmap. exists (k, n). split; [done|]. by eapply elem_of_list_lookup_2.
Qed.
Lemma Forall2_delete' {A B} (P : A -> B -> Prop) l k i : Forall2 P l k -> Forall2 P (delete i l) (delete i k).
Proof. intros H. revert i. induction H as [|x y l k Hp Hl IH]; intros [|i]; cbn; [constructor|constructor|done|by constructor]. Qed.
Lemma elem_of_sublist' {A} (l k : list A) x : l `sublist_of` k -> x ∈ l -> x ∈ k.
Proof. induction 1 as [|y l k Hs IH|y l k Hs IH]; [done| |]; [|by right; apply IH]. intros [->|H]%elem_of_cons; [by left|right; by apply IH]. Qed.
Lemma sublist_NoDup' {A} (l k : list A) : l `sublist_of` k -> NoDup k -> NoDup l.
Proof. induction 1 as [|x l k Hs IH|x l k Hs IH]; intros H; [done| |]; apply NoDup_cons in H as [Hx H]; [|by apply IH]. constructor; [|by apply IH]. intros Hin. apply Hx. by eapply elem_of_sublist'. Qed.
Lemma erase_ok ch k w s M : cok w s M ->
  exists w' M', c_erase ch k w = Some w' /\ cok w' (match chosen ch k (st_nodes s) with Some i => Store (delete i (st_nodes s)) (st_vars s) | None => s end) M' /\
    exists l, d_calls (c_d w') = d_calls (c_d w) ++ l /\ match chosen ch k (st_nodes s) with Some i => l = [] \/ exists f c, st_nodes s !! i = Some (k, c) /\ l = [(f, c)] | None => l = [] end.
Proof.
  intros H. unfold c_erase. pose proof (find_chosen w s M ch k H) as F. destruct (c_find ch k w) as [n|], (chosen ch k (st_nodes s)) as [i|]; try done; [|exists w, M; split; [done|]; split; [done|]; exists []; by rewrite app_nil_r].
  destruct F as (c & Hi & Hsi & Hm). destruct (reset_ok (c_d w) M (true, n) c) as (d1 & sv & -> & Hd1 & _ & C1); [apply H|done|]. cbn [mbind option_bind].
  destruct (delete_ok d1 _ (true, n) None Hd1) as (d2 & -> & Hd2 & C2); [by rewrite lookup_insert|]. cbn [mbind option_bind]. rewrite delete_insert_delete in Hd2. eexists _, _. split; [done|]. split; [|eexists; split; [cbn; rewrite C2; exact C1|]; destruct (sv_cust sv) as [f|]; [right; by exists f, c|by left]].
  pose proof H as [H1 H2 H3 H4 H5 H6 H7]. rewrite (filter_delete _ _ _ _ H5 Hi).
  assert (Hel : forall e, e ∈ delete i (c_nodes w) <-> e ∈ c_nodes w /\ e.2 <> n). { intros e. rewrite <- (filter_delete _ _ _ _ H5 Hi), elem_of_list_filter. tauto. }
  split; cbn; try done.
  - intros y. by rewrite lookup_delete_ne.
  - apply Forall2_same_length_lookup. pose proof (Forall2_delete' _ _ _ i H4) as F. split; [by eapply Forall2_length|]. intros j e f He Hf. destruct (Forall2_lookup_lr _ _ _ _ _ _ F He Hf) as [E1 E2]. split; [done|].
    rewrite lookup_delete_ne; [done|]. intros [= ->]. assert (e ∈ delete i (c_nodes w)) as [_ Hx]%Hel by (by eapply elem_of_list_lookup_2). done.
  - eapply sublist_NoDup'; [|exact H5]. apply fmap_sublist, sublist_delete.
  - intros m Hmm. destruct (decide (m = n)) as [->|]; [rewrite lookup_delete in Hmm; by destruct Hmm|]. rewrite lookup_delete_ne in Hmm by congruence. apply H6 in Hmm as ([k' m'] & -> & Hin)%elem_of_list_fmap.
    apply elem_of_list_fmap. exists (k', m'). split; [done|]. by apply Hel.
  - intros m ([k' m'] & -> & Hin)%elem_of_list_fmap. apply Hel in Hin as [Hin _]. apply H7, elem_of_list_fmap. by exists (k', m').
Qed.
