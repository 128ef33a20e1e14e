(** AddKey / AddUniqueKey keep the invariant. *)
From Verif Require Export InvKeys.
Open Scope nat_scope.
Local Arguments strltb : simpl never.

Lemma strlt_irrefl a : ~ strlt a a.
Proof. apply (vlt_irrefl (VStr a)). Qed.
Lemma strlt_trans a b c : strlt a b -> strlt b c -> strlt a c.
Proof. apply (vlt_trans (VStr a)). Qed.
Lemma strlt_total a b : strltb a b = false -> a <> b -> strlt b a.
Proof.
  intros H Hne. assert (vle (VStr b) (VStr a)) as Hle. { apply not_vlt. intros Hc. unfold strltb in H. unfold vlt in Hc. congruence. }
  apply vle_cases in Hle as [Hle|Hle]; [done|]. congruence.
Qed.
Lemma elem_set_insert k l x : x ∈ set_insert k l <-> x = k \/ x ∈ l.
Proof.
  induction l as [|y l IH]; cbn; [rewrite elem_of_list_singleton, elem_of_nil; tauto|].
  destruct (strltb k y); [by rewrite elem_of_cons|]. destruct (decide (k = y)) as [->|]; [rewrite !elem_of_cons; tauto|].
  rewrite !elem_of_cons, IH. tauto.
Qed.
Lemma sorted_set_insert k l : StronglySorted strlt l -> StronglySorted strlt (set_insert k l).
Proof.
  induction 1 as [|y l Hs IH Hy]; cbn; [repeat constructor|]. destruct (strltb k y) eqn:E.
  - constructor; [by constructor|]. constructor; [done|]. eapply Forall_impl; [done|]. intros z Hz. by eapply strlt_trans.
  - destruct (decide (k = y)) as [->|Hne]; [by constructor|]. constructor; [done|]. apply Forall_forall. intros z Hz.
    apply elem_set_insert in Hz as [->|Hz]; [by apply strlt_total|]. rewrite Forall_forall in Hy. auto.
Qed.

(** ** One object *)
Definition hash_of (V : nat -> value) (rs : list nat) : entries := (fun r => (V r, r)) <$> rs.
Definition key_ix (multi : bool) (V : nat -> value) (rs : list nat) : idx :=
  Idx multi (hash_of V rs) (build_tree multi (hash_of V rs)).
Definition rd_put (k : string) (V : nat -> value) (r : nat) (rc : recd) : recd := rd_data (<[k := V r]> (r_data rc)) rc.

Lemma foldM_fmap {A B C} (F : A -> C -> option A) (f : B -> C) l a : foldM F a (f <$> l) = foldM (fun a x => F a (f x)) a l.
Proof. revert a. induction l as [|x l IH]; intros a; cbn; [done|]. destruct (F a (f x)); cbn; [apply IH|done]. Qed.
Lemma foldM_ext {A B} (F G : A -> B -> option A) l a : (forall a x, F a x = G a x) -> foldM F a l = foldM G a l.
Proof. intros H. revert a. induction l as [|x l IH]; intros a; cbn; [done|]. rewrite H. destruct (G a x); cbn; [apply IH|done]. Qed.

Lemma foldM_rec_set k V rs w :
  NoDup rs -> (forall r, r ∈ rs -> is_Some (w_recs w !! r)) ->
  foldM (rec_set k) w (hash_of V rs) = Some (w_set_recs (upd_on (rd_put k V) (list_to_set rs) (w_recs w)) w).
Proof.
  intros Hn Hr. unfold hash_of. rewrite foldM_fmap. by apply foldM_recs.
Qed.
Lemma foldM_rec_set_def k V rs w :
  is_Some (foldM (rec_set k) w (hash_of V rs)) -> forall r, r ∈ rs -> is_Some (w_recs w !! r).
Proof.
  intros [w' H]. unfold hash_of in H. rewrite foldM_fmap in H. eapply foldM_recs_some; [|done]. intros w0 r. unfold rec_set. cbn. done.
Qed.

Lemma NoDup_hash_of V rs : NoDup rs -> NoDup (hash_of V rs).
Proof. intros H. unfold hash_of. apply NoDup_fmap_2; [|done]. intros a b E. by injection E. Qed.
Lemma elem_hash_of V rs v r : (v, r) ∈ hash_of V rs <-> v = V r /\ r ∈ rs.
Proof. unfold hash_of. rewrite elem_of_list_fmap. naive_solver. Qed.
Lemma fst_hash_of V rs : fst <$> hash_of V rs = V <$> rs.
Proof. unfold hash_of. rewrite <- list_fmap_compose. done. Qed.

Lemma build_tree_perm m h : (m = false -> NoDup (fst <$> h)) -> build_tree m h ≡ₚ h.
Proof. destruct m; intros H; [apply build_tree_multi_perm|apply build_tree_uniq_perm; auto]. Qed.

Lemma key_ix_ok (recs : gset nat) val m V rs :
  NoDup rs -> (forall r, r ∈ rs <-> r ∈ recs) -> (forall r, r ∈ recs -> val r = Some (V r)) -> (m = false -> NoDup (V <$> rs)) ->
  good recs val (key_ix m V rs) /\ complete recs val (ix_hash (key_ix m V rs)) /\ complete recs val (ix_tree (key_ix m V rs)).
Proof.
  intros Hn Hin Hval Hm.
  assert (Hp : build_tree m (hash_of V rs) ≡ₚ hash_of V rs). { apply build_tree_perm. rewrite fst_hash_of. done. }
  assert (Hs : sound recs val (hash_of V rs)).
  { intros v r Hr. apply elem_hash_of in Hr as [-> Hr]. apply Hin in Hr. auto. }
  assert (Hc : complete recs val (hash_of V rs)).
  { intros r Hr. exists (V r). split; [auto|]. apply elem_hash_of. split; [done|]. by apply Hin. }
  split; [|split].
  - split; cbn.
    + done.
    + intros v r Hr. rewrite Hp in Hr. by apply Hs.
    + by apply NoDup_hash_of.
    + rewrite Hp. by apply NoDup_hash_of.
    + apply build_tree_sorted.
    + rewrite fst_hash_of. done.
    + intros Hmf. rewrite Hp, fst_hash_of. auto.
  - done.
  - intros r Hr. destruct (Hc r Hr) as (v & H1 & H2). exists v. split; [done|]. cbn. by rewrite Hp.
Qed.

(** The checking loop. *)
Lemma gen_loop_spec w g t i rs h mh :
  gen_loop w g t i rs h = Some mh -> NoDup (fst <$> h) ->
  match mh with
  | Some h' => exists h1, h' = h ++ h1 /\ snd <$> h1 = rs /\ NoDup (fst <$> h') /\
       (forall j r, rs !! j = Some r -> exists rc, w_recs w !! r = Some rc /\ (h1 !! j = Some (vcast t (g (i + j) r (r_data rc)), r)))
  | None => exists j r rc, rs !! j = Some r /\ w_recs w !! r = Some rc /\
       let v := vcast t (g (i + j) r (r_data rc)) in
       (v ∈ fst <$> h) \/ exists j' r' rc', j' < j /\ rs !! j' = Some r' /\ w_recs w !! r' = Some rc' /\ v = vcast t (g (i + j') r' (r_data rc'))
  end.
Proof.
  revert i h. induction rs as [|r rs IH]; intros i h H Hn; cbn in H.
  - injection H as <-. exists []. rewrite app_nil_r. done.
  - destruct (w_recs w !! r) as [rc|] eqn:Er; [|done]. cbn in H. set (v := vcast t (g i r (r_data rc))) in *.
    destruct (has_value v h) eqn:Eh.
    + injection H as <-. exists 0, r, rc. split; [done|]. split; [done|]. left. rewrite Nat.add_0_r. apply has_value_spec in Eh as [r' Hr'].
      apply elem_of_list_fmap. exists (v, r'). done.
    + apply IH in H; [|by apply NoDup_fst_app]. destruct mh as [h'|].
      * destruct H as (h1 & -> & H2 & H3 & H4). exists ((v, r) :: h1). rewrite <- app_assoc in *. split; [done|]. split; [cbn; by rewrite H2|].
        split; [done|]. intros [|j] r' Hj; cbn in Hj.
        -- injection Hj as <-. exists rc. split; [done|]. rewrite Nat.add_0_r. done.
        -- destruct (H4 _ _ Hj) as (rc' & H5 & H6). exists rc'. split; [done|]. change (((v, r) :: h1) !! S j) with (h1 !! j). rewrite H6. by replace (i + S j) with (S i + j) by lia.
      * destruct H as (j & r' & rc' & Hj & Hr' & Hv). exists (S j), r', rc'. split; [done|]. split; [done|].
        replace (i + S j) with (S i + j) by lia. destruct Hv as [Hv|(j' & r2 & rc2 & Hj1 & Hj2 & Hr2 & Hv)].
        -- rewrite fmap_app in Hv. apply elem_of_app in Hv as [Hv|Hv]; [by left|]. right. apply elem_of_list_singleton in Hv. cbn in Hv.
           exists 0, r, rc. split; [lia|]. split; [done|]. split; [done|]. rewrite Nat.add_0_r. done.
        -- right. exists (S j'), r2, rc2. split; [lia|]. split; [done|]. split; [done|]. by replace (i + S j') with (S i + j') by lia.
Qed.
Lemma gen_loop_def w g t i rs h : (forall r, r ∈ rs -> is_Some (w_recs w !! r)) -> is_Some (gen_loop w g t i rs h).
Proof.
  revert i h. induction rs as [|r rs IH]; intros i h H; cbn; [eauto|]. destruct (H r) as [rc ->]; [by left|]. cbn.
  destruct (has_value _ h); [eauto|]. apply IH. intros x Hx. apply H. by right.
Qed.
Lemma hash_of_exists (h : entries) : NoDup (snd <$> h) -> exists V, h = hash_of V (snd <$> h).
Proof.
  induction h as [|[v r] h IH]; intros Hn; [by exists (fun _ => VStr "")|]. cbn in Hn. apply NoDup_cons in Hn as [Hr Hn].
  destruct (IH Hn) as [V HV]. exists (fun x => if decide (x = r) then v else V x). cbn. rewrite decide_True by done. f_equal.
  rewrite HV at 1. unfold hash_of. apply list_fmap_ext. intros i x Hx. cbn. rewrite decide_False; [done|].
  intros ->. apply Hr. by eapply elem_of_list_lookup_2.
Qed.

Lemma upd_on_twice {A} (g : nat -> A -> A) X Y m : (forall x a, g x (g x a) = g x a) -> upd_on g X (upd_on g Y m) = upd_on g (X ∪ Y) m.
Proof.
  intros H. apply map_eq. intros x. rewrite !lookup_upd_on. destruct (m !! x); [|done]. cbn. f_equal.
  repeat case_decide; try done; set_solver.
Qed.
Lemma rd_put_twice k V x a : rd_put k V x (rd_put k V x a) = rd_put k V x a.
Proof. unfold rd_put, rd_data. cbn. by rewrite insert_insert. Qed.
Lemma rd_put_shape k V x a : r_valid (rd_put k V x a) = r_valid a /\ r_refs (rd_put k V x a) = r_refs a /\ r_deps (rd_put k V x a) = r_deps a.
Proof. done. Qed.

(** ** Propagation to the sets *)
Definition keyed_set (ord : order) (k : string) (d : value) (sb : obj) : obj :=
  match o_keys sb !! k with
  | Some _ => ob_order (o_order sb ++ [k]) sb
  | None => ob_order (o_order sb ++ [k]) (register_key k d false (key_ix true (fun _ => d) (ord (elements (o_recs sb)))) sb)
  end.
Definition add_set (ord : order) (k : string) (d : value) (g : option generator) (w : world) (s : nat) : option world :=
  '(w', _) ← add_key_local ord w s k d g false;
  sb ← w_objs w' !! s;
  Some (set_obj s (ob_order (o_order sb ++ [k]) sb) w').

Lemma add_set_plain ord k d w s sb :
  fair ord -> w_objs w !! s = Some sb -> o_isset sb = true ->
  (is_Some (add_set ord k d None w s) \/ forall r, r ∈ o_recs sb -> is_Some (w_recs w !! r)) ->
  exists U, U ⊆ o_recs sb /\
    add_set ord k d None w s = Some (World (upd_on (rd_put k (fun _ => d)) U (w_recs w)) (<[s := keyed_set ord k d sb]> (w_objs w)) (w_refs w) (w_next w)).
Proof.
  intros Hf Hs His HD. unfold add_set, add_key_local, keyed_set in *. rewrite Hs in *. cbn [mbind option_bind] in *.
  destruct (o_keys sb !! k) as [[t d0]|] eqn:Ek.
  - exists ∅. split; [apply empty_subseteq|]. cbn [mbind option_bind]. rewrite Hs. cbn. rewrite upd_on_empty. done.
  - change ((fun r : nat => (d, r)) <$> ord (elements (o_recs sb))) with (hash_of (fun _ => d) (ord (elements (o_recs sb)))) in *.
    assert (Hr : forall r, r ∈ ord (elements (o_recs sb)) -> is_Some (w_recs w !! r)).
    { destruct HD as [HD|HD].
      - apply (foldM_rec_set_def k (fun _ => d)). destruct (foldM _ _ _); [eauto|]. by destruct HD.
      - intros r Hr. apply fair_elem in Hr; auto. }
    rewrite foldM_rec_set by (try done; by apply fair_NoDup). cbn [mbind option_bind].
    exists (o_recs sb). split; [done|]. cbn. rewrite lookup_insert. cbn. unfold set_obj. cbn. rewrite insert_insert, list_to_set_ord by done.
    rewrite His. done.
Qed.

Lemma add_sets_plain ord k d l : forall w,
  fair ord -> NoDup l -> (forall s, s ∈ l -> exists sb, w_objs w !! s = Some sb /\ o_isset sb = true) ->
  (is_Some (foldM (add_set ord k d None) w l) \/ forall s sb r, s ∈ l -> w_objs w !! s = Some sb -> r ∈ o_recs sb -> is_Some (w_recs w !! r)) ->
  exists U, foldM (add_set ord k d None) w l
    = Some (World (upd_on (rd_put k (fun _ => d)) U (w_recs w)) (upd_on (fun _ => keyed_set ord k d) (list_to_set l) (w_objs w)) (w_refs w) (w_next w)) /\
    (forall r, r ∈ U -> exists s sb, s ∈ l /\ w_objs w !! s = Some sb /\ r ∈ o_recs sb).
Proof.
  induction l as [|s l IH]; intros w Hf Hn Hl HD; cbn [foldM] in *.
  - exists ∅. cbn [list_to_set foldr]. rewrite !upd_on_empty. rewrite world_eta. split; [done|]. intros r Hr. by apply not_elem_of_empty in Hr.
  - apply NoDup_cons in Hn as [Hs Hn]. destruct (Hl s) as (sb & Hsb & His); [by left|].
    destruct (add_set_plain ord k d w s sb) as (U1 & HU1 & E1); try done.
    { destruct HD as [HD|HD]; [left|right].
      - destruct HD as [w' HD]. destruct (add_set ord k d None w s); [eauto|done].
      - intros r Hr. eapply HD; [by left|done|done]. }
    rewrite E1 in *. cbn [mbind option_bind] in *. set (w1 := World _ _ _ _) in *.
    assert (Hw1 : forall x, x ∈ l -> w_objs w1 !! x = w_objs w !! x).
    { intros x Hx. cbn. rewrite lookup_insert_ne; [done|]. by intros ->. }
    destruct (IH w1) as (U2 & E2 & HU2); try done.
    { intros x Hx. rewrite Hw1 by done. apply Hl. by right. }
    { destruct HD as [HD|HD]; [by left|right]. intros x xb r Hx Hxb Hr. rewrite Hw1 in Hxb by done. cbn. rewrite lookup_upd_on.
      apply fmap_is_Some. eapply HD; [by right|done|done]. }
    rewrite E2. exists (U2 ∪ U1). split.
    + f_equal. cbn. f_equal.
      * apply upd_on_twice. intros. apply rd_put_twice.
      * apply map_eq. intros x. rewrite !lookup_upd_on. destruct (decide (x = s)) as [->|Hne].
        -- rewrite lookup_insert, Hsb. cbn. rewrite decide_False by (by rewrite elem_of_list_to_set). rewrite decide_True by set_solver. done.
        -- rewrite lookup_insert_ne by done. destruct (w_objs w !! x); [|done]. cbn. repeat case_decide; try done; set_solver.
    + intros r Hr. apply elem_of_union in Hr as [Hr|Hr].
      * destruct (HU2 _ Hr) as (x & xb & Hx & Hxb & Hxr). rewrite Hw1 in Hxb by done. exists x, xb. split; [by right|done].
      * exists s, sb. split; [by left|]. split; [done|]. by apply HU1.
Qed.

(** Unique keys: the sets' indexes may disagree with the records (behaviour B13), but only mention records of the set. *)
Definition keyed_fn (k : string) (d : value) (sb sb' : obj) : Prop :=
  set_kept sb sb' /\
  (o_recs sb = ∅ -> o_keys sb !! k = None -> sb' = ob_order (o_order sb ++ [k]) (register_key k d true (Idx false [] []) sb)).

Lemma add_set_fn ord k d f w s sb :
  fair ord -> w_objs w !! s = Some sb -> o_isset sb = true ->
  (is_Some (add_set ord k d (Some f) w s) \/ o_recs sb = ∅) ->
  exists sb', add_set ord k d (Some f) w s = Some (set_obj s sb' w) /\ keyed_fn k d sb sb'.
Proof.
  intros Hf Hs His HD. unfold add_set, add_key_local in *. rewrite Hs in *. cbn [mbind option_bind] in *.
  destruct (o_keys sb !! k) as [[t d0]|] eqn:Ek.
  - cbn [mbind option_bind]. rewrite Hs. cbn. eexists. split; [done|]. split; [|congruence]. repeat (split; [done|]). eauto.
  - cbn [andb] in *.
    assert (is_Some (gen_loop w f (vty d) 0 (ord (elements (o_recs sb))) [])) as [mh Hmh].
    { destruct HD as [HD|HD].
      - destruct (gen_loop _ _ _ _ _ _); [eauto|]. by destruct HD.
      - apply gen_loop_def. intros r Hr. apply fair_elem in Hr; [|done]. rewrite HD in Hr. by apply not_elem_of_empty in Hr. }
    rewrite Hmh in *. cbn [mbind option_bind] in *. apply gen_loop_spec in Hmh as Hsp; [|constructor]. destruct mh as [h|].
    + rewrite His in *. cbn. rewrite lookup_insert. cbn. unfold set_obj. cbn. rewrite insert_insert. eexists. split; [done|].
      destruct Hsp as (h1 & E1 & E2 & E3 & _). cbn in E1. subst h1. split.
      * repeat (split; [done|]). cbn. intros k' ix e Hix He. apply lookup_insert_Some in Hix as [[<- <-]|[Hne Hix]]; [|eauto].
        left. cbn in He. assert (e ∈ h) as Hin by (destruct He as [He|He]; [done|by apply build_tree_elem in He]).
        apply (elem_of_list_fmap_1 snd) in Hin. rewrite E2 in Hin. by apply fair_elem in Hin.
      * intros Hr _. rewrite Hr, elements_empty in E2. assert (ord [] = []) as E by (apply Permutation_nil; symmetry; apply Hf).
        rewrite E in E2. apply fmap_nil_inv in E2. subst h. cbn. unfold register_key. rewrite His. done.
    + cbn. rewrite lookup_insert. cbn. unfold set_obj. cbn. rewrite insert_insert. eexists. split; [done|]. split.
      * repeat (split; [done|]). cbn. intros k' ix e Hix He. apply lookup_delete_Some in Hix as [_ Hix]. eauto.
      * intros Hr _. exfalso. destruct Hsp as (j & r & rc & Hj & _). apply elem_of_list_lookup_2 in Hj. apply fair_elem in Hj; [|done].
        rewrite Hr in Hj. by apply not_elem_of_empty in Hj.
Qed.

Lemma add_sets_fn ord k d f l : forall w,
  fair ord -> NoDup l -> (forall s, s ∈ l -> exists sb, w_objs w !! s = Some sb /\ o_isset sb = true) ->
  (is_Some (foldM (add_set ord k d (Some f)) w l) \/ forall s sb, s ∈ l -> w_objs w !! s = Some sb -> o_recs sb = ∅) ->
  exists m, foldM (add_set ord k d (Some f)) w l = Some (World (w_recs w) m (w_refs w) (w_next w)) /\
    (forall x, x ∉ l -> m !! x = w_objs w !! x) /\
    (forall x xb, x ∈ l -> w_objs w !! x = Some xb -> exists xb', m !! x = Some xb' /\ keyed_fn k d xb xb').
Proof.
  induction l as [|s l IH]; intros w Hf Hn Hl HD; cbn [foldM] in *.
  - exists (w_objs w). rewrite world_eta. split; [done|]. split; [done|]. intros x xb Hx. by apply elem_of_nil in Hx.
  - apply NoDup_cons in Hn as [Hs Hn]. destruct (Hl s) as (sb & Hsb & His); [by left|].
    destruct (add_set_fn ord k d f w s sb) as (sb' & E1 & HK); try done.
    { destruct HD as [HD|HD]; [left|right].
      - destruct HD as [w' HD]. destruct (add_set ord k d (Some f) w s); [eauto|done].
      - eapply HD; [by left|done]. }
    rewrite E1 in *. cbn [mbind option_bind] in *.
    assert (Hw1 : forall x, x <> s -> w_objs (set_obj s sb' w) !! x = w_objs w !! x).
    { intros x Hx. cbn. by rewrite lookup_insert_ne. }
    assert (Hls : forall x, x ∈ l -> x <> s) by (intros x Hx ->; done).
    destruct (IH (set_obj s sb' w)) as (m & E2 & Hm1 & Hm2); try done.
    { intros x Hx. rewrite Hw1 by auto. apply Hl. by right. }
    { destruct HD as [HD|HD]; [by left|right]. intros x xb Hx Hxb. rewrite Hw1 in Hxb by auto. eapply HD; [by right|done]. }
    exists m. split; [done|]. split.
    + intros x Hx. rewrite Hm1 by set_solver. apply Hw1. set_solver.
    + intros x xb Hx Hxb. apply elem_of_cons in Hx as [->|Hx].
      * rewrite Hm1 by done. cbn. rewrite lookup_insert. assert (xb = sb) as -> by congruence. eauto.
      * apply Hm2; [done|]. rewrite Hw1 by auto. done.
Qed.

(** ** The vault *)
Lemma register_vault_ok L L' ob k d uniq V rs :
  vault_ok L ob -> o_keys ob !! k = None -> NoDup rs -> (forall r, r ∈ rs <-> r ∈ o_recs ob) ->
  (forall r, r ∈ o_recs ob -> vty (V r) = vty d) -> (uniq = true -> NoDup (V <$> rs)) ->
  (forall x, L' !! x = (fun l => if decide (x ∈ o_recs ob) then (<[k := V x]> l.1, l.2) else l) <$> L !! x) ->
  vault_ok L' (register_key k d uniq (key_ix (negb uniq) V rs) ob).
Proof.
  intros [H1 H2 [K1 K2 K3 K4 K5 K6] H4 H5] Hk Hn Hrs Hty Hu HL.
  assert (Hko : k ∉ o_order ob). { intros Hin. apply K4 in Hin. rewrite Hk in Hin. by destruct Hin. }
  assert (Hku : k ∉ o_uniq ob). { intros Hin. apply K5 in Hin. rewrite Hk in Hin. by destruct Hin. }
  assert (Hval : forall r, r ∈ o_recs ob -> forall k', val_of L' k' r = if decide (k' = k) then Some (V r) else val_of L k' r).
  { intros r Hr k'. unfold val_of. rewrite HL. destruct (H4 _ Hr) as (l & Hl & _). rewrite Hl. cbn. rewrite decide_True by done. cbn.
    destruct (decide (k' = k)) as [->|]; [by rewrite lookup_insert|by rewrite lookup_insert_ne]. }
  assert (Huq : forall k', k' <> k -> k' ∈ (if uniq then set_insert k (o_uniq ob) else o_uniq ob) <-> k' ∈ o_uniq ob).
  { intros k' Hne. destruct uniq; [|done]. rewrite elem_set_insert. tauto. }
  split; [done|done| | |].
  - split; cbn.
    + by apply typed_insert.
    + intros k' t d' Hk'. apply lookup_insert_Some in Hk' as [[_ [= <- <-]]|[_ Hk']]; [done|eauto].
    + rewrite H1. apply NoDup_app. split; [done|]. split; [|apply NoDup_singleton]. intros x Hx ->%elem_of_list_singleton. done.
    + intros k'. rewrite H1, elem_of_app, elem_of_list_singleton, lookup_insert_is_Some', K4. naive_solver.
    + intros k' Hk'. rewrite lookup_insert_is_Some'. destruct uniq; [apply elem_set_insert in Hk' as [->|Hk']; [by left|]|]; right; auto.
    + destruct uniq; [by apply sorted_set_insert|done].
  - cbn. intros r Hr. destruct (H4 _ Hr) as (l & Hl & Ht). rewrite HL, Hl. cbn. eexists. split; [done|]. rewrite decide_True by done. cbn.
    apply typed_insert; [done|auto].
  - cbn [o_keys o_idx o_recs o_uniq register_key]. intros k' td Hk'. destruct (decide (k' = k)) as [->|Hne].
    + rewrite lookup_insert. eexists. split; [done|].
      destruct (key_ix_ok (o_recs ob) (val_of L' k) (negb uniq) V rs) as (G1 & G2 & G3); [done|done|..].
      { intros r Hr. rewrite Hval by done. by rewrite decide_True. } { intros E. apply Hu. by destruct uniq. }
      split; [split; [done|split]|].
      * cbn. intros E. destruct uniq; [|done]. apply elem_set_insert. by left.
      * done.
      * intros Hin. destruct uniq; [done|]. by destruct Hku.
    + change (<[k := (vty d, d)]> (o_keys ob) !! k' = Some td) in Hk'.
      change (o_idx (register_key k d uniq (key_ix (negb uniq) V rs) ob)) with (<[k := key_ix (negb uniq) V rs]> (o_idx ob)).
      rewrite lookup_insert_ne in Hk' by done. rewrite lookup_insert_ne by done. destruct (H5 _ _ Hk') as (ix & Hix & (G1 & G2 & G3) & Hm).
      exists ix. split; [done|]. split; [|rewrite Huq by done; done].
      eapply (idx_ok_frame L). { intros r Hr. rewrite Hval by done. by rewrite decide_False. }
      split; [done|]. split; [intros E; apply Huq; auto|]. rewrite Huq by done. done.
Qed.

(** What a successful AddKey did: vault [o] got key [k], record [r] of it the value [V r]; [rs] is the order in which the
    records were visited. *)
Record key_added (o : nat) (k : string) (d : value) (uniq : bool) (V : nat -> value) (rs : list nat) (w w' : world) : Prop := KeyAdded {
  ka_refs : w_refs w' = w_refs w;
  ka_next : w_next w' = w_next w;
  ka_live : forall x, live w' !! x =
    (fun l => if decide (exists ob, w_objs w !! o = Some ob /\ x ∈ o_recs ob) then (<[k := V x]> l.1, l.2) else l) <$> live w !! x;
  ka_heap : forall x, (fun rc => (r_valid rc, r_refs rc)) <$> w_recs w' !! x = (fun rc => (r_valid rc, r_refs rc)) <$> w_recs w !! x;
  ka_o : forall ob, w_objs w !! o = Some ob -> rs ≡ₚ elements (o_recs ob) /\
    w_objs w' !! o = Some (register_key k d uniq (key_ix (negb uniq) V rs) ob) /\ (uniq = true -> NoDup (V <$> rs));
  ka_objs : forall x, x <> o -> ~ set_of w o x -> w_objs w' !! x = w_objs w !! x;
  ka_sets : forall x, set_of w o x -> exists xb xb', w_objs w !! x = Some xb /\ w_objs w' !! x = Some xb' /\ set_kept xb xb'
}.

Lemma idx_only_inv b w o ob m k :
  Inv b w -> w_objs w !! o = Some ob -> o_static_set ob = false -> o_keys ob !! k = None ->
  (forall k', k' <> k -> m !! k' = o_idx ob !! k') -> Inv b (set_obj o (ob_idx m ob) w).
Proof.
  intros HI Ho Hst Hk Hm. pose proof (vi_vault _ _ _ _ (inv_obj _ _ HI) _ _ Ho Hst) as Hv.
  assert (EL : live (set_obj o (ob_idx m ob) w) = live w) by done.
  eapply (key_change_inv b w _ o ob (ob_idx m ob) (fun _ x => x)); try done.
  - intros x. rewrite EL. destruct (live w !! x) as [[]|]; [|done]. cbn. by destruct (decide _).
  - cbn. by rewrite lookup_insert.
  - rewrite EL. destruct Hv as [H1 H2 [K1 K2 K3 K4 K5 K6] H4 H5]. split; try done. cbn. intros k' td Hk'.
    rewrite Hm; [by apply (H5 _ td)|]. congruence.
  - intros x Hx. cbn. rewrite lookup_insert_ne by done. destruct (w_objs w !! x) as [xb|] eqn:Ex; [|done].
    destruct (decide _) as [[Hxs Hxp]|]; [|done]. split; [apply set_kept_refl|]. intros Hb.
    destruct (Inv_set_facts _ _ _ _ _ HI Ex Hxs Hxp) as (pb & Hpb & _ & _ & _ & Hpar). assert (pb = ob) as -> by congruence.
    pose proof (sp_strict _ _ _ _ _ Hpar Hb) as [S1 S2 S3 S4 S5 S6 S7 S8]. by split.
Qed.

(** Vault and set indexes after the key was added give the invariant. *)
Lemma key_added_inv b w w' o ob k d uniq V rs :
  Inv b w -> w_objs w !! o = Some ob -> o_static_set ob = false -> o_keys ob !! k = None ->
  (forall r, r ∈ o_recs ob -> vty (V r) = vty d) -> key_added o k d uniq V rs w w' ->
  (b = true -> forall x xb xb', w_objs w !! x = Some xb -> o_static_set xb = true -> o_parent xb = Some o -> w_objs w' !! x = Some xb' ->
     exists rs', rs' ≡ₚ elements (o_recs xb) /\ (uniq = true -> rs' = []) /\
       xb' = ob_order (o_order xb ++ [k]) (register_key k d uniq (key_ix (negb uniq) V rs') xb)) ->
  Inv b w'.
Proof.
  intros HI Ho Hst Hk HV [K1 K2 K3 K4 K5 K6 K7] Hs. destruct (K5 _ Ho) as (Hrs & Ho' & Hu).
  pose proof (vi_vault _ _ _ _ (inv_obj _ _ HI) _ _ Ho Hst) as Hv.
  assert (HL : forall x, live w' !! x = (fun l => if decide (x ∈ o_recs ob) then (<[k := V x]> l.1, l.2) else l) <$> live w !! x).
  { intros x. rewrite K3. destruct (live w !! x); [|done]. cbn. f_equal. repeat case_decide; try done.
    - naive_solver.
    - destruct H. eauto. }
  assert (Hrn : NoDup rs) by (rewrite Hrs; apply NoDup_elements).
  assert (Hri : forall r, r ∈ rs <-> r ∈ o_recs ob) by (intros r; rewrite Hrs; apply elem_of_elements).
  eapply (key_change_inv b w w' o ob _ (fun x => <[k := V x]>)); try done.
  - by eapply register_vault_ok.
  - intros x Hx. destruct (w_objs w !! x) as [xb|] eqn:Ex.
    2:{ rewrite K6, Ex; [done|done|]. intros (? & ? & _). congruence. }
    destruct (decide (o_static_set xb = true /\ o_parent xb = Some o)) as [[Hxs Hxp]|Hn].
    2:{ rewrite K6, Ex; [done|done|]. intros (? & ? & ? & ?). apply Hn. split; congruence. }
    destruct (K7 x) as (xb0 & xb' & Hxb0 & Hxb' & Hkept); [by exists xb|]. rewrite Hxb'. assert (xb0 = xb) as -> by congruence. split; [done|].
    intros Hb. destruct (Hs Hb _ _ _ Ex Hxs Hxp Hxb') as (rs' & Hrs' & Hu' & ->).
    destruct (Inv_set_facts _ _ _ _ _ HI Ex Hxs Hxp) as (pb & Hpb & _ & _ & _ & Hpar). assert (pb = ob) as -> by congruence.
    pose proof (sp_strict _ _ _ _ _ Hpar Hb) as [S1 S2 S3 S4 S5 S6 S7 S8].
    assert (Hks : o_keys xb !! k = None).
    { pose proof (f_equal (fun m => m !! k) S1) as E. cbn in E. rewrite !lookup_fmap, Hk in E. destruct (o_keys xb !! k); done. }
    assert (Hval : forall r, r ∈ o_recs xb -> forall k', val_of (live w') k' r = if decide (k' = k) then Some (V r) else val_of (live w) k' r).
    { intros r Hr k'. unfold val_of. rewrite HL. destruct (v_recs _ _ Hv _ (S6 _ Hr)) as (l & Hl & _). rewrite Hl. cbn. rewrite decide_True by auto. cbn.
      destruct (decide (k' = k)) as [->|]; [by rewrite lookup_insert|by rewrite lookup_insert_ne]. }
    assert (Hku : k ∉ o_uniq ob). { intros Hin. apply (k_uniq _ (v_keys _ _ Hv)) in Hin. rewrite Hk in Hin. by destruct Hin. }
    assert (Huq : forall k', k' <> k -> k' ∈ (if uniq then set_insert k (o_uniq xb) else o_uniq xb) <-> k' ∈ o_uniq xb).
    { intros k' Hne. destruct uniq; [|done]. rewrite elem_set_insert. tauto. }
    split; cbn [o_keys o_tmpl o_order o_uniq o_recs o_idx ob_order register_key].
    + by rewrite !fmap_insert, S1.
    + intros k' t d' Hk'. apply lookup_insert_Some in Hk' as [[_ [= <- <-]]|[_ Hk']]; [done|eauto].
    + by apply typed_insert.
    + rewrite (v_isset _ _ Hv). by rewrite S4.
    + by rewrite S5.
    + done.
    + intros r l Hr Hl. rewrite HL in Hl. destruct (live w !! r) as [l0|] eqn:El; [|done]. cbn in Hl. injection Hl as <-.
      pose proof (S7 _ _ Hr El). by destruct (decide _).
    + change (o_idx (ob_order (o_order xb ++ [k]) (register_key k d uniq (key_ix (negb uniq) V rs') xb))) with (<[k := key_ix (negb uniq) V rs']> (o_idx xb)).
      intros k' td Hk'. change (<[k := (vty d, d)]> (o_keys xb) !! k' = Some td) in Hk'. destruct (decide (k' = k)) as [->|Hne].
      * rewrite lookup_insert. eexists. split; [done|].
        destruct (key_ix_ok (o_recs xb) (val_of (live w') k) (negb uniq) V rs') as (G1 & G2 & G3).
        { rewrite Hrs'. apply NoDup_elements. } { intros r. rewrite Hrs'. apply elem_of_elements. }
        { intros r Hr. rewrite Hval by done. by rewrite decide_True. } { intros E. rewrite Hu' by (by destruct uniq). constructor. }
        split; [done|]. split; [|done]. cbn. intros E. destruct uniq; [|done]. apply elem_set_insert. by left.
      * rewrite lookup_insert_ne in Hk' by done. rewrite lookup_insert_ne by done.
        destruct (S8 _ _ Hk') as (ix & Hix & (G1 & G2 & G3)). exists ix. split; [done|].
        eapply (idx_ok_frame (live w)). { intros r Hr. rewrite Hval by done. by rewrite decide_False. }
        split; [done|]. change (o_uniq (ob_order (o_order xb ++ [k]) (register_key k d uniq (key_ix (negb uniq) V rs') xb))) with (if uniq then set_insert k (o_uniq xb) else o_uniq xb).
        rewrite Huq by done. done.
Qed.

Lemma vty_vzero t : vty (vzero t) = t.
Proof. by destruct t. Qed.
Lemma vty_vcast t v : vty (vcast t v) = t.
Proof. unfold vcast. destruct (decide _); [done|apply vty_vzero]. Qed.

Lemma live_put k V U w m : live (World (upd_on (rd_put k V) U (w_recs w)) m (w_refs w) (w_next w)) =
  upd_on (fun x (l : lrec) => (<[k := V x]> l.1, l.2)) U (live w).
Proof.
  apply map_eq. intros x. rewrite lookup_upd_on. unfold live. cbn. rewrite !lookup_live_of, lookup_upd_on.
  destruct (w_recs w !! x) as [rc|]; [|done]. cbn. unfold live_rec. destruct (decide (x ∈ U)); cbn; by destruct (r_valid rc).
Qed.

Lemma add_key_plain_ok b ord w o ob k d :
  fair ord -> Inv b w -> w_objs w !! o = Some ob -> o_static_set ob = false -> o_keys ob !! k = None ->
  Def b (add_key ord w o k d None false) ->
  exists w', add_key ord w o k d None false = Some (w', okres Success k (Some (vty d)) None) /\ Inv b w' /\
    key_added o k d false (fun _ => d) (ord (elements (o_recs ob))) w w' /\
    (forall x xb, set_of w o x -> w_objs w !! x = Some xb -> w_objs w' !! x = Some (keyed_set ord k d xb)).
Proof.
  intros Hf HI Ho Hst Hk HD. pose proof (vi_vault _ _ _ _ (inv_obj _ _ HI) _ _ Ho Hst) as Hv.
  unfold add_key in *. rewrite Ho in *. cbn [mbind option_bind] in *.
  assert (EL : add_key_local ord w o k d None false = (w1 ← foldM (rec_set k) w (hash_of (fun _ => d) (ord (elements (o_recs ob))));
     Some (set_obj o (register_key k d false (key_ix true (fun _ => d) (ord (elements (o_recs ob)))) ob) w1, okres Success k (Some (vty d)) None))).
  { unfold add_key_local. rewrite Ho. cbn [mbind option_bind]. by rewrite Hk. }
  rewrite EL in *.
  assert (Hrr : forall r, r ∈ ord (elements (o_recs ob)) -> is_Some (w_recs w !! r)).
  { intros r Hr. apply fair_elem in Hr; [|done]. apply live_is_some. by eapply Inv_vault_live. }
  rewrite (foldM_rec_set k _ _ w (fair_NoDup _ _ Hf) Hrr) in *.
  cbn [mbind option_bind res_ok okres] in *. rewrite (v_isset _ _ Hv) in *. cbn [negb andb] in *. rewrite list_to_set_ord in * by done.
  set (rs := ord (elements (o_recs ob))) in *. set (w1 := set_obj o _ _) in *.
  change (foldM _ w1 ?l) with (foldM (add_set ord k d None) w1 l) in *.
  assert (Hsets : forall s, s ∈ ord (elements (o_sets ob)) -> s <> o /\ exists sb, w_objs w !! s = Some sb /\ o_static_set sb = true /\ o_parent sb = Some o /\ w_objs w1 !! s = Some sb /\ o_isset sb = true).
  { intros s Hs. apply fair_elem in Hs; [|done]. destruct (vi_sets _ _ _ _ (inv_obj _ _ HI) _ _ _ Ho Hst Hs) as (sb & Hsb & Hst' & Hp).
    assert (s <> o) by (intros ->; congruence). split; [done|]. exists sb. repeat (split; [done|]). split; [cbn; by rewrite lookup_insert_ne|].
    apply (so_isset _ _ _ _ _ _ (vi_set _ _ _ _ (inv_obj _ _ HI) _ _ Hsb Hst')). }
  destruct (add_sets_plain ord k d (ord (elements (o_sets ob))) w1) as (U & E & HU); try done.
  { by apply fair_NoDup. }
  { intros s Hs. destruct (Hsets _ Hs) as (_ & sb & _ & _ & _ & H1 & H2). eauto. }
  { destruct b.
    - right. intros s sb r Hs Hsb Hr. destruct (Hsets _ Hs) as (_ & sb' & H0 & H1 & H2 & H3 & H4). assert (sb' = sb) as -> by congruence.
      cbn. rewrite lookup_upd_on. apply fmap_is_Some. by eapply (strict_recs_live w s sb o ob).
    - left. destruct HD as [? HD]; [done|]. destruct (foldM _ w1 _); [eauto|done]. }
  rewrite E. cbn [mbind option_bind]. rewrite list_to_set_ord in * by done. eexists. split; [done|].
  assert (Hsof : forall x, set_of w o x <-> x ∈ o_sets ob).
  { intros x. split.
    - intros (xb & Hx & Hxs & Hxp). destruct (Inv_set_facts _ _ _ _ _ HI Hx Hxs Hxp) as (pb & Hpb & _ & Hin & _). congruence.
    - intros Hin. destruct (Hsets x) as (_ & sb & H1 & H2 & H3 & _); [by apply fair_elem|]. exists sb. done. }
  assert (HUo : forall r, r ∈ U -> is_Some (live w !! r) -> r ∈ o_recs ob).
  { intros r Hr Hlr. destruct (HU _ Hr) as (s & sb & Hs & Hsb & Hin). destruct (Hsets _ Hs) as (_ & sb' & H0 & H1 & H2 & H3 & H4). assert (sb' = sb) as -> by congruence.
    destruct (Inv_set_facts _ _ _ _ _ HI H0 H1 H2) as (pb & Hpb & _ & _ & _ & Hpar). assert (pb = ob) as -> by congruence. by eapply sp_recs. }
  set (w' := World _ _ _ _).
  assert (HL : forall x, live w' !! x = (fun l => if decide (x ∈ o_recs ob) then (<[k := d]> l.1, l.2) else l) <$> live w !! x).
  { intros x. unfold w'. cbn. rewrite upd_on_twice by (intros; apply rd_put_twice).
    pose proof (live_put k (fun _ => d) (U ∪ o_recs ob) w (w_objs w')) as El. unfold live in El at 1. cbn in El. unfold live at 1. cbn. rewrite El.
    rewrite lookup_upd_on. destruct (live w !! x) eqn:Ex; [|done]. cbn. f_equal. apply mk_is_Some in Ex. specialize (HUo x).
    repeat case_decide; try done; [|]; clear -HUo Ex H H0; set_solver. }
  assert (Hka : key_added o k d false (fun _ => d) rs w w').
  { split; try done.
    - intros x. rewrite HL. destruct (live w !! x); [|done]. cbn. f_equal. repeat case_decide; try done; naive_solver.
    - intros x. unfold w'. cbn. rewrite !lookup_upd_on. destruct (w_recs w !! x); [|done]. cbn. f_equal. by repeat case_decide.
    - intros ob0 Hob0. assert (ob0 = ob) as -> by congruence. split; [apply Hf|]. split; [|done].
      unfold w'. cbn. rewrite lookup_upd_on, lookup_insert. cbn. rewrite decide_False; [done|]. intros Hin.
      destruct (Hsets o) as [Hne _]; [by apply fair_elem|]. done.
    - intros x Hne Hnx. unfold w'. cbn. rewrite lookup_upd_on, lookup_insert_ne by done. destruct (w_objs w !! x); [|done]. cbn.
      rewrite decide_False; [done|]. by rewrite <- Hsof.
    - intros x Hx. pose proof Hx as (xb & Hxb & Hxs & Hxp). assert (x <> o) by (intros ->; congruence). unfold w'. cbn. rewrite lookup_upd_on, lookup_insert_ne by done. rewrite Hxb. cbn.
      rewrite decide_True by (by apply Hsof). exists xb. eexists. split; [done|]. split; [done|]. unfold keyed_set. destruct (o_keys xb !! k).
      + repeat (split; [done|]). eauto.
      + repeat (split; [done|]). cbn. intros k' ix e Hix He. apply lookup_insert_Some in Hix as [[<- <-]|[Hne Hix]]; [|eauto]. left. cbn in He.
        assert (e ∈ hash_of (fun _ => d) (ord (elements (o_recs xb)))) as Hin by (destruct He as [He|He]; [done|by apply build_tree_elem in He]).
        destruct e as [v r]. apply elem_hash_of in Hin as [_ Hin]. by apply fair_elem in Hin. }
  assert (Hset : forall x xb, set_of w o x -> w_objs w !! x = Some xb -> w_objs w' !! x = Some (keyed_set ord k d xb)).
  { intros x xb Hx Hxb. unfold w'. cbn. rewrite lookup_upd_on, lookup_insert_ne, Hxb.
    2:{ intros <-. destruct Hx as (? & ? & ? & _). congruence. }
    cbn. by rewrite decide_True by (by apply Hsof). }
  split; [|done].
  eapply (key_added_inv b w w' o ob k d false (fun _ => d) rs); try done. intros Hb x xb xb' Hxb Hxs Hxp Hxb'.
  rewrite (Hset x xb) in Hxb' by (done || by exists xb). injection Hxb' as <-.
  destruct (Inv_set_facts _ _ _ _ _ HI Hxb Hxs Hxp) as (pb & Hpb & _ & _ & _ & Hpar). assert (pb = ob) as -> by congruence.
  pose proof (sp_strict _ _ _ _ _ Hpar Hb) as [S1 S2 S3 S4 S5 S6 S7 S8].
  assert (Hks : o_keys xb !! k = None).
  { pose proof (f_equal (fun m => m !! k) S1) as E'. cbn in E'. rewrite !lookup_fmap, Hk in E'. destruct (o_keys xb !! k); done. }
  exists (ord (elements (o_recs xb))). split; [apply Hf|]. split; [done|]. unfold keyed_set. by rewrite Hks.
Qed.

(** AddUniqueKey: exact outcome. [G j r] is the value the generator gives the [j]-th visited record [r]. *)
Definition gen_val (w : world) (f : generator) (t : vtype) (j r : nat) : value :=
  vcast t (f j r (default ∅ (r_data <$> w_recs w !! r))).
Definition gen_vals (w : world) (f : generator) (t : vtype) (rs : list nat) : list value := imap (gen_val w f t) rs.

Lemma add_key_uniq_ok b ord w o ob k d f nol :
  fair ord -> Inv b w -> w_objs w !! o = Some ob -> o_static_set ob = false -> o_keys ob !! k = None ->
  (b = true -> nol = true \/ o_sets ob = ∅ \/ o_recs ob = ∅) ->
  Def b (add_key ord w o k d (Some f) nol) ->
  let rs := ord (elements (o_recs ob)) in
  exists w' res, add_key ord w o k d (Some f) nol = Some (w', res) /\ Inv b w' /\
    if decide (nol = true /\ rs <> []) then
      w' = set_obj o (ob_idx (<[k := Idx false [] []]> (o_idx ob)) ob) w /\
      res = bad TryToAddUniqueKeyInNonEmptyVaultWithoutLambda k (Some (vty d)) None
    else if decide (NoDup (gen_vals w f (vty d) rs)) then
      res = okres Success k (Some (vty d)) None /\
      exists V, key_added o k d true V rs w w' /\ V <$> rs = gen_vals w f (vty d) rs
    else w' = set_obj o (ob_idx (delete k (o_idx ob)) ob) w /\ res = bad UniqueKeyValueAlredyInSet k (Some (vty d)) None.
Proof.
  intros Hf HI Ho Hst Hk Hb HD rs. pose proof (vi_vault _ _ _ _ (inv_obj _ _ HI) _ _ Ho Hst) as Hv.
  unfold add_key in *. rewrite Ho in *. cbn [mbind option_bind] in *.
  assert (Hrr : forall r, r ∈ rs -> is_Some (w_recs w !! r)).
  { intros r Hr. apply fair_elem in Hr; [|done]. apply live_is_some. by eapply Inv_vault_live. }
  pose proof (fair_NoDup ord (o_recs ob) Hf) as Hrn. fold rs in Hrn.
  destruct (gen_loop_def w f (vty d) 0 rs [] Hrr) as [mh Hmh].
  pose proof (gen_loop_spec _ _ _ _ _ _ _ Hmh) as Hsp. specialize (Hsp ltac:(constructor)).
  assert (EL : add_key_local ord w o k d (Some f) nol =
    if nol && negb (bool_decide (rs = [])) then
      Some (set_obj o (ob_idx (<[k := Idx false [] []]> (o_idx ob)) ob) w, bad TryToAddUniqueKeyInNonEmptyVaultWithoutLambda k (Some (vty d)) None)
    else match mh with
      | None => Some (set_obj o (ob_idx (delete k (o_idx ob)) ob) w, bad UniqueKeyValueAlredyInSet k (Some (vty d)) None)
      | Some h => w1 ← foldM (rec_set k) w h;
                Some (set_obj o (register_key k d true (Idx false h (build_tree false h)) ob) w1, okres Success k (Some (vty d)) None)
      end).
  { unfold add_key_local. rewrite Ho. cbn [mbind option_bind]. rewrite Hk. fold rs. destruct (nol && _); [done|]. rewrite Hmh. cbn [mbind option_bind].
    destruct mh; [|done]. by rewrite (v_isset _ _ Hv). }
  rewrite EL in *. clear EL. destruct (decide (nol = true /\ rs <> [])) as [[-> Hne]|Hnn].
  { rewrite bool_decide_eq_false_2 in * by done. cbn in *. eexists _, _. split; [done|]. split; [|done].
    eapply (idx_only_inv b w o ob _ k); try done. intros k' Hne'. by rewrite lookup_insert_ne. }
  assert (nol && negb (bool_decide (rs = [])) = false) as E0.
  { destruct nol; [|done]. destruct (decide (rs = [])); [by rewrite bool_decide_eq_true_2|]. naive_solver. }
  rewrite E0 in *. destruct mh as [h|].
  2:{ cbn in *. eexists _, _. split; [done|]. split.
      { eapply (idx_only_inv b w o ob _ k); try done. intros k' Hne'. by rewrite lookup_delete_ne. }
      rewrite decide_False; [done|]. intros Hnd.
      destruct Hsp as (j & r & rc & Hj & Hr & [Hv'|(j' & r' & rc' & Hlt & Hj' & Hr' & Hv')]); [by apply elem_of_nil in Hv'|].
      assert (j = j'); [|lia]. eapply (NoDup_lookup _ _ _ (gen_val w f (vty d) j r) Hnd).
      - unfold gen_vals. rewrite list_lookup_imap, Hj. done.
      - unfold gen_vals. rewrite list_lookup_imap, Hj'. cbn. f_equal. unfold gen_val. rewrite Hr, Hr'. cbn. by rewrite Hv'. }
  destruct Hsp as (h1 & E1 & E2 & E3 & E4). cbn in E1. subst h1.
  assert (Hfst : fst <$> h = gen_vals w f (vty d) rs).
  { apply list_eq. intros j. unfold gen_vals. rewrite list_lookup_imap, list_lookup_fmap. destruct (rs !! j) as [r|] eqn:Ej.
    - destruct (E4 _ _ Ej) as (rc & Hr & Hh). rewrite Hh. cbn. unfold gen_val. by rewrite Hr.
    - rewrite (lookup_ge_None_2 h); [done|]. apply lookup_ge_None in Ej. rewrite <- E2, fmap_length in Ej. done. }
  destruct (decide (NoDup (gen_vals w f (vty d) rs))) as [_|Hnd]; [|destruct Hnd; by rewrite <- Hfst].
  destruct (hash_of_exists h) as [V HV]; [by rewrite E2|]. rewrite E2 in HV.
  assert (HVty : forall r, r ∈ rs -> vty (V r) = vty d).
  { intros r Hr. apply elem_of_list_lookup in Hr as [j Hj]. destruct (E4 _ _ Hj) as (rc & Hrc & Hh). rewrite HV in Hh. unfold hash_of in Hh.
    rewrite list_lookup_fmap, Hj in Hh. cbn in Hh. assert (V r = vcast (vty d) (f (0 + j) r (r_data rc))) as -> by (cbn; congruence). apply vty_vcast. }
  assert (HVf : V <$> rs = gen_vals w f (vty d) rs). { rewrite <- Hfst, HV. symmetry. apply fst_hash_of. }
  rewrite HV in *. rewrite (foldM_rec_set k _ _ w Hrn Hrr) in *. cbn [mbind option_bind res_ok okres] in *. rewrite (v_isset _ _ Hv) in *. cbn [negb andb] in *.
  change (Idx false (hash_of V rs) (build_tree false (hash_of V rs))) with (key_ix false V rs) in *. unfold rs in HD at 2. unfold rs at 2. rewrite list_to_set_ord in * by done.
  set (w1 := set_obj o _ _) in *.
  change (foldM _ w1 ?l) with (foldM (add_set ord k d (Some f)) w1 l) in *.
  assert (Hsets : forall s, s ∈ ord (elements (o_sets ob)) -> s <> o /\ exists sb, w_objs w !! s = Some sb /\ o_static_set sb = true /\ o_parent sb = Some o /\ w_objs w1 !! s = Some sb /\ o_isset sb = true).
  { intros s Hs. apply fair_elem in Hs; [|done]. destruct (vi_sets _ _ _ _ (inv_obj _ _ HI) _ _ _ Ho Hst Hs) as (sb & Hsb & Hst' & Hp).
    assert (s <> o) by (intros ->; congruence). split; [done|]. exists sb. repeat (split; [done|]). split; [cbn; by rewrite lookup_insert_ne|].
    apply (so_isset _ _ _ _ _ _ (vi_set _ _ _ _ (inv_obj _ _ HI) _ _ Hsb Hst')). }
  assert (Hsof : forall x, set_of w o x <-> x ∈ ord (elements (o_sets ob))).
  { intros x. rewrite fair_elem by done. split.
    - intros (xb & Hx & Hxs & Hxp). destruct (Inv_set_facts _ _ _ _ _ HI Hx Hxs Hxp) as (pb & Hpb & _ & Hin & _). congruence.
    - intros Hin. destruct (Hsets x) as (_ & sb & H1 & H2 & H3 & _); [by apply fair_elem|]. exists sb. done. }
  assert (Hse : b = true -> forall s sb, s ∈ ord (elements (o_sets ob)) -> w_objs w !! s = Some sb -> o_recs sb = ∅).
  { intros Hbt s sb Hs Hsb. destruct (Hsets _ Hs) as (_ & sb' & H0 & H1 & H2 & H3 & H4). assert (sb' = sb) as -> by congruence.
    assert (o_sets ob = ∅ \/ o_recs ob = ∅) as [Hb'|Hb'].
    { destruct (Hb Hbt) as [->|Hb']; [|done]. right. destruct (decide (rs = [])) as [Er|Er]; [|by destruct Hnn].
      apply (fair_nil _ _ Hf) in Er. by apply elements_empty_inv, leibniz_equiv in Er. }
    - apply fair_elem in Hs; [|done]. rewrite Hb' in Hs. by apply not_elem_of_empty in Hs.
    - destruct (Inv_set_facts _ _ _ _ _ HI H0 H1 H2) as (pb & Hpb & _ & _ & _ & Hpar). assert (pb = ob) as -> by congruence.
      pose proof (st_recs _ _ _ _ (sp_strict _ _ _ _ _ Hpar Hbt)) as Hsub. rewrite Hb' in Hsub. clear -Hsub. set_solver. }
  destruct (add_sets_fn ord k d f (ord (elements (o_sets ob))) w1) as (m & E & Hm1 & Hm2); try done.
  { by apply fair_NoDup. }
  { intros s Hs. destruct (Hsets _ Hs) as (_ & sb & _ & _ & _ & H1 & H2). eauto. }
  { destruct b.
    - right. intros s sb Hs Hsb. destruct (Hsets _ Hs) as (_ & sb' & H0 & H1 & H2 & H3 & H4). assert (sb' = sb) as -> by congruence. by eapply Hse.
    - left. destruct HD as [? HD]; [done|]. destruct (foldM _ w1 _); [eauto|done]. }
  rewrite E. cbn [mbind option_bind]. eexists _, _. split; [done|].
  set (w' := World _ _ _ _).
  assert (Hka : key_added o k d true V rs w w').
  { split; try done.
    - intros x. pose proof (live_put k V (o_recs ob) w (w_objs w')) as El. unfold live in El at 1. cbn in El. unfold live at 1. cbn. rewrite El.
      rewrite lookup_upd_on. destruct (live w !! x); [|done]. cbn. f_equal. repeat case_decide; try done; naive_solver.
    - intros x. unfold w'. cbn. rewrite !lookup_upd_on. destruct (w_recs w !! x); [|done]. cbn. f_equal. by repeat case_decide.
    - intros ob0 Hob0. assert (ob0 = ob) as -> by congruence. split; [apply Hf|]. split; [|intros _; by rewrite HVf, <- Hfst].
      unfold w'. cbn [w_objs]. rewrite Hm1; [cbn; by rewrite lookup_insert|]. intros Hin. destruct (Hsets _ Hin). done.
    - intros x Hne Hnx. unfold w'. cbn [w_objs]. rewrite Hm1 by (by rewrite <- Hsof). cbn. by rewrite lookup_insert_ne.
    - intros x Hx. pose proof Hx as (xb & Hxb & Hxs & Hxp). apply Hsof in Hx. destruct (Hsets _ Hx) as (_ & sb' & H0 & _ & _ & H3 & H4).
      destruct (Hm2 _ _ Hx H3) as (xb' & Hxb' & Hkept & _). exists xb, xb'. split; [done|]. split; [done|]. congruence. }
  split; [|eauto].
  eapply (key_added_inv b w w' o ob k d true V rs); try done. { intros r Hr. apply HVty. by apply fair_elem. }
  intros Hbt x xb xb' Hxb Hxs Hxp Hxb'.
  assert (Hx : set_of w o x) by (by exists xb). apply Hsof in Hx. destruct (Hsets _ Hx) as (_ & sb' & H0 & _ & _ & H3 & H4). assert (sb' = xb) as -> by congruence.
  destruct (Hm2 _ _ Hx H3) as (xb2 & Hxb2 & _ & Heq). assert (xb2 = xb') as -> by (unfold w' in Hxb'; cbn in Hxb'; congruence).
  pose proof (Hse Hbt _ _ Hx Hxb) as Hre.
  destruct (Inv_set_facts _ _ _ _ _ HI Hxb Hxs Hxp) as (pb & Hpb & _ & _ & _ & Hpar). assert (pb = ob) as -> by congruence.
  pose proof (sp_strict _ _ _ _ _ Hpar Hbt) as [S1 S2 S3 S4 S5 S6 S7 S8].
  assert (Hks : o_keys xb !! k = None).
  { pose proof (f_equal (fun m => m !! k) S1) as E'. cbn in E'. rewrite !lookup_fmap, Hk in E'. destruct (o_keys xb !! k); done. }
  exists []. rewrite Hre, elements_empty. split; [done|]. split; [done|]. by rewrite Heq.
Qed.
