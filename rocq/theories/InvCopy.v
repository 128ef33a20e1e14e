(** Copying vaults. *)
From Verif Require Export InvLookup.
Open Scope nat_scope.

(** The records [rs] were copied into object [dst], getting the identities [w_next w], [w_next w + 1], ... *)
Record copied (dst : nat) (rs : list nat) (w w' : world) : Prop := Copied {
  cp_refs : w_refs w' = w_refs w;
  cp_next : w_next w' = w_next w + length rs;
  cp_old : forall x, x < w_next w -> w_recs w' !! x = w_recs w !! x;
  cp_new : forall i r, rs !! i = Some r -> exists rc, w_recs w !! r = Some rc /\ w_recs w' !! (w_next w + i) = Some (Recd (r_data rc) true 0 ∅);
  cp_dom : forall x, is_Some (w_recs w' !! x) -> x < w_next w + length rs;
  cp_objs : forall x, x <> dst -> w_objs w' !! x = w_objs w !! x;
  cp_dst : forall db, w_objs w !! dst = Some db -> exists db', w_objs w' !! dst = Some db' /\ same_keys db db' /\ o_bad db' = o_bad db /\
     forall x, x ∈ o_recs db' <-> x ∈ o_recs db \/ w_next w <= x < w_next w + length rs
}.

Lemma copy_one_eq dst w r rc db : w_recs w !! r = Some rc -> w_objs w !! dst = Some db -> copy_one dst w r = Some (created dst db (r_data rc) w).
Proof. intros H1 H2. unfold copy_one. rewrite H1, H2. done. Qed.
Lemma copy_loop_spec dst rs : forall w db,
  w_objs w !! dst = Some db -> (forall x, is_Some (w_recs w !! x) -> x < w_next w) ->
  (forall r, r ∈ rs -> is_Some (w_recs w !! r)) -> exists w', foldM (copy_one dst) w rs = Some w' /\ copied dst rs w w'.
Proof.
  induction rs as [|r rs IH]; intros w db Hd Hb Hr; cbn [foldM].
  - exists w. split; [done|]. split; try done; cbn [length]; rewrite ?Nat.add_0_r; [done|].
    intros db' Hdb'. exists db'. split; [done|]. split; [done|]. split; [done|]. intros x. split; [tauto|]. intros [?|?]; [done|lia].
  - destruct (Hr r) as [rc Hrc]; [by left|]. rewrite (copy_one_eq _ _ _ _ _ Hrc Hd). cbn [mbind option_bind].
    set (w1 := created _ _ _ _). assert (Hn : w_next w1 = S (w_next w)) by done.
    assert (Hlt : forall x, is_Some (w_recs w !! x) -> x <> w_next w). { intros x Hx ->. apply Hb in Hx. lia. }
    destruct (IH w1 (obj_add (r_data rc) (w_next w) db)) as (w' & E & [C1 C2 C3 C4 C5 C6 C7]).
    + cbn. by rewrite lookup_insert.
    + intros x Hx. cbn in Hx. rewrite Hn. apply lookup_insert_is_Some' in Hx as [<-|Hx]; [lia|]. apply Hb in Hx. lia.
    + intros x Hx. cbn. apply lookup_insert_is_Some'. right. apply Hr. by right.
    + exists w'. split; [done|]. rewrite Hn in *. split; cbn [length].
      * done.
      * lia.
      * intros x Hx. rewrite C3 by lia. cbn. rewrite lookup_insert_ne; [done|lia].
      * intros [|i] x Hx.
        -- cbn in Hx. injection Hx as <-. exists rc. split; [done|]. rewrite Nat.add_0_r, C3 by lia. cbn. by rewrite lookup_insert.
        -- destruct (C4 i x Hx) as (rc' & H1 & H2). exists rc'. split.
           ++ cbn in H1. rewrite lookup_insert_ne in H1; [done|]. intros <-. eapply (Hlt (w_next w)); [|done]. apply Hr. right. by eapply elem_of_list_lookup_2.
           ++ by replace (w_next w + S i) with (S (w_next w) + i) by lia.
      * intros x Hx. apply C5 in Hx. lia.
      * intros x Hx. rewrite C6 by done. cbn. by rewrite lookup_insert_ne.
      * intros db0 Hdb0. assert (db0 = db) as -> by congruence. destruct (C7 (obj_add (r_data rc) (w_next w) db)) as (db' & Hdb' & Hk & Hbad & Hx).
        { cbn. by rewrite lookup_insert. }
        exists db'. split; [done|]. split; [done|]. split; [done|]. intros x. rewrite Hx.
        change (o_recs (obj_add (r_data rc) (w_next w) db)) with ({[w_next w]} ∪ o_recs db). rewrite elem_of_union, elem_of_singleton.
        split; [intros [[->|?]|?]; [right; lia|by left|right; lia]|]. intros [?|?]; [left; by right|]. destruct (decide (x = w_next w)); [left; by left|right; lia].
Qed.

Lemma copy_loop_inv b dst rs : forall w db w',
  Inv b w -> w_objs w !! dst = Some db -> o_static_set db = false -> o_uniq db = [] ->
  (forall r, r ∈ rs -> exists rc, w_recs w !! r = Some rc /\ typed (o_keys db) (r_data rc)) ->
  foldM (copy_one dst) w rs = Some w' -> Inv b w'.
Proof.
  induction rs as [|r rs IH]; intros w db w' HI Hd Hst Hu Hr H; cbn [foldM] in H; [by injection H as <-|].
  destruct (Hr r) as (rc & Hrc & Ht); [by left|]. rewrite (copy_one_eq _ _ _ _ _ Hrc Hd) in H. cbn [mbind option_bind] in H.
  assert (HI1 : Inv b (created dst db (r_data rc) w)). { apply created_inv; try done. rewrite Hu. intros k Hk. by apply elem_of_nil in Hk. }
  eapply (IH _ (obj_add (r_data rc) (w_next w) db)); [exact HI1|cbn; by rewrite lookup_insert|done|done| |done].
  intros x Hx. destruct (Hr x) as (rx & Hrx & Htx); [by right|]. exists rx. split; [|done]. cbn. rewrite lookup_insert_ne; [done|].
  intros <-. apply mk_is_Some in Hrx. apply HI in Hrx. lia.
Qed.

(** The object the records are copied into: the keys of the source, with the defaults the keys were created with. *)
Definition copy_target (sb db : obj) : obj := ob_uniq (o_uniq sb) (ob_order (o_order sb) (keyed (o_keys sb) (ob_isset false db))).

Lemma copy_body_eq ord w dst src sb db :
  fair ord -> w_objs w !! src = Some sb -> w_objs w !! dst = Some db ->
  o_recs db = ∅ -> o_keys db = ∅ -> o_tmpl db = ∅ -> o_idx db = ∅ ->
  copy_vault_body ord w dst src = foldM (copy_one dst) (set_obj dst (copy_target sb db) w) (ord (elements (o_recs sb))).
Proof.
  intros Hf Hs Hd H1 H2 H3 H4. unfold copy_vault_body. rewrite Hs, Hd. cbn [mbind option_bind].
  destruct (copy_keys_empty ord (set_obj dst (ob_isset false db) w) sb dst (ob_isset false db)) as (order' & E & _); try done.
  { cbn. by rewrite lookup_insert. }
  rewrite E. cbn [mbind option_bind]. unfold set_obj. cbn. rewrite lookup_insert. cbn [mbind option_bind]. rewrite !insert_insert. done.
Qed.

Lemma typed_map (keys : gmap string (vtype * value)) (data : gmap string value) :
  (forall k t d, keys !! k = Some (t, d) -> vty d = t) -> typed keys data -> typed ((fun td => (vty td.2, td.2)) <$> keys) data.
Proof.
  intros Hk H k. specialize (H k). rewrite lookup_fmap. destruct (keys !! k) as [[t d]|] eqn:E; cbn; destruct (data !! k); try done.
  cbn in *. by rewrite (Hk _ _ _ E).
Qed.

Lemma copy_target_inv b w dst src sb db :
  Inv b w -> dst <> src -> w_objs w !! src = Some sb -> o_static_set sb = false -> w_objs w !! dst = Some db -> o_static_set db = false ->
  o_recs db = ∅ -> o_sets db = ∅ -> o_uniq sb = [] -> Inv b (set_obj dst (copy_target sb db) w).
Proof.
  intros HI Hne Hs Hst Hd Hdst Hdr Hds Hu. pose proof (vi_vault _ _ _ _ (inv_obj _ _ HI) _ _ Hd Hdst) as Hv.
  pose proof (vi_vault _ _ _ _ (inv_obj _ _ HI) _ _ Hs Hst) as Hvs.
  assert (EL : live (set_obj dst (copy_target sb db) w) = live w) by done.
  eapply (key_change_inv b w _ dst db (copy_target sb db) (fun _ x => x)); try done.
  - intros x. rewrite EL. destruct (live w !! x) as [[]|]; [|done]. cbn. by destruct (decide _).
  - cbn. by rewrite lookup_insert.
  - rewrite EL. destruct (v_keys _ _ Hvs) as [K1 K2 K3 K4 K5 K6]. split; [done|apply Hv| | |].
    + split; cbn.
      * intros k. rewrite !lookup_fmap. destruct (o_keys sb !! k) as [[t d]|]; done.
      * intros k t d. rewrite lookup_fmap. destruct (o_keys sb !! k) as [[t' d']|]; [|done]. cbn. by intros [= <- <-].
      * done.
      * intros k. rewrite K4, lookup_fmap. by rewrite fmap_is_Some.
      * intros k Hk. rewrite lookup_fmap, fmap_is_Some. auto.
      * done.
    + cbn. rewrite Hdr. intros r Hr. by apply not_elem_of_empty in Hr.
    + cbn. intros k td. rewrite !lookup_fmap. destruct (o_keys sb !! k) as [[t d]|]; [|done]. intros _. cbn. eexists. split; [done|]. rewrite Hdr.
      rewrite Hu. split; [|intros Hin; by apply elem_of_nil in Hin]. split; [|split; [done|intros Hin; by apply elem_of_nil in Hin]].
      split; cbn; try (intros ? ? Hin; by apply elem_of_nil in Hin); try (intros _); try apply NoDup_nil_2; constructor.
  - intros x Hx. cbn. rewrite lookup_insert_ne by done. destruct (w_objs w !! x) as [xb|] eqn:Ex; [|done].
    destruct (decide _) as [[Hxs Hxp]|]; [|done]. exfalso.
    destruct (Inv_set_facts _ _ _ _ _ HI Ex Hxs Hxp) as (pb & Hpb & _ & Hin & _). assert (pb = db) as -> by congruence. rewrite Hds in Hin. by apply not_elem_of_empty in Hin.
Qed.

(** Copy construction and assignment of a vault without unique keys. *)
Lemma copy_body_ok b ord w dst src sb db :
  fair ord -> Inv b w -> dst <> src -> w_objs w !! src = Some sb -> o_static_set sb = false -> w_objs w !! dst = Some db -> o_static_set db = false ->
  o_recs db = ∅ -> o_sets db = ∅ -> o_keys db = ∅ -> o_tmpl db = ∅ -> o_idx db = ∅ ->
  exists w', copy_vault_body ord w dst src = Some w' /\
    copied dst (ord (elements (o_recs sb))) (set_obj dst (copy_target sb db) w) w' /\ (o_uniq sb = [] -> Inv b w').
Proof.
  intros Hf HI Hne Hs Hst Hd Hdst Hdr Hds Hdk Hdt Hdi. rewrite (copy_body_eq _ _ _ _ sb db) by done.
  pose proof (vi_vault _ _ _ _ (inv_obj _ _ HI) _ _ Hs Hst) as Hvs.
  assert (Hlive : forall r, r ∈ ord (elements (o_recs sb)) -> exists rc, w_recs w !! r = Some rc /\ typed (o_keys (copy_target sb db)) (r_data rc)).
  { intros r Hr. apply fair_elem in Hr; [|done]. destruct (v_recs _ _ Hvs _ Hr) as (l & Hl & Ht). unfold live in Hl. rewrite lookup_live_of in Hl.
    destruct (w_recs w !! r) as [rc|]; [|done]. exists rc. split; [done|]. cbn in Hl. unfold live_rec in Hl. destruct (r_valid rc); [|done]. injection Hl as <-.
    cbn. apply typed_map; [|done]. intros k t d Hk. by apply (k_type _ (v_keys _ _ Hvs) _ _ _ Hk). }
  destruct (copy_loop_spec dst (ord (elements (o_recs sb))) (set_obj dst (copy_target sb db) w) (copy_target sb db)) as (w' & E & Hc).
  { cbn. by rewrite lookup_insert. } { apply HI. } { intros r Hr. destruct (Hlive _ Hr) as (rc & Hrc & _). cbn. eauto. }
  exists w'. split; [done|]. split; [done|]. intros Hu.
  eapply (copy_loop_inv b dst _ _ (copy_target sb db)); [by eapply copy_target_inv| | | | |done].
  - cbn. by rewrite lookup_insert.
  - done.
  - done.
  - done.
Qed.
Lemma copy_construct_vault_ok b ord w dst src sb :
  fair ord -> Inv b w -> unused w dst -> w_objs w !! src = Some sb -> o_static_set sb = false ->
  exists w', copy_construct_vault ord w dst src = Some w' /\
    copied dst (ord (elements (o_recs sb))) (set_obj dst (copy_target sb new_vault) w) w' /\ (o_uniq sb = [] -> Inv b w').
Proof.
  intros Hf HI Hun Hs Hst. assert (dst <> src) as Hne. { intros ->. destruct Hun as [Hun _]. congruence. }
  destruct (copy_body_ok b ord (set_obj dst new_vault w) dst src sb new_vault) as (w' & E & Hc & Hi); try done.
  { by apply new_vault_inv. } { cbn. by rewrite lookup_insert_ne. } { cbn. by rewrite lookup_insert. }
  exists w'. split; [done|]. split; [|done]. unfold set_obj in Hc. cbn in Hc. rewrite insert_insert in Hc. done.
Qed.
Lemma copy_assign_vault_ok b ord w dst src sb db :
  fair ord -> Inv b w -> dst <> src -> w_objs w !! src = Some sb -> o_static_set sb = false -> w_objs w !! dst = Some db -> o_static_set db = false ->
  Def b (copy_assign_vault ord w dst src) ->
  exists w1 w', copy_assign_vault ord w dst src = Some w' /\ drop_vault ord w dst = Some w1 /\ dropped dst w w1 /\ Inv b w1 /\
    copied dst (ord (elements (o_recs sb))) (set_obj dst (copy_target sb (Obj false (o_isset db) ∅ ∅ ∅ [] [] ∅ ∅ (o_parent db) [])) w1) w' /\
    (o_uniq sb = [] -> Inv b w').
Proof.
  intros Hf HI Hne Hs Hst Hd Hdst HD. unfold copy_assign_vault in *. rewrite decide_False in * by done.
  destruct (drop_vault_ok b ord w dst db) as (w1 & E1 & HI1 & Hdr); try done. { by eapply Def_bind. }
  rewrite E1 in *. cbn [mbind option_bind] in *. pose proof (dr_o _ _ _ Hdr _ Hd) as Hd1. rewrite Hdst in Hd1.
  assert (Hs1 : w_objs w1 !! src = Some sb). { rewrite (dr_objs _ _ _ Hdr src); [done|congruence|]. intros (? & ? & ? & _). congruence. }
  destruct (copy_body_ok b ord w1 dst src sb _ Hf HI1 Hne Hs1 Hst Hd1) as (w' & E & Hc & Hi); try done.
  exists w1, w'. done.
Qed.
