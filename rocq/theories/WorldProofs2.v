(** Explicit effects, continued: SetData, Clear, Reset, DropVault, DropData, key copies. *)
From Verif Require Export WorldProofs.
Open Scope nat_scope.

(** ** set_data_to_record *)

Definition set_obj_data (data : gmap string value) (r : nat) (k : string) (v : value) (db : obj) : obj :=
  match o_keys db !! k, o_idx db !! k with
  | Some (t, _), Some ix =>
      if decide (t = vty v) then
        let old := get_typed data k t (vzero t) in
        if negb (ix_multi ix) && has_value old (ix_hash ix) then db
        else ob_idx (<[k := idx_set old v r ix]> (o_idx db)) db
      else db
  | _, _ => db
  end.

Lemma set_data_set n ord w d r k v db rc :
  w_objs w !! d = Some db -> w_recs w !! r = Some rc -> r_valid rc = true -> o_isset db = true ->
  (forall t, o_keys db !! k = Some t -> t.1 = vty v -> is_Some (o_idx db !! k)) ->
  exists res, set_data_to_record (S n) ord w d r k v = Some (set_obj d (set_obj_data (r_data rc) r k v db) w, res).
Proof.
  intros Hd Hr Hv Hs Hk. cbn [set_data_to_record]. rewrite Hd, Hr. cbn [mbind option_bind]. rewrite Hv. cbn [negb].
  assert (Hid : set_obj d db w = w) by (unfold set_obj; rewrite insert_id by done; apply world_eta).
  unfold set_obj_data. destruct (o_keys db !! k) as [[t d0]|] eqn:Ek; [|rewrite Hid; eauto].
  destruct (decide (t = vty v)) as [Ht|].
  - destruct (Hk _ eq_refl Ht) as [ix Hix]. rewrite Hix. cbn [mbind option_bind].
    destruct (negb (ix_multi ix) && _); [rewrite Hid; eauto|]. rewrite Hs. eauto.
  - destruct (o_idx db !! k); rewrite Hid; eauto.
Qed.

Lemma set_data_vault n ord w o r k v ob rc d0 ix :
  fair ord -> w_objs w !! o = Some ob -> w_recs w !! r = Some rc -> r_valid rc = true -> o_isset ob = false ->
  o ∉ r_deps rc -> o_keys ob !! k = Some (vty v, d0) -> o_idx ob !! k = Some ix ->
  negb (ix_multi ix) && has_value (get_typed (r_data rc) k (vty v) (vzero (vty v))) (ix_hash ix) = false ->
  (forall d, d ∈ r_deps rc -> exists db, w_objs w !! d = Some db /\ (o_isset db = true /\
     forall t, o_keys db !! k = Some t -> t.1 = vty v -> is_Some (o_idx db !! k))) ->
  set_data_to_record (S (S n)) ord w o r k v
  = Some (World (<[r := rd_data (<[k := v]> (r_data rc)) rc]> (w_recs w))
                (upd_on (fun _ => set_obj_data (r_data rc) r k v) ({[o]} ∪ r_deps rc) (w_objs w)) (w_refs w) (w_next w),
          okres Success k (Some (vty v)) (Some (vty v))).
Proof.
  intros Hf Ho Hr Hv Hs Hod Hk Hix Hq Hd.
  change (set_data_to_record (S (S n)) ord w o r k v) with
     (ob ← w_objs w !! o;
      rc ← w_recs w !! r;
      let rq := Some (vty v) in
      if negb (r_valid rc) then Some (w, bad DataRecordNotValid k rq None)
      else match o_keys ob !! k with
      | None => Some (w, bad WrongKey k rq None)
      | Some (t, _) =>
          if decide (t = vty v) then
            ix ← o_idx ob !! k;
            let old := get_typed (r_data rc) k t (vzero t) in
            if negb (ix_multi ix) && has_value old (ix_hash ix)
            then Some (w, bad UniqueKeyValueAlredyInSet k rq (Some t))
            else
              let w1 := set_obj o (ob_idx (<[k := idx_set old v r ix]> (o_idx ob)) ob) w in
              if o_isset ob then Some (w1, okres Success k rq (Some t))
              else
                w2 ← foldM (fun w d => '(w', _) ← set_data_to_record (S n) ord w d r k v; Some w')
                     w1 (ord (elements (r_deps rc)));
                rc2 ← w_recs w2 !! r;
                Some (set_rec r (rd_data (<[k := v]> (r_data rc2)) rc2) w2, okres Success k rq (Some t))
          else Some (w, bad WrongType k rq (Some t))
      end).
  rewrite Ho, Hr. cbn [mbind option_bind]. rewrite Hv. cbn [negb]. rewrite Hk. rewrite decide_True by done.
  rewrite Hix. cbn [mbind option_bind]. cbv zeta. rewrite Hq, Hs.
  rewrite (foldM_objs _ (fun _ => set_obj_data (r_data rc) r k v)
     (fun _ db => o_isset db = true /\ forall t, o_keys db !! k = Some t -> t.1 = vty v -> is_Some (o_idx db !! k))).
  - cbn [mbind option_bind]. unfold w_set_objs. cbn [w_recs set_obj]. rewrite Hr. cbn. unfold set_rec. cbn. f_equal. f_equal. f_equal.
    rewrite list_to_set_ord by done. apply map_eq. intros x. rewrite !lookup_upd_on.
    destruct (decide (x = o)) as [->|].
    + rewrite lookup_insert, Ho. cbn. rewrite decide_False by done. rewrite decide_True by set_solver.
      unfold set_obj_data. rewrite Hk, Hix, decide_True by done. cbv zeta. by rewrite Hq.
    + rewrite lookup_insert_ne by done. destruct (w_objs w !! x); cbn; [|done]. f_equal.
      destruct (decide (x ∈ r_deps rc)), (decide (x ∈ {[o]} ∪ r_deps rc)); set_solver.
  - intros w' d db Hw Hdb [Hds Hc]. destruct (set_data_set n ord w' d r k v db rc) as [res ->]; try done. by rewrite Hw.
  - by apply fair_NoDup.
  - intros d Hdd. apply fair_elem in Hdd; [|done]. destruct (Hd d Hdd) as (db & Hdb & Hds). exists db. split; [|done].
    cbn. rewrite lookup_insert_ne; [done|]. intros <-. done.
Qed.

Lemma set_data_vault_some n ord w o r k v w' res ob rc d0 ix :
  fair ord -> w_objs w !! o = Some ob -> w_recs w !! r = Some rc -> r_valid rc = true -> o_isset ob = false ->
  o ∉ r_deps rc -> o_keys ob !! k = Some (vty v, d0) -> o_idx ob !! k = Some ix ->
  negb (ix_multi ix) && has_value (get_typed (r_data rc) k (vty v) (vzero (vty v))) (ix_hash ix) = false ->
  (forall d db, d ∈ r_deps rc -> w_objs w !! d = Some db -> o_isset db = true) ->
  set_data_to_record (S (S n)) ord w o r k v = Some (w', res) ->
  (forall d, d ∈ r_deps rc -> exists db, w_objs w !! d = Some db /\ (o_isset db = true /\
     forall t, o_keys db !! k = Some t -> t.1 = vty v -> is_Some (o_idx db !! k))).
Proof.
  intros Hf Ho Hr Hv Hs Hod Hk Hix Hq Hd.
  change (set_data_to_record (S (S n)) ord w o r k v) with
     (ob ← w_objs w !! o;
      rc ← w_recs w !! r;
      let rq := Some (vty v) in
      if negb (r_valid rc) then Some (w, bad DataRecordNotValid k rq None)
      else match o_keys ob !! k with
      | None => Some (w, bad WrongKey k rq None)
      | Some (t, _) =>
          if decide (t = vty v) then
            ix ← o_idx ob !! k;
            let old := get_typed (r_data rc) k t (vzero t) in
            if negb (ix_multi ix) && has_value old (ix_hash ix)
            then Some (w, bad UniqueKeyValueAlredyInSet k rq (Some t))
            else
              let w1 := set_obj o (ob_idx (<[k := idx_set old v r ix]> (o_idx ob)) ob) w in
              if o_isset ob then Some (w1, okres Success k rq (Some t))
              else
                w2 ← foldM (fun w d => '(w', _) ← set_data_to_record (S n) ord w d r k v; Some w')
                     w1 (ord (elements (r_deps rc)));
                rc2 ← w_recs w2 !! r;
                Some (set_rec r (rd_data (<[k := v]> (r_data rc2)) rc2) w2, okres Success k rq (Some t))
          else Some (w, bad WrongType k rq (Some t))
      end).
  rewrite Ho, Hr. cbn [mbind option_bind]. rewrite Hv. cbn [negb]. rewrite Hk. rewrite decide_True by done.
  rewrite Hix. cbn [mbind option_bind]. cbv zeta. rewrite Hq, Hs.
  destruct (foldM _ _ _) as [w2|] eqn:E; [|done]. intros _ d Hdd.
  eapply (foldM_objs_some _ (fun _ => set_obj_data (r_data rc) r k v) (fun _ db => o_isset db = true)
    (fun _ db => o_isset db = true /\ forall t, o_keys db !! k = Some t -> t.1 = vty v -> is_Some (o_idx db !! k))) in E
    as (db & Hdb & Hds); [| | | | |by apply fair_elem].
  - cbn in Hdb. rewrite lookup_insert_ne in Hdb by (intros <-; done). eauto.
  - intros wz x Hw HQ [w3 Hx]. cbn [set_data_to_record] in Hx. destruct (w_objs wz !! x) as [xb|]; [|done]. cbn [mbind option_bind] in Hx.
    exists xb. split; [done|]. split; [auto|]. intros [t d1] Hkt Ht. cbn in Ht. subst.
    rewrite Hw in Hx. cbn [set_obj w_recs] in Hx. rewrite Hr in Hx. cbn [mbind option_bind] in Hx.
    rewrite Hv in Hx. cbn [negb] in Hx. rewrite Hkt, decide_True in Hx by done. destruct (o_idx xb !! k); [eauto|done].
  - intros wz d' db Hw Hdb [Hds Hc]. destruct (set_data_set n ord wz d' r k v db rc) as [res' ->]; try done. by rewrite Hw.
  - by apply fair_NoDup.
  - intros x xb Hx Hxb. apply fair_elem in Hx; [|done]. cbn in Hxb. rewrite lookup_insert_ne in Hxb by (intros <-; done). eauto.
Qed.

(** ** Clear and Reset of a set, DropVault, DropData *)

Definition drop_dep (s : nat) (rc : recd) : recd := rd_deps (r_deps rc ∖ {[s]}) rc.

Lemma set_clear_none ord w s ob : w_objs w !! s = Some ob -> o_parent ob = None -> set_clear ord w s = Some w.
Proof. intros H Hp. unfold set_clear. rewrite H. cbn. by rewrite Hp. Qed.
Definition cleared (ob : obj) : obj := ob_recs ∅ (all_clearers ob).
Lemma set_clear_some ord w s ob p :
  fair ord -> w_objs w !! s = Some ob -> o_parent ob = Some p ->
  (forall r, r ∈ o_recs ob -> is_Some (w_recs w !! r)) ->
  set_clear ord w s
  = Some (World (upd_on (fun _ => drop_dep s) (o_recs ob) (w_recs w)) (<[s := cleared ob]> (w_objs w)) (w_refs w) (w_next w)).
Proof.
  intros Hf H Hp Hr. unfold set_clear. rewrite H. cbn [mbind option_bind]. rewrite Hp.
  rewrite (foldM_recs _ (fun _ => drop_dep s)); [| |by apply fair_NoDup|].
  - cbn. rewrite list_to_set_ord by done. done.
  - intros w1 r. unfold erase_dep. by destruct (w_recs w1 !! r).
  - intros r Hrr. apply fair_elem in Hrr; [|done]. auto.
Qed.
Lemma set_clear_defined ord w s ob p w' :
  fair ord -> w_objs w !! s = Some ob -> o_parent ob = Some p -> set_clear ord w s = Some w' ->
  forall r, r ∈ o_recs ob -> is_Some (w_recs w !! r).
Proof.
  intros Hf H Hp. unfold set_clear. rewrite H. cbn [mbind option_bind]. rewrite Hp.
  destruct (foldM _ _ _) as [w1|] eqn:E; [|done]. intros _ r Hr.
  eapply (foldM_recs_some _ (fun _ => drop_dep s)); [|exact E|by apply fair_elem].
  intros w2 x. unfold erase_dep. by destruct (w_recs w2 !! x).
Qed.

Definition dropped_obj (ob : obj) : obj := Obj (o_static_set ob) (o_isset ob) ∅ ∅ ∅ [] [] ∅ ∅ (o_parent ob) [].
Lemma drop_core_eq ord w o ob :
  fair ord -> w_objs w !! o = Some ob -> (forall r, r ∈ o_recs ob -> is_Some (w_recs w !! r)) ->
  drop_core ord w o = Some (World (invalidate_on (o_recs ob) (w_recs w)) (<[o := dropped_obj ob]> (w_objs w)) (w_refs w) (w_next w)).
Proof.
  intros Hf H Hr. unfold drop_core. rewrite H. cbn [mbind option_bind].
  rewrite foldM_invalidate; [|by apply fair_NoDup|intros r Hrr; apply fair_elem in Hrr; auto].
  cbn. by rewrite list_to_set_ord.
Qed.
Lemma drop_core_defined ord w o ob w' :
  fair ord -> w_objs w !! o = Some ob -> drop_core ord w o = Some w' -> forall r, r ∈ o_recs ob -> is_Some (w_recs w !! r).
Proof.
  intros Hf H. unfold drop_core. rewrite H. cbn [mbind option_bind].
  destruct (foldM _ _ _) as [w1|] eqn:E; [|done]. intros _ r Hr.
  eapply foldM_invalidate_some; [|exact E|by apply fair_elem]. by apply fair_NoDup.
Qed.

Definition reset_obj (ob : obj) : obj := Obj (o_static_set ob) (o_isset ob) ∅ ∅ ∅ [] [] ∅ ∅ None [].
Lemma set_reset_none ord w s ob : w_objs w !! s = Some ob -> o_parent ob = None -> set_reset ord w s = Some w.
Proof. intros H Hp. unfold set_reset. rewrite H. cbn. by rewrite Hp. Qed.
Lemma set_reset_some ord w s ob p pb :
  fair ord -> w_objs w !! s = Some ob -> o_parent ob = Some p -> s <> p -> w_objs w !! p = Some pb ->
  (forall r, r ∈ o_recs ob -> is_Some (w_recs w !! r)) ->
  set_reset ord w s
  = Some (World (upd_on (fun _ => drop_dep s) (o_recs ob) (w_recs w))
                (<[s := reset_obj ob]> (<[p := ob_sets (o_sets pb ∖ {[s]}) pb]> (w_objs w))) (w_refs w) (w_next w)).
Proof.
  intros Hf H Hp Hne Hpb Hr. unfold set_reset. rewrite H. cbn [mbind option_bind]. rewrite Hp, Hpb. cbn [mbind option_bind].
  rewrite (set_clear_some _ _ _ ob p) by done. cbn [mbind option_bind].
  rewrite (drop_core_eq _ _ _ (cleared ob)); [|done|cbn; by rewrite lookup_insert|].
  - cbn. rewrite invalidate_on_empty. rewrite !lookup_insert_ne by done. rewrite Hpb. cbn.
    rewrite lookup_insert_ne by done. rewrite lookup_insert. cbn. f_equal. unfold set_obj. cbn. f_equal.
    unfold reset_obj, dropped_obj, ob_parent, cleared. cbn.
    apply map_eq. intros x. destruct (decide (x = s)) as [->|].
    + by rewrite !lookup_insert.
    + rewrite !(lookup_insert_ne _ s) by done. destruct (decide (x = p)) as [->|]; [by rewrite !lookup_insert|].
      rewrite !lookup_insert_ne by done. done.
  - cbn. intros r Hrr. set_solver.
Qed.
Lemma set_reset_defined ord w s ob p w' :
  fair ord -> w_objs w !! s = Some ob -> o_parent ob = Some p -> set_reset ord w s = Some w' ->
  is_Some (w_objs w !! p) /\ forall r, r ∈ o_recs ob -> is_Some (w_recs w !! r).
Proof.
  intros Hf H Hp. unfold set_reset. rewrite H. cbn [mbind option_bind]. rewrite Hp.
  destruct (w_objs w !! p) as [pb|]; [|done]. cbn [mbind option_bind].
  destruct (set_clear ord w s) as [w1|] eqn:E; [|done]. intros _. split; [done|].
  by eapply set_clear_defined.
Qed.

(** ** Key copies into an empty object *)

Definition keyed (src : gmap string (vtype * value)) (ob : obj) : obj :=
  Obj (o_static_set ob) (o_isset ob) (snd <$> src) ((fun _ => Idx true [] []) <$> src)
      ((fun td => (vty td.2, td.2)) <$> src) (o_order ob) (o_uniq ob) (o_recs ob) (o_sets ob) (o_parent ob) (o_bad ob).

Lemma add_key_local_empty ord w dst k d b :
  fair ord -> w_objs w !! dst = Some b -> o_recs b = ∅ -> o_keys b !! k = None ->
  add_key_local ord w dst k d None false
  = Some (set_obj dst (register_key k d false (Idx true [] []) b) w, okres Success k (Some (vty d)) None).
Proof.
  intros Hf Hb Hr Hk. unfold add_key_local. rewrite Hb. cbn [mbind option_bind]. rewrite Hk, Hr.
  rewrite elements_empty. assert (ord [] = []) as ->; [|done]. apply Permutation_nil. symmetry. apply Hf.
Qed.

Lemma copy_keys_empty ord w src dst b :
  fair ord -> w_objs w !! dst = Some b -> o_recs b = ∅ -> o_keys b = ∅ -> o_tmpl b = ∅ -> o_idx b = ∅ ->
  exists order', copy_keys ord w src dst = Some (set_obj dst (ob_order order' (keyed (o_keys src) b)) w) /\
    (o_isset b = true -> order' = o_order b).
Proof.
  intros Hf Hb Hr Hk Ht Hi. unfold copy_keys.
  assert (H : forall l m w b, NoDup (fst <$> l) -> w_objs w !! dst = Some b -> o_recs b = ∅ -> 
      o_keys b = (fun td => (vty td.2, td.2)) <$> (m : gmap string (vtype * value)) -> o_tmpl b = snd <$> m -> o_idx b = (fun _ => Idx true [] []) <$> m ->
      (forall k, k ∈ fst <$> l -> m !! k = None) ->
      exists order', foldM (fun w e => '(w', _) ← add_key_local ord w dst e.1 e.2.2 None false; Some w') w l
        = Some (set_obj dst (ob_order order' (keyed (list_to_map l ∪ m) b)) w) /\ (o_isset b = true -> order' = o_order b)).
  { clear -Hf. intros l. induction l as [|[k [t d]] l IH]; intros m w b Hn Hb Hr Hk Ht Hi Hm.
    - exists (o_order b). split; [|done]. cbn [foldM]. f_equal. unfold set_obj. cbn. rewrite left_id_L by apply _.
      unfold keyed. rewrite <- Hk, <- Ht, <- Hi. unfold ob_order. cbn. rewrite insert_id; [by rewrite world_eta|].
      rewrite Hb. by destruct b.
    - cbn in Hn. inversion Hn as [|?? Hn1 Hn2]; subst. cbn [foldM fst snd].
      rewrite (add_key_local_empty _ _ _ _ _ b); [|done|done|done|].
      2:{ rewrite Hk, lookup_fmap, Hm by by left. done. }
      cbn [mbind option_bind].
      destruct (IH (<[k := (t, d)]> m) (set_obj dst (register_key k d false (Idx true [] []) b) w)
         (register_key k d false (Idx true [] []) b)) as (order' & He & Ho); try done.
      + cbn. by rewrite lookup_insert.
      + cbn. rewrite Hk, fmap_insert. done.
      + cbn. rewrite Ht, fmap_insert. done.
      + cbn. rewrite Hi, fmap_insert. done.
      + intros k' Hk'. rewrite lookup_insert_ne by (intros ->; done). apply Hm. by right.
      + exists order'. split.
        * rewrite He. f_equal. unfold set_obj. cbn. rewrite insert_insert. f_equal. f_equal.
          assert (E : list_to_map l ∪ <[k:=(t, d)]> m = <[k:=(t, d)]> (list_to_map l) ∪ m).
          { rewrite <- insert_union_l, <- insert_union_r; [done|]. by apply not_elem_of_list_to_map_1. }
          unfold keyed, ob_order, register_key. cbn. by rewrite E.
        * intros Hs. rewrite Ho by done. cbn. by rewrite Hs. }
  destruct (H (map_to_list (o_keys src)) ∅ w b) as (order' & He & Ho); try done.
  - apply NoDup_fst_map_to_list.
  - by rewrite fmap_empty.
  - by rewrite fmap_empty.
  - by rewrite fmap_empty.
  - exists order'. split; [|done]. rewrite He. rewrite list_to_map_to_list. by rewrite right_id_L by apply _.
Qed.
