(** Explicit effects of the functions of VaultModel.v on a world. *)
From Verif Require Export IdxProofs.
Open Scope nat_scope.

(** The iteration order of an unordered container is some permutation of its elements. *)

Lemma fair_elem ord X x : fair ord -> x ∈ ord (elements X) <-> x ∈ (X : gset nat).
Proof. intros H. rewrite (H (elements X)). apply elem_of_elements. Qed.
Lemma fair_NoDup ord (X : gset nat) : fair ord -> NoDup (ord (elements X)).
Proof. intros H. rewrite (H (elements X)). apply NoDup_elements. Qed.
Lemma fair_nil ord l : fair ord -> ord l = [] -> l = [].
Proof. intros H Hl. apply Permutation_nil. rewrite <- Hl. apply H. Qed.
Lemma fair_elem_list ord l x : fair ord -> x ∈ ord l <-> x ∈ l.
Proof. intros H. by rewrite (H l). Qed.

(** ** Point-wise updates *)

Definition upd_on {A} (g : nat -> A -> A) (X : gset nat) (m : gmap nat A) : gmap nat A :=
  map_imap (fun x a => Some (if decide (x ∈ X) then g x a else a)) m.

Lemma lookup_upd_on {A} (g : nat -> A -> A) X m x :
  upd_on g X m !! x = (fun a => if decide (x ∈ X) then g x a else a) <$> m !! x.
Proof. unfold upd_on. rewrite map_lookup_imap. by destruct (m !! x). Qed.
Lemma upd_on_empty {A} (g : nat -> A -> A) m : upd_on g ∅ m = m.
Proof. apply map_eq. intros x. rewrite lookup_upd_on. destruct (m !! x); cbn; [|done]. rewrite decide_False by set_solver. done. Qed.

Definition w_set_recs (m : gmap nat recd) (w : world) : world := World m (w_objs w) (w_refs w) (w_next w).
Definition w_set_objs (m : gmap nat obj) (w : world) : world := World (w_recs w) m (w_refs w) (w_next w).

Lemma world_eta w : World (w_recs w) (w_objs w) (w_refs w) (w_next w) = w.
Proof. by destruct w. Qed.

(** A fold that updates one record per element. *)
Lemma foldM_recs (F : world -> nat -> option world) (g : nat -> recd -> recd) l w :
  (forall w r, F w r = (rc ← w_recs w !! r; Some (set_rec r (g r rc) w))) ->
  NoDup l -> (forall r, r ∈ l -> is_Some (w_recs w !! r)) ->
  foldM F w l = Some (w_set_recs (upd_on g (list_to_set l) (w_recs w)) w).
Proof.
  intros HF. revert w. induction l as [|r l IH]; intros w Hn Hl; cbn [foldM].
  - f_equal. unfold w_set_recs. cbn. rewrite upd_on_empty. by rewrite world_eta.
  - inversion Hn as [|?? Hn1 Hn2]; subst. destruct (Hl r) as [rc Hrc]; [by left|].
    rewrite HF, Hrc. cbn. rewrite IH; [|done|].
    + unfold w_set_recs, set_rec. cbn. f_equal. f_equal. apply map_eq. intros x. rewrite !lookup_upd_on.
      destruct (decide (x = r)) as [->|Hx].
      * rewrite lookup_insert, Hrc. cbn. rewrite decide_False by (rewrite elem_of_list_to_set; done).
        by rewrite decide_True by set_solver.
      * rewrite lookup_insert_ne by done. destruct (w_recs w !! x); cbn; [|done]. f_equal.
        destruct (decide (x ∈ list_to_set l)); destruct (decide (x ∈ {[r]} ∪ list_to_set l)); set_solver.
    + intros x Hx. unfold set_rec. cbn. destruct (decide (x = r)) as [->|]; [by rewrite lookup_insert|].
      rewrite lookup_insert_ne by done. apply Hl. by right.
Qed.
Lemma foldM_recs_some (F : world -> nat -> option world) (g : nat -> recd -> recd) l w w' :
  (forall w r, F w r = (rc ← w_recs w !! r; Some (set_rec r (g r rc) w))) ->
  foldM F w l = Some w' -> forall r, r ∈ l -> is_Some (w_recs w !! r).
Proof.
  intros HF. revert w. induction l as [|x l IH]; intros w H r Hr; [by apply elem_of_nil in Hr|].
  cbn in H. rewrite HF in H. destruct (w_recs w !! x) as [rc|] eqn:E; cbn in H; [|done].
  destruct (decide (r = x)) as [->|Hne]; [done|]. apply elem_of_cons in Hr as [?|Hr]; [done|].
  specialize (IH _ H r Hr). cbn in IH. by rewrite lookup_insert_ne in IH.
Qed.

(** A fold that updates one object per element, for fixed records. *)
Lemma foldM_objs (F : world -> nat -> option world) (g : nat -> obj -> obj) (c : nat -> obj -> Prop) l w :
  (forall w' d db, w_recs w' = w_recs w -> w_objs w' !! d = Some db -> c d db -> F w' d = Some (set_obj d (g d db) w')) ->
  NoDup l -> (forall d, d ∈ l -> exists db, w_objs w !! d = Some db /\ c d db) ->
  foldM F w l = Some (w_set_objs (upd_on g (list_to_set l) (w_objs w)) w).
Proof.
  intros HF. revert w HF. induction l as [|r l IH]; intros w HF Hn Hl; cbn [foldM].
  - f_equal. unfold w_set_objs. cbn. rewrite upd_on_empty. by rewrite world_eta.
  - inversion Hn as [|?? Hn1 Hn2]; subst. destruct (Hl r) as (rc & Hrc & Hc); [by left|].
    rewrite (HF _ _ rc) by done. cbn. rewrite IH; [| |done|].
    + unfold w_set_objs, set_obj. cbn. f_equal. f_equal. apply map_eq. intros x. rewrite !lookup_upd_on.
      destruct (decide (x = r)) as [->|Hx].
      * rewrite lookup_insert, Hrc. cbn. rewrite decide_False by (rewrite elem_of_list_to_set; done).
        by rewrite decide_True by set_solver.
      * rewrite lookup_insert_ne by done. destruct (w_objs w !! x); cbn; [|done]. f_equal.
        destruct (decide (x ∈ list_to_set l)); destruct (decide (x ∈ {[r]} ∪ list_to_set l)); set_solver.
    + intros w' d db Hw Hd Hcd. apply HF; done.
    + intros x Hx. unfold set_obj. cbn. destruct (decide (x = r)) as [->|]; [done|].
      rewrite lookup_insert_ne by done. apply Hl. by right.
Qed.
Lemma foldM_objs_some (F : world -> nat -> option world) (g : nat -> obj -> obj) (Q c : nat -> obj -> Prop) l w w' :
  (forall w' d, w_recs w' = w_recs w -> (forall db, w_objs w' !! d = Some db -> Q d db) -> is_Some (F w' d) ->
     exists db, w_objs w' !! d = Some db /\ c d db) ->
  (forall w' d db, w_recs w' = w_recs w -> w_objs w' !! d = Some db -> c d db -> F w' d = Some (set_obj d (g d db) w')) ->
  NoDup l -> (forall d db, d ∈ l -> w_objs w !! d = Some db -> Q d db) ->
  foldM F w l = Some w' -> forall d, d ∈ l -> exists db, w_objs w !! d = Some db /\ c d db.
Proof.
  intros HS HF Hn. revert w HF HS. induction Hn as [|x l Hx Hn IH]; intros w HF HS HQ H d Hd; [by apply elem_of_nil in Hd|].
  cbn in H. destruct (F w x) as [w1|] eqn:E; cbn in H; [|done].
  destruct (HS w x) as (xb & Hxb & Hcx); [done|intros; apply HQ; [by left|done]|eauto|].
  destruct (decide (d = x)) as [->|Hne]; [eauto|]. apply elem_of_cons in Hd as [?|Hd]; [done|].
  rewrite (HF w x xb) in E by done. injection E as <-.
  destruct (IH (set_obj x (g x xb) w)) with (d := d) as (db & Hdb & Hc); auto.
  - intros y yb Hy Hyb. cbn in Hyb. rewrite lookup_insert_ne in Hyb by (intros ->; done). apply HQ; [by right|done].
  - cbn in Hdb. rewrite lookup_insert_ne in Hdb by done. eauto.
Qed.

Lemma list_to_set_ord ord (X : gset nat) : fair ord -> list_to_set (ord (elements X)) = X.
Proof. intros H. apply set_eq. intros x. rewrite elem_of_list_to_set. by apply fair_elem. Qed.

(** ** Object updates *)

Lemma lookup_all_idx f ob k :
  o_idx (all_idx f ob) !! k
  = (fun ix => match o_keys ob !! k with Some td => f k td ix | None => ix end) <$> o_idx ob !! k.
Proof. unfold all_idx. cbn. rewrite map_lookup_imap. by destruct (o_idx ob !! k). Qed.

(** Removing record [r] with contents [data] from an object. *)
Definition drop_rec (data : gmap string value) (r : nat) (ob : obj) : obj :=
  ob_recs (o_recs ob ∖ {[r]}) (all_erasers data r ob).
Definition drop_rec_if (data : gmap string value) (r : nat) (ob : obj) : obj :=
  if decide (r ∈ o_recs ob) then drop_rec data r ob else ob.

(** Effect of [invalidate] on the records of [X]. *)
Definition inval (rc : recd) : option recd := if r_refs rc =? 0 then None else Some (rd_valid false rc).
Definition invalidate_on (X : gset nat) (m : gmap nat recd) : gmap nat recd :=
  map_imap (fun x rc => if decide (x ∈ X) then inval rc else Some rc) m.
Lemma lookup_invalidate_on X m x :
  invalidate_on X m !! x = rc ← m !! x; (if decide (x ∈ X) then inval rc else Some rc).
Proof. unfold invalidate_on. by rewrite map_lookup_imap. Qed.
Lemma invalidate_on_empty m : invalidate_on ∅ m = m.
Proof.
  apply map_eq. intros x. rewrite lookup_invalidate_on. destruct (m !! x); cbn; [|done].
  by rewrite decide_False by set_solver.
Qed.

Lemma invalidate_eq w r rc : w_recs w !! r = Some rc ->
  invalidate w r = Some (w_set_recs (invalidate_on {[r]} (w_recs w)) w).
Proof.
  intros H. unfold invalidate. rewrite H. cbn.
  assert (E : forall m, (forall x, m !! x = if decide (x = r) then inval rc else w_recs w !! x) ->
      invalidate_on {[r]} (w_recs w) = m).
  { intros m Hm. apply map_eq. intros x. rewrite lookup_invalidate_on, Hm. destruct (decide (x = r)) as [->|].
    - rewrite H. cbn. by rewrite decide_True by set_solver.
    - destruct (w_recs w !! x); cbn; [|done]. by rewrite decide_False by set_solver. }
  unfold inval in E. destruct (r_refs rc =? 0).
  - unfold del_rec, w_set_recs. f_equal. f_equal. symmetry. apply E. intros x.
    destruct (decide (x = r)) as [->|]; [by rewrite lookup_delete|by rewrite lookup_delete_ne].
  - unfold set_rec, w_set_recs. f_equal. f_equal. symmetry. apply E. intros x.
    destruct (decide (x = r)) as [->|]; [by rewrite lookup_insert|by rewrite lookup_insert_ne].
Qed.

Lemma foldM_invalidate l w :
  NoDup l -> (forall r, r ∈ l -> is_Some (w_recs w !! r)) ->
  foldM invalidate w l = Some (w_set_recs (invalidate_on (list_to_set l) (w_recs w)) w).
Proof.
  revert w. induction l as [|r l IH]; intros w Hn Hl; cbn [foldM].
  - f_equal. unfold w_set_recs. cbn. rewrite invalidate_on_empty. by rewrite world_eta.
  - inversion Hn as [|?? Hn1 Hn2]; subst. destruct (Hl r) as [rc Hrc]; [by left|].
    rewrite (invalidate_eq _ _ rc) by done. cbn. rewrite IH; [|done|].
    + unfold w_set_recs. cbn. f_equal. f_equal. apply map_eq. intros x. rewrite !lookup_invalidate_on.
      destruct (w_recs w !! x) as [xc|] eqn:Ex; cbn; [|done].
      destruct (decide (x = r)) as [->|Hx].
      * rewrite decide_True by set_solver. rewrite decide_True by set_solver. destruct (inval xc); cbn; [|done].
        rewrite decide_False; [done|]. by rewrite elem_of_list_to_set.
      * rewrite decide_False by set_solver. cbn.
        destruct (decide (x ∈ list_to_set l)); destruct (decide (x ∈ {[r]} ∪ list_to_set l)); set_solver.
    + intros x Hx. unfold w_set_recs. cbn. rewrite lookup_invalidate_on. destruct (Hl x) as [xc Hxc]; [by right|].
      rewrite Hxc. cbn. rewrite decide_False; [done|]. intros Hxr. apply elem_of_singleton in Hxr. by subst.
Qed.
Lemma foldM_invalidate_some l w w' :
  NoDup l -> foldM invalidate w l = Some w' -> forall r, r ∈ l -> is_Some (w_recs w !! r).
Proof.
  intros Hn. revert w. induction Hn as [|x l Hx Hn IH]; intros w H r Hr; [by apply elem_of_nil in Hr|].
  cbn in H. destruct (w_recs w !! x) as [rc|] eqn:E; [|unfold invalidate in H; rewrite E in H; done].
  rewrite (invalidate_eq _ _ rc) in H by done. cbn in H.
  apply elem_of_cons in Hr as [->|Hr]; [done|]. apply (IH _ H) in Hr. unfold w_set_recs in Hr. cbn in Hr.
  rewrite lookup_invalidate_on in Hr. destruct (w_recs w !! r); [done|]. by destruct Hr.
Qed.

(** ** detach *)

Definition detach_objs (o r : nat) (data : gmap string value) (deps : gset nat) (m : gmap nat obj) : gmap nat obj :=
  upd_on (fun _ => drop_rec_if data r) deps (upd_on (fun _ => drop_rec data r) {[o]} m).

Lemma detach_set n ord w o r ob rc :
  w_objs w !! o = Some ob -> w_recs w !! r = Some rc -> o_isset ob = true ->
  detach (S n) ord w o r = Some (set_obj o (drop_rec (r_data rc) r ob) w).
Proof. intros Ho Hr Hs. cbn. rewrite Ho, Hr. cbn. by rewrite Hs. Qed.

Lemma detach_vault n ord w o r ob rc :
  fair ord -> w_objs w !! o = Some ob -> w_recs w !! r = Some rc -> o_isset ob = false -> o ∉ r_deps rc ->
  (forall d, d ∈ r_deps rc -> exists db, w_objs w !! d = Some db /\ o_isset db = true) ->
  detach (S (S n)) ord w o r
  = Some (World (invalidate_on {[r]} (w_recs w)) (detach_objs o r (r_data rc) (r_deps rc) (w_objs w)) (w_refs w) (w_next w)).
Proof.
  intros Hf Ho Hr Hs Hod Hd. change (detach (S (S n)) ord w o r) with
    (ob ← w_objs w !! o; rc ← w_recs w !! r;
      let ob' := all_erasers (r_data rc) r ob in
      let w1 := set_obj o (ob_recs (o_recs ob ∖ {[r]}) ob') w in
      if o_isset ob then Some w1
      else
        w2 ← foldM (fun w d =>
               db ← w_objs w !! d;
               _ ← w_recs w !! r;
               if decide (r ∈ o_recs db) then detach (S n) ord w d r else Some w)
             w1 (ord (elements (r_deps rc)));
        invalidate w2 r).
  rewrite Ho, Hr. cbn [mbind option_bind]. rewrite Hs. cbv zeta.
  change (ob_recs (o_recs ob ∖ {[r]}) (all_erasers (r_data rc) r ob)) with (drop_rec (r_data rc) r ob).
  rewrite (foldM_objs _ (fun _ => drop_rec_if (r_data rc) r) (fun _ db => o_isset db = true)).
  - cbn [mbind option_bind]. rewrite (invalidate_eq _ _ rc) by done. unfold w_set_recs, w_set_objs. cbn. f_equal. f_equal.
    rewrite list_to_set_ord by done. unfold detach_objs. f_equal. apply map_eq. intros x. rewrite lookup_upd_on.
    destruct (decide (x = o)) as [->|].
    + rewrite lookup_insert, Ho. cbn. by rewrite decide_True by set_solver.
    + rewrite lookup_insert_ne by done. destruct (w_objs w !! x); cbn; [|done]. by rewrite decide_False by set_solver.
  - intros w' d db Hw Hdb Hds. rewrite Hdb. cbn [mbind option_bind]. rewrite Hw. cbn [set_obj w_recs]. rewrite Hr. cbn [mbind option_bind].
    unfold drop_rec_if. destruct (decide (r ∈ o_recs db)).
    + apply detach_set; [done| |done]. by rewrite Hw.
    + unfold set_obj. rewrite insert_id by done. by rewrite world_eta.
  - by apply fair_NoDup.
  - intros d Hdd. apply fair_elem in Hdd; [|done]. destruct (Hd d Hdd) as (db & Hdb & Hds). exists db. split; [|done].
    cbn. rewrite lookup_insert_ne; [done|]. intros <-. done.
Qed.
(** If it is defined then the dependent sets exist, provided none of them is a vault. *)
Lemma detach_vault_some n ord w o r w' ob rc :
  fair ord -> w_objs w !! o = Some ob -> w_recs w !! r = Some rc -> o_isset ob = false -> o ∉ r_deps rc ->
  (forall d db, d ∈ r_deps rc -> w_objs w !! d = Some db -> o_isset db = true) ->
  detach (S (S n)) ord w o r = Some w' ->
  (forall d, d ∈ r_deps rc -> exists db, w_objs w !! d = Some db /\ o_isset db = true).
Proof.
  intros Hf Ho Hr Hs Hod Hd. change (detach (S (S n)) ord w o r) with
    (ob ← w_objs w !! o; rc ← w_recs w !! r;
      let ob' := all_erasers (r_data rc) r ob in
      let w1 := set_obj o (ob_recs (o_recs ob ∖ {[r]}) ob') w in
      if o_isset ob then Some w1
      else
        w2 ← foldM (fun w d =>
               db ← w_objs w !! d;
               _ ← w_recs w !! r;
               if decide (r ∈ o_recs db) then detach (S n) ord w d r else Some w)
             w1 (ord (elements (r_deps rc)));
        invalidate w2 r).
  rewrite Ho, Hr. cbn [mbind option_bind]. rewrite Hs. cbv zeta.
  change (ob_recs (o_recs ob ∖ {[r]}) (all_erasers (r_data rc) r ob)) with (drop_rec (r_data rc) r ob).
  destruct (foldM _ _ _) as [w2|] eqn:E; [|done]. intros _ d Hdd.
  eapply (foldM_objs_some _ (fun _ => drop_rec_if (r_data rc) r) (fun _ db => o_isset db = true) (fun _ db => o_isset db = true)) in E
    as (db & Hdb & Hds); [| | | | |by apply fair_elem].
  - cbn in Hdb. rewrite lookup_insert_ne in Hdb by (intros <-; done). eauto.
  - intros wz x Hw HQ [w3 Hx]. destruct (w_objs wz !! x) as [xb|]; [|done]. eauto.
  - intros wz x xb Hw Hxb Hxs. rewrite Hxb. cbn [mbind option_bind]. rewrite Hw. cbn [set_obj w_recs]. rewrite Hr. cbn [mbind option_bind].
    unfold drop_rec_if. destruct (decide (r ∈ o_recs xb)).
    + apply detach_set; [done| |done]. by rewrite Hw.
    + unfold set_obj. rewrite insert_id by done. by rewrite world_eta.
  - by apply fair_NoDup.
  - intros x xb Hx Hxb. apply fair_elem in Hx; [|done]. cbn in Hxb. rewrite lookup_insert_ne in Hxb by (intros <-; done). eauto.
Qed.
