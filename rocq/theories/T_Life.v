(** C59: the memory of a record among threads. *)
From Verif Require Export LifeModel.
From Verif Require Import LifeProofs.
From Coq Require Import Lia.
Open Scope nat_scope.

Lemma life_inv n l s : life_run (life_init n) l = Next s -> LInv s.
Proof. intros E. eapply (life_run_inv l (life_init n)); [apply life_init_inv|done]. Qed.
(** Whatever the threads do with their references and the vault, and however their steps are interleaved: no step ever touches the record after it was
    freed, it is never freed twice, and its counter never falls below zero. *)
Lemma t_C59_no_use_after_free :
  forall n l, life_run (life_init n) l <> Crash.
Proof. intros n l. apply life_run_inv. apply life_init_inv. Qed.
(** As long as the vault holds the record or any thread holds a reference to it, its memory is not freed. *)
Lemma t_C59_alive_while_used :
  forall n l s, life_run (life_init n) l = Next s ->
    (lf_listed s = true \/ exists t th, lf_threads s !! t = Some th /\ 0 < lt_refs th) -> lf_freed s = false.
Proof.
  intros n l s E Hu. pose proof (life_inv _ _ _ E) as HI. destruct (lf_freed s) eqn:Hf; [|done]. destruct (lv_freed _ HI Hf) as [Hv Hc]. exfalso. destruct Hu as [Hl|(t & th & Ht & Hr)].
  - apply (lv_listed _ HI) in Hl. congruence.
  - pose proof (total_ge _ _ _ Ht) as Hw. rewrite <- (lv_count _ HI) in Hw. unfold wt in Hw. lia.
Qed.
Lemma total_zero l : (forall t th, l !! t = Some th -> wt th = 0) -> total l = 0.
Proof.
  induction l as [|x l IH]; intros H; [done|]. rewrite total_cons, IH; [|intros t th Ht; by apply (H (S t))]. by rewrite (H 0 x).
Qed.
(** Whenever no thread is inside a call, the memory is freed exactly if the vault has let go of the record and no thread holds a reference to it:
    nothing is freed too early and nothing leaks. The record then is valid exactly if the vault holds it. *)
Lemma t_C59_freed_iff_unused :
  forall n l s, life_run (life_init n) l = Next s -> (forall t th, lf_threads s !! t = Some th -> lt_pc th = LIdle) ->
    (lf_freed s = true <-> lf_listed s = false /\ forall t th, lf_threads s !! t = Some th -> lt_refs th = 0) /\ lf_valid s = lf_listed s.
Proof.
  intros n l s E Hidle. pose proof (life_inv _ _ _ E) as HI.
  assert (lf_valid s = lf_listed s) as Hvl.
  { destruct (lf_listed s) eqn:El; [by apply (lv_listed _ HI)|]. destruct (lf_valid s) eqn:Ev; [|done]. exfalso. destruct (lv_unlisted _ HI El Ev) as (t & th & Ht & Hb).
    rewrite (Hidle t th Ht) in Hb. by apply idle_before in Hb. }
  split; [split|done].
  - intros Hf. destruct (lv_freed _ HI Hf) as [Hv Hc]. split; [congruence|]. intros t th Ht. pose proof (total_ge _ _ _ Ht) as Hw. rewrite <- (lv_count _ HI) in Hw. unfold wt in Hw. lia.
  - intros [Hl Hr]. destruct (lf_freed s) eqn:Hf; [done|]. exfalso. destruct (lv_dead _ HI) as (t & th & Ht & He); [congruence| |done|rewrite (Hidle t th Ht) in He; done].
    rewrite (lv_count _ HI). apply total_zero. intros t th Ht. unfold wt. rewrite (Hr t th Ht), (Hidle t th Ht). done.
Qed.

Definition todo (p : lpc) : nat := match p with LIdle => 0 | LFree _ _ => 1 | LDone _ _ => 2 | LIn _ => 3 | LWant _ => 4 end.
Definition left_over (l : list lthread) : nat := sum_list_with (fun th => todo (lt_pc th)) l.
Lemma left_insert l t th th' : l !! t = Some th -> left_over (<[t := th']> l) + todo (lt_pc th) = left_over l + todo (lt_pc th').
Proof.
  assert (forall x l, left_over (x :: l) = todo (lt_pc x) + left_over l) as Hc by done.
  revert t. induction l as [|x l IH]; intros [|t] H; try done.
  - injection H as ->. change (<[0 := th']> (th :: l)) with (th' :: l). rewrite !Hc. lia.
  - specialize (IH t H). change (<[S t := th']> (x :: l)) with (x :: <[t := th']> l). rewrite !Hc. lia.
Qed.
Lemma some_step s : LInv s -> (exists t th, lf_threads s !! t = Some th /\ lt_pc th <> LIdle) ->
  exists t s', life_step s (AStep t) = Next s' /\ left_over (lf_threads s') < left_over (lf_threads s).
Proof.
  intros HI (t0 & th0 & Ht0 & Hp0).
  assert (exists t th, lf_threads s !! t = Some th /\ lt_pc th <> LIdle /\ (lf_owner s = None \/ holds (lt_pc th))) as (t & th & Ht & Hp & Hf).
  { destruct (lf_owner s) as [t|] eqn:Eo; [|eauto 6]. destruct (lv_owner _ HI t Eo) as [th Ht]. exists t, th. split; [done|].
    assert (holds (lt_pc th)) as Hh by (by apply (to_own _ _ _ (lv_thread _ HI t th Ht))). split; [by intros Hx; rewrite Hx in Hh|by right]. }
  exists t. destruct (life_step_inv s (AStep t) HI) as [Hnc _]. destruct th as [p k]. pose proof (fun th' => left_insert _ _ _ th' Ht) as Hm. cbn [life_step] in Hnc |- *. rewrite Ht in Hnc |- *. cbn [lt_pc] in *.
  destruct p as [|c|c|c e|c e]; try done.
  - destruct (lf_freed s); [done|]. destruct Hf as [Hf|Hf]; [|done]. rewrite Hf. eexists. split; [done|]. cbn [lf_threads]. specialize (Hm (LThread (LIn c) k)). cbn in Hm. lia.
  - destruct (lf_freed s); [done|]. destruct (critical c _ _) as [[[v q] e]|]; [|done]. eexists. split; [done|]. cbn [lf_threads]. specialize (Hm (LThread (LDone c e) k)). cbn in Hm. lia.
  - destruct (lf_freed s); [done|]. eexists. split; [done|]. cbn [lf_threads]. specialize (Hm (LThread (LFree c e) k)). cbn in Hm. lia.
  - specialize (Hm (LThread LIdle (gained c + k))). cbn in Hm. destruct e.
    + destruct (lf_freed s); [done|]. eexists. split; [done|]. cbn [lf_threads]. lia.
    + eexists. split; [done|]. cbn [put lf_threads]. lia.
Qed.
Lemma idle_or (l : list lthread) : (forall t th, l !! t = Some th -> lt_pc th = LIdle) \/ exists t th, l !! t = Some th /\ lt_pc th <> LIdle.
Proof.
  induction l as [|x l [IH|(t & th & Ht & Hp)]]; [by left| |right; by exists (S t), th].
  destruct (lt_pc x) eqn:Ep; [left|right; exists 0, x; by rewrite Ep..]. intros [|t] th Ht; [by injection Ht as <-|by apply (IH t)].
Qed.
(** The threads never block each other for good on the record: from every state they can all complete their calls. *)
Lemma t_C59_can_always_finish :
  forall n l s, life_run (life_init n) l = Next s ->
    exists l' s', (forall a, a ∈ l' -> exists t, a = AStep t) /\ life_run s l' = Next s' /\ forall t th, lf_threads s' !! t = Some th -> lt_pc th = LIdle.
Proof.
  intros n l s E. pose proof (life_inv _ _ _ E) as HI. clear E l n.
  remember (left_over (lf_threads s)) as m eqn:Em. assert (left_over (lf_threads s) <= m) as Hm by lia. clear Em. revert s HI Hm. induction m as [|m IH]; intros s HI Hm.
  - exists [], s. split; [by intros a H; apply elem_of_nil in H|]. split; [done|]. intros t th Ht. destruct (lt_pc th) eqn:Ep; [done|exfalso..];
      (destruct (some_step s HI) as (? & ? & _ & ?); [exists t, th; by rewrite Ep|lia]).
  - destruct (idle_or (lf_threads s)) as [Hx|Hx].
    + exists [], s. split; [by intros a H; apply elem_of_nil in H|done].
    + destruct (some_step s HI Hx) as (u & s1 & Es & Hlt).
      destruct (IH s1) as (l' & s' & H1 & H2 & H3); [by eapply life_step_inv|lia|]. exists (AStep u :: l'), s'. split; [|split; [|done]].
      * intros a Ha. apply elem_of_cons in Ha as [->|Ha]; [eauto|by apply H1].
      * cbn [life_run]. by rewrite Es.
Qed.
