(** Proofs about MultiModel.v: a static discipline on programs, kept by every step. *)
From Verif Require Export MultiProofs3.
From Verif Require Import MutexProofs MutexProofs2 MutexProofs3 LockProofs.
Open Scope nat_scope.

Definition vheld := option ((nat * nat) * nat).
Definition vinc (h : vheld) (r : nat * nat) : option vheld :=
  match h with None => Some (Some (r, 0)) | Some (r', n) => if decide (r' = r) then Some (Some (r, S n)) else None end.
Definition vperm := list (nat * rkind) -> vheld -> nat -> cact -> Prop.
Fixpoint vok (vf : bool) (acc : vperm) (st : list (nat * rkind)) (h : vheld) (l : list (nat * cact)) : Prop :=
  match l with
  | [] => st = [] /\ h = None
  | (v, ALock k) :: l => (vf = true -> h = None) /\ acc st h v (ALock k) /\ vok vf acc ((v, k) :: st) h l
  | (v, AUnlock) :: l => (vf = true -> h = None) /\ match st with [] => False | _ :: st' => vok vf acc st' h l end
  | (v, ARec r) :: l => match vinc h (v, r) with Some h' => vok vf acc st h' l | None => False end
  | (v, ARecEnd r) :: l => match h with Some (r', n) => r' = (v, r) /\ vok vf acc st (match n with 0 => None | S n => Some ((v, r), n) end) l | None => False end
  | (v, a) :: l => acc st h v a /\ vok vf acc st h l
  end.
Definition vholds (m : gmap (nat * nat) (nat * nat)) (t : nat) (h : vheld) : Prop :=
  forall r n, m !! r = Some (t, n) <-> exists n', h = Some (r, n') /\ n = S n'.
Record VInv (vf : bool) (acc : nat -> vperm) (s : vstate) : Prop := {
  vi_lock : LInv (v_mutex s) (v_threads s);
  vi_len : length (v_acts s) = length (v_threads s);
  vi_thread : forall t th acts, v_threads s !! t = Some th -> v_acts s !! t = Some acts ->
    exists h, vok vf (acc t) (h_stack th) h acts /\ vholds (v_recs s) t h /\ (vf = true -> h <> None -> v_rest th);
  vi_owner : forall r u n, v_recs s !! r = Some (u, n) -> u < length (v_acts s);
}.

Definition th0 : vthread := VThread [] (RCount 0 0) [] None.
Lemma init_x v n : XInv v (replicate n th0) (VMutex None None 0 false).
Proof.
  assert (forall u th, replicate n th0 !! u = Some th -> th = th0) as H by (intros u th H; by apply lookup_replicate in H as [-> _]).
  split; cbn; try done.
  - intros u th Hu. apply H in Hu as ->. done.
  - intros u th Hu. apply H in Hu as ->. done.
  - clear. induction n as [|n IH]; [done|]. cbn [replicate zsum]. rewrite <- IH. done.
  - split; [done|]. intros (u & th & Hu & Hf). apply H in Hu as ->. done.
  - intros u th Hu Hb. apply H in Hu as ->. done.
Qed.
Lemma v_init_inv vf acc ps : (forall t p, ps !! t = Some p -> vok vf (acc t) [] None p) -> VInv vf acc (v_init ps).
Proof.
  intros H. split; cbn.
  - split; [intros v; apply init_x|]. apply Forall_forall. intros th Hth. apply elem_of_replicate in Hth as [-> _]. split; [done|done|]. by intros ? ?.
  - by rewrite replicate_length.
  - intros t th acts Ht Ha. apply lookup_replicate in Ht as [-> _]. exists None. split; [by apply H|]. split; [|done]. intros r n. rewrite lookup_empty. split; [done|]. by intros (? & ? & _).
  - intros r u n E. by rewrite lookup_empty in E.
Qed.

(** A step of one thread [t]: the others keep their stacks and stay at rest. *)
Definition keeps (l l' : list vthread) (t : nat) : Prop :=
  length l' = length l /\ forall u th, u <> t -> l' !! u = Some th -> exists uh, l !! u = Some uh /\ h_stack th = h_stack uh /\ (v_rest uh -> v_rest th).
Lemma keeps_insert l t th : keeps l (<[t := th]> l) t.
Proof. split; [apply insert_length|]. intros u uh Hne H. rewrite list_lookup_insert_ne in H by done. eauto. Qed.
Lemma wk_rest v th : v_rest th -> v_rest (wk v th).
Proof. intros [H1 H2]. unfold wk, put_pc. rewrite H2. done. Qed.
Lemma wk_stack v th : h_stack (wk v th) = h_stack th.
Proof. unfold wk, put_pc. destruct (h_at th) as [[w p]|]; [|done]. by destruct (decide (w = v)). Qed.
Lemma put_stack v th p : h_stack (put_pc v th p) = h_stack th.
Proof. unfold put_pc. destruct (h_at th) as [[w q]|]; [|done]. by destruct (decide (w = v)). Qed.
Lemma keeps_wake v l t th : keeps l (<[t := th]> (wk v <$> l)) t.
Proof.
  split; [by rewrite insert_length, fmap_length|]. intros u uh Hne H. rewrite list_lookup_insert_ne, list_lookup_fmap in H by done. apply fmap_Some in H as (x & Hx & ->).
  exists x. split; [done|]. split; [apply wk_stack|]. apply wk_rest.
Qed.
Lemma vstep_keep vf acc s t mx l m rest : VInv vf acc s -> t < length (v_acts s) -> LInv mx l -> keeps (v_threads s) l t ->
  (forall r, m !! r = v_recs s !! r \/ ((exists n, v_recs s !! r = Some (t, n)) \/ v_recs s !! r = None) /\ ((exists n, m !! r = Some (t, n)) \/ m !! r = None)) ->
  (forall th', l !! t = Some th' -> exists h, vok vf (acc t) (h_stack th') h rest /\ vholds m t h /\ (vf = true -> h <> None -> v_rest th')) ->
  VInv vf acc (VState mx l m (<[t := rest]> (v_acts s))).
Proof.
  intros [HL Hlen HT HO] Ht HL' [K1 K2] Hm Hown. split; cbn [v_mutex v_threads v_recs v_acts].
  - done.
  - rewrite insert_length. congruence.
  - intros u th acts Hu Ha. destruct (decide (u = t)) as [->|Hne].
    + rewrite list_lookup_insert in Ha by done. injection Ha as <-. by apply Hown.
    + rewrite list_lookup_insert_ne in Ha by done. destruct (K2 u th Hne Hu) as (uh & Euh & Est & Hr). destruct (HT u uh acts Euh Ha) as (h & H1 & H2 & H3).
      exists h. rewrite Est. split; [done|]. split; [|auto]. intros r n. rewrite <- (H2 r n). destruct (Hm r) as [->|[[[k E1]|E1] [[k' E2]|E2]]]; [done|..]; rewrite E1, E2; split; congruence.
  - intros r u n Hr. rewrite insert_length. destruct (Hm r) as [E|[_ [[k E2]|E2]]]; [rewrite E in Hr; by eapply HO| |congruence]. rewrite E2 in Hr. by injection Hr as <- _.
Qed.
(** What a step does to the threads. *)
Lemma vstep_inv vf acc s t s' : VInv vf acc s -> vstep s t = Some s' -> VInv vf acc s'.
Proof.
  intros HI E. pose proof HI as [HL Hlen HT HO]. pose proof HL as [HM HTh]. unfold vstep in E. destruct (v_threads s !! t) as [th|] eqn:Hth; [|done]. cbn [mbind option_bind] in E.
  destruct (v_acts s !! t) as [acts|] eqn:Ha; [|done]. cbn [mbind option_bind] in E. pose proof (lookup_lt_Some _ _ _ Ha) as Hl. pose proof (lookup_lt_Some _ _ _ Hth) as Hlt.
  destruct (HT t th acts Hth Ha) as (h & Hok & Hh & Hrest). pose proof (proj1 (Forall_lookup _ _) HTh _ _ Hth) as HTt.
  assert (forall r, v_recs s !! r = v_recs s !! r \/ ((exists n, v_recs s !! r = Some (t, n)) \/ v_recs s !! r = None) /\ ((exists n, v_recs s !! r = Some (t, n)) \/ v_recs s !! r = None)) as Hsame by auto.
  destruct (h_at th) as [[v p]|] eqn:Hat.
  { destruct (go (view s v) t) as [b|] eqn:Eg; [|done]. cbn [mbind option_bind] in E. injection E as <-.
    destruct (go_view s v t th p b HL Hth Hat Eg) as [(_ & q & x & Hs & _ & -> & HL')|(-> & -> & HL')]; cbn [v_recs v_acts].
    - rewrite <- (list_insert_id (v_acts s) t acts Ha). apply vstep_keep; [done|done|done|apply keeps_insert|done|].
      intros th' Hth'. rewrite list_lookup_insert in Hth' by done. injection Hth' as <-. exists h. rewrite put_stack. split; [done|]. split; [done|].
      intros Hv Hn. destruct (Hrest Hv Hn) as [_ ?]. congruence.
    - rewrite <- (list_insert_id (v_acts s) t acts Ha). apply vstep_keep; [done|done|done|apply keeps_wake|done|].
      intros th' Hth'. rewrite list_lookup_insert in Hth' by (by rewrite fmap_length). injection Hth' as <-. exists h. rewrite put_stack, wk_stack. split; [done|]. split; [done|].
      intros Hv Hn. destruct (Hrest Hv Hn) as [_ ?]. congruence. }
  destruct (h_calls th) as [|[v c] calls] eqn:Hca.
  2:{ injection E as <-. unfold set_thread. destruct (call_thread th v c calls HTt Hat Hca) as (T1 & T2 & T3 & T4).
      rewrite <- (list_insert_id (v_acts s) t acts Ha). apply vstep_keep; [done|done| |apply keeps_insert|done|].
      - split; [|by apply Forall_insert]. intros w. destruct (T4 w) as (c' & E1 & E2). eapply x_same; [apply HM|done|apply T2|apply T3|..]; rewrite E1; destruct E2 as [-> | ->]; by destruct c'.
      - intros th' Hth'. rewrite list_lookup_insert in Hth' by done. injection Hth' as <-. exists h. split; [done|]. split; [done|]. intros Hv Hn. destruct (Hrest Hv Hn) as [? _]. congruence. }
  assert (v_rest th) as Hr by done.
  destruct acts as [|[v a] rest]; [done|]. destruct a as [k| |r|r|x|x]; cbn [vok] in Hok.
  - destruct Hok as (Hv & _ & Hok). destruct (lock_thread th v k HTt Hr) as (T1 & T2 & T3 & T4 & _). destruct (rlock k (h_count th)) as [l c]. cbn [fst snd] in *. injection E as <-. unfold set_thread.
    apply vstep_keep; [done|done| |apply keeps_insert|done|].
    + split; [|by apply Forall_insert]. intros w. eapply x_same; [apply HM|done|apply T2|apply T3|..]; by rewrite T4.
    + intros th' Hth'. rewrite list_lookup_insert in Hth' by done. injection Hth' as <-. exists h. split; [done|]. split; [done|]. intros Hvf Hn. by destruct Hn, (Hv Hvf).
  - destruct Hok as (Hv & Hok). destruct (h_stack th) as [|[w k] st] eqn:Est; [done|]. destruct (unlock_thread th w k st HTt Hr Est) as (l & El & T1 & T2 & T3 & T4 & _).
    rewrite El in E. cbn [mbind option_bind] in E. injection E as <-. unfold set_thread.
    apply vstep_keep; [done|done| |apply keeps_insert|done|].
    + split; [|by apply Forall_insert]. intros w'. eapply x_same; [apply HM|done|apply T2|apply T3|..]; by rewrite T4.
    + intros th' Hth'. rewrite list_lookup_insert in Hth' by done. injection Hth' as <-. exists h. split; [done|]. split; [done|]. intros Hvf Hn. by destruct Hn, (Hv Hvf).
  - destruct (vinc h (v, r)) as [h'|] eqn:Ei; [|done].
    assert (exists n, s' = set_recs s (<[(v, r) := (t, S n)]> (v_recs s)) (<[t := rest]> (v_acts s)) /\ h' = Some ((v, r), n) /\
      ((exists n, v_recs s !! (v, r) = Some (t, n)) \/ v_recs s !! (v, r) = None) /\ (h = None \/ exists m, h = Some ((v, r), m))) as (n & -> & -> & Hr2 & Hh2).
    { destruct (v_recs s !! (v, r)) as [[u n]|] eqn:Er'.
      - destruct (decide (u = t)) as [->|]; [|done]. injection E as <-. destruct (proj1 (Hh (v, r) n) Er') as (n' & -> & ->). unfold vinc in Ei. rewrite decide_True in Ei by done. injection Ei as <-.
        exists (S n'). split; [done|]. split; [done|]. split; [eauto|]. right. eauto.
      - injection E as <-. destruct h as [[r' n]|]; unfold vinc in Ei; [|injection Ei as <-; exists 0; auto].
        destruct (decide (r' = (v, r))) as [->|]; [|done]. injection Ei as <-. pose proof (proj2 (Hh (v, r) (S n)) (ex_intro _ n (conj eq_refl eq_refl))). congruence. }
    apply vstep_keep; [done|done|done| | |].
    + split; [done|]. eauto.
    + intros r'. destruct (decide (r' = (v, r))) as [->|Hn']; [|left; by rewrite lookup_insert_ne]. right. rewrite lookup_insert. split; [done|eauto].
    + intros th' Hth'. assert (th' = th) as -> by congruence. exists (Some ((v, r), n)). split; [done|]. split; [|done].
      intros r' m. destruct (decide (r' = (v, r))) as [->|Hn'].
      * rewrite lookup_insert. split; [intros [= <-]; eauto|]. intros (n' & [= <-] & ->). done.
      * rewrite lookup_insert_ne by done. rewrite (Hh r' m). destruct Hh2 as [->|[m' ->]]; split; intros (n' & E1 & _); congruence.
  - destruct h as [[r' n]|]; [|done]. destruct Hok as [-> Hok].
    pose proof (proj2 (Hh (v, r) (S n)) (ex_intro _ n (conj eq_refl eq_refl))) as Er'. rewrite Er' in E. rewrite decide_True in E by done. injection E as <-.
    apply vstep_keep; [done|done|done| | |].
    + split; [done|]. eauto.
    + intros r'. destruct (decide (r' = (v, r))) as [->|Hn'].
      * right. split; [eauto|]. destruct (decide (n = 0)); [right; by rewrite lookup_delete|left; rewrite lookup_insert; eauto].
      * left. destruct (decide (n = 0)); [by rewrite lookup_delete_ne|by rewrite lookup_insert_ne].
    + intros th' Hth'. assert (th' = th) as -> by congruence. eexists. split; [exact Hok|]. split; [|done].
      intros r' m. destruct n as [|n].
      * rewrite decide_True by done. destruct (decide (r' = (v, r))) as [->|Hn']; [rewrite lookup_delete; split; [done|]; by intros (? & ? & _)|].
        rewrite lookup_delete_ne by done. rewrite (Hh r' m). split; intros (n' & E1 & _); congruence.
      * rewrite decide_False by done. destruct (decide (r' = (v, r))) as [->|Hn'].
        -- rewrite lookup_insert. split; [intros [= <-]; eauto|]. intros (n' & [= <-] & ->). done.
        -- rewrite lookup_insert_ne by done. rewrite (Hh r' m). split; intros (n' & E1 & _); congruence.
  - injection E as <-. apply vstep_keep; [done|done|done|split; [done|eauto]|auto|]. intros th' Hth'. assert (th' = th) as -> by congruence. exists h. destruct Hok. done.
  - injection E as <-. apply vstep_keep; [done|done|done|split; [done|eauto]|auto|]. intros th' Hth'. assert (th' = th) as -> by congruence. exists h. destruct Hok. done.
Qed.
Lemma vrun_inv vf acc l : forall s s', VInv vf acc s -> vrun s l = Some s' -> VInv vf acc s'.
Proof.
  induction l as [|t l IH]; intros s s' HI; cbn; [by intros [= <-]|]. destruct (vstep s t) as [s1|] eqn:E; [|done]. cbn. apply IH. by eapply vstep_inv.
Qed.
