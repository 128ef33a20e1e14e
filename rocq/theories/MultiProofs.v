(** Proofs about MultiModel.v: the invariant of the mutexes of all vaults. *)
From Verif Require Export MultiSpec.
From Verif Require Import MutexProofs MutexProofs2 MutexProofs3 LockProofs.
Open Scope nat_scope.

(** ** What a thread holds *)
(** The vault of the outermost lock for writing. *)
Fixpoint wv (st : list (nat * rkind)) : option nat :=
  match st with [] => None | (v, k) :: st => match wv st with Some w => Some w | None => match k with KWrite => Some v | KRead => None end end end.
(** The vault of the outermost lock, if it is for reading. *)
Definition lastr (st : list (nat * rkind)) : option nat := match last st with Some (v, KRead) => Some v | _ => None end.
Definition z1' (P : Prop) `{Decision P} : Z := if decide P then 1%Z else 0%Z.
Definition tgt (st : list (nat * rkind)) (v : nat) : Z :=
  (z1' (lastr st = Some v) - match lastr st with Some _ => z1' (wv st = Some v) | None => 0 end)%Z.
Definition pendc (c : mcall) : Z := match c with CReadLock => 1 | CReadUnlock => -1 | _ => 0 end%Z.
Definition pendp (p : pc) : Z := match p with RL20 | RL21 | RL22 => 1 | RU32 | RU33 => -1 | _ => 0 end%Z.
Fixpoint pend (v : nat) (l : list (nat * mcall)) : Z := match l with [] => 0 | (w, c) :: l => (if decide (w = v) then pendc c else 0) + pend v l end%Z.
Definition contrib (v : nat) (th : vthread) : Z := (tgt (h_stack th) v - pend v (h_calls th) - pendp (at_pc v th))%Z.
Definition holdw (v : nat) (th : vthread) : bool :=
  match h_at th with
  | Some (w, p) => bool_decide (w = v) && holds_wm p
  | None => match h_calls th with [] => bool_decide (wv (h_stack th) = Some v) | (w, CWriteUnlock) :: _ => bool_decide (w = v) | _ => false end
  end.
Fixpoint zsum {A} (f : A -> Z) (l : list A) : Z := match l with [] => 0 | x :: l => f x + zsum f l end%Z.
Lemma zsum_insert {A} (f : A -> Z) l t p q : l !! t = Some p -> (zsum f (<[t := q]> l) + f p = zsum f l + f q)%Z.
Proof.
  revert t. induction l as [|x l IH]; intros [|t] H; try done.
  - injection H as ->. change (<[0 := q]> (p :: l)) with (q :: l). cbn [zsum]. lia.
  - change (l !! t = Some p) in H. specialize (IH t H). change (<[S t := q]> (x :: l)) with (x :: <[t := q]> l). cbn [zsum]. lia.
Qed.
Lemma zsum_fmap {A} (f : A -> Z) (g : A -> A) l : (forall x, f (g x) = f x) -> zsum f (g <$> l) = zsum f l.
Proof. intros H. induction l as [|x l IH]; [done|]. cbn [fmap list_fmap zsum]. by rewrite IH, H. Qed.

Record XInv (v : nat) (l : list vthread) (x : vmutex) : Prop := {
  xi_wm : forall u th, l !! u = Some th -> (holdw v th = true <-> x_wm x = Some u);
  xi_wm_in : forall u, x_wm x = Some u -> is_Some (l !! u);
  xi_rm : forall u th, l !! u = Some th -> (holds_rm (at_pc v th) = true <-> x_rm x = Some u);
  xi_rm_in : forall u, x_rm x = Some u -> is_Some (l !! u);
  xi_count : x_count x = zsum (contrib v) l;
  xi_flag : x_flag x = true <-> exists u th, l !! u = Some th /\ flag_up (at_pc v th) = true;
  xi_wake : forall u th, l !! u = Some th -> blocked (at_pc v th) = true ->
    (0 < x_count x)%Z \/ (x_count x = 0%Z /\ exists u th, l !! u = Some th /\ notifier (at_pc v th) = true);
}.

Lemma lookup_ins {A} (l : list A) t q u p : t < length l -> <[t := q]> l !! u = Some p -> (u = t /\ p = q) \/ (u <> t /\ l !! u = Some p).
Proof.
  intros Hl H. destruct (decide (u = t)) as [->|Hn]; [left; rewrite list_lookup_insert in H by done; by injection H as ->|right].
  by rewrite list_lookup_insert_ne in H.
Qed.
Lemma moves_inv {A} (hold : A -> bool) (l : list A) t p q x x' : l !! t = Some p -> lock_moves (hold p) (hold q) t x x' ->
  (forall u r, l !! u = Some r -> (hold r = true <-> x = Some u)) -> (forall u, x = Some u -> is_Some (l !! u)) ->
  (forall u r, (<[t := q]> l) !! u = Some r -> (hold r = true <-> x' = Some u)) /\ (forall u, x' = Some u -> is_Some ((<[t := q]> l) !! u)).
Proof.
  intros Ht Hm H1 H2. pose proof (lookup_lt_Some _ _ _ Ht) as Hl. split.
  - intros u r Hu. apply (lookup_ins _ _ _ _ _ Hl) in Hu as [[-> ->]|[Hn Hu]].
    + destruct Hm as [[E ->]|[(Hp & Hq & -> & ->)|(Hp & Hq & ->)]].
      * rewrite <- E. by apply H1.
      * by rewrite Hq.
      * rewrite Hq. done.
    + destruct Hm as [[E ->]|[(Hp & Hq & -> & ->)|(Hp & Hq & ->)]].
      * by apply H1.
      * split; [intros Hr; by apply (H1 u r) in Hr|intros [= ->]; done].
      * split; [|done]. intros Hr. apply (H1 u r Hu) in Hr. apply (H1 t p Ht) in Hp. congruence.
  - intros u Hu. destruct (decide (u = t)) as [->|Hn]; [rewrite list_lookup_insert by done; eauto|]. rewrite list_lookup_insert_ne by done.
    destruct Hm as [[E ->]|[(Hp & Hq & -> & ->)|(Hp & Hq & ->)]]; [by apply H2|by injection Hu as ->|done].
Qed.
(** One thread changes. *)
Lemma x_step v l x x' t th th' : XInv v l x -> l !! t = Some th ->
  lock_moves (holdw v th) (holdw v th') t (x_wm x) (x_wm x') ->
  lock_moves (holds_rm (at_pc v th)) (holds_rm (at_pc v th')) t (x_rm x) (x_rm x') ->
  (x_count x' = x_count x + contrib v th' - contrib v th)%Z ->
  (flag_up (at_pc v th') = x_flag x' /\ (x_flag x = true -> flag_up (at_pc v th) = true) \/ (flag_up (at_pc v th') = flag_up (at_pc v th) /\ x_flag x' = x_flag x)) ->
  (blocked (at_pc v th') = true -> blocked (at_pc v th) = true \/ (0 < x_count x')%Z) ->
  ((exists u uh, l !! u = Some uh /\ blocked (at_pc v uh) = true) -> (0 < x_count x')%Z \/
     (x_count x' = x_count x /\ (notifier (at_pc v th) = true -> x_count x = 0%Z -> notifier (at_pc v th') = true)) \/ (x_count x' = 0%Z /\ notifier (at_pc v th') = true)) ->
  XInv v (<[t := th']> l) x'.
Proof.
  intros HI Ht Hw Hr Hc Hf Hb Hn. pose proof (lookup_lt_Some _ _ _ Ht) as Hl.
  destruct (moves_inv (holdw v) l t th th' _ _ Ht Hw (xi_wm _ _ _ HI) (xi_wm_in _ _ _ HI)) as [W1 W2].
  destruct (moves_inv (fun th => holds_rm (at_pc v th)) l t th th' _ _ Ht Hr (xi_rm _ _ _ HI) (xi_rm_in _ _ _ HI)) as [R1 R2].
  split; try done.
  - rewrite Hc, (xi_count _ _ _ HI). pose proof (zsum_insert (contrib v) l t th th' Ht). lia.
  - split.
    + intros Hx. destruct Hf as [[E F]|[E F]]; [exists t, th'; by rewrite list_lookup_insert, E|].
      rewrite F in Hx. apply (xi_flag _ _ _ HI) in Hx as (u & uh & Hu & Hup). destruct (decide (u = t)) as [->|Hne].
      * exists t, th'. rewrite list_lookup_insert by done. split; [done|]. rewrite E. congruence.
      * exists u, uh. by rewrite list_lookup_insert_ne.
    + intros (u & uh & Hu & Hup). apply (lookup_ins _ _ _ _ _ Hl) in Hu as [[-> ->]|[Hne Hu]].
      * destruct Hf as [[E F]|[E F]]; [congruence|]. rewrite F. apply (xi_flag _ _ _ HI). exists t, th. split; [done|congruence].
      * assert (x_flag x = true) as Hx by (apply (xi_flag _ _ _ HI); eauto).
        destruct Hf as [[E F]|[E F]]; [|congruence]. specialize (F Hx). exfalso. 
        assert (forall th, flag_up (at_pc v th) = true -> holdw v th = true) as G.
        { clear. intros th. unfold at_pc, holdw. destruct (h_at th) as [[w p]|]; [|done]. destruct (decide (w = v)) as [->|]; [|done]. rewrite bool_decide_true by done. by destruct p. }
        apply G in F, Hup. apply (xi_wm _ _ _ HI _ _ Ht) in F. apply (xi_wm _ _ _ HI _ _ Hu) in Hup. congruence.
  - intros u uh Hu Hbl.
    assert ((0 < x_count x')%Z \/ exists u uh, l !! u = Some uh /\ blocked (at_pc v uh) = true) as [?|(v' & r' & Hv' & Hb')]; [|by left|].
    { apply (lookup_ins _ _ _ _ _ Hl) in Hu as [[-> ->]|[Hne Hu]]; [destruct (Hb Hbl)|]; eauto 6. }
    assert (notifier (at_pc v th') = true -> exists u th0, <[t := th']> l !! u = Some th0 /\ notifier (at_pc v th0) = true) as Hself.
    { intros H. exists t, th'. by rewrite list_lookup_insert. }
    destruct (Hn ltac:(eauto)) as [?|[[E1 E2]|[E1 E2]]]; [by left| |by right; auto].
    rewrite E1. destruct (xi_wake _ _ _ HI _ _ Hv' Hb') as [?|(E0 & u2 & uh2 & Hu2 & Hn2)]; [by left|]. right. split; [done|].
    destruct (decide (u2 = t)) as [->|Hne2].
    + apply Hself, E2; [|done]. congruence.
    + exists u2, uh2. by rewrite list_lookup_insert_ne.
Qed.
(** Nothing changes for vault [v]. *)
Lemma x_same v l x t th th' : XInv v l x -> l !! t = Some th -> holdw v th' = holdw v th -> contrib v th' = contrib v th ->
  holds_rm (at_pc v th') = holds_rm (at_pc v th) -> flag_up (at_pc v th') = flag_up (at_pc v th) ->
  blocked (at_pc v th') = blocked (at_pc v th) -> notifier (at_pc v th') = notifier (at_pc v th) -> XInv v (<[t := th']> l) x.
Proof.
  intros HI Ht H1 H2 H3 H4 H5 H6. eapply x_step; try done.
  - left. by rewrite H1.
  - left. by rewrite H3.
  - lia.
  - by right.
  - intros H. left. congruence.
  - intros _. right; left. split; [done|]. congruence.
Qed.

(** ** Steps inside a call *)
Definition at_ok (th : vthread) : Prop := forall v p, h_at th = Some (v, p) -> resting p = false.
Definition wk (v : nat) (th : vthread) : vthread := put_pc v th (wake (at_pc v th)).
Lemma at_put v th p w q : h_at th = Some (v, q) -> at_pc w (put_pc v th p) = (if decide (w = v) then if resting p then Out else p else Out).
Proof.
  intros E. unfold put_pc. rewrite E. rewrite decide_True by done. unfold at_pc. cbn [h_at]. destruct (resting p).
  - by destruct (decide (w = v)).
  - destruct (decide (v = w)) as [->|]; [by rewrite decide_True|]. by rewrite decide_False.
Qed.
Lemma put_at v l : Forall at_ok l -> zip_with (put_pc v) l (at_pc v <$> l) = l.
Proof.
  induction 1 as [|th l H Hl IH]; [done|]. cbn [fmap list_fmap zip_with]. rewrite IH. f_equal. unfold put_pc, at_pc.
  destruct th as [st c calls [[w p]|]]; cbn [h_at]; [|done]. destruct (decide (w = v)) as [->|]; [|done]. by rewrite (H v p eq_refl).
Qed.
Lemma put_wake v l : zip_with (put_pc v) l (wake <$> (at_pc v <$> l)) = wk v <$> l.
Proof. induction l as [|th l IH]; [done|]. cbn [fmap list_fmap zip_with]. by rewrite IH. Qed.
Lemma put_insert v (l : list vthread) pcs t th q : l !! t = Some th -> zip_with (put_pc v) l (<[t := q]> pcs) = <[t := put_pc v th q]> (zip_with (put_pc v) l pcs).
Proof. intros H. rewrite insert_zip_with. by rewrite (list_insert_id l t th H). Qed.
Lemma put_put v th p q r : h_at th = Some (v, r) -> resting p = false -> put_pc v (put_pc v th p) q = put_pc v th q.
Proof. intros E Hp. unfold put_pc at 2 3. rewrite E, !decide_True by done. rewrite Hp. unfold put_pc. cbn [h_at]. by rewrite decide_True. Qed.
Lemma wk_at v th : at_ok th -> at_pc v (wk v th) = wake (at_pc v th) /\ h_stack (wk v th) = h_stack th /\ h_calls (wk v th) = h_calls th /\ h_count (wk v th) = h_count th.
Proof.
  intros H. unfold wk, put_pc, at_pc. destruct (h_at th) as [[w p]|] eqn:E; [|by rewrite E]. destruct (decide (w = v)) as [->|].
  - specialize (H v p E). cbn [h_at h_stack h_calls h_count]. assert (resting (wake p) = false) as -> by (by destruct p). by rewrite decide_True.
  - rewrite E. rewrite decide_False by done. done.
Qed.
Lemma wk_other v w th : w <> v -> at_pc w (wk v th) = at_pc w th.
Proof.
  intros Hne. unfold wk, put_pc. destruct (h_at th) as [[w' p]|] eqn:E; [|done]. destruct (decide (w' = v)) as [->|]; [|done].
  unfold at_pc. cbn [h_at]. rewrite E, (decide_False (P := v = w)) by done. destruct (resting _); [done|]. by rewrite decide_False.
Qed.
Lemma wk_holdw v w th : at_ok th -> holdw w (wk v th) = holdw w th.
Proof.
  intros H. unfold wk, put_pc, at_pc. destruct (h_at th) as [[w' p]|] eqn:E; [|done]. destruct (decide (w' = v)) as [->|]; [|done].
  specialize (H v p E). unfold holdw. rewrite E. cbn [h_at h_calls h_stack]. assert (resting (wake p) = false) as -> by (by destruct p). by destruct p.
Qed.
Lemma wk_contrib v w th : at_ok th -> contrib w (wk v th) = contrib w th.
Proof.
  intros H. unfold contrib. destruct (wk_at v th H) as (E1 & -> & -> & _). destruct (decide (w = v)) as [->|Hne]; [|by rewrite wk_other].
  rewrite E1. by destruct (at_pc v th).
Qed.
Lemma x_wake v w l x : Forall at_ok l -> XInv w l x -> XInv w (wk v <$> l) x.
Proof.
  intros Hok HI. rewrite Forall_lookup in Hok.
  assert (forall u th, (wk v <$> l) !! u = Some th -> exists uh, l !! u = Some uh /\ th = wk v uh) as Hl.
  { intros u th H. rewrite list_lookup_fmap in H. apply fmap_Some in H as (uh & ? & ->). eauto. }
  assert (forall u th, l !! u = Some th -> (wk v <$> l) !! u = Some (wk v th)) as Hl' by (intros u th H; by rewrite list_lookup_fmap, H).
  assert (forall u th, l !! u = Some th -> holds_rm (at_pc w (wk v th)) = holds_rm (at_pc w th) /\ flag_up (at_pc w (wk v th)) = flag_up (at_pc w th) /\
    (blocked (at_pc w (wk v th)) = true -> blocked (at_pc w th) = true) /\ notifier (at_pc w (wk v th)) = notifier (at_pc w th)) as Hx.
  { intros u th H. destruct (decide (w = v)) as [->|Hne]; [|by rewrite wk_other]. destruct (wk_at v th (Hok _ _ H)) as (-> & _). by destruct (at_pc v th). }
  split.
  - intros u th H. apply Hl in H as (uh & H & ->). rewrite wk_holdw by (by eapply Hok). by apply HI.
  - intros u H. rewrite list_lookup_fmap. destruct (xi_wm_in _ _ _ HI u H) as [? ->]. eauto.
  - intros u th H. apply Hl in H as (uh & H & ->). destruct (Hx _ _ H) as (-> & _). by apply HI.
  - intros u H. rewrite list_lookup_fmap. destruct (xi_rm_in _ _ _ HI u H) as [? ->]. eauto.
  - rewrite (xi_count _ _ _ HI). clear -Hok. induction l as [|th l IH]; [done|]. cbn [fmap list_fmap zsum].
    rewrite (wk_contrib v w th) by (by apply (Hok 0)). f_equal. apply IH. intros i y Hi. by apply (Hok (S i)).
  - rewrite (xi_flag _ _ _ HI). split; intros (u & th & H & Hf).
    + exists u, (wk v th). split; [by apply Hl'|]. by destruct (Hx _ _ H) as (_ & -> & _).
    + apply Hl in H as (uh & H & ->). exists u, uh. split; [done|]. by destruct (Hx _ _ H) as (_ & <- & _).
  - intros u th H Hb. apply Hl in H as (uh & H & ->). apply (Hx _ _ H) in Hb. destruct (xi_wake _ _ _ HI _ _ H Hb) as [?|(E & u2 & th2 & H2 & Hn)]; [by left|].
    right. split; [done|]. exists u2, (wk v th2). split; [by apply Hl'|]. by destruct (Hx _ _ H2) as (_ & _ & _ & ->).
Qed.
