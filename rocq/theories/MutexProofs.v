(** Invariant of the readers-writer mutex, exclusion and progress. *)
From Verif Require Import MutexModel MutexSpec.
Open Scope nat_scope.

(** Threads that count as readers in ReadCounter. *)
Definition counted (p : pc) : bool := match p with RL23 | RL24 | Reading | RU32 | RU33 => true | _ => false end.
Definition holds_wm (p : pc) : bool := match p with RL21 | RL22 | RL23 | RL24 | WL52 | WL54 | WL54w | Waiting | WL56 | Writing | WU64 => true | _ => false end.
Definition holds_rm (p : pc) : bool := match p with RL22 | RL23 | RU33 | RU35 | RU36 | RU37 | RU39 => true | _ => false end.
(** Where ReadCounter is 0 (behind the condition variable: only without spurious wake-ups). *)
Definition no_readers (sp : bool) (p : pc) : bool := match p with RU36 | RU37 => true | WL56 | Writing | WU64 => negb sp | _ => false end.
Definition flag_up (p : pc) : bool := match p with WL54 | WL54w | Waiting | WL56 => true | _ => false end.
Definition readers (l : list pc) : nat := sum_list_with (fun p => if counted p then 1 else 0) l.

Record MInv (sp : bool) (s : mstate) : Prop := {
  mi_wm : forall t p, m_pcs s !! t = Some p -> (holds_wm p = true <-> m_wm s = Some t);
  mi_wm_in : forall t, m_wm s = Some t -> is_Some (m_pcs s !! t);
  mi_rm : forall t p, m_pcs s !! t = Some p -> (holds_rm p = true <-> m_rm s = Some t);
  mi_rm_in : forall t, m_rm s = Some t -> is_Some (m_pcs s !! t);
  mi_count : m_count s = Z.of_nat (readers (m_pcs s));
  mi_none : forall t p, m_pcs s !! t = Some p -> no_readers sp p = true -> m_count s = 0%Z;
  mi_flag : m_flag s = true <-> exists t p, m_pcs s !! t = Some p /\ flag_up p = true;
}.

Lemma readers_insert l t p q : l !! t = Some p ->
  readers (<[t := q]> l) + (if counted p then 1 else 0) = readers l + (if counted q then 1 else 0).
Proof.
  revert t. induction l as [|x l IH]; intros [|t] H; try done.
  - injection H as ->. change (<[0 := q]> (p :: l)) with (q :: l). unfold readers. cbn [sum_list_with]. lia.
  - change (l !! t = Some p) in H. specialize (IH t H). change (<[S t := q]> (x :: l)) with (x :: <[t := q]> l). unfold readers in *. cbn [sum_list_with]. lia.
Qed.
Lemma readers_wake l : readers (wake <$> l) = readers l.
Proof. unfold readers. induction l as [|x l IH]; [done|]. destruct x; cbn in *; lia. Qed.
Lemma readers_pos l t p : l !! t = Some p -> counted p = true -> 0 < readers l.
Proof.
  revert t. induction l as [|x l IH]; intros [|t]; cbn; try done.
  - intros [= ->] ->. lia.
  - intros H Hc. specialize (IH t H Hc). unfold readers in IH. lia.
Qed.
Lemma lookup_go l t q u p : t < length l -> (<[t := q]> l : list pc) !! u = Some p -> (u = t /\ p = q) \/ (u <> t /\ l !! u = Some p).
Proof.
  intros Ht. destruct (decide (u = t)) as [->|Hn]; [rewrite list_lookup_insert by done; intros [= <-]; auto|].
  rewrite list_lookup_insert_ne by done. auto.
Qed.
Lemma m_init_inv sp n : MInv sp (m_init n).
Proof.
  assert (forall t p, replicate n Out !! t = Some p -> p = Out) as Hp by (intros t p H; by apply lookup_replicate in H as [? _]).
  split; cbn; try done; try (intros t p H; apply Hp in H; subst; done).
  - unfold readers. induction n as [|n IH]; [done|]. cbn. apply IH. intros t p H. by apply (Hp (S t)).
  - split; [done|]. intros (t & p & H & Hf). apply Hp in H. by subst.
Qed.
Definition lock_moves (hp hq : bool) (t : nat) (x x' : option nat) : Prop :=
  (hp = hq /\ x' = x) \/ (hp = false /\ hq = true /\ x = None /\ x' = Some t) \/ (hp = true /\ hq = false /\ x' = None).
Lemma lock_moves_inv (hold : pc -> bool) (l : list pc) t p q x x' : l !! t = Some p -> lock_moves (hold p) (hold q) t x x' ->
  (forall u r, l !! u = Some r -> (hold r = true <-> x = Some u)) -> (forall u, x = Some u -> is_Some (l !! u)) ->
  (forall u r, (<[t := q]> l) !! u = Some r -> (hold r = true <-> x' = Some u)) /\ (forall u, x' = Some u -> is_Some ((<[t := q]> l) !! u)).
Proof.
  intros Ht Hm H1 H2. pose proof (lookup_lt_Some _ _ _ Ht) as Hl. split.
  - intros u r Hu. apply (lookup_go _ _ _ _ _ Hl) in Hu as [[-> ->]|[Hn Hu]].
    + destruct Hm as [[E ->]|[(Hp & Hq & -> & ->)|(Hp & Hq & ->)]].
      * rewrite <- E. by apply H1.
      * by rewrite Hq.
      * rewrite Hq. done.
    + destruct Hm as [[E ->]|[(Hp & Hq & -> & ->)|(Hp & Hq & ->)]].
      * by apply H1.
      * split; [intros Hr; by apply (H1 u r) in Hr|intros [= ->]; done].
      * split; [|done]. intros Hr. apply (H1 u r Hu) in Hr. apply (H1 t p Ht) in Hp. congruence.
  - intros u Hu. destruct (decide (u = t)) as [->|Hn]; [rewrite list_lookup_insert by done; eauto|]. rewrite list_lookup_insert_ne by done.
    destruct Hm as [[E ->]|[(Hp & Hq & -> & ->)|(Hp & Hq & ->)]]; [by apply H2|by injection Hu as ->|done].
Qed.
Definition z1 (b : bool) : Z := if b then 1%Z else 0%Z.
Lemma goto_inv sp s t p q wm' rm' c' f' : MInv sp s -> m_pcs s !! t = Some p ->
  lock_moves (holds_wm p) (holds_wm q) t (m_wm s) wm' -> lock_moves (holds_rm p) (holds_rm q) t (m_rm s) rm' ->
  (c' = m_count s - z1 (counted p) + z1 (counted q))%Z ->
  (c' <> m_count s -> forall u r, u <> t -> m_pcs s !! u = Some r -> no_readers sp r = false \/ c' = 0%Z) ->
  (no_readers sp q = true -> c' = 0%Z) ->
  (flag_up p = flag_up q /\ f' = m_flag s \/ flag_up q = true /\ f' = true \/ flag_up p = true /\ flag_up q = false /\ f' = false /\ holds_wm p = true) ->
  MInv sp (MState (<[t := q]> (m_pcs s)) wm' rm' c' f').
Proof.
  intros HI Ht Hw Hr Hc Hn Hq Hf. pose proof (lookup_lt_Some _ _ _ Ht) as Hl.
  destruct (lock_moves_inv holds_wm (m_pcs s) t p q _ _ Ht Hw (mi_wm sp s HI) (mi_wm_in sp s HI)) as [W1 W2].
  destruct (lock_moves_inv holds_rm (m_pcs s) t p q _ _ Ht Hr (mi_rm sp s HI) (mi_rm_in sp s HI)) as [R1 R2].
  split; cbn [m_pcs m_wm m_rm m_count m_flag]; try done.
  - rewrite Hc, (mi_count sp s HI). pose proof (readers_insert (m_pcs s) t p q Ht) as E. unfold z1. destruct (counted p), (counted q); lia.
  - intros u r Hu Hnr. apply (lookup_go _ _ _ _ _ Hl) in Hu as [[-> ->]|[Hne Hu]]; [by apply Hq|].
    destruct (decide (c' = m_count s)) as [->|Hd]; [by eapply mi_none|]. destruct (Hn Hd u r Hne Hu); congruence.
  - destruct Hf as [[E ->]|[[E ->]|(Ep & Eq & -> & Ew)]].
    + rewrite (mi_flag sp s HI). split; intros (u & r & Hu & Hfl).
      * destruct (decide (u = t)) as [->|Hne].
        -- exists t, q. rewrite list_lookup_insert by done. split; [done|]. congruence.
        -- exists u, r. by rewrite list_lookup_insert_ne by done.
      * apply (lookup_go _ _ _ _ _ Hl) in Hu as [[-> ->]|[Hne Hu]]; [|by exists u, r]. exists t, p. split; [done|congruence].
    + split; [|done]. intros _. exists t, q. by rewrite list_lookup_insert by done.
    + split; [done|]. intros (u & r & Hu & Hfl). apply (lookup_go _ _ _ _ _ Hl) in Hu as [[-> ->]|[Hne Hu]]; [congruence|]. exfalso. apply Hne.
      assert (holds_wm r = true) as Hwr by (by destruct r). apply (mi_wm sp s HI u r Hu) in Hwr. apply (mi_wm sp s HI t p Ht) in Ew. congruence.
Qed.

Lemma notify_inv sp s : MInv sp s -> m_count s = 0%Z -> MInv sp (notify s).
Proof.
  intros HI H0. assert (forall t p, (wake <$> m_pcs s) !! t = Some p -> exists p0, m_pcs s !! t = Some p0 /\ p = wake p0) as Hl.
  { intros t p H. rewrite list_lookup_fmap in H. destruct (m_pcs s !! t) as [p0|]; [|done]. injection H as <-. eauto. }
  assert (forall t p0, m_pcs s !! t = Some p0 -> (wake <$> m_pcs s) !! t = Some (wake p0)) as Hr by (intros t p0 H; by rewrite list_lookup_fmap, H).
  split; cbn [notify m_pcs m_wm m_rm m_count m_flag].
  - intros t p H. apply Hl in H as (p0 & H & ->). rewrite <- (mi_wm sp s HI t p0 H). by destruct p0.
  - intros t H. destruct (mi_wm_in sp s HI t H) as [p0 E]. exists (wake p0). by apply Hr.
  - intros t p H. apply Hl in H as (p0 & H & ->). rewrite <- (mi_rm sp s HI t p0 H). by destruct p0.
  - intros t H. destruct (mi_rm_in sp s HI t H) as [p0 E]. exists (wake p0). by apply Hr.
  - rewrite readers_wake. apply (mi_count sp s HI).
  - done.
  - rewrite (mi_flag sp s HI). split; intros (t & p & H & Hf).
    + exists t, (wake p). split; [by apply Hr|]. by destruct p.
    + apply Hl in H as (p0 & H & ->). exists t, p0. split; [done|]. by destruct p0.
Qed.

Ltac lm := first [by left | by right; left | by right; right].
Lemma go_inv sp s t s' : MInv sp s -> go s t = Some s' -> MInv sp s'.
Proof.
  intros HI. unfold go. destruct (m_pcs s !! t) as [p|] eqn:Ht; [|done]. cbn [mbind option_bind].
  destruct p; try done.
  - destruct (m_wm s) eqn:E; [done|]. intros [= <-]. eapply (goto_inv sp s t RL20); [done|done|rewrite E; lm|lm|cbn; lia|done|done|by left].
  - destruct (m_rm s) eqn:E; [done|]. intros [= <-]. eapply (goto_inv sp s t RL21); [done|done|lm|rewrite E; lm|cbn; lia|done|done|by left].
  - intros [= <-]. eapply (goto_inv sp s t RL22); [done|done|lm|lm|cbn; lia| |done|by left]. intros _ u r Hne Hu. left.
    destruct r; try done; exfalso; apply Hne.
    all: first [apply (mi_rm sp s HI u _) in Hu as [Hu _]; specialize (Hu eq_refl); pose proof (mi_rm sp s HI t _ Ht) as [Ht' _]; specialize (Ht' eq_refl); congruence
               |apply (mi_wm sp s HI u _) in Hu as [Hu _]; specialize (Hu eq_refl); pose proof (mi_wm sp s HI t _ Ht) as [Ht' _]; specialize (Ht' eq_refl); congruence].
  - intros [= <-]. eapply (goto_inv sp s t RL23); [done|done|lm|lm|cbn; lia|done|done|by left].
  - intros [= <-]. eapply (goto_inv sp s t RL24); [done|done|lm|lm|cbn; lia|done|done|by left].
  - destruct (m_rm s) eqn:E; [done|]. intros [= <-]. eapply (goto_inv sp s t RU32); [done|done|lm|rewrite E; lm|cbn; lia|done|done|by left].
  - intros [= <-]. eapply (goto_inv sp s t RU33); [done|done|lm|lm|cbn; lia| |done|by left]. intros _ u r Hne Hu. left.
    destruct (no_readers sp r) eqn:En; [|done]. exfalso. pose proof (mi_none sp s HI u r Hu En) as H0. rewrite (mi_count sp s HI) in H0.
    pose proof (readers_pos _ t _ Ht eq_refl). lia.
  - intros [= <-]. destruct (decide (m_count s = 0%Z)).
    + eapply (goto_inv sp s t RU35); [done|done|lm|lm|cbn; lia|done|done|by left].
    + eapply (goto_inv sp s t RU35); [done|done|lm|lm|cbn; lia|done|done|by left].
  - pose proof (mi_none sp s HI t _ Ht eq_refl). intros [= <-]. destruct (m_flag s) eqn:E.
    + eapply (goto_inv sp s t RU36); [done|done|lm|lm|cbn; lia|done|done|by left].
    + eapply (goto_inv sp s t RU36); [done|done|lm|lm|cbn; lia|done|done|by left].
  - pose proof (mi_none sp s HI t _ Ht eq_refl) as H0. intros [= <-].
    eapply (goto_inv sp (notify s) t RU37); [by apply notify_inv|cbn; by rewrite list_lookup_fmap, Ht|lm|lm|cbn; lia|done|done|by left].
  - intros [= <-]. eapply (goto_inv sp s t RU39); [done|done|lm|lm|cbn; lia|done|done|by left].
  - destruct (m_wm s) eqn:E; [done|]. intros [= <-]. eapply (goto_inv sp s t WL50); [done|done|rewrite E; lm|lm|cbn; lia|done|done|by left].
  - intros [= <-]. eapply (goto_inv sp s t WL52); [done|done|lm|lm|cbn; lia|done|done|by right; left].
  - intros [= <-]. destruct (0 <? m_count s)%Z eqn:E.
    + eapply (goto_inv sp s t WL54); [done|done|lm|lm|cbn; lia|done|done|by left].
    + apply Z.ltb_ge in E. assert (m_count s = 0%Z) by (rewrite (mi_count sp s HI) in *; lia).
      eapply (goto_inv sp s t WL54); [done|done|lm|lm|cbn; lia|done|done|by left].
  - intros [= <-]. eapply (goto_inv sp s t WL54w); [done|done|lm|lm|cbn; lia|done|done|by left].
  - pose proof (fun H => mi_none sp s HI t _ Ht H) as H0. intros [= <-].
    eapply (goto_inv sp s t WL56); [done|done|lm|lm|cbn; lia|done|exact H0|by right; right].
  - intros [= <-]. eapply (goto_inv sp s t WU64); [done|done|lm|lm|cbn; lia|done|done|by left].
Qed.
Lemma call_inv sp s t c s' : MInv sp s -> call s t c = Some s' -> MInv sp s'.
Proof.
  intros HI. unfold call. destruct (m_pcs s !! t) as [p|] eqn:Ht; [|done]. cbn [mbind option_bind].
  destruct (entry c p) as [q|] eqn:E; [|done]. intros [= <-].
  pose proof (fun H => mi_none sp s HI t p Ht H) as H0.
  destruct c, p; try done; injection E as <-; (eapply (goto_inv sp s t _); [done|done|lm|lm|cbn; lia|done|first [done|exact H0]|by left]).
Qed.
Lemma mstep_inv sp s a s' : MInv sp s -> mstep sp s a = Some s' -> MInv sp s'.
Proof.
  intros HI. destruct a as [t|t c|t]; cbn; [by apply go_inv|by apply call_inv|]. destruct sp; [|done]. unfold spurious_wake.
  destruct (m_pcs s !! t) as [p|] eqn:Ht; [|done]. cbn [mbind option_bind]. destruct (decide (p = Waiting)) as [->|]; [|done]. intros [= <-].
  eapply (goto_inv true s t Waiting); [done|done|lm|lm|cbn; lia|done|done|by left].
Qed.
Lemma mrun_inv sp l : forall s s', MInv sp s -> mrun sp s l = Some s' -> MInv sp s'.
Proof.
  induction l as [|a l IH]; intros s s' HI; cbn; [by intros [= <-]|]. destruct (mstep sp s a) as [s1|] eqn:E; [|done]. cbn.
  apply IH. by eapply mstep_inv.
Qed.
