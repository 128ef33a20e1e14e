(** The recursive mutex: what each thread holds, exclusion, progress. *)
From Verif Require Import MutexModel MutexSpec MutexProofs MutexProofs2.
Open Scope nat_scope.

(** The state at rest a call ends in. *)
Definition rest_of (p : pc) : pc :=
  match p with
  | RL20 | RL21 | RL22 | RL23 | RL24 | Reading => Reading
  | WL50 | WL52 | WL54 | WL54w | Waiting | WL56 | Writing => Writing
  | _ => Out
  end.
Fixpoint plan_end (p : pc) (l : list mcall) : option pc :=
  match l with [] => Some p | c :: l' => q ← entry c p; plan_end (rest_of q) l' end.
Fixpoint count_of (st : list rkind) : rcount :=
  match st with
  | [] => RCount 0 0
  | KRead :: st' => let c := count_of st' in if c_write c =? 0 then RCount (S (c_read c)) (c_write c) else c
  | KWrite :: st' => let c := count_of st' in RCount (c_read c) (S (c_write c))
  end.
Definition target (c : rcount) : pc := if 0 <? c_write c then Writing else if 0 <? c_read c then Reading else Out.

Lemma rlock_spec k st : (rlock k (count_of st)).2 = count_of (k :: st) /\
  plan_end (target (count_of st)) (rlock k (count_of st)).1 = Some (target (count_of (k :: st))).
Proof. cbn [count_of]. destruct (count_of st) as [r w]; destruct k; cbn [rlock c_read c_write]; destruct w as [|w], r as [|r]; done. Qed.
Lemma runlock_spec k st : exists todo, runlock k (count_of (k :: st)) = Some (todo, count_of st) /\
  plan_end (target (count_of (k :: st))) todo = Some (target (count_of st)) /\ length todo <= 2.
Proof.
  cbn [count_of]. destruct (count_of st) as [r w]; destruct k; cbn [runlock c_read c_write]; destruct w as [|w], r as [|r]; cbn; eexists; split; try done; split; try done; cbn; lia.
Qed.
Lemma count_write st : c_write (count_of st) = 0 <-> KWrite ∉ st.
Proof.
  induction st as [|[] st IH]; cbn [count_of].
  - split; [|done]. intros _ H. by apply elem_of_nil in H.
  - destruct (c_write (count_of st) =? 0) eqn:E; cbn [c_write]; rewrite IH, not_elem_of_cons; intuition done.
  - cbn [c_write]. split; [done|]. intros H. destruct H. left.
Qed.
Lemma count_zero st : target (count_of st) = Out <-> st = [].
Proof.
  split; [|by intros ->]. destruct st as [|k st]; [done|]. cbn [count_of]. unfold target. destruct (count_of st) as [r w]; destruct k; cbn [c_read c_write]; destruct w; done.
Qed.
Lemma target_write st : target (count_of st) = Writing <-> KWrite ∈ st.
Proof.
  unfold target. pose proof (count_write st) as H. destruct (c_write (count_of st)) as [|w] eqn:E; cbn.
  - split; [intros Hq; destruct (c_read (count_of st)); discriminate Hq|]. intros Hin. by destruct (proj1 H eq_refl).
  - split; [|done]. intros _. destruct (decide (KWrite ∈ st)); [done|]. destruct H as [_ H]. by specialize (H n).
Qed.
Lemma target_resting c : resting (target c) = true.
Proof. unfold target. by destruct (0 <? c_write c), (0 <? c_read c). Qed.

Record RInv3 (s : rstate) : Prop := {
  r3_base : MInv2 false (s_base s);
  r3_len : length (s_threads s) = length (m_pcs (s_base s));
  r3_thread : forall t th p, s_threads s !! t = Some th -> m_pcs (s_base s) !! t = Some p ->
    t_count th = count_of (t_stack th) /\ plan_end (rest_of p) (t_todo th) = Some (target (t_count th));
}.
Lemma rs_init_inv n : RInv3 (rs_init n).
Proof.
  split; cbn; [apply m_init_inv2|by rewrite !replicate_length|]. intros t th p Ht Hp.
  apply lookup_replicate in Ht as [-> _]. apply lookup_replicate in Hp as [-> _]. done.
Qed.
Lemma goto_length t q s : length (m_pcs (goto t q s)) = length (m_pcs s).
Proof. apply insert_length. Qed.
Lemma go_rest s t s' : go s t = Some s' -> length (m_pcs s') = length (m_pcs s) /\
  forall u p', m_pcs s' !! u = Some p' -> exists p, m_pcs s !! u = Some p /\ rest_of p' = rest_of p.
Proof.
  intros E. unfold go in E. destruct (m_pcs s !! t) as [p|] eqn:Ht; [|done]. cbn [mbind option_bind] in E.
  pose proof (lookup_lt_Some _ _ _ Ht) as Hl.
  assert (forall q, rest_of q = rest_of p -> length (<[t := q]> (m_pcs s)) = length (m_pcs s) /\
    forall u p', <[t := q]> (m_pcs s) !! u = Some p' -> exists p, m_pcs s !! u = Some p /\ rest_of p' = rest_of p) as Hq.
  { intros q Hr. split; [apply insert_length|]. intros u p' Hu. apply (lookup_go _ _ _ _ _ Hl) in Hu as [[-> ->]|[_ Hu]]; eauto. }
  destruct p; try done; try (destruct (m_wm s); [done|]); try (destruct (m_rm s); [done|]);
    [..|destruct (decide (m_count s = 0%Z))|destruct (m_flag s)| | | | |destruct (0 <? m_count s)%Z| | |];
    injection E as <-; cbn [goto with_wm with_rm with_count with_flag m_pcs]; try by apply Hq.
  cbn [notify m_pcs]. split; [by rewrite insert_length, fmap_length|]. intros u p' Hu.
  apply lookup_go in Hu as [[-> ->]|[_ Hu]]; [by exists RU37| |by rewrite fmap_length].
  rewrite list_lookup_fmap in Hu. destruct (m_pcs s !! u) as [p0|]; [|done]. injection Hu as <-. exists p0. split; [done|]. by destruct p0.
Qed.
Lemma lookup_th (l : list rthread) t q u p : t < length l -> <[t := q]> l !! u = Some p -> (u = t /\ p = q) \/ (u <> t /\ l !! u = Some p).
Proof.
  intros Ht. destruct (decide (u = t)) as [->|Hn]; [rewrite list_lookup_insert by done; intros [= <-]; auto|].
  rewrite list_lookup_insert_ne by done. auto.
Qed.
Lemma resting_rest p : resting p = true -> rest_of p = p.
Proof. by destruct p. Qed.
Lemma entry_resting c p q : entry c p = Some q -> resting p = true.
Proof. by destruct c, p. Qed.

Lemma rstep_inv s a s' : RInv3 s -> rstep s a = Some s' -> RInv3 s'.
Proof.
  intros [HB HL HT]. destruct a as [t k|t|t|t]; cbn [rstep].
  - destruct (s_threads s !! t) as [th|] eqn:Hth; [|done]. cbn [mbind option_bind]. destruct (m_pcs (s_base s) !! t) as [p|] eqn:Hp; [|done]. cbn [mbind option_bind].
    destruct (resting p && bool_decide (t_todo th = [])) eqn:E; [|done]. apply andb_true_iff in E as [Er Et]. apply bool_decide_eq_true in Et.
    destruct (HT t th p Hth Hp) as [Hc Hpl]. rewrite Et in Hpl. cbn in Hpl. injection Hpl as Hpl.
    destruct (rlock_spec k (t_stack th)) as [H1 H2]. rewrite <- Hc in H1, H2. destruct (rlock k (t_count th)) as [todo c]. cbn in H1, H2. intros [= <-].
    split; cbn [s_threads s_base]; [done|by rewrite insert_length|]. intros u uh q Hu Hq. apply lookup_th in Hu as [[-> ->]|[Hn Hu]]; [|by eapply HT|by eapply lookup_lt_Some].
    assert (q = p) as -> by congruence. cbn [t_count t_stack t_todo]. split; [done|]. by rewrite Hpl, H2, H1.
  - destruct (s_threads s !! t) as [th|] eqn:Hth; [|done]. cbn [mbind option_bind]. destruct (m_pcs (s_base s) !! t) as [p|] eqn:Hp; [|done]. cbn [mbind option_bind].
    destruct (resting p && bool_decide (t_todo th = [])) eqn:E; [|done]. apply andb_true_iff in E as [Er Et]. apply bool_decide_eq_true in Et.
    destruct (HT t th p Hth Hp) as [Hc Hpl]. rewrite Et in Hpl. cbn in Hpl. injection Hpl as Hpl.
    destruct (t_stack th) as [|k st] eqn:Es; [done|]. destruct (runlock_spec k st) as (todo & H1 & H2 & _). rewrite Hc, H1. cbn [mbind option_bind]. intros [= <-].
    split; cbn [s_threads s_base]; [done|by rewrite insert_length|]. intros u uh q Hu Hq. apply lookup_th in Hu as [[-> ->]|[Hn Hu]]; [|by eapply HT|by eapply lookup_lt_Some].
    assert (q = p) as -> by congruence. cbn [t_count t_stack t_todo]. split; [done|]. by rewrite Hpl, Hc, H2.
  - destruct (s_threads s !! t) as [th|] eqn:Hth; [|done]. cbn [mbind option_bind]. destruct (t_todo th) as [|c todo] eqn:Et; [done|].
    destruct (call (s_base s) t c) as [b|] eqn:Ec; [|done]. cbn [mbind option_bind]. intros [= <-].
    pose proof (call_inv2 _ _ _ _ _ HB Ec) as HB'. unfold call in Ec. destruct (m_pcs (s_base s) !! t) as [p|] eqn:Hp; [|done]. cbn [mbind option_bind] in Ec.
    destruct (entry c p) as [q0|] eqn:Ee; [|done]. injection Ec as <-. split; cbn [s_threads s_base]; [done|by rewrite insert_length, goto_length|].
    destruct (HT t th p Hth Hp) as [Hc Hpl]. rewrite Et in Hpl. cbn [plan_end] in Hpl. rewrite (resting_rest p) in Hpl by (by eapply entry_resting). rewrite Ee in Hpl.
    intros u uh q Hu Hq. cbn [goto m_pcs] in Hq. apply lookup_th in Hu as [[-> ->]|[Hn Hu]]; [| |by eapply lookup_lt_Some].
    + rewrite list_lookup_insert in Hq by (by eapply lookup_lt_Some). injection Hq as <-. done.
    + rewrite list_lookup_insert_ne in Hq by done. by eapply HT.
  - destruct (go (s_base s) t) as [b|] eqn:Eg; [|done]. cbn [mbind option_bind]. intros [= <-]. destruct (go_rest _ _ _ Eg) as [H1 H2].
    split; cbn [s_threads s_base]; [by eapply go_inv2|congruence|]. intros u uh q Hu Hq. destruct (H2 u q Hq) as (p & Hp & Hr). rewrite Hr. by eapply HT.
Qed.
Lemma rrun_inv l : forall s s', RInv3 s -> rrun s l = Some s' -> RInv3 s'.
Proof.
  induction l as [|a l IH]; intros s s' HI; cbn; [by intros [= <-]|]. destruct (rstep s a) as [s1|] eqn:E; [|done]. cbn. apply IH. by eapply rstep_inv.
Qed.
Lemma rrun_app l1 l2 s : rrun s (l1 ++ l2) = (s' ← rrun s l1; rrun s' l2).
Proof. revert s. induction l1 as [|a l1 IH]; intros s; cbn; [done|]. destruct (rstep s a); cbn; [apply IH|done]. Qed.

(** What a thread between two calls holds. *)
Lemma quiet_target s t th p : RInv3 s -> s_threads s !! t = Some th -> m_pcs (s_base s) !! t = Some p -> t_todo th = [] -> resting p = true ->
  p = target (count_of (t_stack th)).
Proof.
  intros HI Ht Hp Htd Hr. destruct (r3_thread s HI t th p Ht Hp) as [Hc Hpl]. rewrite Htd in Hpl. cbn in Hpl. injection Hpl as Hpl.
  rewrite (resting_rest p Hr) in Hpl. congruence.
Qed.

(** ** Progress *)
Definition thread_cost (th : rthread) : nat := 60 * length (t_stack th) + 25 * length (t_todo th).
Definition rwork (s : rstate) : nat := work (s_base s) + sum_list_with thread_cost (s_threads s).
Lemma inside_rrun l : forall s b', Forall inside l -> mrun false (s_base s) l = Some b' ->
  exists l', Forall rfinishing l' /\ rrun s l' = Some (RState (s_threads s) b').
Proof.
  induction l as [|a l IH]; intros s b' Hl; cbn.
  - intros [= <-]. exists []. split; [done|]. by destruct s.
  - inversion Hl as [|? ? Ha Hl']; subst. destruct a as [t| |]; try done. cbn [mstep]. destruct (go (s_base s) t) as [b1|] eqn:E; [|done]. cbn [mbind option_bind].
    intros Hr. destruct (IH (RState (s_threads s) b1) b' Hl' Hr) as (l' & Hf & E'). exists (RGo t :: l'). split; [by constructor|].
    cbn [rrun rstep]. rewrite E. cbn [mbind option_bind]. done.
Qed.
Lemma plan_entry p c todo q : plan_end (rest_of p) (c :: todo) = Some q -> resting p = true -> exists p', entry c p = Some p'.
Proof. intros H Hr. cbn [plan_end] in H. rewrite (resting_rest p Hr) in H. destruct (entry c p); [eauto|done]. Qed.
Lemma entry_cost c p q : entry c p = Some q -> cost q <= cost p + 21.
Proof. destruct c, p; try done; intros [= <-]; cbn; lia. Qed.

Lemma rfinish s : RInv3 s -> exists l s', Forall rfinishing l /\ rrun s l = Some s' /\ all_free s'.
Proof.
  remember (rwork s) as n eqn:En. revert s En. induction n as [n IH] using lt_wf_ind. intros s -> HI.
  assert (forall l s', Forall rfinishing l -> rrun s l = Some s' -> rwork s' < rwork s ->
    exists l s', Forall rfinishing l /\ rrun s l = Some s' /\ all_free s') as Hstep.
  { intros l s' Hl E Hw. destruct (IH (rwork s') Hw s' eq_refl) as (l2 & s2 & Hl2 & E2 & H2); [by eapply rrun_inv|].
    exists (l ++ l2), s2. split; [by apply Forall_app|]. split; [|done]. rewrite rrun_app, E. done. }
  set (idle := fun x : rthread * pc => resting x.2 = true -> t_stack x.1 = [] /\ t_todo x.1 = []).
  assert (forall x, Decision (idle x)) as Hd.
  { intros [th p]. unfold idle. cbn. destruct (resting p); [|left; done]. destruct (decide (t_stack th = [] /\ t_todo th = [])) as [H|H]; [left; done|right; intros H'; by apply H, H']. }
  destruct (decide (Forall idle (zip (s_threads s) (m_pcs (s_base s))))) as [Hf|Hf].
  - assert (forall t th p, s_threads s !! t = Some th -> m_pcs (s_base s) !! t = Some p -> resting p = true -> t_stack th = [] /\ t_todo th = [] /\ p = Out) as Hi.
    { intros t th p Ht Hp Hr. rewrite Forall_lookup in Hf. destruct (Hf t (th, p)) as [H1 H2]; [|done|].
      { rewrite lookup_zip_with, Ht. cbn. by rewrite Hp. }
      cbn in H1, H2. split; [done|]. split; [done|]. rewrite (quiet_target s t th p) by done. by rewrite H1. }
    assert (forall t p, m_pcs (s_base s) !! t = Some p -> exists th, s_threads s !! t = Some th) as Hth.
    { intros t p Hp. apply lookup_lt_is_Some_2. rewrite (r3_len s HI). by eapply lookup_lt_Some. }
    destruct (decide (Exists (fun p => p <> Out) (m_pcs (s_base s)))) as [Hy|Hy].
    + apply Exists_exists in Hy as (p & Hp & Hpp). apply elem_of_list_lookup_1 in Hp as [t Ht].
      destruct (progress false (s_base s) (r3_base s HI)) as (l & b' & Hl & E & Hw).
      * intros u. split; intros Hu; destruct (Hth u _ Hu) as [uh Huh]; by destruct (Hi u uh _ Huh Hu eq_refl) as (_ & _ & ?).
      * eauto.
      * destruct (inside_rrun l s b' Hl E) as (l' & Hl' & E'). eapply Hstep; [done..|]. unfold rwork. cbn [s_base s_threads]. lia.
    + assert (forall t p, m_pcs (s_base s) !! t = Some p -> p = Out) as Hout.
      { intros t p Ht. destruct (decide (p = Out)); [done|]. exfalso. apply Hy, Exists_exists. exists p. split; [by eapply elem_of_list_lookup_2|done]. }
      exists [], s. split; [done|]. split; [done|]. split; [|done]. intros t th Ht.
      assert (is_Some (m_pcs (s_base s) !! t)) as [p Hp] by (apply lookup_lt_is_Some_2; rewrite <- (r3_len s HI); by eapply lookup_lt_Some).
      destruct (Hi t th p Ht Hp) as (H1 & H2 & _); [|done]. by rewrite (Hout t p Hp).
  - apply not_Forall_Exists in Hf; [|done]. apply Exists_exists in Hf as ((th & p) & Hin & Hx). apply elem_of_list_lookup_1 in Hin as [t Ht].
    rewrite lookup_zip_with in Ht. destruct (s_threads s !! t) as [th'|] eqn:Hth; [|done]. cbn in Ht.
    destruct (m_pcs (s_base s) !! t) as [p'|] eqn:Hp; [|done]. injection Ht as -> ->. unfold idle in Hx. cbn in Hx.
    assert (resting p = true) as Hr by (destruct (resting p); [done|by destruct Hx]).
    destruct (r3_thread s HI t th p Hth Hp) as [Hc Hpl].
    destruct (t_todo th) as [|c todo] eqn:Etd.
    + destruct (t_stack th) as [|k st] eqn:Est; [by destruct Hx|]. destruct (runlock_spec k st) as (todo & H1 & _ & H3).
      eapply (Hstep [RUnlock t]); [by repeat constructor|cbn [rrun rstep]; rewrite Hth; cbn [mbind option_bind]; rewrite Hp; cbn [mbind option_bind];
        rewrite Hr, bool_decide_true by done; cbn [andb]; rewrite Est, Hc, H1; cbn [mbind option_bind]; reflexivity|].
      unfold rwork. cbn [s_base s_threads]. pose proof (sum_insert thread_cost (s_threads s) t th (RThread st (count_of st) todo) Hth) as Hs.
      unfold thread_cost in Hs at 2 4. cbn [t_stack t_todo] in Hs. rewrite Est, Etd in Hs. cbn [length] in Hs. lia.
    + destruct (plan_entry p c todo _ Hpl Hr) as [q Eq].
      eapply (Hstep [RNext t]); [by repeat constructor|cbn [rrun rstep]; rewrite Hth; cbn [mbind option_bind]; rewrite Etd; unfold call; rewrite Hp; cbn [mbind option_bind]; rewrite Eq; cbn [mbind option_bind]; reflexivity|].
      unfold rwork. cbn [s_base s_threads]. unfold work. cbn [goto m_pcs].
      pose proof (sum_insert thread_cost (s_threads s) t th (RThread (t_stack th) (t_count th) todo) Hth) as Hs.
      unfold thread_cost in Hs at 2 4. cbn [t_stack t_todo] in Hs. rewrite Etd in Hs. cbn [length] in Hs.
      pose proof (sum_insert cost (m_pcs (s_base s)) t p q Hp) as Hs2. pose proof (entry_cost _ _ _ Eq). lia.
Qed.
