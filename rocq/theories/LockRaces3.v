(** Threads that only read side by side (C57). *)
From Verif Require Export LockRaces2.
From Verif Require Import MutexProofs MutexProofs2 MutexProofs3 LockProofs.
Open Scope nat_scope.

Definition calm (s : cstate) (u : nat) : Prop := forall v p, v <> u -> m_pcs (s_base (c_lock s)) !! v = Some p -> p = Out \/ p = Reading.
Lemma calm_frame u s s' : calm s u -> frame u s s' -> calm s' u.
Proof. intros H F v p Hne Hp. rewrite (fr_pc _ _ _ F v Hne) in Hp. by eapply H. Qed.
Lemma mgo_calm l : forall b b' u, Forall inside l -> mrun false b l = Some b' -> (forall v p, v <> u -> m_pcs b !! v = Some p -> p = Out \/ p = Reading) ->
  (forall v, v <> u -> m_pcs b' !! v = m_pcs b !! v) /\ (forall p', m_pcs b' !! u = Some p' -> exists p, m_pcs b !! u = Some p /\ rest_of p' = rest_of p).
Proof.
  induction l as [|a l IH]; intros b b' u Hl E Ho; cbn in E; [injection E as <-; by eauto|]. inversion Hl as [|? ? Ha Hl']; subst. destruct a as [t| |]; try done. cbn [mstep] in E.
  destruct (go b t) as [b1|] eqn:Eg; [|done]. cbn [mbind option_bind] in E.
  assert (t = u) as ->.
  { destruct (decide (t = u)); [done|]. unfold go in Eg. destruct (m_pcs b !! t) as [p|] eqn:Hp; [|done]. by destruct (Ho t p n Hp) as [-> | ->]. }
  assert (forall v, v <> u -> m_pcs b1 !! v = m_pcs b !! v) as H1.
  { intros w Hw. destruct (m_pcs b !! w) as [p|] eqn:Hp.
    - destruct (Ho w p Hw Hp) as [-> | ->]; by apply (go_other _ _ _ _ _ Eg).
    - apply lookup_ge_None in Hp. apply lookup_ge_None. by rewrite (proj1 (go_rest _ _ _ Eg)). }
  destruct (IH b1 b' u Hl' E) as [I1 I2]; [intros w p Hw Hp; rewrite H1 in Hp by done; by eapply Ho|]. split.
  - intros v Hne. rewrite I1 by done. by apply H1.
  - intros p' Hp'. destruct (I2 p' Hp') as (p1 & Hp1 & R1). destruct (proj2 (go_rest _ _ _ Eg) u p1 Hp1) as (p0 & Hp0 & R0). exists p0. split; [done|congruence].
Qed.
Lemma settle_read s u th p : RInv3 (c_lock s) -> length (c_todo s) = length (s_threads (c_lock s)) -> calm s u -> s_threads (c_lock s) !! u = Some th ->
  m_pcs (s_base (c_lock s)) !! u = Some p -> CWriteLock ∉ t_todo th -> rest_of p <> Writing ->
  exists l s', crun s l = Some s' /\ at_rest (c_lock s') u = true /\ (exists th', s_threads (c_lock s') !! u = Some th' /\ t_stack th' = t_stack th) /\
    c_recs s' = c_recs s /\ c_todo s' !! u = c_todo s !! u /\ frame u s s'.
Proof.
  remember (cwork s) as n eqn:En. revert s th p En. induction n as [n IH] using lt_wf_ind. intros s th p -> HL Hl Ho Hth Hp Hno Hrest.
  destruct (at_rest (c_lock s) u) eqn:Har; [exists [], s; repeat (split; [by eauto|]); apply frame_refl|].
  assert (is_Some (c_todo s !! u)) as [acts Ha] by (apply lookup_lt_is_Some; rewrite Hl; by eapply lookup_lt_Some).
  assert (forall l1 s1 th1 p1, crun s l1 = Some s1 -> cwork s1 < cwork s -> s_threads (c_lock s1) !! u = Some th1 -> m_pcs (s_base (c_lock s1)) !! u = Some p1 -> CWriteLock ∉ t_todo th1 -> rest_of p1 <> Writing ->
    t_stack th1 = t_stack th -> c_recs s1 = c_recs s -> c_todo s1 !! u = c_todo s !! u -> frame u s s1 ->
    exists l s', crun s l = Some s' /\ at_rest (c_lock s') u = true /\ (exists th', s_threads (c_lock s') !! u = Some th' /\ t_stack th' = t_stack th) /\
    c_recs s' = c_recs s /\ c_todo s' !! u = c_todo s !! u /\ frame u s s') as Hgen.
  { intros l1 s1 th1 p1 E1 Hw Hth1 Hp1 Hno1 Hr1 Hst Hrc Htd F. destruct (crun_rinv l1 s s1 HL Hl E1) as [HL1 Hl1].
    destruct (IH (cwork s1) Hw s1 th1 p1 eq_refl HL1 Hl1 (calm_frame _ _ _ Ho F) Hth1 Hp1 Hno1 Hr1) as (l2 & s2 & E2 & A1 & (th2 & A2 & A2') & A3 & A4 & A5).
    exists (l1 ++ l2), s2. rewrite crun_app, E1. cbn [mbind option_bind]. split; [done|]. split; [done|]. split; [exists th2; split; [done|congruence]|].
    split; [congruence|]. split; [congruence|]. by eapply frame_trans. }
  destruct (resting p) eqn:Hr.
  - destruct (t_todo th) as [|c todo] eqn:Etd; [unfold at_rest in Har; rewrite Hth, Hp, Hr, Etd in Har; done|].
    destruct (r3_thread _ HL u th p Hth Hp) as [_ Hpl]. rewrite Etd in Hpl. destruct (plan_entry p c todo _ Hpl Hr) as [q Eq].
    set (s1 := CState (RState (<[u := RThread (t_stack th) (t_count th) todo]> (s_threads (c_lock s))) (goto u q (s_base (c_lock s)))) (c_recs s) (c_todo s)).
    assert (cstep s u = Some s1) as E.
    { unfold cstep. rewrite Hth. cbn [mbind option_bind]. rewrite Hp. cbn [mbind option_bind]. rewrite Ha. cbn [mbind option_bind]. rewrite Hr, Etd. cbn [negb]. unfold lock_step. cbn [rstep]. rewrite Hth. cbn [mbind option_bind]. rewrite Etd.
      unfold call. rewrite Hp. cbn [mbind option_bind]. rewrite Eq. done. }
    apply (Hgen [u] s1 (RThread (t_stack th) (t_count th) todo) q).
    + cbn [crun]. by rewrite E.
    + by eapply rest_step_down.
    + cbn. apply list_lookup_insert. by eapply lookup_lt_Some.
    + cbn. apply list_lookup_insert. by eapply lookup_lt_Some.
    + cbn. set_solver.
    + intros Hq. destruct c, p; try done; injection Eq as <-; try done. set_solver.
    + done.
    + done.
    + done.
    + split; cbn [s1 c_lock c_recs c_todo s_threads s_base goto m_pcs]; [intros v Hv; by apply list_lookup_insert_ne|intros v Hv; by apply list_lookup_insert_ne|done|done].
  - destruct (progress2 false (s_base (c_lock s)) (r3_base _ HL)) as [(l & b' & Hin & E & Hw)|(x & Hj)].
    + eauto.
    + destruct (inside_crun l s b' Hl (r3_len _ HL) Hin E) as (l' & E'). destruct (mgo_calm l _ _ u Hin E Ho) as [M1 M2].
      assert (is_Some (m_pcs b' !! u)) as [p1 Hp1].
      { destruct (crun_rinv _ _ _ HL Hl E') as [HL' _]. pose proof (r3_len _ HL') as Hx. cbn [c_lock s_threads s_base] in Hx. apply lookup_lt_is_Some. rewrite <- Hx. by eapply lookup_lt_Some. }
      eapply (Hgen l' _ th p1 E'); cbn [c_lock c_recs c_todo s_threads s_base]; try done.
      * unfold cwork, rwork. cbn [c_lock c_todo s_base s_threads]. lia.
      * destruct (M2 p1 Hp1) as (p0 & Hp0 & R0). congruence.
    + exfalso. destruct Hj as [Hx|[Hx _]]; (destruct (decide (x = u)) as [->|Hne]; [rewrite Hp in Hx; injection Hx as ->; done|by destruct (Ho x _ Hne Hx)]).
Qed.
Lemma rest_read st p : p = target (count_of st) -> KWrite ∉ st -> rest_of p <> Writing.
Proof.
  intros -> H Hr. apply H, target_write. pose proof (resting_rest (target (count_of st))) as Hx. rewrite <- Hr. symmetry. apply Hx. unfold target. by repeat case_match.
Qed.
Lemma adv_lock_read s u st h a rest st' h' : conf s u st h (a :: rest) -> calm s u -> KWrite ∉ st -> a <> ALock KWrite -> ~ plain a -> next st h a = Some (st', h') ->
  exists l s', crun s l = Some s' /\ conf s' u st' h' rest /\ frame u s s'.
Proof.
  intros [C1 C2 C3 (th & C4 & C4') C5 C6] Ho Hnw Hna Hpl Hn. destruct (at_rest_inv _ _ C3) as (th' & p & E1 & Ep & Hr & Etd). assert (th' = th) as -> by congruence.
  pose proof (lookup_lt_Some _ _ _ C5) as Hlt. pose proof (lookup_lt_Some _ _ _ C4) as Hlt2. destruct (r3_thread _ C1 u th p C4 Ep) as [Hc _].
  pose proof (quiet_target _ u th p C1 C4 Ep Etd Hr) as Htar. rewrite C4' in Htar. pose proof (rest_read _ _ Htar Hnw) as Hrest.
  assert (forall todo c st1, cstep s u = Some (CState (RState (<[u := RThread st1 c todo]> (s_threads (c_lock s))) (s_base (c_lock s))) (c_recs s) (<[u := rest]> (c_todo s))) ->
    CWriteLock ∉ todo -> (st', h') = (st1, h) -> exists l s', crun s l = Some s' /\ conf s' u st' h' rest /\ frame u s s') as Hgen.
  { intros todo c st1 E Hno [= -> ->]. destruct (cstep_rinv _ _ _ C1 C2 E) as [HL1 Hl1].
    set (s1 := CState (RState (<[u := RThread st1 c todo]> (s_threads (c_lock s))) (s_base (c_lock s))) (c_recs s) (<[u := rest]> (c_todo s))) in *.
    assert (frame u s s1) as F.
    { split; cbn [s1 c_lock c_recs c_todo s_threads s_base]; [intros v Hv; by apply list_lookup_insert_ne|done|intros v Hv; by apply list_lookup_insert_ne|done]. }
    destruct (settle_read s1 u (RThread st1 c todo) p HL1 Hl1 (calm_frame _ _ _ Ho F)) as (l & s2 & E2 & A1 & (th2 & A2 & A2') & A3 & A4 & A5); [|done|done|done|].
    { cbn. by apply list_lookup_insert. }
    exists (u :: l), s2. cbn [crun]. rewrite E. cbn [mbind option_bind]. split; [done|]. split; [|by eapply frame_trans].
    destruct (crun_rinv _ _ _ HL1 Hl1 E2) as [HL2 Hl2]. split; [done|done|done|by exists th2| |].
    - rewrite A4. cbn. by apply list_lookup_insert.
    - by rewrite A3. }
  unfold cstep in Hgen. rewrite C4 in Hgen. cbn [mbind option_bind] in Hgen. rewrite Ep in Hgen. cbn [mbind option_bind] in Hgen. rewrite C5 in Hgen. cbn [mbind option_bind] in Hgen. rewrite Hr, Etd in Hgen. cbn [negb] in Hgen.
  destruct a as [k| |r|r|x|x]; cbn [plain next] in *; try (by destruct Hpl).
  - destruct k; [|done]. unfold lock_step in Hgen. cbn [rstep] in Hgen. rewrite C4 in Hgen. cbn [mbind option_bind] in Hgen. rewrite Ep in Hgen. cbn [mbind option_bind] in Hgen. rewrite Hr, Etd in Hgen. cbn [andb] in Hgen. rewrite bool_decide_true in Hgen by done.
    pose proof (rlock_read (t_count th)) as Hx.
    destruct (rlock KRead (t_count th)) as [todo c] eqn:El. cbn [mbind option_bind] in Hgen. eapply Hgen; [done|exact Hx|]. rewrite C4'. by injection Hn as <- <-.
  - destruct st as [|k st]; [done|]. injection Hn as <- <-. unfold lock_step in Hgen. cbn [rstep] in Hgen. rewrite C4 in Hgen. cbn [mbind option_bind] in Hgen. rewrite Ep in Hgen. cbn [mbind option_bind] in Hgen. rewrite Hr, Etd in Hgen. cbn [andb] in Hgen. rewrite bool_decide_true in Hgen by done.
    rewrite C4' in Hgen. destruct (runlock_spec k st) as (todo & E1' & _).
    assert (CWriteLock ∉ todo) as Hx by (eapply (runlock_no yes0 yes1 yes2); exact E1'). rewrite Hc, C4', E1' in Hgen. cbn [mbind option_bind] in Hgen. eapply Hgen; [reflexivity|exact Hx|reflexivity].
Qed.
Lemma next_read st h a st' h' : next st h a = Some (st', h') -> a <> ALock KWrite -> KWrite ∉ st -> KWrite ∉ st'.
Proof.
  destruct a as [k| |r|r|x|x]; cbn [next]; intros E Ha Hst.
  - injection E as <- _. destruct k; [|done]. set_solver.
  - destruct st; [done|]. injection E as <- _. set_solver.
  - destruct (inc h r); [|done]. by injection E as <- _.
  - destruct h as [[]|]; [|done]. destruct (decide (n = r)); [|done]. by injection E as <- _.
  - by injection E as <- _.
  - by injection E as <- _.
Qed.
Lemma adv_read l : forall s u st h rest st' h', conf s u st h (l ++ rest) -> after st h l = Some (st', h') -> calm s u -> KWrite ∉ st -> ALock KWrite ∉ l ->
  (forall r v n, ARec r ∈ l -> c_recs s !! r = Some (v, n) -> v = u) ->
  exists ls s', crun s ls = Some s' /\ conf s' u st' h' rest /\ frame u s s'.
Proof.
  induction l as [|a l IH]; intros s u st h rest st' h' C Haft Ho Hst Hnl Hfree; cbn [after app] in *.
  { injection Haft as <- <-. exists [], s. split; [done|]. split; [done|apply frame_refl]. }
  destruct (next st h a) as [[st1 h1]|] eqn:En; [|done]. assert (a <> ALock KWrite) as Hna by (intros ->; apply Hnl; left).
  assert (exists l1 s1, crun s l1 = Some s1 /\ conf s1 u st1 h1 (l ++ rest) /\ frame u s s1) as (l1 & s1 & E1 & C1 & F1).
  { assert (plain a \/ ~ plain a) as [Hp|Hp] by (destruct a; cbn; tauto).
    - destruct (adv_plain s u st h a (l ++ rest) st1 h1 C Hp En) as (s1 & E & H1 & H2); [intros r v n -> Hv; eapply Hfree; [left|done]|]. exists [u], s1. cbn. rewrite E. done.
    - by eapply adv_lock_read. }
  destruct (IH s1 u st1 h1 rest st' h' C1 Haft) as (l2 & s2 & E2 & C2 & F2).
  - by eapply calm_frame.
  - by eapply next_read.
  - intros Hx. apply Hnl. by right.
  - intros r v n Hr Hv. destruct (decide (v = u)); [done|]. apply (fr_recs _ _ _ F1) in Hv; [|done]. eapply Hfree; [by right|done].
  - exists (l1 ++ l2), s2. rewrite crun_app, E1. cbn [mbind option_bind]. split; [done|]. split; [done|]. by eapply frame_trans.
Qed.
Lemma after_read l : forall st h st' h', after st h l = Some (st', h') -> ALock KWrite ∉ l -> KWrite ∉ st -> KWrite ∉ st'.
Proof.
  induction l as [|a l IH]; intros st h st' h'; cbn [after]; [by intros [= <- <-]|]. destruct (next st h a) as [[st1 h1]|] eqn:E; [|done]. intros H Hl Hst.
  eapply IH; [done|set_solver|]. eapply next_read; [done| |done]. intros ->. apply Hl. left.
Qed.

(** ** The race *)
Lemma conf_about s t st h a rest : conf s t st h (a :: rest) -> about_to s t a.
Proof. intros [_ _ C3 _ C5 _]. split; [done|eauto]. Qed.
Lemma calls_found cs t c x w g : calls cs t c -> (x, w, g) ∈ uses c ->
  exists l1 p rest st h, (program <$> cs) !! t = Some (program l1 ++ p ++ act x w :: rest) /\ after [] None p = Some (st, h) /\ matches g st h /\ (g = GRead -> ALock KWrite ∉ p).
Proof.
  intros Hc Hx. destruct (calls_split _ _ _ Hc) as (l1 & l2 & E). pose proof (proj1 (Forall_forall _ _) (uses_found c) _ Hx) as (st & h & (p & rest & Es & Ha) & Hm).
  exists l1, p, (rest ++ program l2), st, h. split; [|split; [done|split; [done|]]].
  - rewrite E, Es. by rewrite <- app_assoc.
  - intros ->. pose proof (reader_no_write c (shared_reader _ _ _ Hx)) as H. rewrite Es in H. intros Hp. apply H. apply elem_of_app. by left.
Qed.
(** Two threads get to two accesses that do not exclude each other. *)
Lemma meet cs t u x w g y w' g' c d : t <> u -> calls cs t c -> calls cs u d -> (x, w, g) ∈ uses c -> (y, w', g') ∈ uses d -> ~ excludes g g' ->
  exists l s, crun (c_init (program <$> cs)) l = Some s /\ about_to s t (act x w) /\ about_to s u (act y w').
Proof.
  intros Hne Hc Hd Hx Hy Hex.
  destruct (calls_found _ _ _ _ _ _ Hc Hx) as (a1 & p & ra & st & h & Et & Hp & Hm & Hr), (calls_found _ _ _ _ _ _ Hd Hy) as (b1 & q & rb & st' & h' & Eu & Hq & Hm' & Hr').
  set (s0 := c_init (program <$> cs)). pose proof (init_idle (program <$> cs)) as I0. fold s0 in I0.
  destruct (run_calls s0 t (program a1) _ I0 (init_conf _ _ _ Et) (program_after a1)) as (l1 & s1 & E1 & T1 & F1 & I1).
  destruct (run_calls s1 u (program b1) (q ++ act y w' :: rb) I1) as (l2 & s2 & E2 & U2 & F2 & I2); [|apply program_after|].
  { apply (conf_frame u t s0 s1); [auto|by apply init_conf|done|apply I1|apply I1]. }
  assert (conf s2 t [] None (p ++ act x w :: ra)) as T2 by (apply (conf_frame t u s1 s2); [auto|done|done|apply I2|apply I2]).
  assert (exists l3 s3, crun s2 l3 = Some s3 /\ conf s3 t st h (act x w :: ra) /\ conf s3 u st' h' (act y w' :: rb)) as (l3 & s3 & E3 & T3 & U3).
  2:{ exists (l1 ++ l2 ++ l3), s3. rewrite crun_app, E1. cbn [mbind option_bind]. rewrite crun_app, E2. cbn [mbind option_bind]. split; [done|]. split; by eapply conf_about. }
  (* one of the two holds nothing: it goes first *)
  assert (forall t u p q st h st' h' a b ra rb, t <> u -> conf s2 t [] None (p ++ a :: ra) -> conf s2 u [] None (q ++ b :: rb) -> after [] None p = Some (st, h) -> after [] None q = Some (st', h') -> st' = [] /\ h' = None ->
    exists l3 s3, crun s2 l3 = Some s3 /\ conf s3 t st h (a :: ra) /\ conf s3 u st' h' (b :: rb)) as Hfirst.
  { clear -I2. intros t u p q st h st' h' a b ra rb Hne T2 U2 Hp Hq [-> ->].
    destruct (run_calls s2 u q (b :: rb) I2 U2 Hq) as (l3 & s3 & E3 & U3 & F3 & I3).
    destruct (adv_list p s3 t [] None (a :: ra) st h) as (l4 & s4 & E4 & T4 & F4).
    - apply (conf_frame t u s2 s3); [auto|done|done|apply I3|apply I3].
    - done.
    - right. intros v k _. apply I3.
    - intros r v n _. by rewrite (id_recs _ I3).
    - exists (l3 ++ l4), s4. rewrite crun_app, E3. cbn [mbind option_bind]. split; [done|]. split; [done|].
      destruct (crun_rinv _ _ _ (id_lock _ I3) (id_len _ I3) E4) as [HL4 Hl4]. by apply (conf_frame u t s3 s4); [auto|..]. }
  destruct (decide (g' = GNone)) as [->|Hg']; [by eapply Hfirst|].
  destruct (decide (g = GNone)) as [->|Hg].
  { destruct (Hfirst u t q p st' h' st h (act y w') (act x w) rb ra) as (l3 & s3 & E3 & U3 & T3); [auto|done..|]. eauto. }
  assert (g = GRead) as -> by (destruct g; [done|done|]; exfalso; apply Hex; by left). assert (g' = GRead) as -> by (destruct g'; [done|done|]; exfalso; apply Hex; by right).
  destruct Hm as [_ ->], Hm' as [_ ->].
  destruct (adv_list p s2 t [] None (act x w :: ra) st None T2 Hp) as (l3 & s3 & E3 & T3 & F3).
  { right. intros v k _. apply I2. }
  { intros r v n _. by rewrite (id_recs _ I2). }
  destruct (crun_rinv _ _ _ (id_lock _ I2) (id_len _ I2) E3) as [HL3 Hl3].
  destruct (adv_read q s3 u [] None (act y w' :: rb) st' None) as (l4 & s4 & E4 & U4 & F4).
  - by apply (conf_frame u t s2 s3); [auto|..].
  - done.
  - intros v k Hv Hk. destruct (decide (v = t)) as [->|Hvt]; [|rewrite (fr_pc _ _ _ F3 v Hvt) in Hk; left; by eapply I2].
    destruct (at_rest_inv _ _ (cf_rest _ _ _ _ _ T3)) as (th & k' & A1 & A2 & A3 & A4). assert (k' = k) as -> by congruence.
    pose proof (quiet_target _ t th k HL3 A1 A2 A4 A3) as Hk'. destruct (cf_stack _ _ _ _ _ T3) as (th' & B1 & B2). assert (th' = th) as -> by congruence. rewrite B2 in Hk'.
    assert (KWrite ∉ st) as Hns by (eapply after_read; [exact Hp|by apply Hr|apply not_elem_of_nil]).
    assert (target (count_of st) <> Writing) as Hnw by (intros Hx0; by apply target_write in Hx0). rewrite <- Hk' in Hnw.
    destruct k; try done; auto.
  - apply not_elem_of_nil.
  - by apply Hr'.
  - intros r v n _ Hv. exfalso. destruct (decide (v = t)) as [->|Hvt].
    + apply (cf_holds _ _ _ _ _ T3) in Hv as (n' & ? & _). done.
    + apply (fr_recs _ _ _ F3) in Hv; [|done]. by rewrite (id_recs _ I2) in Hv.
  - exists (l3 ++ l4), s4. rewrite crun_app, E3. cbn [mbind option_bind]. split; [done|]. split; [|done].
    destruct (crun_rinv _ _ _ HL3 Hl3 E4) as [HL4 Hl4]. by apply (conf_frame t u s3 s4); [auto|..].
Qed.
Lemma race_iff cs : (exists l s, crun (c_init (program <$> cs)) l = Some s /\ race s) <-> racy cs.
Proof.
  split.
  - intros (l & s & E & H). eapply race_racy; [|exact H]. eapply crun_inv; [apply programs_listed|exact E].
  - intros (t & u & c & d & Hne & Hc & Hd & x & w & g & w' & g' & Hx & Hy & Hw & Hex).
    destruct (meet cs t u x w g x w' g' c d Hne Hc Hd Hx Hy Hex) as (l & s & E & A1 & A2). exists l, s. split; [done|].
    destruct w.
    + exists t, u, x, (act x w'). split; [done|]. split; [done|]. split; [done|]. destruct w'; auto.
    + destruct Hw as [?| ->]; [done|]. exists u, t, x, (act x false). split; [auto|]. split; [done|]. split; [done|]. by left.
Qed.
