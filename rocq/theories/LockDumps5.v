(** Exactly which programs can get stuck (C56). *)
From Verif Require Export LockDumps4.
From Verif Require Import MutexProofs MutexProofs2 MutexProofs3 LockProofs.
Open Scope nat_scope.

(** ** No standoff: everybody can finish *)
Lemma programs_dinv cs : DInv (fun t r => calls cs t (KRefDump r)) (fun t (b : bool) r => exists c, calls cs t c /\ r ∈ takes c /\ (b = true -> writes c))
  (fun t => exists w, calls cs t w /\ writes w) (c_init (program <$> cs)).
Proof.
  apply c_init_dinv. intros t p Hp. rewrite list_lookup_fmap in Hp. apply fmap_Some in Hp as (cl & Hcl & ->). apply dgood_ok. unfold program. apply dgood_concat. intros c Hc.
  apply skeleton_dgood.
  - intros r ->. by exists cl.
  - intros b r Hr Hb. exists c. split; [by exists cl|done].
  - intros Hw. exists c. split; [by exists cl|done].
Qed.
Lemma no_standoff_finishes cs l s : ~ standoff cs -> crun (c_init (program <$> cs)) l = Some s -> exists l' s', crun s l' = Some s' /\ finished s'.
Proof.
  intros Hno E. eapply dcan_finish; [| |eapply dcrun_inv; [apply programs_dinv|exact E]].
  - intros t u r Hd (c & Hc & Hr & Hw). destruct (decide (t = u)) as [|Hne]; [done|]. exfalso. apply Hno. exists t, u, r, c. split; [done|]. split; [done|]. split; [done|]. split; [done|]. left. by apply Hw.
  - intros t u v b r Hd (c & Hc & Hr & _) (w & Hw & Hww) Hne. destruct (decide (v = t)) as [|H1]; [by left|]. destruct (decide (v = u)) as [|H2]; [by right|].
    exfalso. apply Hno. exists t, u, r, c. split; [by apply not_eq_sym|]. split; [done|]. split; [done|]. split; [done|]. right. exists v, w. done.
Qed.

(** ** A standoff: some run gets stuck *)
(** Nobody holds anything. *)
Record idle (s : cstate) : Prop := {
  id_lock : RInv3 (c_lock s);
  id_len : length (c_todo s) = length (s_threads (c_lock s));
  id_out : forall v p, m_pcs (s_base (c_lock s)) !! v = Some p -> p = Out;
  id_recs : forall r, c_recs s !! r = None;
}.
Lemma conf_out s u h acts : conf s u [] h acts -> m_pcs (s_base (c_lock s)) !! u = Some Out.
Proof.
  intros [C1 C2 C3 (th & C4 & C4') C5 C6]. destruct (at_rest_inv _ _ C3) as (th' & p & E1 & Ep & Hr & Etd). assert (th' = th) as -> by congruence.
  pose proof (quiet_target _ u th p C1 C4 Ep Etd Hr) as ->. by rewrite C4' in Ep.
Qed.
Lemma run_calls s u l rest : idle s -> conf s u [] None (l ++ rest) -> after [] None l = Some ([], None) ->
  exists ls s', crun s ls = Some s' /\ conf s' u [] None rest /\ frame u s s' /\ idle s'.
Proof.
  intros [I1 I2 I3 I4] C Ha. destruct (adv_list l s u [] None rest [] None C Ha) as (ls & s' & E & C' & F).
  - right. intros v p _. apply I3.
  - intros r v n _. by rewrite I4.
  - exists ls, s'. split; [done|]. split; [done|]. split; [done|]. destruct (crun_rinv _ _ _ I1 I2 E) as [R1 R2]. split; [done|done| |].
    + intros v p Hp. destruct (decide (v = u)) as [->|Hne]; [pose proof (conf_out _ _ _ _ C'); congruence|]. rewrite (fr_pc _ _ _ F v Hne) in Hp. by eapply I3.
    + intros r. destruct (c_recs s' !! r) as [[v n]|] eqn:Er; [|done]. destruct (decide (v = u)) as [->|Hne].
      * apply (cf_holds _ _ _ _ _ C') in Er as (n' & ? & _). done.
      * apply (fr_recs _ _ _ F) in Er; [|done]. by rewrite I4 in Er.
Qed.
Lemma init_idle ps : idle (c_init ps).
Proof. split; cbn; [apply rs_init_inv|by rewrite replicate_length| |done]. intros v p Hp. by apply lookup_replicate in Hp as [-> _]. Qed.
Lemma init_conf ps u p : ps !! u = Some p -> conf (c_init ps) u [] None p.
Proof.
  intros H. pose proof (lookup_lt_Some _ _ _ H) as Hl. split; cbn; [apply rs_init_inv|by rewrite replicate_length| | |done|].
  - unfold at_rest. cbn. rewrite !lookup_replicate_2 by done. done.
  - eexists. rewrite lookup_replicate_2 by done. done.
  - intros r n. rewrite lookup_empty. split; [done|]. intros (n' & ? & _). done.
Qed.

(** A thread that asks for the lock of the vault gets as far as the first line of the mutex. *)
Lemma ask s t h k rest : conf s t [] h (ALock k :: rest) ->
  exists s', crun s [t; t] = Some s' /\ m_pcs (s_base (c_lock s')) !! t = Some (match k with KRead => RL20 | KWrite => WL50 end) /\ frame t s s' /\ c_recs s' = c_recs s /\
    m_wm (s_base (c_lock s')) = m_wm (s_base (c_lock s)).
Proof.
  intros C. pose proof (conf_out _ _ _ _ C) as Ep. destruct C as [C1 C2 C3 (th & C4 & C4') C5 C6]. pose proof (lookup_lt_Some _ _ _ C5) as Hlt. pose proof (lookup_lt_Some _ _ _ C4) as Hlt2. pose proof (lookup_lt_Some _ _ _ Ep) as Hlt3.
  destruct (at_rest_inv _ _ C3) as (th' & p & E1 & Ep' & Hr & Etd). assert (th' = th) as -> by congruence. assert (p = Out) as -> by congruence.
  destruct (r3_thread _ C1 t th Out C4 Ep) as [Hc _]. rewrite C4' in Hc.
  set (q := match k with KRead => RL20 | KWrite => WL50 end). set (m := match k with KRead => CReadLock | KWrite => CWriteLock end).
  set (c1 := count_of [k]).
  set (s1 := CState (RState (<[t := RThread [k] c1 [m]]> (s_threads (c_lock s))) (s_base (c_lock s))) (c_recs s) (<[t := rest]> (c_todo s))).
  set (s2 := CState (RState (<[t := RThread [k] c1 []]> (<[t := RThread [k] c1 [m]]> (s_threads (c_lock s)))) (goto t q (s_base (c_lock s)))) (c_recs s) (<[t := rest]> (c_todo s))).
  assert (cstep s t = Some s1) as E.
  { unfold cstep. rewrite C4. cbn [mbind option_bind]. rewrite Ep. cbn [mbind option_bind]. rewrite C5. cbn [mbind option_bind]. rewrite Hr, Etd. cbn [negb]. unfold lock_step. cbn [rstep]. rewrite C4. cbn [mbind option_bind]. rewrite Ep. cbn [mbind option_bind].
    rewrite Hr, Etd. cbn [andb]. rewrite bool_decide_true by done. rewrite Hc, C4'. by destruct k. }
  assert (cstep s1 t = Some s2) as E2.
  { unfold cstep. cbn [s1 c_lock c_todo s_threads s_base]. rewrite !list_lookup_insert by done. cbn [mbind option_bind]. rewrite Ep. cbn [mbind option_bind resting negb t_todo]. unfold lock_step. cbn [rstep s1 c_lock c_recs s_threads s_base].
    rewrite list_lookup_insert by done. cbn [mbind option_bind t_todo]. unfold call. rewrite Ep. cbn [mbind option_bind]. by destruct k. }
  exists s2. split; [cbn [crun]; rewrite E; cbn [mbind option_bind crun]; by rewrite E2|]. split; [cbn; by apply list_lookup_insert|]. split; [|done].
  split; cbn [s2 c_lock c_recs c_todo s_threads s_base goto m_pcs]; [|intros v Hv; by apply list_lookup_insert_ne|intros v Hv; by apply list_lookup_insert_ne|done].
  intros v Hv. by rewrite !list_lookup_insert_ne by done.
Qed.
(** A writer gets as far as holding the writers' mutex when nobody holds it. *)
Lemma start_writing s v : m_pcs (s_base (c_lock s)) !! v = Some WL50 -> m_wm (s_base (c_lock s)) = None -> RInv3 (c_lock s) -> length (c_todo s) = length (s_threads (c_lock s)) ->
  exists s', crun s [v] = Some s' /\ m_pcs (s_base (c_lock s')) !! v = Some WL52 /\ frame v s s' /\ c_recs s' = c_recs s.
Proof.
  intros Ep Hw HL Hl. pose proof (lookup_lt_Some _ _ _ Ep) as Hlt. pose proof Hlt as Hlt2. rewrite <- (r3_len _ HL) in Hlt2. pose proof Hlt2 as Hlt3. rewrite <- Hl in Hlt3.
  apply lookup_lt_is_Some in Hlt2 as [th Hth]. apply lookup_lt_is_Some in Hlt3 as [acts Ha].
  exists (CState (RState (s_threads (c_lock s)) (goto v WL52 (with_wm (Some v) (s_base (c_lock s))))) (c_recs s) (c_todo s)). split; [|split; [cbn; by apply list_lookup_insert|split; [|done]]].
  - cbn [crun]. unfold cstep. rewrite Hth. cbn [mbind option_bind]. rewrite Ep. cbn [mbind option_bind]. rewrite Ha. cbn [mbind option_bind resting negb]. unfold lock_step. cbn [rstep]. unfold go. rewrite Ep. cbn [mbind option_bind]. rewrite Hw. done.
  - split; cbn [c_lock c_recs c_todo s_threads s_base goto with_wm m_pcs]; [done|intros y Hy; by apply list_lookup_insert_ne|done|done].
Qed.

(** The dump has the mutex of the record and asks for the lock; the other thread is inside the lock and wants the mutex; and the lock is closed. *)
Lemma stand_build s t u v r k h1 st1 rest1 rest2 : t <> u -> conf s t [] (Some (r, 0)) (ALock KRead :: rest1) -> conf s u (st1 ++ [k]) h1 (ARec r :: rest2) ->
  (forall w p, w <> u -> m_pcs (s_base (c_lock s)) !! w = Some p -> p = Out) ->
  (k = KWrite \/ v <> t /\ v <> u /\ exists out body rest3, (out = [] \/ exists x, out = [ARead x]) /\ conf s v [] None (out ++ sec KWrite body ++ rest3)) ->
  exists l s', crun s l = Some s' /\ stand t u v r s'.
Proof.
  intros Hne Ct Cu Hout Hk. pose proof (cf_lock _ _ _ _ _ Ct) as HL. pose proof (cf_len _ _ _ _ _ Ct) as Hl.
  destruct (at_rest_inv _ _ (cf_rest _ _ _ _ _ Cu)) as (uh & up & Euh & Eup & Hur & Hutd). destruct (cf_stack _ _ _ _ _ Cu) as (uh' & Euh' & Est). assert (uh' = uh) as -> by congruence.
  pose proof (quiet_target _ u uh up HL Euh Eup Hutd Hur) as Hup. rewrite Est in Hup.
  (* the last step: the dump asks *)
  assert (forall l1 s1, crun s l1 = Some s1 -> (forall w, w = t \/ w = u -> s_threads (c_lock s1) !! w = s_threads (c_lock s) !! w /\ m_pcs (s_base (c_lock s1)) !! w = m_pcs (s_base (c_lock s)) !! w /\ c_todo s1 !! w = c_todo s !! w) ->
    c_recs s1 = c_recs s -> (up = Writing \/ (up = Reading /\ v <> t /\ v <> u /\ m_pcs (s_base (c_lock s1)) !! v = Some WL52)) -> exists l s', crun s l = Some s' /\ stand t u v r s') as Hlast.
  { intros l1 s1 E1 Hsame Hrec Hlk. destruct (crun_rinv _ _ _ HL Hl E1) as [HL1 Hl1].
    assert (conf s1 t [] (Some (r, 0)) (ALock KRead :: rest1)) as Ct1.
    { destruct (Hsame t) as (S1 & S2 & S3); [by left|]. destruct Ct as [B1 B2 B3 B4 B5 B6]. split; [done|done| |by rewrite S1|by rewrite S3|by rewrite Hrec]. unfold at_rest in *. by rewrite S1, S2. }
    destruct (ask s1 t _ KRead rest1 Ct1) as (s2 & E2 & Hpt & F2 & Hr2 & _). destruct (crun_rinv _ _ _ HL1 Hl1 E2) as [HL2 Hl2].
    exists (l1 ++ [t; t]), s2. split; [rewrite crun_app, E1; exact E2|]. destruct (Hsame u) as (S1 & S2 & S3); [by right|].
    split; [done|done|done|done| | | |].
    - exists 1. rewrite Hr2, Hrec. apply (cf_holds _ _ _ _ _ Ct). by exists 0.
    - pose proof (cf_rest _ _ _ _ _ Cu) as Hx. unfold at_rest in *. rewrite (fr_thread _ _ _ F2), (fr_pc _ _ _ F2) by auto. by rewrite S1, S2.
    - exists rest2. rewrite (fr_todo _ _ _ F2), S3 by auto. apply Cu.
    - rewrite (fr_pc _ _ _ F2), S2 by auto. destruct Hlk as [-> |(-> & Hvt & Hvu & Hv)]; [by left|right]. split; [done|]. split; [done|]. split; [done|]. exists WL52. rewrite (fr_pc _ _ _ F2) by done. auto. }
  assert (up = Writing \/ up = Reading) as Hup2.
  { rewrite Hup. unfold target. destruct (0 <? c_write (count_of (st1 ++ [k]))) eqn:E1; [by left|]. destruct (0 <? c_read (count_of (st1 ++ [k]))) eqn:E2; [by right|]. exfalso.
    assert (target (count_of (st1 ++ [k])) = Out) as H by (unfold target; by rewrite E1, E2). apply count_zero in H. by destruct st1. }
  destruct Hup2 as [Hw| Hrd]; [apply (Hlast [] s); auto|].
  destruct Hk as [-> |(Hvt & Hvu & out & body & rest3 & Ho & Cv)].
  { exfalso. assert (target (count_of (st1 ++ [KWrite])) = Writing) as H by (apply target_write, elem_of_app; right; left). congruence. }
  assert (m_wm (s_base (c_lock s)) = None) as Hwm.
  { destruct (m_wm (s_base (c_lock s))) as [x|] eqn:Ew; [|done]. exfalso. pose proof (m2_inv _ _ (r3_base _ HL)) as HM. destruct (mi_wm_in _ _ HM x Ew) as [p Hp].
    pose proof (proj2 (mi_wm _ _ HM x p Hp) Ew) as Hh. destruct (decide (x = u)) as [->|Hx]; [assert (p = Reading) as -> by congruence; done|]. by rewrite (Hout x p Hx Hp) in Hh. }
  assert (exists l1 s1, crun s l1 = Some s1 /\ conf s1 v [] None (sec KWrite body ++ rest3) /\ frame v s s1 /\ c_recs s1 = c_recs s /\ m_wm (s_base (c_lock s1)) = None) as (l1 & s1 & E1 & Cv1 & F1 & R1 & W1).
  { destruct Ho as [-> |[x ->]]; [exists [], s; split; [done|]; split; [done|]; split; [apply frame_refl|done]|]. cbn [app] in Cv.
    destruct (adv_plain s v [] None (ARead x) (sec KWrite body ++ rest3) [] None Cv Logic.I eq_refl) as (s1 & E1 & C1 & F1); [done|].
    exists [v], s1. split; [cbn [crun]; by rewrite E1|]. split; [done|]. split; [done|].
    destruct (at_rest_inv _ _ (cf_rest _ _ _ _ _ Cv)) as (vh & vp & A1 & A2 & A3 & A4). unfold cstep in E1. rewrite A1 in E1. cbn [mbind option_bind] in E1. rewrite A2 in E1. cbn [mbind option_bind] in E1. rewrite (cf_todo _ _ _ _ _ Cv) in E1. cbn [mbind option_bind] in E1. rewrite A3, A4 in E1. cbn [negb] in E1. injection E1 as <-. done. }
  unfold sec in Cv1. cbn [app] in Cv1. destruct (ask s1 v None KWrite _ Cv1) as (s2 & E2 & P2 & F2 & R2 & W2).
  destruct (crun_rinv _ _ _ HL Hl E1) as [HL1 Hl1]. destruct (crun_rinv _ _ _ HL1 Hl1 E2) as [HL2 Hl2].
  destruct (start_writing s2 v P2 (eq_trans W2 W1) HL2 Hl2) as (s3 & E3 & P3 & F3 & R3).
  pose proof (frame_trans _ _ _ _ F1 (frame_trans _ _ _ _ F2 F3)) as F.
  apply (Hlast (l1 ++ [v; v] ++ [v]) s3).
  - rewrite crun_app, E1. cbn [mbind option_bind]. rewrite crun_app, E2. exact E3.
  - intros w Hw. assert (w <> v) as Hwv by (destruct Hw as [-> | ->]; auto). by rewrite (fr_thread _ _ _ F), (fr_pc _ _ _ F), (fr_todo _ _ _ F) by done.
  - congruence.
  - right. auto.
Qed.
Lemma calls_split cs t c : calls cs t c -> exists l1 l2, (program <$> cs) !! t = Some (program l1 ++ skeleton c ++ program l2).
Proof.
  intros (cl & Hcl & Hc). apply elem_of_list_split in Hc as (l1 & l2 & ->). exists l1, l2. rewrite list_lookup_fmap, Hcl. cbn. f_equal. unfold program. rewrite fmap_app, concat_app. done.
Qed.
Lemma standoff_stuck cs : standoff cs -> exists l s t u v r, crun (c_init (program <$> cs)) l = Some s /\ stand t u v r s /\ calls cs t (KRefDump r).
Proof.
  intros (t & u & r & c & Hne & Ht & Hu & Hr & Hw). destruct (calls_split _ _ _ Ht) as (a1 & a2 & Et), (calls_split _ _ _ Hu) as (b1 & b2 & Eu).
  set (s0 := c_init (program <$> cs)). pose proof (init_idle (program <$> cs)) as I0. fold s0 in I0.
  destruct (run_calls s0 t (program a1) _ I0 (init_conf _ _ _ Et) (program_after a1)) as (l1 & s1 & E1 & T1 & F1 & I1).
  destruct (run_calls s1 u (program b1) (skeleton c ++ program b2) I1) as (l2 & s2 & E2 & U2 & F2 & I2); [|apply program_after|].
  { apply (conf_frame u t s0 s1); [auto|by apply init_conf|done|apply I1|apply I1]. }
  assert (conf s2 t [] None (skeleton (KRefDump r) ++ program a2)) as T2 by (apply (conf_frame t u s1 s2); [auto|done|done|apply I2|apply I2]).
  assert (exists l3 s3 v, crun s2 l3 = Some s3 /\ idle s3 /\ conf s3 t [] None (skeleton (KRefDump r) ++ program a2) /\ conf s3 u [] None (skeleton c ++ program b2) /\
    (writes c \/ v <> t /\ v <> u /\ exists w d2, writes w /\ conf s3 v [] None (skeleton w ++ program d2))) as (l3 & s3 & v & E3 & I3 & T3 & U3 & W3).
  { destruct Hw as [Hw|(v & w & Hvt & Hvu & Hv & Hww)]; [exists [], s2, 0; auto 10|]. destruct (calls_split _ _ _ Hv) as (d1 & d2 & Ev).
    destruct (run_calls s2 v (program d1) (skeleton w ++ program d2) I2) as (l3 & s3 & E3 & V3 & F3 & I3); [|apply program_after|].
    { apply (conf_frame v u s1 s2); [auto| |done|apply I2|apply I2]. apply (conf_frame v t s0 s1); [auto|by apply init_conf|done|apply I1|apply I1]. }
    exists l3, s3, v. split; [done|]. split; [done|].
    split; [apply (conf_frame t v s2 s3); [auto|done|done|apply I3|apply I3]|]. split; [apply (conf_frame u v s2 s3); [auto|done|done|apply I3|apply I3]|]. right. eauto 10. }
  destruct (takes_split c r Hr) as (out & k & body & Esk & Ao & Ab & Hin & Hk).
  (* u enters *)
  destruct (adv_list (out ++ [ALock k]) s3 u [] None (body ++ AUnlock :: program b2) [k] None) as (l4 & s4 & E4 & U4 & F4).
  { rewrite Esk in U3. unfold sec in U3. rewrite <- !app_assoc in *. cbn [app] in *. by rewrite <- !app_assoc in U3. }
  { by rewrite after_app, Ao. }
  { right. intros x p _. apply I3. }
  { intros r' x n _. by rewrite (id_recs _ I3). }
  destruct (crun_rinv _ _ _ (id_lock _ I3) (id_len _ I3) E4) as [HL4 Hl4].
  assert (conf s4 t [] None (skeleton (KRefDump r) ++ program a2)) as T4 by (by apply (conf_frame t u s3 s4)).
  assert (forall r', c_recs s4 !! r' = None) as N4.
  { intros r'. destruct (c_recs s4 !! r') as [[x n]|] eqn:Er; [|done]. destruct (decide (x = u)) as [->|Hx].
    - apply (cf_holds _ _ _ _ _ U4) in Er as (n' & ? & _). done.
    - apply (fr_recs _ _ _ F4) in Er; [|done]. by rewrite (id_recs _ I3) in Er. }
  (* t takes the mutex of the record *)
  destruct (adv_list [ARec r; ARec r; ARead (LLife r); ARecEnd r] s4 t [] None (ALock KRead :: [ARead LVault; ARead (LData r); AUnlock; ARecEnd r] ++ program a2) [] (Some (r, 0))) as (l5 & s5 & E5 & T5 & F5).
  { exact T4. }
  { cbn [after next inc]. rewrite !decide_True by done. done. }
  { left. repeat constructor. }
  { intros r' x n _. by rewrite N4. }
  destruct (crun_rinv _ _ _ HL4 Hl4 E5) as [HL5 Hl5].
  assert (conf s5 u [k] None (body ++ AUnlock :: program b2)) as U5 by (apply (conf_frame u t s4 s5); auto).
  (* u goes on until it needs that mutex *)
  destruct (elem_of_list_split_l _ _ Hin) as (c1 & c2 & Ebody & Hc1). rewrite Ebody in Ab, U5. rewrite after_app in Ab.
  destruct (after [] None c1) as [[st1 h1]|] eqn:Ac; [|done]. pose proof (after_under c1 _ _ _ _ [k] Ac) as Ak. cbn [app] in Ak.
  assert (forall x p, x <> u -> m_pcs (s_base (c_lock s5)) !! x = Some p -> p = Out) as O5.
  { intros x p Hx Hp. destruct (decide (x = t)) as [->|Hxt]; [pose proof (conf_out _ _ _ _ T5); congruence|]. rewrite (fr_pc _ _ _ F5 x Hxt), (fr_pc _ _ _ F4 x Hx) in Hp. by eapply I3. }
  destruct (adv_list c1 s5 u [k] None (ARec r :: c2 ++ AUnlock :: program b2) (st1 ++ [k]) h1) as (l6 & s6 & E6 & U6 & F6).
  { rewrite <- app_assoc in U5. exact U5. }
  { exact Ak. }
  { by right. }
  { intros r' x n Hr' Hx. destruct (decide (x = u)) as [|Hxu]; [done|]. exfalso. destruct (decide (x = t)) as [->|Hxt].
    - apply (cf_holds _ _ _ _ _ T5) in Hx as (n' & [= <- _] & _). done.
    - apply (fr_recs _ _ _ F5) in Hx; [|done]. by rewrite N4 in Hx. }
  destruct (crun_rinv _ _ _ HL5 Hl5 E6) as [HL6 Hl6].
  assert (conf s6 t [] (Some (r, 0)) (ALock KRead :: [ARead LVault; ARead (LData r); AUnlock; ARecEnd r] ++ program a2)) as T6 by (apply (conf_frame t u s5 s6); auto).
  destruct (stand_build s6 t u v r k h1 st1 _ _ Hne T6 U6) as (l7 & s7 & E7 & S7).
  { intros x p Hx Hp. rewrite (fr_pc _ _ _ F6 x Hx) in Hp. by eapply O5. }
  { destruct W3 as [W3|(Hvt & Hvu & w & d2 & Hww & V3)]; [left; by apply Hk|right]. split; [done|]. split; [done|]. destruct (writes_split w Hww) as (o & bd & Ew & Ho).
    exists o, bd, (program d2). split; [done|]. rewrite app_assoc, <- Ew.
    apply (conf_frame v u s5 s6); [auto| |done|done|done]. apply (conf_frame v t s4 s5); [auto| |done|done|done]. by apply (conf_frame v u s3 s4). }
  exists (l1 ++ l2 ++ l3 ++ l4 ++ l5 ++ l6 ++ l7), s7, t, u, v, r. split; [|by split].
  do 6 (rewrite crun_app; first [rewrite E1|rewrite E2|rewrite E3|rewrite E4|rewrite E5|rewrite E6]; cbn [mbind option_bind]). exact E7.
Qed.
Lemma can_finish_iff cs : (forall l s, crun (c_init (program <$> cs)) l = Some s -> exists l' s', crun s l' = Some s' /\ finished s') <-> ~ standoff cs.
Proof.
  split; [|intros H l s; by apply no_standoff_finishes]. intros H Hs. destruct (standoff_stuck cs Hs) as (l & s & t & u & v & r & E & S & _).
  destruct (H l s E) as (l' & s' & E' & Hf). by eapply stand_unfinished; [eapply stand_forever|].
Qed.
Lemma standoff_never cs : standoff cs -> exists l s t r, calls cs t (KRefDump r) /\ crun (c_init (program <$> cs)) l = Some s /\
    forall l' s', crun s l' = Some s' -> busy s' t /\ cstep s' t = None.
Proof.
  intros H. destruct (standoff_stuck cs H) as (l & s & t & u & v & r & E & S & Hc). exists l, s, t, r. split; [done|]. split; [done|]. intros l' s' E'.
  pose proof (stand_forever _ _ _ _ _ _ _ S E') as S'. pose proof (stand_wm _ _ _ _ _ S') as Hw. destruct S' as [HL Hlen _ Hd _ _ _ _].
  pose proof (lookup_lt_Some _ _ _ Hd) as Hlt. rewrite <- (r3_len _ HL) in Hlt. pose proof Hlt as Hlt2. rewrite <- Hlen in Hlt2. apply lookup_lt_is_Some in Hlt as [th Hth]. apply lookup_lt_is_Some in Hlt2 as [acts Ha]. split.
  - exists acts. split; [done|]. right. unfold at_rest. by rewrite Hth, Hd.
  - unfold cstep. rewrite Hth. cbn [mbind option_bind]. rewrite Hd. cbn [mbind option_bind]. rewrite Ha. cbn [mbind option_bind resting negb]. unfold lock_step. cbn [rstep]. unfold go. rewrite Hd. cbn [mbind option_bind]. by destruct (m_wm (s_base (c_lock s'))).
Qed.
