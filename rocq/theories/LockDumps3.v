(** Threads that stand in each other's way for good: how they get there (C56). *)
From Verif Require Export LockDumps2.
From Verif Require Import MutexProofs MutexProofs2 MutexProofs3 LockProofs.
Open Scope nat_scope.

(** ** One thread runs alone *)
Definition next (st : list rkind) (h : held) (a : cact) : option (list rkind * held) :=
  match a with
  | ALock k => Some (k :: st, h)
  | AUnlock => match st with [] => None | _ :: st' => Some (st', h) end
  | ARec r => match inc h r with Some h' => Some (st, h') | None => None end
  | ARecEnd r => match h with Some (r', n) => if decide (r' = r) then Some (st, match n with 0 => None | S n => Some (r, n) end) else None | None => None end
  | _ => Some (st, h)
  end.
Fixpoint after (st : list rkind) (h : held) (l : list cact) : option (list rkind * held) :=
  match l with [] => Some (st, h) | a :: l => match next st h a with Some (st', h') => after st' h' l | None => None end end.
Lemma after_app st h l1 l2 : after st h (l1 ++ l2) = match after st h l1 with Some (st', h') => after st' h' l2 | None => None end.
Proof. revert st h. induction l1 as [|a l1 IH]; intros st h; cbn; [done|]. destruct (next st h a) as [[st' h']|]; [apply IH|done]. Qed.
Lemma dok_after L I W t l : forall st h, dok L I W t st h l -> after st h l = Some ([], None).
Proof.
  induction l as [|a l IH]; intros st h; [by intros [-> ->]|]. cbn [after]. destruct a as [k| |r|r|x|x]; cbn [dok next].
  - intros (_ & _ & H). by apply IH.
  - destruct st as [|k st]; [done|]. intros [_ H]. by apply IH.
  - intros [_ H]. destruct (inc h r); [by apply IH|done].
  - destruct h as [[r' n]|]; [|done]. intros [-> H]. rewrite decide_True by done. by apply IH.
  - by apply IH.
  - by apply IH.
Qed.
Lemma after_under l : forall st h st' h' k, after st h l = Some (st', h') -> after (st ++ k) h l = Some (st' ++ k, h').
Proof.
  induction l as [|a l IH]; intros st h st' h' k; cbn [after]; [by intros [= <- <-]|]. destruct (next st h a) as [[st1 h1]|] eqn:E; [|done]. intros H.
  assert (next (st ++ k) h a = Some (st1 ++ k, h1)) as ->; [|by apply IH].
  destruct a as [k0| |r|r|x|x]; cbn [next] in *.
  - by injection E as <- <-.
  - destruct st; [done|]. by injection E as <- <-.
  - destruct (inc h r); [|done]. by injection E as <- <-.
  - destruct h as [[]|]; [|done]. destruct (decide (n = r)); [|done]. by injection E as <- <-.
  - by injection E as <- <-.
  - by injection E as <- <-.
Qed.

(** Everything of the other threads is as before. *)
Record frame (u : nat) (s s' : cstate) : Prop := {
  fr_thread : forall v, v <> u -> s_threads (c_lock s') !! v = s_threads (c_lock s) !! v;
  fr_pc : forall v, v <> u -> m_pcs (s_base (c_lock s')) !! v = m_pcs (s_base (c_lock s)) !! v;
  fr_todo : forall v, v <> u -> c_todo s' !! v = c_todo s !! v;
  fr_recs : forall r v n, v <> u -> c_recs s' !! r = Some (v, n) <-> c_recs s !! r = Some (v, n);
}.
Lemma frame_refl u s : frame u s s.
Proof. by split. Qed.
Lemma frame_trans u s1 s2 s3 : frame u s1 s2 -> frame u s2 s3 -> frame u s1 s3.
Proof.
  intros [A1 A2 A3 A4] [B1 B2 B3 B4]. split; intros.
  - by rewrite B1, A1.
  - by rewrite B2, A2.
  - by rewrite B3, A3.
  - by rewrite B4, A4.
Qed.
(** Thread [u] is at rest, with these locks, this mutex of a record and these actions left. *)
Record conf (s : cstate) (u : nat) (st : list rkind) (h : held) (acts : list cact) : Prop := {
  cf_lock : RInv3 (c_lock s);
  cf_len : length (c_todo s) = length (s_threads (c_lock s));
  cf_rest : at_rest (c_lock s) u = true;
  cf_stack : exists th, s_threads (c_lock s) !! u = Some th /\ t_stack th = st;
  cf_todo : c_todo s !! u = Some acts;
  cf_holds : holds (c_recs s) u h;
}.
Lemma conf_frame u v s s' st h acts : u <> v -> conf s u st h acts -> frame v s s' -> RInv3 (c_lock s') -> length (c_todo s') = length (s_threads (c_lock s')) -> conf s' u st h acts.
Proof.
  intros Hne [C1 C2 C3 (th & C4 & C4') C5 C6] [F1 F2 F3 F4] H1 H2. split; [done|done| | | |].
  - unfold at_rest in *. by rewrite F1, F2.
  - exists th. by rewrite F1.
  - by rewrite F3.
  - intros r n. rewrite F4 by done. apply C6.
Qed.
Definition out_others (s : cstate) (u : nat) : Prop := forall v p, v <> u -> m_pcs (s_base (c_lock s)) !! v = Some p -> p = Out.
Lemma out_frame u s s' : out_others s u -> frame u s s' -> out_others s' u.
Proof. intros H F v p Hne Hp. rewrite (fr_pc _ _ _ F v Hne) in Hp. by eapply H. Qed.

Lemma cstep_rinv s t s' : RInv3 (c_lock s) -> length (c_todo s) = length (s_threads (c_lock s)) -> cstep s t = Some s' ->
  RInv3 (c_lock s') /\ length (c_todo s') = length (s_threads (c_lock s')).
Proof.
  intros HL Hl E. unfold cstep in E. destruct (s_threads (c_lock s) !! t) as [th|] eqn:Hth; [|done]. cbn [mbind option_bind] in E.
  destruct (m_pcs (s_base (c_lock s)) !! t) as [p|] eqn:Hp; [|done]. cbn [mbind option_bind] in E. destruct (c_todo s !! t) as [acts|] eqn:Ha; [|done]. cbn [mbind option_bind] in E.
  assert (forall a todo, length todo = length (c_todo s) -> lock_step s a todo = Some s' -> RInv3 (c_lock s') /\ length (c_todo s') = length (s_threads (c_lock s'))) as Hls.
  { intros a todo Ht E'. unfold lock_step in E'. destruct (rstep (c_lock s) a) as [l|] eqn:El; [|done]. cbn [mbind option_bind] in E'. injection E' as <-. cbn [c_lock c_todo].
    split; [by eapply rstep_inv|]. by rewrite (rstep_len _ _ _ El), Ht. }
  destruct (resting p); cbn [negb] in E; [|by eapply Hls]. destruct (t_todo th); [|by eapply Hls]. destruct acts as [|a rest]; [done|].
  assert (length (<[t := rest]> (c_todo s)) = length (c_todo s)) as Hi by apply insert_length.
  assert (forall m, Some (CState (c_lock s) m (<[t := rest]> (c_todo s))) = Some s' -> RInv3 (c_lock s') /\ length (c_todo s') = length (s_threads (c_lock s'))) as Hrs.
  { intros m [= <-]. cbn [c_lock c_todo]. by rewrite Hi. }
  destruct a as [k| |r|r|x|x]; try (by eapply Hls); try (by eapply Hrs).
  - destruct (c_recs s !! r) as [[v n]|]; [destruct (decide (v = t)); [|done]|]; by eapply Hrs.
  - destruct (c_recs s !! r) as [[v [|n]]|]; [done| |done]. destruct (decide (v = t)); [|done]. by eapply Hrs.
Qed.
Lemma crun_rinv l : forall s s', RInv3 (c_lock s) -> length (c_todo s) = length (s_threads (c_lock s)) -> crun s l = Some s' ->
  RInv3 (c_lock s') /\ length (c_todo s') = length (s_threads (c_lock s')).
Proof.
  induction l as [|t l IH]; intros s s' H1 H2; cbn; [by intros [= <-]|]. destruct (cstep s t) as [s1|] eqn:E; [|done]. cbn.
  destruct (cstep_rinv s t s1 H1 H2 E) as [H3 H4]. by apply IH.
Qed.

(** Actions on records and data take one step. *)
Definition plain (a : cact) : Prop := match a with ALock _ | AUnlock => False | _ => True end.
Lemma adv_plain s u st h a rest st' h' : conf s u st h (a :: rest) -> plain a -> next st h a = Some (st', h') ->
  (forall r v n, a = ARec r -> c_recs s !! r = Some (v, n) -> v = u) ->
  exists s', cstep s u = Some s' /\ conf s' u st' h' rest /\ frame u s s'.
Proof.
  intros [C1 C2 C3 (th & C4 & C4') C5 C6] Hpl Hn Hfree. destruct (at_rest_inv _ _ C3) as (th' & p & E1 & Ep & Hr & Etd). assert (th' = th) as -> by congruence.
  pose proof (lookup_lt_Some _ _ _ C5) as Hlt.
  assert (forall m h1, holds m u h1 -> (forall r v n, v <> u -> m !! r = Some (v, n) <-> c_recs s !! r = Some (v, n)) -> Some (st, h1) = Some (st', h') ->
    exists s', Some (CState (c_lock s) m (<[u := rest]> (c_todo s))) = Some s' /\ conf s' u st' h' rest /\ frame u s s') as Hgen.
  { intros m h1 Hm Ho [= <- <-]. eexists. split; [done|]. split.
    - split; cbn [c_lock c_recs c_todo]; [done|by rewrite insert_length|done|by exists th|by apply list_lookup_insert|done].
    - split; cbn [c_lock c_recs c_todo]; [done|done| |done]. intros v Hv. by apply list_lookup_insert_ne. }
  unfold cstep. rewrite C4. cbn [mbind option_bind]. rewrite Ep. cbn [mbind option_bind]. rewrite C5. cbn [mbind option_bind]. rewrite Hr, Etd. cbn [negb].
  destruct a as [k| |r|r|x|x]; cbn [plain next] in *; try done; try (by apply (Hgen (c_recs s) h)).
  - destruct (inc h r) as [h1|] eqn:Ei; [|done].
    destruct (c_recs s !! r) as [[v n]|] eqn:Er.
    + pose proof (Hfree r v n eq_refl Er) as ->. rewrite decide_True by done. apply (Hgen _ h1); [| |done].
      * destruct (proj1 (C6 r n) Er) as (n' & -> & ->). cbn in Ei. rewrite decide_True in Ei by done. injection Ei as <-.
        intros r' m. destruct (decide (r' = r)) as [->|Hne].
        -- rewrite lookup_insert. split; [intros [= <-]; eauto|]. intros (n2 & [= <-] & ->). done.
        -- rewrite lookup_insert_ne by done. rewrite (C6 r' m). split; intros (n2 & X & _); congruence.
      * intros r' v n' Hv. destruct (decide (r' = r)) as [->|Hne]; [|by rewrite lookup_insert_ne]. rewrite lookup_insert, Er. split; intros [= Hx _]; congruence.
    + apply (Hgen _ h1); [| |done].
      * destruct h as [[r' n]|]; cbn in Ei.
        { destruct (decide (r' = r)) as [->|]; [|done]. pose proof (proj2 (C6 r (S n)) (ex_intro _ n (conj eq_refl eq_refl))). congruence. }
        injection Ei as <-. intros r' m. destruct (decide (r' = r)) as [->|Hne].
        -- rewrite lookup_insert. split; [intros [= <-]; eauto|]. intros (n2 & [= <-] & ->). done.
        -- rewrite lookup_insert_ne by done. rewrite (C6 r' m). split; intros (n2 & X & _); congruence.
      * intros r' v n' Hv. destruct (decide (r' = r)) as [->|Hne]; [|by rewrite lookup_insert_ne]. rewrite lookup_insert, Er. split; [intros [= Hx _]; congruence|done].
  - destruct h as [[r' n]|]; [|done]. destruct (decide (r' = r)) as [->|]; [|done].
    pose proof (proj2 (C6 r (S n)) (ex_intro _ n (conj eq_refl eq_refl))) as Er. rewrite Er, decide_True by done. eapply Hgen; [| |exact Hn].
    + intros r' m. destruct n as [|n].
      * rewrite decide_True by done. destruct (decide (r' = r)) as [->|Hne]; [rewrite lookup_delete; split; [done|]; by intros (? & ? & _)|].
        rewrite lookup_delete_ne by done. rewrite (C6 r' m). split; intros (n' & X & _); congruence.
      * rewrite decide_False by done. destruct (decide (r' = r)) as [->|Hne].
        -- rewrite lookup_insert. split; [intros [= <-]; eauto|]. intros (n' & [= <-] & ->). done.
        -- rewrite lookup_insert_ne by done. rewrite (C6 r' m). split; intros (n' & X & _); congruence.
    + intros r' v n' Hv. destruct (decide (n = 0)), (decide (r' = r)) as [->|Hne]; rewrite ?lookup_delete, ?lookup_insert, ?Er.
      * split; [done|intros [= Hx _]; congruence].
      * by rewrite lookup_delete_ne.
      * split; intros [= Hx _]; congruence.
      * by rewrite lookup_insert_ne.
Qed.

(** While the others hold nothing of the vault's lock, a thread inside a lock or unlock gets to its end. *)
Lemma mgo_others l : forall b b' u, Forall inside l -> mrun false b l = Some b' -> (forall v p, v <> u -> m_pcs b !! v = Some p -> p = Out) ->
  forall v, v <> u -> m_pcs b' !! v = m_pcs b !! v.
Proof.
  induction l as [|a l IH]; intros b b' u Hl E Ho v Hne; cbn in E; [by injection E as <-|]. inversion Hl as [|? ? Ha Hl']; subst. destruct a as [t| |]; try done. cbn [mstep] in E.
  destruct (go b t) as [b1|] eqn:Eg; [|done]. cbn [mbind option_bind] in E.
  assert (t = u) as ->.
  { destruct (decide (t = u)); [done|]. unfold go in Eg. destruct (m_pcs b !! t) as [p|] eqn:Hp; [|done]. by rewrite (Ho t p n Hp) in Eg. }
  assert (forall v, v <> u -> m_pcs b1 !! v = m_pcs b !! v) as H1.
  { intros w Hw. destruct (m_pcs b !! w) as [p|] eqn:Hp.
    - pose proof (Ho w p Hw Hp) as ->. by apply (go_other _ _ _ _ _ Eg).
    - apply lookup_ge_None in Hp. apply lookup_ge_None. by rewrite (proj1 (go_rest _ _ _ Eg)). }
  rewrite (IH b1 b' u Hl' E) by (try done; intros w p Hw Hp; rewrite H1 in Hp by done; by eapply Ho). by apply H1.
Qed.
Lemma settle s u th : RInv3 (c_lock s) -> length (c_todo s) = length (s_threads (c_lock s)) -> out_others s u -> s_threads (c_lock s) !! u = Some th ->
  exists l s', crun s l = Some s' /\ at_rest (c_lock s') u = true /\ (exists th', s_threads (c_lock s') !! u = Some th' /\ t_stack th' = t_stack th) /\
    c_recs s' = c_recs s /\ c_todo s' !! u = c_todo s !! u /\ frame u s s'.
Proof.
  remember (cwork s) as n eqn:En. revert s th En. induction n as [n IH] using lt_wf_ind. intros s th -> HL Hl Ho Hth.
  destruct (at_rest (c_lock s) u) eqn:Har; [exists [], s; repeat (split; [by eauto|]); apply frame_refl|].
  assert (is_Some (m_pcs (s_base (c_lock s)) !! u)) as [p Hp] by (apply lookup_lt_is_Some; rewrite <- (r3_len _ HL); by eapply lookup_lt_Some).
  assert (is_Some (c_todo s !! u)) as [acts Ha] by (apply lookup_lt_is_Some; rewrite Hl; by eapply lookup_lt_Some).
  assert (forall l1 s1 th1, crun s l1 = Some s1 -> cwork s1 < cwork s -> s_threads (c_lock s1) !! u = Some th1 -> t_stack th1 = t_stack th -> c_recs s1 = c_recs s -> c_todo s1 !! u = c_todo s !! u -> frame u s s1 ->
    exists l s', crun s l = Some s' /\ at_rest (c_lock s') u = true /\ (exists th', s_threads (c_lock s') !! u = Some th' /\ t_stack th' = t_stack th) /\
    c_recs s' = c_recs s /\ c_todo s' !! u = c_todo s !! u /\ frame u s s') as Hgen.
  { intros l1 s1 th1 E1 Hw Hth1 Hst Hrc Htd F. destruct (crun_rinv l1 s s1 HL Hl E1) as [HL1 Hl1].
    destruct (IH (cwork s1) Hw s1 th1 eq_refl HL1 Hl1 (out_frame _ _ _ Ho F) Hth1) as (l2 & s2 & E2 & A1 & (th2 & A2 & A2') & A3 & A4 & A5).
    exists (l1 ++ l2), s2. rewrite crun_app, E1. cbn [mbind option_bind]. split; [done|]. split; [done|]. split; [exists th2; split; [done|congruence]|].
    split; [congruence|]. split; [congruence|]. by eapply frame_trans. }
  destruct (resting p) eqn:Hr.
  - destruct (t_todo th) as [|c todo] eqn:Etd; [unfold at_rest in Har; rewrite Hth, Hp, Hr, Etd in Har; done|].
    destruct (r3_thread _ HL u th p Hth Hp) as [_ Hpl]. rewrite Etd in Hpl. destruct (plan_entry p c todo _ Hpl Hr) as [q Eq].
    set (s1 := CState (RState (<[u := RThread (t_stack th) (t_count th) todo]> (s_threads (c_lock s))) (goto u q (s_base (c_lock s)))) (c_recs s) (c_todo s)).
    assert (cstep s u = Some s1) as E.
    { unfold cstep. rewrite Hth. cbn [mbind option_bind]. rewrite Hp. cbn [mbind option_bind]. rewrite Ha. cbn [mbind option_bind]. rewrite Hr, Etd. cbn [negb]. unfold lock_step. cbn [rstep]. rewrite Hth. cbn [mbind option_bind]. rewrite Etd.
      unfold call. rewrite Hp. cbn [mbind option_bind]. rewrite Eq. done. }
    apply (Hgen [u] s1 (RThread (t_stack th) (t_count th) todo)).
    + cbn [crun]. by rewrite E.
    + by eapply rest_step_down.
    + cbn. apply list_lookup_insert. by eapply lookup_lt_Some.
    + done.
    + done.
    + done.
    + split; cbn [s1 c_lock c_recs c_todo s_threads s_base goto m_pcs]; [intros v Hv; by apply list_lookup_insert_ne|intros v Hv; by apply list_lookup_insert_ne|done|done].
  - destruct (progress false (s_base (c_lock s)) (r3_base _ HL)) as (l & b' & Hin & E & Hw).
    + intros v. destruct (decide (v = u)) as [->|Hne]; [rewrite Hp; split; intros [= ->]; done|]. split; intros Hx; by specialize (Ho v _ Hne Hx).
    + exists u, p. split; [done|]. by intros ->.
    + destruct (inside_crun l s b' Hl (r3_len _ HL) Hin E) as (l' & E'). eapply (Hgen l' _ th E'); cbn [c_lock c_recs c_todo s_threads s_base]; try done.
      * unfold cwork, rwork. cbn [c_lock c_todo s_base s_threads]. lia.
      * split; cbn [c_lock c_recs c_todo s_threads s_base]; try done. intros v Hv. by eapply mgo_others.
Qed.
Lemma adv_lock s u st h a rest st' h' : conf s u st h (a :: rest) -> out_others s u -> ~ plain a -> next st h a = Some (st', h') ->
  exists l s', crun s l = Some s' /\ conf s' u st' h' rest /\ frame u s s'.
Proof.
  intros [C1 C2 C3 (th & C4 & C4') C5 C6] Ho Hpl Hn. destruct (at_rest_inv _ _ C3) as (th' & p & E1 & Ep & Hr & Etd). assert (th' = th) as -> by congruence.
  pose proof (lookup_lt_Some _ _ _ C5) as Hlt. pose proof (lookup_lt_Some _ _ _ C4) as Hlt2. destruct (r3_thread _ C1 u th p C4 Ep) as [Hc _].
  assert (forall todo c st1, cstep s u = Some (CState (RState (<[u := RThread st1 c todo]> (s_threads (c_lock s))) (s_base (c_lock s))) (c_recs s) (<[u := rest]> (c_todo s))) ->
    (st', h') = (st1, h) -> exists l s', crun s l = Some s' /\ conf s' u st' h' rest /\ frame u s s') as Hgen.
  { intros todo c st1 E [= -> ->]. destruct (cstep_rinv _ _ _ C1 C2 E) as [HL1 Hl1].
    set (s1 := CState (RState (<[u := RThread st1 c todo]> (s_threads (c_lock s))) (s_base (c_lock s))) (c_recs s) (<[u := rest]> (c_todo s))) in *.
    assert (frame u s s1) as F.
    { split; cbn [s1 c_lock c_recs c_todo s_threads s_base]; [intros v Hv; by apply list_lookup_insert_ne|done|intros v Hv; by apply list_lookup_insert_ne|done]. }
    destruct (settle s1 u (RThread st1 c todo) HL1 Hl1 (out_frame _ _ _ Ho F)) as (l & s2 & E2 & A1 & (th2 & A2 & A2') & A3 & A4 & A5).
    { cbn. by apply list_lookup_insert. }
    exists (u :: l), s2. cbn [crun]. rewrite E. cbn [mbind option_bind]. split; [done|]. split; [|by eapply frame_trans].
    destruct (crun_rinv _ _ _ HL1 Hl1 E2) as [HL2 Hl2]. split; [done|done|done|by exists th2| |].
    - rewrite A4. cbn. by apply list_lookup_insert.
    - by rewrite A3. }
  unfold cstep in Hgen. rewrite C4 in Hgen. cbn [mbind option_bind] in Hgen. rewrite Ep in Hgen. cbn [mbind option_bind] in Hgen. rewrite C5 in Hgen. cbn [mbind option_bind] in Hgen. rewrite Hr, Etd in Hgen. cbn [negb] in Hgen.
  destruct a as [k| |r|r|x|x]; cbn [plain next] in *; try (by destruct Hpl).
  - unfold lock_step in Hgen. cbn [rstep] in Hgen. rewrite C4 in Hgen. cbn [mbind option_bind] in Hgen. rewrite Ep in Hgen. cbn [mbind option_bind] in Hgen. rewrite Hr, Etd in Hgen. cbn [andb] in Hgen. rewrite bool_decide_true in Hgen by done.
    destruct (rlock k (t_count th)) as [todo c] eqn:El. cbn [mbind option_bind] in Hgen. eapply Hgen; [done|]. rewrite C4'. by injection Hn as <- <-.
  - destruct st as [|k st]; [done|]. injection Hn as <- <-. unfold lock_step in Hgen. cbn [rstep] in Hgen. rewrite C4 in Hgen. cbn [mbind option_bind] in Hgen. rewrite Ep in Hgen. cbn [mbind option_bind] in Hgen. rewrite Hr, Etd in Hgen. cbn [andb] in Hgen. rewrite bool_decide_true in Hgen by done.
    rewrite C4' in Hgen. destruct (runlock_spec k st) as (todo & E1' & _). rewrite Hc, C4', E1' in Hgen. cbn [mbind option_bind] in Hgen. by eapply Hgen.
Qed.
Lemma adv_list l : forall s u st h rest st' h', conf s u st h (l ++ rest) -> after st h l = Some (st', h') -> (Forall plain l \/ out_others s u) ->
  (forall r v n, ARec r ∈ l -> c_recs s !! r = Some (v, n) -> v = u) ->
  exists ls s', crun s ls = Some s' /\ conf s' u st' h' rest /\ frame u s s'.
Proof.
  induction l as [|a l IH]; intros s u st h rest st' h' C Haft Ho Hfree; cbn [after app] in *.
  { injection Haft as <- <-. exists [], s. split; [done|]. split; [done|apply frame_refl]. }
  destruct (next st h a) as [[st1 h1]|] eqn:En; [|done].
  assert (exists l1 s1, crun s l1 = Some s1 /\ conf s1 u st1 h1 (l ++ rest) /\ frame u s s1) as (l1 & s1 & E1 & C1 & F1).
  { assert (plain a \/ ~ plain a) as [Hp|Hp] by (destruct a; cbn; tauto).
    - destruct (adv_plain s u st h a (l ++ rest) st1 h1 C Hp En) as (s1 & E & H1 & H2); [intros r v n -> Hv; eapply Hfree; [left|done]|]. exists [u], s1. cbn. rewrite E. done.
    - eapply adv_lock; [done| |done|done]. destruct Ho as [Ho|Ho]; [|done]. by inversion Ho. }
  destruct (IH s1 u st1 h1 rest st' h' C1 Haft) as (l2 & s2 & E2 & C2 & F2).
  - destruct Ho as [Ho|Ho]; [left; by inversion Ho|right; by eapply out_frame].
  - intros r v n Hr Hv. destruct (decide (v = u)); [done|]. apply (fr_recs _ _ _ F1) in Hv; [|done]. eapply Hfree; [by right|done].
  - exists (l1 ++ l2), s2. rewrite crun_app, E1. cbn [mbind option_bind]. split; [done|]. split; [done|]. by eapply frame_trans.
Qed.
