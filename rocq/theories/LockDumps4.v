(** Calls that stand in each other's way get stuck for good (C56). *)
From Verif Require Export LockDumps3.
From Verif Require Import MutexProofs MutexProofs2 MutexProofs3 LockProofs.
Open Scope nat_scope.

(** ** The calls *)
Definition yes0 (_ _ : nat) : Prop := True.
Definition yes1 (_ : nat) (_ : bool) (_ : nat) : Prop := True.
Definition yes2 (_ : nat) : Prop := True.
Lemma dgood_after l : dgood yes0 yes1 yes2 0 [] None l -> after [] None l = Some ([], None).
Proof. intros H. eapply dok_after. by apply dgood_ok. Qed.
Lemma skeleton_after c : after [] None (skeleton c) = Some ([], None).
Proof. apply dgood_after, skeleton_dgood; done. Qed.
Lemma program_after cl : after [] None (program cl) = Some ([], None).
Proof.
  unfold program. induction cl as [|c cl IH]; [done|]. cbn [fmap list_fmap concat]. rewrite after_app, skeleton_after. exact IH.
Qed.
Lemma touch_in r : ARec r ∈ touch r.
Proof. left. Qed.
Lemma concat_in {A} (f : A -> list cact) l x a : x ∈ l -> a ∈ f x -> a ∈ concat (f <$> l).
Proof. apply elem_concat. Qed.
Lemma touches_in r rs : r ∈ rs -> ARec r ∈ touches rs.
Proof. intros H. eapply concat_in; [done|left]. Qed.
Lemma ref_get_in r : ARec r ∈ ref_get r.
Proof. unfold ref_get, sec. right. apply elem_of_app; left. apply elem_of_app; left. left. Qed.
Lemma with_ref_in r b : ARec r ∈ with_ref b r.
Proof. unfold with_ref, set_record, sec. apply elem_of_app; left. right. apply elem_of_app; left. apply elem_of_app; left. left. Qed.
Lemma with_concat_in r rs : r ∈ rs -> ARec r ∈ concat ((fun r => with_ref (ref_get r) r) <$> rs).
Proof. intros H. eapply (concat_in (fun r => with_ref (ref_get r) r)); [done|apply with_ref_in]. Qed.
Lemma set_record_new r o : ARec r ∈ set_record (Some r) o.
Proof. unfold set_record, sec. right. apply elem_of_app; left. apply elem_of_app; left. left. Qed.
Lemma set_record_old r o : ARec r ∈ set_record o (Some r).
Proof. unfold set_record, sec. right. apply elem_of_app; left. apply elem_of_app; right. left. Qed.
Lemma erase_in r ss : ARec r ∈ erase_one r ss.
Proof. unfold erase_one. apply elem_of_app; right. apply elem_of_app; right. left. Qed.
Lemma set_clear_in s r rs : r ∈ rs -> ARec r ∈ set_clear s rs.
Proof. intros H. unfold set_clear. apply elem_of_app; right. apply elem_of_app; left. by apply touches_in. Qed.
Lemma set_reset_in s r rs : r ∈ rs -> ARec r ∈ set_reset s rs.
Proof. intros H. unfold set_reset, sec. right. right. apply elem_of_app; left. apply elem_of_app; left. by apply set_clear_in. Qed.
Lemma ref_set_in r ss : ARec r ∈ ref_set r ss.
Proof. unfold ref_set, sec. right. apply elem_of_app; left. apply elem_of_app; left. left. Qed.
Lemma sets_in {B} (f : nat * B -> list cact) (g : B -> list nat) (ss : list (nat * B)) r : (forall e, r ∈ g e.2 -> ARec r ∈ f e) -> r ∈ concat (g ∘ snd <$> ss) -> ARec r ∈ concat (f <$> ss).
Proof.
  intros Hf. induction ss as [|e ss IH]; cbn; [intros H; by apply elem_of_nil in H|]. intros H. apply elem_of_app. apply elem_of_app in H as [H|H]; [left; by apply Hf|right; by apply IH].
Qed.

Ltac dsplit := apply dgood_after; dgo; try done.
(** A call that takes the mutex of record [r] inside: what comes first, the lock, the inside. *)
Lemma takes_split c r : r ∈ takes c -> exists out k body, skeleton c = out ++ sec k body /\ after [] None out = Some ([], None) /\ after [] None body = Some ([], None) /\
  ARec r ∈ body /\ (writes c -> k = KWrite).
Proof.
  intros H. destruct c; cbn [takes] in H; try (by apply elem_of_nil in H); cbn [skeleton writes].
  - exists [], KRead. eexists. split; [reflexivity|]. split; [done|]. split; [opts; dsplit|]. split; [|done].
    apply elem_of_app; right. apply elem_of_app; right. apply elem_of_app in H as [H|H].
    + destruct found as [x|]; cbn in H; [|by apply elem_of_nil in H]. apply elem_of_list_singleton in H as ->. apply set_record_new.
    + destruct old as [x|]; cbn in H; [|by apply elem_of_nil in H]. apply elem_of_list_singleton in H as ->. apply set_record_old.
  - exists (touches olds), KRead. eexists. split; [reflexivity|]. split; [dsplit|]. split; [dsplit|]. split; [|done].
    apply elem_of_app; right. apply elem_of_app; right. eapply (concat_in (fun r => set_record (Some r) None)); [done|apply set_record_new].
  - exists [], KRead. eexists. split; [reflexivity|]. split; [done|]. split; [dsplit|]. split; [|done]. right. by apply with_concat_in.
  - exists [], KWrite. eexists. split; [reflexivity|]. split; [done|]. split; [dsplit|]. split; [|done]. apply elem_of_app; right. apply elem_of_app in H as [H|H].
    + apply elem_of_app; left. by apply with_concat_in.
    + apply elem_of_app; right. apply elem_of_app; right. right. eapply (sets_in _ id); [|exact H]. intros e He. apply elem_of_app; right. by apply with_concat_in.
  - exists [], KWrite. eexists. split; [reflexivity|]. split; [done|]. split; [opts; dsplit|]. split; [|done]. destruct ok; [|by apply elem_of_nil in H]. apply elem_of_app; right.
    apply elem_of_cons in H as [-> | H]; [apply set_record_new|]. destruct old as [x|]; cbn in H; [|by apply elem_of_nil in H]. apply elem_of_list_singleton in H as ->. apply set_record_old.
  - exists [], KWrite. eexists. split; [reflexivity|]. split; [done|]. split; [dsplit|]. split; [|done]. apply elem_of_app; right.
    apply elem_of_list_fmap in H as (e & -> & He). eapply (concat_in (fun e : nat * list nat => erase_one e.1 e.2)); [done|apply erase_in].
  - exists [], KWrite. eexists. split; [reflexivity|]. split; [done|]. split; [dsplit|]. split; [|done]. right. apply elem_of_app in H as [H|H].
    + apply elem_of_app; right. apply elem_of_app; left. by apply touches_in.
    + apply elem_of_app; left. eapply (sets_in _ id); [|exact H]. intros e He. by apply set_clear_in.
  - exists [], KWrite. eexists. split; [reflexivity|]. split; [done|]. split; [dsplit|]. split; [|done]. right. apply elem_of_app in H as [H|H].
    + apply elem_of_app; right. apply elem_of_app; right. apply elem_of_app; left. by apply touches_in.
    + apply elem_of_app; left. eapply (sets_in _ id); [|exact H]. intros e He. by apply set_reset_in.
  - exists [], KWrite. eexists. split; [reflexivity|]. split; [done|]. split; [dsplit|]. split; [|done]. destruct sss as [|ss sss]; [by apply elem_of_nil in H|]. apply elem_of_list_singleton in H as ->.
    cbn [fmap list_fmap concat]. apply elem_of_app; left. apply ref_set_in.
  - exists [], KRead. eexists. split; [reflexivity|]. split; [done|]. split; [dsplit|]. split; [|done]. apply elem_of_list_singleton in H as ->. apply elem_of_app; left. left.
  - exists (touches olds ++ [ARead (LParent s)]), KRead. eexists. split; [by rewrite <- app_assoc|]. split; [dsplit|]. split; [dsplit|]. split; [|done].
    right. eapply (concat_in (fun r => touch r ++ get_is_valid r ++ [ARead (LSet s); ARead (LData r)] ++ touch r)); [done|]. apply elem_of_app; left. left.
  - exists [ARead (LParent s)], KRead. eexists. split; [reflexivity|]. split; [dsplit|]. split; [dsplit|]. split; [|done]. apply elem_of_list_singleton in H as ->. apply elem_of_app; left. left.
  - exists [ARead (LParent s)], KWrite. eexists. split; [reflexivity|]. split; [dsplit|]. split; [dsplit|]. split; [|done]. apply elem_of_app; right. apply elem_of_app; right. by apply touches_in.
  - exists [ARead (LParent s)], KWrite. eexists. split; [reflexivity|]. split; [dsplit|]. split; [dsplit|]. split; [|done]. apply elem_of_app; left. by apply set_clear_in.
  - exists [], KRead. eexists. split; [reflexivity|]. split; [done|]. split; [dsplit|]. split; [|done]. apply elem_of_app; right. apply elem_of_app in H as [H|H].
    + apply elem_of_app; left. by apply set_clear_in.
    + do 5 (apply elem_of_app; right). by apply touches_in.
Qed.
Lemma writes_split w : writes w -> exists out body, skeleton w = out ++ sec KWrite body /\ (out = [] \/ exists x, out = [ARead x]).
Proof. destruct w; try done; intros _; cbn [skeleton]; first [by exists []; eexists; split; [reflexivity|left] | exists [ARead (LParent s)]; eexists; split; [reflexivity|right; eauto]]. Qed.

(** ** Nobody moves any more *)
Record stand (t u v r : nat) (s : cstate) : Prop := {
  sd_lock : RInv3 (c_lock s);
  sd_len : length (c_todo s) = length (s_threads (c_lock s));
  sd_ne : t <> u;
  sd_dump : m_pcs (s_base (c_lock s)) !! t = Some RL20;
  sd_rec : exists n, c_recs s !! r = Some (t, n);
  sd_rest : at_rest (c_lock s) u = true;
  sd_next : exists rest, c_todo s !! u = Some (ARec r :: rest);
  sd_lockd : m_pcs (s_base (c_lock s)) !! u = Some Writing \/
    (m_pcs (s_base (c_lock s)) !! u = Some Reading /\ v <> t /\ v <> u /\
      exists p, m_pcs (s_base (c_lock s)) !! v = Some p /\ (p = WL52 \/ p = WL54 \/ p = WL54w \/ p = Waiting));
}.
Lemma stand_wm t u v r s : stand t u v r s -> m_wm (s_base (c_lock s)) <> None.
Proof.
  intros [HL _ _ _ _ _ _ Hd]. pose proof (m2_inv _ _ (r3_base _ HL)) as HM. destruct Hd as [Hu|(_ & _ & _ & p & Hv & Hp)].
  - rewrite (proj1 (mi_wm _ _ HM u _ Hu) eq_refl). done.
  - rewrite (proj1 (mi_wm _ _ HM v _ Hv)); [done|]. by destruct Hp as [-> |[-> |[-> | ->]]].
Qed.
(** What a step inside a call does to the other threads when no thread is notified. *)
Lemma go_quiet b x b' y p : go b x = Some b' -> x <> y -> m_pcs b !! y = Some p -> (p = Waiting -> m_count b <> 0%Z) -> (m_pcs b !! x = Some RU37 -> m_count b = 0%Z) -> m_pcs b' !! y = Some p.
Proof.
  intros E Hne Hy Hw H37. unfold go in E. destruct (m_pcs b !! x) as [q|] eqn:Hx; [|done]. cbn [mbind option_bind] in E.
  assert (forall q' l, (<[x := q']> l : list pc) !! y = l !! y) as Hi by (intros; by apply list_lookup_insert_ne).
  destruct q; try done; try (destruct (m_wm b); [done|]); try (destruct (m_rm b); [done|]); injection E as <-;
    cbn [goto with_wm with_rm with_count with_flag notify m_pcs]; rewrite Hi; try done.
  rewrite list_lookup_fmap, Hy. cbn. specialize (H37 eq_refl). destruct p; try done. by destruct Hw.
Qed.
Lemma stand_step t u v r s x s' : stand t u v r s -> cstep s x = Some s' -> stand t u v r s'.
Proof.
  intros HS E. pose proof (stand_wm _ _ _ _ _ HS) as Hwm. destruct HS as [HL Hlen Hne Hd (n & Hr) Hrest (rest & Hnext) Hlk].
  destruct (cstep_rinv _ _ _ HL Hlen E) as [HL' Hlen']. pose proof (m2_inv _ _ (r3_base _ HL)) as HM.
  destruct (at_rest_inv _ _ Hrest) as (uh & up & Euh & Eup & Hur & Hutd).
  unfold cstep in E. destruct (s_threads (c_lock s) !! x) as [xh|] eqn:Hxh; [|done]. cbn [mbind option_bind] in E.
  destruct (m_pcs (s_base (c_lock s)) !! x) as [xp|] eqn:Hxp; [|done]. cbn [mbind option_bind] in E. destruct (c_todo s !! x) as [acts|] eqn:Hxa; [|done]. cbn [mbind option_bind] in E.
  assert (x <> t) as Hxt.
  { intros ->. assert (xp = RL20) as -> by congruence. cbn [resting negb] in E. unfold lock_step in E. cbn [rstep] in E. unfold go in E. rewrite Hxp in E. cbn [mbind option_bind] in E. by destruct (m_wm (s_base (c_lock s))). }
  assert (x <> u) as Hxu.
  { intros ->. assert (xp = up) as -> by congruence. assert (xh = uh) as -> by congruence. assert (acts = ARec r :: rest) as -> by congruence. rewrite Hur, Hutd in E. cbn [negb] in E. rewrite Hr in E. by rewrite decide_False in E. }
  (* steps of the mutex *)
  assert (forall a todo, actor a = x -> (forall y, y <> x -> todo !! y = c_todo s !! y) ->
    (forall l y p, rstep (c_lock s) a = Some l -> y <> x -> m_pcs (s_base (c_lock s)) !! y = Some p -> y = t \/ y = u \/ (y = v /\ m_pcs (s_base (c_lock s)) !! u = Some Reading) -> m_pcs (s_base l) !! y = Some p) ->
    (forall l p, rstep (c_lock s) a = Some l -> v = x -> m_pcs (s_base (c_lock s)) !! u = Some Reading -> m_pcs (s_base (c_lock s)) !! v = Some p -> p = WL52 \/ p = WL54 \/ p = WL54w \/ p = Waiting ->
      exists p', m_pcs (s_base l) !! v = Some p' /\ (p' = WL52 \/ p' = WL54 \/ p' = WL54w \/ p' = Waiting)) ->
    lock_step s a todo = Some s' -> stand t u v r s') as Hls.
  { intros a todo Hact Htodo Hpcs Hv E'. unfold lock_step in E'. destruct (rstep (c_lock s) a) as [l|] eqn:El; [|done]. cbn [mbind option_bind] in E'. injection E' as <-.
    split; cbn [c_lock c_recs c_todo]; [done|done|done| |eauto| | |].
    - apply (Hpcs l); auto.
    - apply (rstep_other _ _ _ u El); [by rewrite Hact|done].
    - exists rest. rewrite Htodo; auto.
    - destruct Hlk as [Hu|(Hu & Hvt & Hvu & p & Hvp & Hp)]; [left; apply (Hpcs l); auto|right]. split; [apply (Hpcs l); auto|]. split; [done|]. split; [done|].
      destruct (decide (v = x)) as [Hvx|Hvx]; [by apply (Hv l p)|]. exists p. split; [apply (Hpcs l); auto|done]. }
  destruct (resting xp) eqn:Hxr; cbn [negb] in E.
  2:{ eapply (Hls (RGo x)); [done|done| |..|exact E].
      - intros l y p El Hyx Hy Hw. cbn [rstep] in El. destruct (go (s_base (c_lock s)) x) as [b|] eqn:Eg; [|done]. cbn [mbind option_bind] in El. injection El as <-. cbn [s_base].
        eapply go_quiet; [exact Eg|by apply not_eq_sym|done| |].
        + intros ->. destruct Hw as [-> |[-> |[-> Hu]]]; [congruence|destruct Hlk as [?|[? _]]; congruence|].
          rewrite (mi_count _ _ HM). pose proof (readers_pos _ u _ Hu eq_refl). lia.
        + intros Hx. eapply (mi_none _ _ HM x); [exact Hx|done].
      - intros l p El Hvx Hu Hvp Hp. subst x. assert (xp = p) as -> by congruence. cbn [rstep] in El. unfold go in El. rewrite Hvp in El. cbn [mbind option_bind] in El. pose proof (lookup_lt_Some _ _ _ Hvp) as Hlt.
        destruct Hp as [-> |[-> |[-> | ->]]]; [| | |done]; cbn [mbind option_bind] in El; injection El as <-; cbn [s_base goto with_flag m_pcs]; (eexists; split; [by apply list_lookup_insert|]); auto.
        pose proof (readers_pos _ u _ Hu eq_refl). assert ((0 <? m_count (s_base (c_lock s)))%Z = true) as ->; [|auto]. apply Z.ltb_lt. rewrite (mi_count _ _ HM). lia. }
  assert (v = x -> m_pcs (s_base (c_lock s)) !! u = Some Reading -> forall p, m_pcs (s_base (c_lock s)) !! v = Some p -> p = WL52 \/ p = WL54 \/ p = WL54w \/ p = Waiting -> False) as Hno.
  { intros Hvx _ p Hvp Hp. rewrite Hvx in Hvp. assert (xp = p) as -> by congruence. by destruct Hp as [-> |[-> |[-> | ->]]]. }
  destruct (t_todo xh) as [|c todo] eqn:Htd.
  2:{ eapply (Hls (RNext x)); [done|done| |..|exact E].
      - intros l y p El Hyx Hy _. cbn [rstep] in El. rewrite Hxh in El. cbn [mbind option_bind] in El. rewrite Htd in El. unfold call in El. rewrite Hxp in El. cbn [mbind option_bind] in El.
        destruct (entry c xp); [|done]. cbn [mbind option_bind] in El. injection El as <-. cbn [s_base goto m_pcs]. by rewrite list_lookup_insert_ne.
      - intros l p _ Hvx Hu Hvp Hp. by destruct (Hno Hvx Hu p Hvp). }
  destruct acts as [|a rest']; [done|].
  assert (forall y, y <> x -> <[x := rest']> (c_todo s) !! y = c_todo s !! y) as Hi by (intros y Hy; by apply list_lookup_insert_ne).
  assert (forall m, (exists n, m !! r = Some (t, n)) -> Some (CState (c_lock s) m (<[x := rest']> (c_todo s))) = Some s' -> stand t u v r s') as Hrs.
  { intros m Hm [= <-]. split; cbn [c_lock c_recs c_todo]; try done. exists rest. rewrite Hi; auto. }
  assert (forall a l y p, (exists k, a = RLock x k) \/ a = RUnlock x -> rstep (c_lock s) a = Some l -> m_pcs (s_base (c_lock s)) !! y = Some p -> m_pcs (s_base l) !! y = Some p) as Hbase.
  { intros a0 l y p Ha El Hy. destruct Ha as [[k ->]| ->]; cbn [rstep] in El; rewrite Hxh in El; cbn [mbind option_bind] in El; rewrite Hxp in El; cbn [mbind option_bind] in El; destruct (resting xp && _); try done.
    - destruct (rlock k (t_count xh)). by injection El as <-.
    - destruct (t_stack xh); [done|]. destruct (runlock r0 (t_count xh)) as [[]|]; [|done]. cbn [mbind option_bind] in El. by injection El as <-. }
  destruct a as [k| |r'|r'|y|y].
  - eapply (Hls (RLock x k)); [done|exact Hi| | |exact E].
    + intros l0 y p0 El _ Hy _. eapply Hbase; [|exact El|exact Hy]. left; by exists k.
    + intros l0 p0 _ Hvx Hu Hvp Hp. by destruct (Hno Hvx Hu p0 Hvp).
  - eapply (Hls (RUnlock x)); [done|exact Hi| | |exact E].
    + intros l0 y p0 El _ Hy _. eapply Hbase; [|exact El|exact Hy]. by right.
    + intros l0 p0 _ Hvx Hu Hvp Hp. by destruct (Hno Hvx Hu p0 Hvp).
  - destruct (c_recs s !! r') as [[w m]|] eqn:Er'.
    + destruct (decide (w = x)) as [->|]; [|done]. eapply Hrs; [|exact E]. rewrite lookup_insert_ne; [by eauto|]. intros ->. congruence.
    + eapply Hrs; [|exact E]. rewrite lookup_insert_ne; [by eauto|]. intros ->. congruence.
  - destruct (c_recs s !! r') as [[w [|m]]|] eqn:Er'; [done| |done]. destruct (decide (w = x)) as [->|]; [|done]. eapply Hrs; [|exact E].
    assert (r' <> r) by (intros ->; congruence). destruct (decide (m = 0)); [rewrite lookup_delete_ne by done|rewrite lookup_insert_ne by done]; eauto.
  - eapply Hrs; [|exact E]. eauto.
  - eapply Hrs; [|exact E]. eauto.
Qed.
Lemma stand_forever t u v r l : forall s s', stand t u v r s -> crun s l = Some s' -> stand t u v r s'.
Proof.
  induction l as [|x l IH]; intros s s' HS; cbn; [by intros [= <-]|]. destruct (cstep s x) as [s1|] eqn:E; [|done]. cbn. apply IH. by eapply stand_step.
Qed.
Lemma stand_unfinished t u v r s : stand t u v r s -> ~ finished s.
Proof.
  intros [HL Hlen _ Hd _ _ _ _] Hf. pose proof (lookup_lt_Some _ _ _ Hd) as Hlt. rewrite <- (r3_len _ HL), <- Hlen in Hlt. apply lookup_lt_is_Some in Hlt as [acts Ha].
  apply (Hf t). exists acts. split; [done|]. right. unfold at_rest. rewrite Hd. by destruct (s_threads (c_lock s) !! t).
Qed.
