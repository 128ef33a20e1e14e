(** Threads on one vault behave as if they took turns (for T_Conc.v). *)
From Verif Require Import MutexProofs MutexProofs2 MutexProofs3 LockProofs.
From Verif Require Import T_Base T_Frame T_Query T_RefOps.
From Verif Require Export ConcModel ConcSpec.
Open Scope nat_scope.

(** ** What reading calls leave alone *)
Lemma same_refl own t w : same_for own t w w.
Proof. by repeat split. Qed.
Lemma same_trans own t w1 w2 w3 : same_for own t w1 w2 -> same_for own t w2 w3 -> same_for own t w1 w3.
Proof.
  intros [(A1 & A2 & A3) A4] [(B1 & B2 & B3) B4]. split; [split; [by rewrite B1|split]|].
  - intros r. by rewrite B2.
  - intros r k. by rewrite B3.
  - intros f Hf. by rewrite (B4 f Hf), (A4 f Hf).
Qed.
Lemma same_sym own t w1 w2 : same_for own t w1 w2 -> same_for own t w2 w1.
Proof. intros [(A1 & A2 & A3) A4]. split; [split; [done|split]|]; intros; symmetry; eauto. Qed.
Lemma only_refs_refl w : only_refs_changed w w.
Proof. by repeat split. Qed.
Lemma read_step b V w c w' r : reach b w -> proper b V w c -> mode V c = Some KRead -> perform V w c = Some (w', r) ->
  only_refs_changed w w' /\ forall f, f ∉ refs_of c -> w_refs w' !! f = w_refs w !! f.
Proof.
  intros HR ((ob & HV) & Hthr & HP) Hm E. destruct c as [ord p|a].
  2:{ cbn [perform] in E. destruct (reply_to V w a); [|done]. cbn [mbind option_bind] in E. injection E as <- _. split; [apply only_refs_refl|done]. }
  destruct HP as [Hf HA]. cbn [perform] in E. destruct (step ord w p) as [[w1 x]|] eqn:Es; [|done]. cbn [mbind option_bind] in E. injection E as <- _.
  destruct p; cbn [mode] in Hm; unfold on_vault in Hm; try done; try (destruct (decide (o = V)); done); destruct (decide (o = V)) as [->|]; try done; cbn [refs_of].
  - destruct x as [| |res|].
    + cbn [step] in Es. unfold guard_op in Es. destruct (is_obj w V && is_ref w f); [|injection Es as <-; split; [apply only_refs_refl|done]].
      apply res_inv in Es as (? & _ & ?). done.
    + cbn [step] in Es. unfold guard_op in Es. destruct (is_obj w V && is_ref w f); [|done]. apply res_inv in Es as (? & _ & ?). done.
    + assert (exists rf, w_refs w !! f = Some rf) as [rf Hrf].
      { cbn [step] in Es. unfold guard_op in Es. destruct (is_obj w V && is_ref w f) eqn:G; [|done]. apply andb_true_iff in G as [_ G]. by apply bool_decide_eq_true in G. }
      destruct (t_C04_getrecord_exact b ord w V ob V k v f rf w1 res Hf HR HA) as (H1 & rf' & H2 & _); [by left|done|done|]. split; [done|]. intros g Hg. rewrite H2. apply lookup_insert_ne. intros ->. apply Hg. by left.
    + cbn [step] in Es. unfold guard_op in Es. destruct (is_obj w V && is_ref w f); [|done]. apply res_inv in Es as (? & _ & ?). done.
  - destruct (t_C48_getrecords_refs b ord w V ob V k v amt fs w1 x Hf HR) as (res & l & _ & _ & H1 & H2 & _); [by left|done|]. done.
  - destruct (t_C48_getsorted_refs b ord w V k rev amt fs w1 x Hf HR) as (l & _ & H1 & H2 & _); [by destruct HV; eauto|done|]. done.
Qed.
Lemma perform_reach b V w c w' r : reach b w -> proper b V w c -> perform V w c = Some (w', r) -> reach b w'.
Proof.
  intros HR (_ & _ & HP) E. destruct c as [ord p|a]; cbn [perform] in E.
  - destruct HP as [Hf HA]. destruct (step ord w p) as [[w1 x]|] eqn:Es; [|done]. cbn [mbind option_bind] in E. injection E as <- _. by eapply reach_step.
  - destruct (reply_to V w a); [|done]. cbn [mbind option_bind] in E. by injection E as <- _.
Qed.

(** ** Histories *)
Inductive full (t : nat) : list event -> Prop :=
  | full_nil : full t []
  | full_snoc l c r : full t l -> full t (l ++ [ECall t c; EEff t c r; ERet t c r]).
Lemma full_regular t l x : full t l -> regular x -> regular (l ++ x).
Proof. intros H. revert x. induction H as [|l c r H IH]; intros x Hx; [done|]. rewrite <- app_assoc. apply IH. by repeat split. Qed.
Lemma thread_events_snoc t L e : thread_events t (L ++ [e]) = thread_events t L ++ (if decide (who e = t) then [e] else []).
Proof. unfold thread_events. by rewrite filter_app. Qed.
Lemma observed_snoc L e : observed (L ++ [e]) = observed L ++ (if is_effect e then [] else [e]).
Proof. unfold observed. rewrite filter_app. by destruct e. Qed.
Lemma effects_snoc L e : effects (L ++ [e]) = effects L ++ (match e with EEff _ c r => [(c, r)] | _ => [] end).
Proof. unfold effects. rewrite omap_app. by destruct e. Qed.

(** ** The invariant *)
Definition thread_ok (own : nat -> nat) (V t : nat) (l : rstate) (th : rthread) (mem : world) (L : list event) (w : world) (ph : phase) : Prop :=
  exists hist, full t hist /\
  match ph with
  | Outside => thread_events t L = hist /\ t_stack th = []
  | Entering c => thread_events t L = hist ++ [ECall t c] /\ (forall f, f ∈ refs_of c -> own f = t) /\ exists k, mode V c = Some k /\ t_stack th = [k]
  | Inside c w1 kept ps => thread_events t L = hist ++ [ECall t c] /\ (forall f, f ∈ refs_of c -> own f = t) /\ at_rest l t = true /\
      exists k ns, mode V c = Some k /\ t_stack th = ns ++ [k] /\ (k = KRead -> KWrite ∉ ns) /\
        match k with
        | KWrite => w1 = w /\ kept = mem /\ forall x y, (x, y) ∈ ps -> x = y
        | KRead => same_for own t kept w /\ forall x y, (x, y) ∈ ps -> same_for own t x y
        end
  | Leaving c r => thread_events t L = hist ++ [ECall t c; EEff t c r] /\ t_stack th = []
  end.
Definition writing (V : nat) (ph : phase) : Prop := match ph with Inside c _ _ _ => mode V c = Some KWrite | _ => False end.
Record LInv (b : bool) (V : nat) (own : nat -> nat) (w0 : world) (s : lstate) (L : list event) (w : world) : Prop := {
  li_lock : RInv3 (l_lock s);
  li_len : length (l_phase s) = length (s_threads (l_lock s));
  li_obs : observed L = l_log s;
  li_seq : sequential b V w0 (effects L) w;
  li_reach : reach b w;
  li_thread : forall t ph th, l_phase s !! t = Some ph -> s_threads (l_lock s) !! t = Some th -> thread_ok own V t (l_lock s) th (l_mem s) L w ph;
  li_out : forall t, length (l_phase s) <= t -> thread_events t L = [];
  li_mem : l_mem s = w \/ exists t ph, l_phase s !! t = Some ph /\ writing V ph;
}.
Lemma l_init_inv b V own w0 n : reach b w0 -> LInv b V own w0 (l_init n w0) [] w0.
Proof.
  intros HR. split; cbn; [apply rs_init_inv|by rewrite !replicate_length|done|constructor|done| |done|by left].
  intros t ph th Hp Hth. apply lookup_replicate in Hp as [-> _], Hth as [-> _]. exists []. split; [constructor|done].
Qed.
Lemma writing_alone b V own w0 s L w t ph u uh : LInv b V own w0 s L w -> l_phase s !! t = Some ph -> writing V ph ->
  u <> t -> s_threads (l_lock s) !! u = Some uh -> at_rest (l_lock s) u = true -> t_stack uh = [].
Proof.
  intros HI Ht Hw Hne Hu Hr. destruct ph as [| |c w1 kept ps|]; try done. cbn in Hw.
  assert (is_Some (s_threads (l_lock s) !! t)) as [th Hth] by (apply lookup_lt_is_Some; rewrite <- (li_len _ _ _ _ _ _ _ HI); by eapply lookup_lt_Some).
  destruct (li_thread _ _ _ _ _ _ _ HI t _ th Ht Hth) as (hist & _ & _ & _ & Hrt & k & ns & Hk & Hst & _ & _).
  eapply (excl (l_lock s) t u th uh); [apply HI|done|done|done|done|done|]. rewrite Hst. apply elem_of_app. right. rewrite Hw in Hk. injection Hk as <-. by left.
Qed.
(** While thread [u] holds a lock (at rest), nobody else writes. *)
Lemma no_writer b V own w0 s L w u uh : LInv b V own w0 s L w -> s_threads (l_lock s) !! u = Some uh -> at_rest (l_lock s) u = true -> t_stack uh <> [] ->
  (forall ph, l_phase s !! u = Some ph -> ~ writing V ph) -> l_mem s = w.
Proof.
  intros HI Hu Hr Hst Hno. destruct (li_mem _ _ _ _ _ _ _ HI) as [H|(t & ph & Ht & Hw)]; [done|]. destruct (decide (u = t)) as [->|Hne]; [by destruct (Hno _ Ht)|].
  destruct Hst. by eapply writing_alone.
Qed.

(** A thread is not affected by what another one does to the lock, as long as the memory it looks at is the same to it. *)
Lemma thread_keep own V u l l' th mem mem' L L' w w' ph : thread_ok own V u l th mem L w ph ->
  (at_rest l u = true -> at_rest l' u = true) -> thread_events u L' = thread_events u L ->
  match ph with Inside c _ _ _ => (mode V c = Some KWrite -> w' = w /\ mem' = mem) /\ (mode V c = Some KRead -> same_for own u w w') | _ => True end ->
  thread_ok own V u l' th mem' L' w' ph.
Proof.
  intros (hist & Hf & H) Hr HL Hw. exists hist. split; [done|]. rewrite HL. destruct ph as [|c|c w1 kept ps|c r]; try done.
  destruct H as (H1 & H2 & H3 & k & ns & Hk & Hst & Hns & H4). split; [done|]. split; [done|]. split; [by apply Hr|]. exists k, ns. split; [done|]. split; [done|]. split; [done|].
  destruct Hw as [Hw1 Hw2]. destruct k.
  - destruct H4 as [H4 H5]. split; [|done]. eapply same_trans; [exact H4|]. by apply Hw2.
  - destruct (Hw1 Hk) as [-> ->]. done.
Qed.
Lemma resting_step l t l' : at_rest l t = true -> rstep l (RNext t) = Some l' \/ rstep l (RGo t) = Some l' -> False.
Proof.
  intros H. apply at_rest_inv in H as (th & p & Hth & Hp & Hr & Htd). cbn [rstep]. rewrite Hth. cbn [mbind option_bind]. rewrite Htd. intros [E|E]; [done|].
  unfold go in E. rewrite Hp in E. cbn [mbind option_bind] in E. by destruct p.
Qed.

(** ** Nested locks *)
Lemma deep_count ns k0 : (k0 = KRead -> KWrite ∉ ns) ->
  0 < c_write (count_of (ns ++ [k0])) \/ (k0 = KRead /\ c_write (count_of (ns ++ [k0])) = 0 /\ 0 < c_read (count_of (ns ++ [k0]))).
Proof.
  intros H. destruct k0.
  - right. split; [done|]. assert (c_write (count_of (ns ++ [KRead])) = 0) as E.
    { apply count_write. rewrite elem_of_app, elem_of_list_singleton. intros [Hx|Hx]; [by apply H in Hx|done]. }
    split; [done|]. destruct (decide (c_read (count_of (ns ++ [KRead])) = 0)) as [E2|]; [|lia]. exfalso.
    assert (target (count_of (ns ++ [KRead])) = Out) as Ht by (unfold target; rewrite E, E2; done). apply count_zero in Ht. by destruct ns.
  - left. destruct (decide (c_write (count_of (ns ++ [KWrite])) = 0)) as [E|]; [|lia]. apply count_write in E. destruct E. apply elem_of_app. right. by left.
Qed.
Lemma at_rest_intro l t th p : s_threads l !! t = Some th -> m_pcs (s_base l) !! t = Some p -> resting p = true -> t_todo th = [] -> at_rest l t = true.
Proof. intros H1 H2 H3 H4. unfold at_rest. by rewrite H1, H2, H3, H4. Qed.
Lemma nest_rest l t th ns k0 k l' : RInv3 l -> at_rest l t = true -> s_threads l !! t = Some th -> t_stack th = ns ++ [k0] -> (k0 = KRead -> KWrite ∉ ns) ->
  k0 = KWrite \/ k = KRead -> rstep l (RLock t k) = Some l' -> at_rest l' t = true.
Proof.
  intros HI Hr Hth Hst Hns Hk E. apply at_rest_inv in Hr as (th' & p & E1 & Hp & Hrp & Htd). assert (th' = th) as -> by congruence.
  cbn [rstep] in E. rewrite Hth in E. cbn [mbind option_bind] in E. rewrite Hp in E. cbn [mbind option_bind] in E. rewrite Hrp, Htd in E. cbn in E.
  destruct (r3_thread _ HI t th p Hth Hp) as [Hc _]. rewrite Hst in Hc. pose proof (deep_count ns k0 Hns) as Hd. rewrite <- Hc in Hd.
  destruct (rlock k (t_count th)) as [todo c] eqn:El. injection E as <-. eapply at_rest_intro; cbn [s_threads s_base]; [apply list_lookup_insert; by eapply lookup_lt_Some|done|done|]. cbn.
  destruct (t_count th) as [cr cw]. cbn [c_read c_write] in Hd. destruct k; cbn in El.
  - destruct cw; cbn in El; [|by injection El as <- _]. destruct cr; [lia|]. by injection El as <- _.
  - destruct Hk as [->|]; [|done]. destruct Hd as [Hd|(? & _)]; [|done]. destruct cw; [lia|]. by injection El as <- _.
Qed.
Lemma unnest_rest l t th ns k0 k st l' : RInv3 l -> at_rest l t = true -> s_threads l !! t = Some th -> t_stack th = k :: st -> st = ns ++ [k0] -> (k0 = KRead -> KWrite ∉ (k :: ns)) ->
  rstep l (RUnlock t) = Some l' -> at_rest l' t = true.
Proof.
  intros HI Hr Hth Hst Hst2 Hns E. apply at_rest_inv in Hr as (th' & p & E1 & Hp & Hrp & Htd). assert (th' = th) as -> by congruence.
  cbn [rstep] in E. rewrite Hth in E. cbn [mbind option_bind] in E. rewrite Hp in E. cbn [mbind option_bind] in E. rewrite Hrp, Htd in E. cbn in E. rewrite Hst in E.
  destruct (r3_thread _ HI t th p Hth Hp) as [Hc _]. rewrite Hst in Hc. pose proof (deep_count ns k0 (fun H => proj2 (proj1 (not_elem_of_cons _ _ _) (Hns H)))) as Hd. rewrite <- Hst2 in Hd.
  cbn [count_of] in Hc. destruct (runlock k (t_count th)) as [[todo c]|] eqn:El; [|done]. cbn [mbind option_bind] in E. injection E as <-.
  eapply at_rest_intro; cbn [s_threads s_base]; [apply list_lookup_insert; by eapply lookup_lt_Some|done|done|]. cbn.
  rewrite Hc in El. destruct (count_of st) as [cr cw]. cbn [c_read c_write] in Hd, El. destruct k; cbn in El.
  - destruct cw; cbn in El; [|by injection El as <- _]. destruct cr; [lia|]. by injection El as <- _.
  - destruct Hd as [Hd|(-> & _)]; [destruct cw; [lia|]; by injection El as <- _|]. specialize (Hns eq_refl). destruct Hns. by left.
Qed.

(** ** Preservation *)
Lemma step_keep b V own w0 l mem ph log L w t l' mem' ph' log' L' w' :
  LInv b V own w0 (LState l mem ph log) L w -> t < length ph -> RInv3 l' -> length (s_threads l') = length (s_threads l) ->
  (forall u, u <> t -> s_threads l' !! u = s_threads l !! u /\ (at_rest l u = true -> at_rest l' u = true)) ->
  (forall u, u <> t -> thread_events u L' = thread_events u L) ->
  (forall u uph, u <> t -> ph !! u = Some uph ->
     match uph with Inside c _ _ _ => (mode V c = Some KWrite -> w' = w /\ mem' = mem) /\ (mode V c = Some KRead -> same_for own u w w') | _ => True end) ->
  (forall th', s_threads l' !! t = Some th' -> thread_ok own V t l' th' mem' L' w' ph') ->
  observed L' = log' -> sequential b V w0 (effects L') w' -> reach b w' ->
  (mem' = w' \/ writing V ph' \/ exists u uph, u <> t /\ ph !! u = Some uph /\ writing V uph) ->
  LInv b V own w0 (LState l' mem' (<[t := ph']> ph) log') L' w'.
Proof.
  intros [HL Hlen _ _ _ HT HO _] Ht HR Hlen' Hoth Hev Hin Hown Hobs Hseq Hreach Hmem. cbn in *.
  split; cbn; [done|by rewrite insert_length, Hlen, Hlen'|done|done|done| | |].
  - intros u uph th' Hu Hth. destruct (decide (u = t)) as [->|Hne].
    + rewrite list_lookup_insert in Hu by done. injection Hu as <-. by apply Hown.
    + rewrite list_lookup_insert_ne in Hu by done. destruct (Hoth u Hne) as [E1 E2]. rewrite E1 in Hth.
      eapply thread_keep; [by eapply HT|done|by apply Hev|]. by apply (Hin u).
  - intros u Hu. rewrite insert_length in Hu. rewrite Hev by lia. by apply HO.
  - destruct Hmem as [H|[H|(u & uph & Hne & Hu & H)]]; [by left|right; exists t, ph'; by rewrite list_lookup_insert|].
    right. exists u, uph. by rewrite list_lookup_insert_ne.
Qed.
Lemma lstep_inv b V own w0 s s' L w : LInv b V own w0 s L w -> lstep b V own s s' -> exists L' w', LInv b V own w0 s' L' w'.
Proof.
  intros HI Hs. pose proof HI as [HL Hlen Hobs Hseq Hreach HT HO Hmem].
  destruct Hs as [t c k l w1 ph log l' Hph Hk Hrefs E|t a l w1 ph log l' Ha E|t c l w1 ph log Hph Hr|t c wb kept ps l w1 ph log Hph|t c wb kept ps l w1 ph log w2 Hph Hk
    |t k c wb kept ps l w1 ph log l' Hph Hk E|t th k1 k2 st c wb kept ps l w1 ph log l' Hph Hth Hst E|t th k c wb kept ps l w1 ph log l' w2 r Hph Hth Hst E Hfin|t c r l w1 ph log Hph Hr]; cbn [l_lock l_mem l_phase l_log] in *.
  - (* call *)
    pose proof (lookup_lt_Some _ _ _ Hph) as Hlt. assert (is_Some (s_threads l !! t)) as [th Hth] by (apply lookup_lt_is_Some; lia).
    destruct (rstep_own _ _ _ _ E Hth) as (th' & Hth' & Hst). cbn [actor] in Hth'. destruct (HT t _ th Hph Hth) as (hist & Hf & Hev & Hst0).
    exists (L ++ [ECall t c]), w. eapply step_keep; [exact HI|done|by eapply rstep_inv|by eapply rstep_len| | | | | | |done|].
    + intros u Hne. by eapply rstep_other.
    + intros u Hne. rewrite thread_events_snoc. cbn [who]. rewrite decide_False by done. by rewrite app_nil_r.
    + intros u uph Hne Hu. destruct uph; try done; (split; [done|intros _; apply same_refl]).
    + intros th2 Hth2. assert (th2 = th') as -> by congruence. exists hist. split; [done|]. rewrite thread_events_snoc, Hev. cbn [who]. rewrite decide_True by done. split; [done|]. split; [done|]. exists k. split; [done|]. by rewrite Hst, Hst0.
    + by rewrite observed_snoc, Hobs.
    + rewrite effects_snoc, app_nil_r. done.
    + destruct Hmem as [H|(u & uph & Hu & H)]; [by left|]. right. right. exists u, uph. split; [|done]. intros ->. rewrite Hph in Hu. injection Hu as <-. done.
  - (* inside the lock *)
    exists L, w. destruct (decide (t < length ph)) as [Hlt|Hge].
    2:{ exfalso. assert (s_threads l !! t = None) as Hno by (apply lookup_ge_None; lia). assert (m_pcs (s_base l) !! t = None) as Hno2 by (apply lookup_ge_None; rewrite <- (r3_len _ HL); lia).
        destruct Ha as [-> | ->]; cbn [rstep] in E; [by rewrite Hno in E|]. unfold go in E. by rewrite Hno2 in E. }
    apply lookup_lt_is_Some in Hlt as [tph Htph]. pose proof (lookup_lt_Some _ _ _ Htph) as Hlt. assert (is_Some (s_threads l !! t)) as [th Hth] by (apply lookup_lt_is_Some; lia).
    assert (actor a = t) as Hat by (by destruct Ha as [-> | ->]).
    rewrite <- (list_insert_id ph t tph Htph). eapply step_keep; [exact HI|done|by eapply rstep_inv|by eapply rstep_len| |done| | |done|done|done|].
    + intros u Hne. eapply rstep_other; [exact E|]. by rewrite Hat.
    + intros u uph Hne Hu. destruct uph; try done; (split; [done|intros _; apply same_refl]).
    + intros th' Hth'. destruct (rstep_own _ _ _ th E) as (th2 & Hth2 & Hst); [by rewrite Hat|]. rewrite Hat in Hth2. assert (th2 = th') as -> by congruence.
      assert (t_stack th' = t_stack th) as Est by (by destruct Ha as [-> | ->]).
      assert (match tph with Inside _ _ _ _ => False | _ => True end) as Hni.
      { destruct tph as [| |c1 wb kept ps|]; try done. destruct (HT t _ th Htph Hth) as (hist & _ & _ & _ & Hrt & _). eapply resting_step; [exact Hrt|]. destruct Ha as [-> | ->]; eauto. }
      destruct (HT t _ th Htph Hth) as (hist & Hf & H). exists hist. split; [done|]. destruct tph; try done; rewrite Est; done.
    + destruct Hmem as [H|(u & uph & Hu & H)]; [by left|]. right. destruct (decide (u = t)) as [->|]; [left; congruence|right; eauto].
  - (* the lock is held *)
    pose proof (lookup_lt_Some _ _ _ Hph) as Hlt. assert (is_Some (s_threads l !! t)) as [th Hth] by (apply lookup_lt_is_Some; lia).
    destruct (HT t _ th Hph Hth) as (hist & Hf & Hev & Hrefs & k & Hk & Hst).
    assert (w1 = w) as -> by (apply (no_writer _ _ _ _ _ _ _ t th HI); cbn; [done|done|by rewrite Hst|intros ? Hx; rewrite Hph in Hx; injection Hx as <-; auto]).
    exists L, w. eapply step_keep; [exact HI|done|done|done|auto|done| | |done|done|done|by left].
    + intros u uph Hne Hu. destruct uph; try done; (split; [done|intros _; apply same_refl]).
    + intros th' Hth'. assert (th' = th) as -> by congruence. exists hist. split; [done|]. split; [done|]. split; [done|]. split; [done|]. exists k, []. split; [done|]. split; [done|]. split; [intros _ Hx; by apply elem_of_nil in Hx|].
      destruct k; [split; [apply same_refl|]|split; [done|split; [done|]]]; intros x y Hx; by apply elem_of_nil in Hx.
  - (* a look *)
    pose proof (lookup_lt_Some _ _ _ Hph) as Hlt. assert (is_Some (s_threads l !! t)) as [th Hth] by (apply lookup_lt_is_Some; lia).
    destruct (HT t _ th Hph Hth) as (hist & Hf & Hev & Hrefs & Hrt & k & ns & Hk & Hst & Hns & Hx).
    exists L, w. eapply step_keep; [exact HI|done|done|done|auto|done| | |done|done|done|].
    + intros u uph Hne Hu. destruct uph; try done; (split; [done|intros _; apply same_refl]).
    + intros th' Hth'. assert (th' = th) as -> by congruence. exists hist. split; [done|]. split; [done|]. split; [done|]. split; [done|]. exists k, ns. split; [done|]. split; [done|]. split; [done|].
      destruct k.
      * destruct Hx as [Hx1 Hx2]. split; [done|]. intros x y Hin. apply elem_of_cons in Hin as [[= -> ->]|Hin]; [|by apply Hx2].
        assert (w1 = w) as -> by (apply (no_writer _ _ _ _ _ _ _ t th HI); cbn; [done|done|rewrite Hst; by destruct ns|intros ? Hy; rewrite Hph in Hy; injection Hy as <-; cbn; congruence]). done.
      * destruct Hx as (-> & -> & Hx2). split; [done|]. split; [done|]. intros x y Hin. apply elem_of_cons in Hin as [[= -> ->]|Hin]; [done|]. by apply Hx2.
    + destruct Hmem as [H|(u & uph & Hu & H)]; [by left|]. right. destruct (decide (u = t)) as [->|]; [left; rewrite Hph in Hu; by injection Hu as <-|right; eauto].
  - (* a write *)
    pose proof (lookup_lt_Some _ _ _ Hph) as Hlt. assert (is_Some (s_threads l !! t)) as [th Hth] by (apply lookup_lt_is_Some; lia).
    destruct (HT t _ th Hph Hth) as (hist & Hf & Hev & Hrefs & Hrt & k & ns & Hk' & Hst & Hns & Hx). rewrite Hk in Hk'. injection Hk' as <-. destruct Hx as (-> & -> & Hx).
    exists L, w. eapply step_keep; [exact HI|done|done|done|auto|done| | |done|done|done|by right; left].
    + intros u uph Hne Hu. destruct uph as [| |c2 wb2 kept2 ps2|]; try done. exfalso. assert (is_Some (s_threads l !! u)) as [uh Huh] by (apply lookup_lt_is_Some; rewrite <- Hlen; by eapply lookup_lt_Some).
      destruct (HT u _ uh Hu Huh) as (h2 & _ & _ & _ & Hrt2 & k2 & ns2 & _ & Hst2 & _). pose proof (writing_alone _ _ _ _ _ _ _ t _ u uh HI Hph Hk Hne Huh Hrt2) as H0. rewrite H0 in Hst2. by destruct ns2.
    + intros th' Hth'. assert (th' = th) as -> by congruence. exists hist. split; [done|]. split; [done|]. split; [done|]. split; [done|]. exists KWrite, ns. split; [done|]. split; [done|]. split; [done|].
      split; [done|]. split; [done|]. intros x y Hin. apply elem_of_cons in Hin as [[= -> ->]|Hin]; [done|]. by apply Hx.
  - (* a nested lock *)
    pose proof (lookup_lt_Some _ _ _ Hph) as Hlt. assert (is_Some (s_threads l !! t)) as [th Hth] by (apply lookup_lt_is_Some; lia).
    destruct (HT t _ th Hph Hth) as (hist & Hf & Hev & Hrefs & Hrt & k0 & ns & Hk0 & Hst & Hns & Hx).
    destruct (rstep_own _ _ _ _ E Hth) as (th' & Hth' & Hst'). cbn [actor] in Hth'. assert (k0 = KWrite \/ k = KRead) as Hkk by (destruct Hk; [left; congruence|by right]).
    exists L, w. rewrite <- (list_insert_id ph t _ Hph). eapply step_keep; [exact HI|done|by eapply rstep_inv|by eapply rstep_len| |done| | |done|done|done|].
    + intros u Hne. by eapply rstep_other.
    + intros u uph Hne Hu. destruct uph; try done; (split; [done|intros _; apply same_refl]).
    + intros th2 Hth2. assert (th2 = th') as -> by congruence. exists hist. split; [done|]. split; [done|]. split; [done|]. split; [by eapply (nest_rest l t th ns k0 k l')|]. exists k0, (k :: ns). split; [done|]. split; [by rewrite Hst', Hst|]. split; [|done].
      intros Hr0. apply not_elem_of_cons. split; [|by apply Hns]. destruct Hkk as [Hkk|Hkk]; subst; done.
    + destruct Hmem as [H|(u & uph & Hu & H)]; [by left|]. right. destruct (decide (u = t)) as [->|]; [left; rewrite Hph in Hu; by injection Hu as <-|right; eauto].
  - (* its end *)
    pose proof (lookup_lt_Some _ _ _ Hph) as Hlt.
    destruct (HT t _ th Hph Hth) as (hist & Hf & Hev & Hrefs & Hrt & k0 & ns & Hk0 & Hst0 & Hns & Hx).
    destruct (rstep_own _ _ _ _ E Hth) as (th' & Hth' & k & Hst'). cbn [actor] in Hth'. rewrite Hst in Hst0, Hst'. injection Hst' as <- Hst'.
    destruct ns as [|k3 ns]; [done|]. injection Hst0 as <- Hst0.
    exists L, w. rewrite <- (list_insert_id ph t _ Hph). eapply step_keep; [exact HI|done|by eapply rstep_inv|by eapply rstep_len| |done| | |done|done|done|].
    + intros u Hne. by eapply rstep_other.
    + intros u uph Hne Hu. destruct uph; try done; (split; [done|intros _; apply same_refl]).
    + intros th2 Hth2. assert (th2 = th') as -> by congruence. exists hist. split; [done|]. split; [done|]. split; [done|]. split; [by eapply (unnest_rest l t th ns k0 k1 (k2 :: st) l')|]. exists k0, ns. split; [done|]. split; [by rewrite <- Hst', Hst0|]. split; [|done].
      intros Hr0 Hin. apply (Hns Hr0). by right.
    + destruct Hmem as [H|(u & uph & Hu & H)]; [by left|]. right. destruct (decide (u = t)) as [->|]; [left; rewrite Hph in Hu; by injection Hu as <-|right; eauto].
  - (* the end of the work *)
    pose proof (lookup_lt_Some _ _ _ Hph) as Hlt.
    destruct (HT t _ th Hph Hth) as (hist & Hf & Hev & Hrefs & Hrt & k0 & ns & Hk0 & Hst0 & Hns & Hx).
    destruct (rstep_own _ _ _ _ E Hth) as (th' & Hth' & k3 & Hst'). cbn [actor] in Hth'. rewrite Hst in Hst0, Hst'. injection Hst' as <- Hst'.
    assert (k = k0) as -> by (destruct ns as [|? []]; by injection Hst0).
    assert (exists w3, proper b V w c /\ perform V w c = Some (w2, r) /\ w3 = w2 /\ (k0 = KRead -> w1 = w)) as (w3 & Hpr & Hpf & -> & Hww).
    { destruct k0.
      - assert (w1 = w) as -> by (apply (no_writer _ _ _ _ _ _ _ t th HI); cbn; [done|done|by rewrite Hst|intros ? Hy; rewrite Hph in Hy; injection Hy as <-; cbn; congruence]).
        destruct Hx as [Hx1 Hx2]. destruct Hfin as [H1 H2].
        { intros x y Hin. rewrite Hk0. apply elem_of_cons in Hin as [[= -> ->]|Hin]; [done|]. by apply Hx2. }
        rewrite Hk0 in H1, H2. eauto 10.
      - destruct Hx as (-> & -> & Hx2). destruct Hfin as [H1 H2].
        { intros x y Hin. rewrite Hk0. apply elem_of_cons in Hin as [[= -> ->]|Hin]; [done|]. by apply Hx2. }
        rewrite Hk0 in H1, H2. exists w2. done. }
    exists (L ++ [EEff t c r]), w2. eapply step_keep; [exact HI|done|by eapply rstep_inv|by eapply rstep_len| | | | | | |by eapply perform_reach|by left].
    + intros u Hne. by eapply rstep_other.
    + intros u Hne. rewrite thread_events_snoc. cbn [who]. rewrite decide_False by done. by rewrite app_nil_r.
    + intros u uph Hne Hu. destruct uph as [| |c2 wb2 kept2 ps2|]; try done. assert (is_Some (s_threads l !! u)) as [uh Huh] by (apply lookup_lt_is_Some; rewrite <- Hlen; by eapply lookup_lt_Some).
      destruct (HT u _ uh Hu Huh) as (h2 & _ & _ & _ & Hrt2 & k2 & ns2 & Hk2 & Hst2 & _).
      destruct k0.
      * split.
        -- intros Hw. exfalso. pose proof (writing_alone _ _ _ _ _ _ _ u _ t th HI Hu Hw (not_eq_sym Hne) Hth Hrt) as H0. rewrite H0 in Hst. done.
        -- intros _. destruct (read_step b V w c w2 r Hreach Hpr Hk0 Hpf) as [R1 R2]. split; [done|]. intros f Hfu. apply R2. intros Hin. specialize (Hrefs f Hin). congruence.
      * exfalso. pose proof (writing_alone _ _ _ _ _ _ _ t _ u uh HI Hph Hk0 Hne Huh Hrt2) as H0. rewrite H0 in Hst2. by destruct ns2.
    + intros th2 Hth2. assert (th2 = th') as -> by congruence. exists hist. split; [done|]. rewrite thread_events_snoc, Hev. cbn [who]. rewrite decide_True by done. rewrite <- app_assoc. done.
    + by rewrite observed_snoc, app_nil_r.
    + rewrite effects_snoc. by eapply seq_snoc.
  - (* return *)
    pose proof (lookup_lt_Some _ _ _ Hph) as Hlt. assert (is_Some (s_threads l !! t)) as [th Hth] by (apply lookup_lt_is_Some; lia).
    destruct (HT t _ th Hph Hth) as (hist & Hf & Hev & Hst).
    exists (L ++ [ERet t c r]), w. eapply step_keep; [exact HI|done|done|done|auto| | | | | |done|].
    + intros u Hne. rewrite thread_events_snoc. cbn [who]. rewrite decide_False by done. by rewrite app_nil_r.
    + intros u uph Hne Hu. destruct uph; try done; (split; [done|intros _; apply same_refl]).
    + intros th' Hth'. assert (th' = th) as -> by congruence. exists (hist ++ [ECall t c; EEff t c r; ERet t c r]). split; [by constructor|]. rewrite thread_events_snoc, Hev. cbn [who]. rewrite decide_True by done. rewrite <- app_assoc. done.
    + by rewrite observed_snoc, Hobs.
    + rewrite effects_snoc, app_nil_r. done.
    + destruct Hmem as [H|(u & uph & Hu & H)]; [by left|]. right. right. exists u, uph. split; [|done]. intros ->. rewrite Hph in Hu. injection Hu as <-. done.
Qed.
Lemma lruns_inv b V own w0 s s' : lruns b V own s s' -> (exists L w, LInv b V own w0 s L w) -> exists L w, LInv b V own w0 s' L w.
Proof. induction 1 as [|s1 s2 s3 H IH Hs]; [done|]. intros H0. destruct (IH H0) as (L & w & HI). by eapply lstep_inv. Qed.
