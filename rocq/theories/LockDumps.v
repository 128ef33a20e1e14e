(** Proofs about printing records (C56): a discipline under which no thread blocks another for good. *)
From Verif Require Export DumpSpec.
From Verif Require Import MutexProofs MutexProofs2 MutexProofs3 LockProofs.
Open Scope nat_scope.

(** ** The mutex: either threads inside calls can do part of the remaining work, or a thread that will not let go is in the way. *)
Definition jam (s : mstate) : Prop :=
  exists x, m_pcs s !! x = Some Writing \/ (m_pcs s !! x = Some Waiting /\ exists y, m_pcs s !! y = Some Reading).
Lemma progress2 sp s : MInv2 sp s -> (exists t p, m_pcs s !! t = Some p /\ resting p = false) ->
  (exists l s', Forall inside l /\ mrun sp s l = Some s' /\ work s' < work s) \/ jam s.
Proof.
  intros [HI HW] (t0 & p0 & Ht0 & Hp0).
  assert (forall t p s', m_pcs s !! t = Some p -> p <> RU37 -> go s t = Some s' ->
    exists l s', Forall inside l /\ mrun sp s l = Some s' /\ work s' < work s) as Hgo.
  { intros t p s' Ht Hp E. exists [MGo t], s'. split; [by repeat constructor|]. cbn. rewrite E. split; [done|]. by eapply go_down. }
  destruct (m_rm s) as [t|] eqn:Er.
  { left. destruct (mi_rm_in sp s HI t Er) as [p Ht]. pose proof (proj2 (mi_rm sp s HI t p Ht) Er) as Hh.
    destruct (decide (p = RU37)) as [->|Hp].
    - destruct (m_flag s) eqn:Ef.
      + destruct (proj1 (mi_flag sp s HI) Ef) as (u & q & Hu & Hq). destruct (decide (q = Waiting)) as [->|Hqw].
        * exists [MGo t], (goto t RU36 (notify s)). split; [by repeat constructor|]. split; [cbn; unfold go; by rewrite Ht|].
          unfold work. cbn [goto notify m_pcs]. pose proof (work_wake_lt _ _ Hu) as Hlt.
          pose proof (sum_insert cost (wake <$> m_pcs s) t RU37 RU36) as Hs. rewrite list_lookup_fmap, Ht in Hs. specialize (Hs eq_refl). cbn [cost] in Hs. lia.
        * assert (is_Some (go s u)) as [s' E] by (unfold go; rewrite Hu; destruct q; try done; cbn; eauto).
          eapply (Hgo u q); [done| |done]. by intros ->.
      + exists [MGo t; MGo t], (goto t RU39 (goto t RU36 (notify s))). split; [by repeat constructor|].
        pose proof (lookup_lt_Some _ _ _ Ht) as Hl.
        split.
        * assert (go s t = Some (goto t RU36 (notify s))) as E1 by (unfold go; by rewrite Ht).
          assert (go (goto t RU36 (notify s)) t = Some (goto t RU39 (goto t RU36 (notify s)))) as E2.
          { unfold go. cbn [goto notify m_pcs m_flag]. rewrite list_lookup_insert by (by rewrite fmap_length). cbn [mbind option_bind]. by rewrite Ef. }
          cbn [mrun mstep]. rewrite E1. cbn [mbind option_bind mrun]. by rewrite E2.
        * unfold work. cbn [goto notify m_pcs]. rewrite list_insert_insert. pose proof (work_wake (m_pcs s)).
          pose proof (sum_insert cost (wake <$> m_pcs s) t RU37 RU39) as Hs. rewrite list_lookup_fmap, Ht in Hs. specialize (Hs eq_refl). cbn [cost] in Hs. lia.
    - assert (is_Some (go s t)) as [s' E] by (unfold go; rewrite Ht; destruct p; try done; cbn; eauto). by eapply (Hgo t p). }
  destruct (m_wm s) as [t|] eqn:Ew.
  { destruct (mi_wm_in sp s HI t Ew) as [p Ht]. pose proof (proj2 (mi_wm sp s HI t p Ht) Ew) as Hh.
    destruct (decide (p = Writing)) as [->|Hpw]; [right; exists t; by left|].
    destruct (decide (p = Waiting)) as [->|Hp].
    - destruct (HW t _ Ht eq_refl) as [Hc|(u & q & Hu & Hq)].
      + rewrite (mi_count sp s HI) in Hc. destruct (readers_some (m_pcs s)) as (u & q & Hu & Hq); [lia|].
        destruct (decide (q = Reading)) as [->|Hqr]; [right; exists t; right; eauto|left].
        assert (q = RU32) as ->.
        { destruct q; try done.
          - pose proof (proj1 (mi_rm sp s HI u _ Hu) eq_refl). congruence.
          - pose proof (proj1 (mi_wm sp s HI u _ Hu) eq_refl). assert (u = t) by congruence. subst. congruence.
          - pose proof (proj1 (mi_rm sp s HI u _ Hu) eq_refl). congruence. }
        eapply (Hgo u RU32); [done..|]. unfold go. rewrite Hu. cbn [mbind option_bind]. by rewrite Er.
      + exfalso. assert (holds_rm q = true) as Hr by (by destruct q). apply (mi_rm sp s HI u q Hu) in Hr. congruence.
    - left. assert (is_Some (go s t)) as [s' E] by (unfold go; rewrite Ht; destruct p; try done; cbn [mbind option_bind]; rewrite ?Er; eauto).
      eapply (Hgo t p); [done| |done]. by intros ->. }
  left. assert (is_Some (go s t0)) as [s' E].
  { unfold go. rewrite Ht0. cbn [mbind option_bind]. pose proof (mi_wm sp s HI t0 p0 Ht0) as [H1 _]. pose proof (mi_rm sp s HI t0 p0 Ht0) as [H2 _].
    destruct p0; try done; try (specialize (H1 eq_refl); congruence); try (specialize (H2 eq_refl); congruence); rewrite ?Ew, ?Er; eauto. }
  eapply (Hgo t0 p0); [done| |done]. intros ->. pose proof (proj1 (mi_rm sp s HI t0 _ Ht0) eq_refl). congruence.
Qed.

(** ** The discipline *)
(** [L t r]: thread [t] may lock the vault while it holds the mutex of record [r]; [I t b r]: it may take that mutex while it holds the lock of
    the vault (for writing if [b]); [W t]: it may lock the vault for writing. *)
Section Dumps.
Context (L : nat -> nat -> Prop) (I : nat -> bool -> nat -> Prop) (W : nat -> Prop).
Fixpoint dok (t : nat) (st : list rkind) (h : held) (l : list cact) : Prop :=
  match l with
  | [] => st = [] /\ h = None
  | ALock k :: l => (k = KWrite -> W t) /\ (forall r n, h = Some (r, n) -> L t r /\ st = [] /\ k = KRead) /\ dok t (k :: st) h l
  | AUnlock :: l => match st with [] => False | _ :: st' => (forall r n, h = Some (r, n) -> L t r /\ st = [KRead]) /\ dok t st' h l end
  | ARec r :: l => (st <> [] -> I t (bool_decide (KWrite ∈ st)) r) /\ match inc h r with Some h' => dok t st h' l | None => False end
  | ARecEnd r :: l => match h with Some (r', n) => r' = r /\ dok t st (match n with 0 => None | S n => Some (r, n) end) l | None => False end
  | _ :: l => dok t st h l
  end.
(** The thread has, or is on its way to, the lock of the vault for writing. *)
Definition wr (th : rthread) (p : pc) : Prop := KWrite ∈ t_stack th \/ CWriteLock ∈ t_todo th \/ rest_of p = Writing.
Definition dthread (s : cstate) (t : nat) (th : rthread) (p : pc) (acts : list cact) : Prop :=
  exists h, dok t (t_stack th) h acts /\ holds (c_recs s) t h /\ (wr th p -> W t) /\
    (forall r n, h = Some (r, n) -> at_rest (c_lock s) t = true \/ (L t r /\ ~ wr th p)).
Record DInv (s : cstate) : Prop := {
  di_lock : RInv3 (c_lock s);
  di_len : length (c_todo s) = length (s_threads (c_lock s));
  di_thread : forall t th p acts, s_threads (c_lock s) !! t = Some th -> m_pcs (s_base (c_lock s)) !! t = Some p -> c_todo s !! t = Some acts -> dthread s t th p acts;
  di_owner : forall r v n, c_recs s !! r = Some (v, n) -> v < length (c_todo s);
}.
Lemma c_init_dinv ps : (forall t p, ps !! t = Some p -> dok t [] None p) -> DInv (c_init ps).
Proof.
  intros H. split; cbn; [apply rs_init_inv|by rewrite replicate_length| |intros r v n E; by rewrite lookup_empty in E].
  intros t th p acts Ht Hp Ha. apply lookup_replicate in Ht as [-> _]. apply lookup_replicate in Hp as [-> _].
  exists None. split; [by apply H|]. split; [intros r n; cbn; rewrite lookup_empty; split; [done|]; intros (n' & ? & _); done|].
  split; [|done]. unfold wr. cbn. intros [Hx|[Hx|Hx]]; [by apply elem_of_nil in Hx..|done].
Qed.

(** What a step of one thread does to the place of the others. *)
Lemma rstep_pc a s s' u p' : rstep s a = Some s' -> u <> actor a -> m_pcs (s_base s') !! u = Some p' ->
  exists p, m_pcs (s_base s) !! u = Some p /\ rest_of p' = rest_of p.
Proof.
  intros E Hne Hp. destruct a as [t k|t|t|t]; cbn [actor] in Hne; cbn [rstep] in E.
  - destruct (s_threads s !! t) as [th|]; [|done]. cbn [mbind option_bind] in E. destruct (m_pcs (s_base s) !! t) as [q|]; [|done]. cbn [mbind option_bind] in E.
    destruct (resting q && _); [|done]. destruct (rlock k (t_count th)). injection E as <-. eauto.
  - destruct (s_threads s !! t) as [th|]; [|done]. cbn [mbind option_bind] in E. destruct (m_pcs (s_base s) !! t) as [q|]; [|done]. cbn [mbind option_bind] in E.
    destruct (resting q && _); [|done]. destruct (t_stack th); [done|]. destruct (runlock r (t_count th)) as [[]|]; [|done]. cbn [mbind option_bind] in E. injection E as <-. eauto.
  - destruct (s_threads s !! t) as [th|]; [|done]. cbn [mbind option_bind] in E. destruct (t_todo th); [done|]. destruct (call (s_base s) t m) as [b|] eqn:Ec; [|done]. cbn [mbind option_bind] in E. injection E as <-. cbn [s_base] in Hp.
    unfold call in Ec. destruct (m_pcs (s_base s) !! t) as [q|]; [|done]. cbn [mbind option_bind] in Ec. destruct (entry m q); [|done]. cbn [mbind option_bind] in Ec. injection Ec as <-. cbn [goto m_pcs] in Hp.
    rewrite list_lookup_insert_ne in Hp by done. eauto.
  - destruct (go (s_base s) t) as [b|] eqn:Eg; [|done]. cbn [mbind option_bind] in E. injection E as <-. cbn [s_base] in Hp. by apply (go_rest _ _ _ Eg).
Qed.
Lemma rlock_read c : CWriteLock ∉ (rlock KRead c).1.
Proof. cbn. destruct (c_write c =? 0), (c_read c =? 0); cbn; set_solver. Qed.
Lemma runlock_no k c todo c' : runlock k c = Some (todo, c') -> CWriteLock ∉ todo.
Proof. unfold runlock. intros E. repeat case_match; simplify_eq; set_solver. Qed.

(** All threads keep the discipline after a step of thread [t]. *)
Lemma dstep_inv s t l' m' acts' : DInv s -> t < length (c_todo s) -> RInv3 l' -> length (s_threads l') = length (s_threads (c_lock s)) ->
  (forall u, u <> t -> s_threads l' !! u = s_threads (c_lock s) !! u /\ (at_rest (c_lock s) u = true -> at_rest l' u = true)) ->
  (forall u p', u <> t -> m_pcs (s_base l') !! u = Some p' -> exists p, m_pcs (s_base (c_lock s)) !! u = Some p /\ rest_of p' = rest_of p) ->
  (forall r, m' !! r = c_recs s !! r \/ ((exists n, m' !! r = Some (t, n)) \/ m' !! r = None) /\ ((exists n, c_recs s !! r = Some (t, n)) \/ c_recs s !! r = None)) ->
  (forall th p, s_threads l' !! t = Some th -> m_pcs (s_base l') !! t = Some p -> dthread (CState l' m' (<[t := acts']> (c_todo s))) t th p acts') ->
  DInv (CState l' m' (<[t := acts']> (c_todo s))).
Proof.
  intros [HL Hlen HT HO] Hl HR Hlen' Hoth Hpc Hm Hown. split; cbn [c_lock c_recs c_todo]; [done|by rewrite insert_length, Hlen, Hlen'| |].
  2:{ intros r v n E. rewrite insert_length. destruct (Hm r) as [E'|[[[n' E']|E'] _]]; rewrite E' in E; [by eapply HO|injection E as <- _; done|done]. }
  intros u th p acts Hu Hp Ha.
  destruct (decide (u = t)) as [->|Hne].
  - rewrite list_lookup_insert in Ha by done. injection Ha as <-. by apply Hown.
  - rewrite list_lookup_insert_ne in Ha by done. destruct (Hoth u Hne) as [E1 E2]. rewrite E1 in Hu. destruct (Hpc u p Hne Hp) as (p0 & Hp0 & Er).
    destruct (HT u th p0 acts Hu Hp0 Ha) as (h & H1 & H2 & H3 & H4). unfold wr in *. rewrite <- Er in H3, H4.
    exists h. cbn [c_lock c_recs]. split; [done|]. split; [by eapply holds_other|]. split; [done|]. intros r n Hh. destruct (H4 r n Hh); [left; by apply E2|by right].
Qed.
Lemma dcstep_inv s t s' : DInv s -> cstep s t = Some s' -> DInv s'.
Proof.
  intros HI E. pose proof HI as [HL Hlen HT HO]. unfold cstep in E. destruct (s_threads (c_lock s) !! t) as [th|] eqn:Hth; [|done]. cbn [mbind option_bind] in E.
  destruct (m_pcs (s_base (c_lock s)) !! t) as [p|] eqn:Hp; [|done]. cbn [mbind option_bind] in E. destruct (c_todo s !! t) as [acts|] eqn:Ha; [|done]. cbn [mbind option_bind] in E.
  pose proof (lookup_lt_Some _ _ _ Ha) as Hl. destruct (HT t th p acts Hth Hp Ha) as (h & Hok & Hh & HW & Hrest).
  assert (at_rest (c_lock s) t = resting p && bool_decide (t_todo th = [])) as Har by (unfold at_rest; by rewrite Hth, Hp).
  assert (forall r, c_recs s !! r = c_recs s !! r \/ ((exists n, c_recs s !! r = Some (t, n)) \/ c_recs s !! r = None) /\ ((exists n, c_recs s !! r = Some (t, n)) \/ c_recs s !! r = None)) as Hsame by auto.
  destruct (resting p) eqn:Er; cbn [negb] in E.
  2:{ unfold lock_step in E. destruct (rstep (c_lock s) (RGo t)) as [l|] eqn:El; [|done]. cbn [mbind option_bind] in E. injection E as <-.
      rewrite <- (list_insert_id (c_todo s) t acts Ha). apply dstep_inv; [done|done|by eapply rstep_inv|by eapply rstep_len| | |done|].
      - intros u Hne. by eapply rstep_other.
      - intros u p' Hne. by eapply rstep_pc.
      - intros th' p' Hth' Hp'. cbn [rstep] in El. destruct (go (s_base (c_lock s)) t) as [b|] eqn:Eg; [|done]. cbn [mbind option_bind] in El. injection El as <-. cbn [s_threads s_base] in Hth', Hp'.
        assert (th' = th) as -> by congruence. destruct (proj2 (go_rest _ _ _ Eg) t p' Hp') as (q & Hq & Erest). assert (q = p) as -> by congruence.
        exists h. unfold wr in *. rewrite Erest. split; [done|]. split; [done|]. split; [done|]. intros r n Hn. destruct (Hrest r n Hn) as [Hx|Hx]; [|by right]. rewrite Har in Hx. done. }
  destruct (t_todo th) as [|c todo] eqn:Etd.
  2:{ unfold lock_step in E. destruct (rstep (c_lock s) (RNext t)) as [l|] eqn:El; [|done]. cbn [mbind option_bind] in E. injection E as <-.
      rewrite <- (list_insert_id (c_todo s) t acts Ha). apply dstep_inv; [done|done|by eapply rstep_inv|by eapply rstep_len| | |done|].
      - intros u Hne. by eapply rstep_other.
      - intros u p' Hne. by eapply rstep_pc.
      - intros th' p' Hth' Hp'. cbn [rstep] in El. rewrite Hth in El. cbn [mbind option_bind] in El. rewrite Etd in El. unfold call in El. rewrite Hp in El. cbn [mbind option_bind] in El.
        destruct (entry c p) as [q|] eqn:Eq; [|done]. cbn [mbind option_bind] in El. injection El as <-. cbn [s_threads s_base goto m_pcs] in Hth', Hp'.
        rewrite list_lookup_insert in Hth' by (by eapply lookup_lt_Some). injection Hth' as <-. rewrite list_lookup_insert in Hp' by (by eapply lookup_lt_Some). injection Hp' as <-.
        assert (wr (RThread (t_stack th) (t_count th) todo) q -> wr th p) as Hwr.
        { unfold wr. cbn [t_stack t_todo]. rewrite Etd. intros [?|[?|Hx]]; [by left|right; left; by right|]. right; left. destruct c, p; try done; injection Eq as <-; try done. left. }
        exists h. cbn [t_stack c_lock c_recs]. split; [done|]. split; [done|]. split; [tauto|]. intros r n Hn. destruct (Hrest r n Hn) as [Hx|[Hx Hy]]; [|right; tauto]. rewrite Har in Hx. done. }
  cbn in Har. destruct acts as [|a rest]; [done|]. destruct a as [k| |r|r|x|x]; cbn [dok] in Hok.
  - destruct Hok as (Hk & Hv & Hok). unfold lock_step in E. destruct (rstep (c_lock s) (RLock t k)) as [l|] eqn:El; [|done]. cbn [mbind option_bind] in E. injection E as <-.
    apply dstep_inv; [done|done|by eapply rstep_inv|by eapply rstep_len| | |done|].
    + intros u Hne. by eapply rstep_other.
    + intros u p' Hne. by eapply rstep_pc.
    + intros th' p' Hth' Hp'. cbn [rstep] in El. rewrite Hth in El. cbn [mbind option_bind] in El. rewrite Hp in El. cbn [mbind option_bind] in El.
      rewrite Er, Etd in El. cbn [andb] in El. rewrite bool_decide_true in El by done.
      destruct (r3_thread _ HL t th p Hth Hp) as [Hc _]. rewrite Hc in El. destruct (rlock k (count_of (t_stack th))) as [todo c] eqn:Ek. cbn [mbind option_bind] in El. injection El as <-. cbn [s_threads s_base] in Hth', Hp'.
      rewrite list_lookup_insert in Hth' by (by eapply lookup_lt_Some). injection Hth' as <-. assert (p' = p) as -> by congruence.
      exists h. cbn [t_stack c_lock c_recs]. split; [done|]. split; [done|]. split.
      * unfold wr. cbn [t_stack t_todo]. destruct k; [|by intros _; apply Hk].
        pose proof (rlock_read (count_of (t_stack th))) as Hx. rewrite Ek in Hx. cbn [fst] in Hx. intros [Hy|[Hy|Hy]]; [|done|apply HW; right; by right].
        apply elem_of_cons in Hy as [Hy|Hy]; [done|]. apply HW. by left.
      * intros r n Hn. destruct (Hv r n Hn) as (H1 & H2 & ->). right. split; [done|]. rewrite H2 in *.
        pose proof (quiet_target _ t th p HL Hth Hp Etd Er) as Hq. rewrite H2 in Hq. cbn in Hq. rewrite Hq. injection Ek as <- <-. unfold wr. cbn. intros [Hy|[Hy|Hy]]; set_solver.
  - destruct (t_stack th) as [|k0 st] eqn:Est; [done|]. destruct Hok as [Hv Hok]. unfold lock_step in E. destruct (rstep (c_lock s) (RUnlock t)) as [l|] eqn:El; [|done]. cbn [mbind option_bind] in E. injection E as <-.
    apply dstep_inv; [done|done|by eapply rstep_inv|by eapply rstep_len| | |done|].
    + intros u Hne. by eapply rstep_other.
    + intros u p' Hne. by eapply rstep_pc.
    + intros th' p' Hth' Hp'. cbn [rstep] in El. rewrite Hth in El. cbn [mbind option_bind] in El. rewrite Hp in El. cbn [mbind option_bind] in El.
      rewrite Er, Etd in El. cbn [andb] in El. rewrite bool_decide_true in El by done. rewrite Est in El.
      destruct (runlock k0 (t_count th)) as [[todo c]|] eqn:Ek; [|done]. cbn [mbind option_bind] in El. injection El as <-. cbn [s_threads s_base] in Hth', Hp'.
      rewrite list_lookup_insert in Hth' by (by eapply lookup_lt_Some). injection Hth' as <-. assert (p' = p) as -> by congruence.
      pose proof (runlock_no _ _ _ _ Ek) as Hno.
      exists h. cbn [t_stack c_lock c_recs]. split; [done|]. split; [done|]. split.
      * unfold wr in *. cbn [t_stack t_todo]. rewrite Est in HW. intros [Hy|[Hy|Hy]]; [|done|]; apply HW; [left; by right|right; by right].
      * intros r n Hn. destruct (Hv r n Hn) as (H1 & H2). right. split; [done|]. injection H2 as -> ->.
        pose proof (quiet_target _ t th p HL Hth Hp Etd Er) as Hq. rewrite Est in Hq. cbn in Hq. rewrite Hq. unfold wr. cbn. intros [Hy|[Hy|Hy]]; [by apply elem_of_nil in Hy|done|done].
  - destruct Hok as [_ Hok]. destruct (inc h r) as [h'|] eqn:Ei; [|done].
    assert (exists n, s' = CState (c_lock s) (<[r := (t, S n)]> (c_recs s)) (<[t := rest]> (c_todo s)) /\ h' = Some (r, n) /\
      ((exists n, c_recs s !! r = Some (t, n)) \/ c_recs s !! r = None) /\ (h = None \/ exists m, h = Some (r, m))) as (n & -> & -> & Hr & Hh2).
    { destruct (c_recs s !! r) as [[u n]|] eqn:Er'.
      - destruct (decide (u = t)) as [->|]; [|done]. injection E as <-. destruct (proj1 (Hh r n) Er') as (n' & -> & ->). cbn in Ei. rewrite decide_True in Ei by done. injection Ei as <-.
        exists (S n'). split; [done|]. split; [done|]. split; [eauto|]. right. eauto.
      - injection E as <-. destruct h as [[r' n]|]; cbn in Ei; [|injection Ei as <-; exists 0; auto].
        destruct (decide (r' = r)) as [->|]; [|done]. injection Ei as <-. pose proof (proj2 (Hh r (S n)) (ex_intro _ n (conj eq_refl eq_refl))). congruence. }
    apply dstep_inv; [done|done|done|done|auto|eauto| |].
    + intros r'. destruct (decide (r' = r)) as [->|Hn']; [|left; by rewrite lookup_insert_ne]. right. rewrite lookup_insert. split; [eauto|done].
    + intros th' p' Hth' Hp'. assert (th' = th) as -> by congruence. assert (p' = p) as -> by congruence. exists (Some (r, n)). cbn [c_lock c_recs]. split; [done|]. split; [|split; [done|by rewrite Har; left]].
      intros r' m. destruct (decide (r' = r)) as [->|Hn'].
      * rewrite lookup_insert. split; [intros [= <-]; eauto|]. intros (n' & [= <-] & ->). done.
      * rewrite lookup_insert_ne by done. rewrite (Hh r' m). destruct Hh2 as [->|[m' ->]]; split; intros (n' & E1 & _); congruence.
  - destruct h as [[r' n]|]; [|done]. destruct Hok as [-> Hok].
    pose proof (proj2 (Hh r (S n)) (ex_intro _ n (conj eq_refl eq_refl))) as Er'. rewrite Er' in E. rewrite decide_True in E by done. injection E as <-.
    apply dstep_inv; [done|done|done|done|auto|eauto| |].
    + intros r'. destruct (decide (r' = r)) as [->|Hn'].
      * right. split; [|eauto]. destruct (decide (n = 0)); [right; by rewrite lookup_delete|left; rewrite lookup_insert; eauto].
      * left. destruct (decide (n = 0)); [by rewrite lookup_delete_ne|by rewrite lookup_insert_ne].
    + intros th' p' Hth' Hp'. assert (th' = th) as -> by congruence. assert (p' = p) as -> by congruence. eexists. cbn [c_lock c_recs]. split; [exact Hok|]. split; [|split; [done|by rewrite Har; left]].
      intros r' m. destruct n as [|n].
      * rewrite decide_True by done. destruct (decide (r' = r)) as [->|Hn']; [rewrite lookup_delete; split; [done|]; by intros (? & ? & _)|].
        rewrite lookup_delete_ne by done. rewrite (Hh r' m). split; intros (n' & E1 & _); congruence.
      * rewrite decide_False by done. destruct (decide (r' = r)) as [->|Hn'].
        -- rewrite lookup_insert. split; [intros [= <-]; eauto|]. intros (n' & [= <-] & ->). done.
        -- rewrite lookup_insert_ne by done. rewrite (Hh r' m). split; intros (n' & E1 & _); congruence.
  - injection E as <-. apply dstep_inv; [done|done|done|done|auto|eauto|auto|]. intros th' p' Hth' Hp'. assert (th' = th) as -> by congruence. assert (p' = p) as -> by congruence. exists h. cbn [c_lock c_recs]. auto.
  - injection E as <-. apply dstep_inv; [done|done|done|done|auto|eauto|auto|]. intros th' p' Hth' Hp'. assert (th' = th) as -> by congruence. assert (p' = p) as -> by congruence. exists h. cbn [c_lock c_recs]. auto.
Qed.
Lemma dcrun_inv l : forall s s', DInv s -> crun s l = Some s' -> DInv s'.
Proof.
  induction l as [|t l IH]; intros s s' HI; cbn; [by intros [= <-]|]. destruct (cstep s t) as [s1|] eqn:E; [|done]. cbn. apply IH. by eapply dcstep_inv.
Qed.

(** ** Progress *)
Context (Hd1 : forall t u r, L t r -> I u true r -> t = u).
Context (Hd2 : forall t u v b r, L t r -> I u b r -> W v -> u <> t -> v = t \/ v = u).
Lemma ddescend s : DInv s -> (exists l s', crun s l = Some s' /\ cwork s' < cwork s) \/ finished s.
Proof.
  intros HI. pose proof HI as [HL Hlen HT HO]. pose proof (r3_len _ HL) as Hlp.
  set (moves := fun u => match m_pcs (s_base (c_lock s)) !! u with Some p => resting p = true /\ is_Some (cstep s u) | None => False end).
  assert (forall u, Decision (moves u)) as Hdec.
  { intros u. unfold moves. destruct (m_pcs (s_base (c_lock s)) !! u) as [p|]; [|right; tauto].
    destruct (resting p); [|right; by intros [? _]]. destruct (cstep s u); [left; eauto|right; intros [_ [? ?]]; done]. }
  destruct (decide (Exists moves (seq 0 (length (m_pcs (s_base (c_lock s))))))) as [Hy|Hy].
  { left. apply Exists_exists in Hy as (u & _ & Hu). unfold moves in Hu. destruct (m_pcs (s_base (c_lock s)) !! u) as [p|] eqn:Ep; [|done]. destruct Hu as [Hr [s' E]].
    exists [u], s'. cbn. rewrite E. split; [done|]. by eapply rest_step_down. }
  assert (forall u p, m_pcs (s_base (c_lock s)) !! u = Some p -> resting p = true -> cstep s u = None) as Hstuck.
  { intros u p Ep Hr. destruct (cstep s u) as [s'|] eqn:E; [|done]. exfalso. apply Hy, Exists_exists. exists u. split; [apply elem_of_seq; pose proof (lookup_lt_Some _ _ _ Ep); lia|].
    unfold moves. rewrite Ep. eauto. }
  clear Hy Hdec moves.
  assert (forall u acts, c_todo s !! u = Some acts -> exists th p, s_threads (c_lock s) !! u = Some th /\ m_pcs (s_base (c_lock s)) !! u = Some p) as Hex.
  { intros u ac H. apply lookup_lt_Some in H. rewrite Hlen in H. pose proof H as H'. rewrite Hlp in H'. apply lookup_lt_is_Some in H as [th ?], H' as [p ?]. eauto. }
  (* a thread at rest that has calls left and is not blocked at a record can move *)
  assert (forall u, at_rest (c_lock s) u = true -> forall r rest, c_todo s !! u = Some (r :: rest) -> exists r', r = ARec r' /\ exists v n, v <> u /\ c_recs s !! r' = Some (v, n)) as Hblk.
  { intros u Hr a rest Eu. destruct (at_rest_inv _ _ Hr) as (th & p & Eth & Ep & Hrp & Etd). destruct (HT u th p _ Eth Ep Eu) as (h & Hok & Hh & _).
    specialize (Hstuck u p Ep Hrp). unfold cstep in Hstuck. rewrite Eth in Hstuck. cbn [mbind option_bind] in Hstuck. rewrite Ep in Hstuck. cbn [mbind option_bind] in Hstuck. rewrite Eu in Hstuck. cbn [mbind option_bind] in Hstuck.
    rewrite Hrp, Etd in Hstuck. cbn [negb] in Hstuck. destruct a as [k| |r|r|x|x]; try done.
    - exfalso. unfold lock_step in Hstuck. cbn [rstep] in Hstuck. rewrite Eth in Hstuck. cbn [mbind option_bind] in Hstuck. rewrite Ep in Hstuck. cbn [mbind option_bind] in Hstuck.
      rewrite Hrp, Etd in Hstuck. cbn in Hstuck. by destruct (rlock k (t_count th)).
    - exfalso. cbn [dok] in Hok. destruct (t_stack th) as [|k st] eqn:Est; [done|].
      unfold lock_step in Hstuck. cbn [rstep] in Hstuck. rewrite Eth in Hstuck. cbn [mbind option_bind] in Hstuck. rewrite Ep in Hstuck. cbn [mbind option_bind] in Hstuck.
      rewrite Hrp, Etd in Hstuck. cbn in Hstuck. rewrite Est in Hstuck. destruct (r3_thread _ HL u th p Eth Ep) as [Hc _]. rewrite Est in Hc.
      destruct (runlock_spec k st) as (todo & E1 & _). rewrite Hc, E1 in Hstuck. done.
    - exists r. split; [done|]. destruct (c_recs s !! r) as [[v n]|] eqn:Er; [|done]. destruct (decide (v = u)) as [->|Hn]; [done|]. eauto.
    - exfalso. cbn [dok] in Hok. destruct h as [[r' n]|]; [|done]. destruct Hok as [-> _].
      pose proof (proj2 (Hh r (S n)) (ex_intro _ n (conj eq_refl eq_refl))) as Er. rewrite Er in Hstuck. by rewrite decide_True in Hstuck. }
  (* a thread that holds the mutex of a record and cannot move is on its way into or out of the lock of the vault *)
  assert (forall r v n, c_recs s !! r = Some (v, n) -> at_rest (c_lock s) v = false /\ L v r /\
    (forall th p, s_threads (c_lock s) !! v = Some th -> m_pcs (s_base (c_lock s)) !! v = Some p -> ~ wr th p)) as Hholder.
  { intros r v n Er. pose proof (HO _ _ _ Er) as Hv. apply lookup_lt_is_Some in Hv as [va Ev]. destruct (Hex v va Ev) as (th & p & Eth & Ep). destruct (HT v th p va Eth Ep Ev) as (h & Hok & Hh & _ & Hr).
    destruct (proj1 (Hh r n) Er) as (n' & -> & ->). destruct (at_rest (c_lock s) v) eqn:Hat.
    - exfalso. destruct va as [|a rest]; [by destruct Hok|].
      destruct (Hblk v Hat a rest Ev) as (r' & -> & w & m & Hw & Er'). cbn [dok inc] in Hok. destruct Hok as [_ Hok]. destruct (decide (r = r')) as [->|]; [|done]. congruence.
    - split; [done|]. destruct (Hr r n' eq_refl) as [Hx|[Hx Hx2]]; [done|]. split; [done|]. intros th' p' Eth' Ep'. assert (th' = th) as -> by congruence. assert (p' = p) as -> by congruence. done. }
  (* threads at rest *)
  assert (forall u th p, s_threads (c_lock s) !! u = Some th -> m_pcs (s_base (c_lock s)) !! u = Some p -> resting p = true ->
    t_todo th = [] /\ at_rest (c_lock s) u = true /\ p = target (count_of (t_stack th)) /\
    exists acts, c_todo s !! u = Some acts /\ (acts = [] /\ t_stack th = [] \/ exists r rest v n, acts = ARec r :: rest /\ v <> u /\ c_recs s !! r = Some (v, n) /\ (t_stack th <> [] -> I u (bool_decide (KWrite ∈ t_stack th)) r))) as Hat.
  { intros u th p Eth Ep Hr. assert (is_Some (c_todo s !! u)) as [ua Eu] by (apply lookup_lt_is_Some; rewrite Hlen; by eapply lookup_lt_Some).
    destruct (r3_thread _ HL u th p Eth Ep) as [Hc Hpl]. destruct (t_todo th) as [|c todo] eqn:Etd.
    - split; [done|]. assert (at_rest (c_lock s) u = true) as Har by (unfold at_rest; rewrite Eth, Ep, Hr, Etd; done). split; [done|].
      split; [by eapply quiet_target|]. exists ua. split; [done|]. destruct (HT u th p ua Eth Ep Eu) as (h & Hok & _). destruct ua as [|a rest]; [left; destruct Hok; done|right].
      destruct (Hblk u Har a rest Eu) as (r & -> & v & n & Hne & Er). cbn [dok] in Hok. exists r, rest, v, n. split; [done|]. split; [done|]. split; [done|]. apply Hok.
    - exfalso. specialize (Hstuck u p Ep Hr). unfold cstep in Hstuck. rewrite Eth in Hstuck. cbn [mbind option_bind] in Hstuck. rewrite Ep in Hstuck. cbn [mbind option_bind] in Hstuck. rewrite Eu in Hstuck. cbn [mbind option_bind] in Hstuck.
      rewrite Hr, Etd in Hstuck. cbn [negb] in Hstuck. unfold lock_step in Hstuck. cbn [rstep] in Hstuck. rewrite Eth in Hstuck. cbn [mbind option_bind] in Hstuck. rewrite Etd in Hstuck.
      destruct (plan_entry p c todo _ Hpl Hr) as [q Eq]. unfold call in Hstuck. rewrite Ep in Hstuck. cbn [mbind option_bind] in Hstuck. rewrite Eq in Hstuck. done. }
  destruct (decide (Exists (fun p => resting p = false) (m_pcs (s_base (c_lock s))))) as [Hy|Hy].
  - apply Exists_exists in Hy as (p & Hp & Hpp). apply elem_of_list_lookup_1 in Hp as [t Ht].
    destruct (progress2 false (s_base (c_lock s)) (r3_base _ HL)) as [(l & b' & Hl & E & Hw)|(x & Hj)].
    + eauto.
    + left. destruct (inside_crun l s b' Hlen Hlp Hl E) as (l' & E'). eexists l', _. split; [exact E'|]. unfold cwork, rwork. cbn [c_lock c_todo s_base s_threads]. lia.
    + exfalso.
      assert (forall y q, m_pcs (s_base (c_lock s)) !! y = Some q -> q = Reading \/ q = Writing ->
        exists r v n, v <> y /\ c_recs s !! r = Some (v, n) /\ exists b, I y b r /\ (q = Writing -> b = true)) as Hin.
      { intros y q Eq Hq. assert (is_Some (s_threads (c_lock s) !! y)) as [yh Eyh] by (apply lookup_lt_is_Some; rewrite Hlp; by eapply lookup_lt_Some).
        destruct (Hat y yh q Eyh Eq) as (_ & _ & Htar & acts & _ & [[_ Hst]|(r & rest & v & n & _ & Hne & Er & Hi)]); [by destruct Hq as [-> | ->]|rewrite Hst in Htar; destruct Hq as [-> | ->]; discriminate Htar|].
        exists r, v, n. split; [done|]. split; [done|]. exists (bool_decide (KWrite ∈ t_stack yh)). split.
        - apply Hi. intros H0. rewrite H0 in Htar. destruct Hq as [-> | ->]; discriminate Htar.
        - intros ->. apply bool_decide_true. by apply target_write. }
      destruct Hj as [Hx|[Hx (y & Hy)]].
      * destruct (Hin x Writing Hx) as (r & v & n & Hne & Er & b & Hi & Hb); [by right|]. rewrite (Hb eq_refl) in Hi. destruct (Hholder r v n Er) as (_ & HLr & _). by destruct Hne, (Hd1 v x r HLr Hi).
      * destruct (Hin y Reading Hy) as (r & v & n & Hne & Er & b & Hi & _); [by left|]. destruct (Hholder r v n Er) as (_ & HLr & Hnw).
        assert (is_Some (s_threads (c_lock s) !! x)) as [xh Exh] by (apply lookup_lt_is_Some; rewrite Hlp; by eapply lookup_lt_Some).
        assert (is_Some (c_todo s !! x)) as [xa Exa] by (apply lookup_lt_is_Some; rewrite Hlen; by eapply lookup_lt_Some).
        destruct (HT x xh Waiting xa Exh Hx Exa) as (h & _ & _ & HWx & _). assert (wr xh Waiting) as Hwr by (right; by right). specialize (HWx Hwr).
        destruct (Hd2 v y x b r HLr Hi HWx) as [-> | ->]; [done| |congruence]. by apply (Hnw xh Waiting).
  - right. intros t (acts & Ea & Hb). destruct (Hex t acts Ea) as (th & p & Eth & Ep).
    assert (forall u p, m_pcs (s_base (c_lock s)) !! u = Some p -> resting p = true) as Hall.
    { intros u q Hq. destruct (resting q) eqn:E; [done|]. exfalso. apply Hy, Exists_exists. exists q. split; [by eapply elem_of_list_lookup_2|done]. }
    destruct (Hat t th p Eth Ep (Hall _ _ Ep)) as (_ & Har & _ & acts' & Ea' & [[-> _]|(r & rest & v & n & _ & _ & Er & _)]).
    + assert (acts = []) as -> by congruence. destruct Hb as [Hb|Hb]; [done|congruence].
    + destruct (Hholder r v n Er) as (Hf & _). pose proof (HO _ _ _ Er) as Hv. apply lookup_lt_is_Some in Hv as [va Ev]. destruct (Hex v va Ev) as (vh & q & Evh & Eq).
      destruct (Hat v vh q Evh Eq (Hall _ _ Eq)) as (_ & Hv & _). congruence.
Qed.
Lemma dcan_finish s : DInv s -> exists l s', crun s l = Some s' /\ finished s'.
Proof.
  remember (cwork s) as n eqn:En. revert s En. induction n as [n IH] using lt_wf_ind. intros s -> HI.
  destruct (ddescend s HI) as [(l & s1 & E & Hw)|Hf]; [|by exists [], s].
  destruct (IH (cwork s1) Hw s1 eq_refl) as (l2 & s2 & E2 & H2); [by eapply dcrun_inv|]. exists (l ++ l2), s2. split; [|done]. rewrite crun_app, E. done.
Qed.
End Dumps.
