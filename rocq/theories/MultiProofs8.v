(** Proofs about MultiModel.v: a thread that holds the lock of a shared vault for writing is alone. *)
From Verif Require Export MultiProofs7.
From Verif Require Import MutexProofs MutexProofs2 MutexProofs3 LockProofs.
Open Scope nat_scope.

(** Where the thread is, for the mutex of vault [v]. *)
Definition fpc (v : nat) (th : vthread) : pc := match h_at th with Some _ => at_pc v th | None => if holdw v th then Writing else Out end.
Definition quiet (v : nat) (th : vthread) : bool := no_readers false (fpc v th).
Lemma go_q a t b p : go a t = Some b -> m_pcs a !! t = Some p ->
  exists q, m_pcs b = <[t := q]> (if decide (p = RU37) then wake <$> m_pcs a else m_pcs a) /\ succ_of p q /\
    (m_count b = m_count a \/ p = RL22 \/ (p = RU33 /\ m_count b = m_count a - 1)%Z) /\
    (no_readers false q = true -> no_readers false p = true \/ (m_count a <= 0 /\ m_count b = m_count a)%Z).
Proof.
  intros E Hp. unfold go in E. rewrite Hp in E. cbn [mbind option_bind] in E.
  destruct p; try done; try (destruct (m_wm a); [done|]); try (destruct (m_rm a); [done|]); injection E as <-; cbn [goto with_wm with_rm with_count with_flag notify m_pcs m_count];
    try (destruct (decide (m_count a = 0%Z))); try (destruct (m_flag a)); try (destruct (0 <? m_count a)%Z eqn:El);
    (eexists; split; [reflexivity|]; split; [first [right; done|left; done]|]; split; [auto|]; intros Hq; first [done | left; done | right; split; [lia|done] | right; split; [by apply Z.ltb_ge in El|done]]).
Qed.
Section Quiet.
Context (use : nat -> usage) (ru : nat -> rules).
Definition QAll (s : vstate) : Prop := forall v, use v = Shared -> forall u uh, v_threads s !! u = Some uh -> quiet v uh = true -> x_count (v_mutex s v) = 0%Z.
Lemma wk_fpc v w th : at_ok th -> fpc w (wk v th) = (if decide (w = v) then wake (fpc w th) else fpc w th).
Proof.
  intros Ho. unfold fpc. destruct (h_at th) as [[w' p]|] eqn:E.
  - assert (exists q, h_at (wk v th) = Some (w', q)) as [q ->].
    { unfold wk, put_pc, at_pc. rewrite E. destruct (decide (w' = v)) as [->|]; [|eauto]. cbn [h_at]. specialize (Ho v p E). assert (resting (wake p) = false) as -> by (by destruct p). eauto. }
    destruct (decide (w = v)) as [->|]; [|by rewrite wk_other]. by destruct (wk_at v th Ho) as [-> _].
  - assert (wk v th = th) as -> by (unfold wk, put_pc; by rewrite E). rewrite E. destruct (decide (w = v)); [|done]. by destruct (holdw w th).
Qed.
Lemma put_fpc th v p q w : TInv th -> h_at th = Some (v, p) -> succ_of p q -> fpc w (put_pc v th q) = (if decide (w = v) then if resting q then if holds_wm q then Writing else Out else q else Out).
Proof.
  intros HT Hat Hs. unfold fpc. rewrite (at_put v th q w p Hat).
  destruct (decide (w = v)) as [->|Hne].
  - rewrite (put_holdw th v p q HT Hat Hs). rewrite (put_is th v p q Hat). cbn [h_at]. by destruct (resting q).
  - rewrite (put_holdw_other th v p q HT Hat Hs w Hne). rewrite (put_is th v p q Hat). cbn [h_at]. destruct (resting q); [|done]. unfold holdw. rewrite Hat. rewrite bool_decide_false by congruence. done.
Qed.
Lemma quiet_holds v th : quiet v th = true -> holdw v th = true \/ holds_rm (at_pc v th) = true.
Proof.
  unfold quiet, fpc. destruct (h_at th) as [[w p]|] eqn:E; [|destruct (holdw v th); auto]. unfold at_pc, holdw. rewrite E. destruct (decide (w = v)) as [->|]; [|done].
  rewrite bool_decide_true by done. destruct p; cbn; auto.
Qed.
Lemma qall_step s t s' : VInv false (racc use ru) s -> VInv false (racc use ru) s' -> SAll use s -> SAll use s' -> QAll s -> vstep s t = Some s' -> QAll s'.
Proof.
  intros HI HI' HS HS' HQ E. pose proof HI as [HL Hlen HT HO]. pose proof HL as [HM HTh]. unfold vstep in E. destruct (v_threads s !! t) as [th|] eqn:Hth; [|done]. cbn [mbind option_bind] in E.
  destruct (v_acts s !! t) as [acts|] eqn:Ha; [|done]. cbn [mbind option_bind] in E. pose proof (lookup_lt_Some _ _ _ Hth) as Hlt.
  pose proof (proj1 (Forall_lookup _ _) HTh _ _ Hth) as HTt.
  assert (forall th' mx rec acts', (forall v, mx v = v_mutex s v) -> (forall v, quiet v th' = true -> quiet v th = true) -> QAll (VState mx (<[t := th']> (v_threads s)) rec acts')) as Hins.
  { intros th' mx rec acts' Hmx H v Hv u uh Hu Hq. cbn [v_threads v_mutex] in *. rewrite Hmx. apply (lookup_ins _ _ _ _ _ Hlt) in Hu as [[-> ->]|[_ Hu]]; [|by eapply HQ]. eapply (HQ v Hv t th Hth). by apply H. }
  destruct (h_at th) as [[v p]|] eqn:Hat.
  { destruct (go (view s v) t) as [b|] eqn:Eg; [|done]. cbn [mbind option_bind] in E. injection E as E.
    assert (m_pcs (view s v) !! t = Some p) as Hp by (cbn [view m_pcs]; rewrite list_lookup_fmap, Hth; cbn; unfold at_pc; rewrite Hat; by rewrite decide_True).
    destruct (go_q _ _ _ _ Eg Hp) as (q & Eq & Hs & Hc & Hq). change (m_count (view s v)) with (x_count (v_mutex s v)) in Hc, Hq.
    assert (v_mutex s' = fun w => if decide (w = v) then VMutex (m_wm b) (m_rm b) (m_count b) (m_flag b) else v_mutex s w) as Emx by (by subst s').
    assert (forall w, x_count (v_mutex s' w) = if decide (w = v) then m_count b else x_count (v_mutex s w)) as Hcnt by (intros w; rewrite Emx; by destruct (decide (w = v))).
    assert (forall u uh, v_threads s' !! u = Some uh -> (u = t /\ uh = put_pc v th q) \/ (u <> t /\ exists y, v_threads s !! u = Some y /\ uh = if decide (p = RU37) then wk v y else y)) as Hl.
    { intros u uh Hu. subst s'. unfold put_view in Hu. cbn [v_threads] in Hu. rewrite Eq in Hu. rewrite (put_insert v _ _ t th q Hth) in Hu. destruct (decide (p = RU37)) as [->|Hn37].
      - cbn [view m_pcs] in Hu. rewrite put_wake in Hu. apply lookup_ins in Hu; [|by rewrite fmap_length]. destruct Hu as [?|[Hne Hu]]; [by left|]. right. split; [done|]. rewrite list_lookup_fmap in Hu. apply fmap_Some in Hu as (y & Hy & ->). eauto.
      - cbn [view m_pcs] in Hu. rewrite put_at in Hu by (eapply Forall_impl; [exact HTh|]; by intros ? [_ _ ?]). apply (lookup_ins _ _ _ _ _ Hlt) in Hu as [?|[Hne Hu]]; [by left|]. right. eauto. }
    assert (forall w, fpc w th = if decide (w = v) then p else Out) as Hfp.
    { intros w. unfold fpc, at_pc. rewrite Hat. destruct (decide (v = w)) as [->|]; [by rewrite decide_True|]. by rewrite decide_False. }
    intros w Hw u uh Hu Hqu. rewrite Hcnt. destruct (count_pos use ru s' w (vi_lock _ _ _ HI') HS' Hw) as [Hnn _]. rewrite Hcnt in Hnn. destruct (count_pos use ru s w HL HS Hw) as [Hnn0 _].
    destruct (Hl u uh Hu) as [[-> ->]|(Hne & y & Hy & ->)].
    - unfold quiet in Hqu. rewrite (put_fpc th v p q w HTt Hat Hs) in Hqu. destruct (decide (w = v)) as [->|]; [|done].
      assert (no_readers false q = true) as Hnq by (destruct q; done). destruct (Hq Hnq) as [Hnp|[H1 H2]]; [|lia].
      assert (x_count (v_mutex s v) = 0%Z) as H0. { apply (HQ v Hw t th Hth). unfold quiet. by rewrite Hfp, decide_True. }
      destruct Hc as [Hc|[->|[-> _]]]; [lia|done|done].
    - pose proof (proj1 (Forall_lookup _ _) HTh _ _ Hy) as [_ _ Hoky].
      assert ((quiet w y = true) \/ (w = v /\ p = RU37)) as [Hqy|[-> ->]].
      { destruct (decide (p = RU37)) as [->|]; [|by left]. unfold quiet in *. rewrite (wk_fpc v w y Hoky) in Hqu. destruct (decide (w = v)); auto. }
      + pose proof (HQ w Hw u y Hy Hqy) as H0. destruct (decide (w = v)) as [->|]; [|done]. destruct Hc as [Hc|[->|[-> Hc]]]; [lia| |lia].
        exfalso. destruct (quiet_holds v y Hqy) as [Hh|Hh].
        * apply (xi_wm _ _ _ (HM v) u y Hy) in Hh. assert (holdw v th = true) as Hh2 by (unfold holdw; rewrite Hat, bool_decide_true by done; done). apply (xi_wm _ _ _ (HM v) t th Hth) in Hh2. congruence.
        * apply (xi_rm _ _ _ (HM v) u y Hy) in Hh. assert (holds_rm (at_pc v th) = true) as Hh2 by (unfold at_pc; rewrite Hat, decide_True by done; done). apply (xi_rm _ _ _ (HM v) t th Hth) in Hh2. congruence.
      + rewrite decide_True by done. destruct Hc as [Hc|[Hc|[Hc _]]]; [|done|done]. rewrite Hc. apply (HQ v Hw t th Hth). unfold quiet. by rewrite Hfp, decide_True. }
  assert (forall v, quiet v th = holdw v th) as Hqh by (intros v; unfold quiet, fpc; rewrite Hat; by destruct (holdw v th)).
  assert (forall th', h_at th' = None -> forall v, quiet v th' = holdw v th') as Hqn by (intros th' Hn v; unfold quiet, fpc; rewrite Hn; by destruct (holdw v th')).
  destruct (h_calls th) as [|[v c] calls] eqn:Hca.
  2:{ injection E as <-. unfold set_thread. apply Hins; [done|]. intros w Hq. rewrite Hqh. destruct (call_thread th v c calls HTt Hat Hca) as (_ & T2 & _).
      rewrite <- T2. apply quiet_holds in Hq as [Hq|Hq]; [done|]. unfold at_pc in Hq. cbn [h_at] in Hq. destruct (decide (v = w)); [|done]. by destruct c. }
  assert (v_rest th) as Hr by done.
  destruct acts as [|[v a] rest]; [done|]. destruct a as [k| |r|r|x|x].
  - destruct (lock_thread th v k HTt Hr) as (T1 & T2 & _). destruct (rlock k (h_count th)) as [l c]. cbn [fst snd] in *. injection E as <-. unfold set_thread. apply Hins; [done|].
    intros w Hq. rewrite Hqn in Hq by done. rewrite Hqh, <- T2. done.
  - destruct (h_stack th) as [|[w k] st] eqn:Est; [done|]. destruct (unlock_thread th w k st HTt Hr Est) as (l & El & T1 & T2 & _).
    rewrite El in E. cbn [mbind option_bind] in E. injection E as <-. unfold set_thread. apply Hins; [done|]. intros w' Hq. rewrite Hqn in Hq by done. rewrite Hqh, <- T2. done.
  - destruct (v_recs s !! (v, r)) as [[u n]|]; [destruct (decide (u = t)); [|done]|]; injection E as <-; done.
  - destruct (v_recs s !! (v, r)) as [[u [|n]]|]; [done| |done]. destruct (decide (u = t)); [|done]. injection E as <-. done.
  - by injection E as <-.
  - by injection E as <-.
Qed.

(** ** Exclusion, and no races *)
Lemma vexcl s t u th uh v : LInv (v_mutex s) (v_threads s) -> SAll use s -> QAll s -> use v = Shared -> t <> u -> v_threads s !! t = Some th -> v_threads s !! u = Some uh ->
  v_rest th -> v_rest uh -> (v, KWrite) ∈ h_stack th -> v ∈ (fst <$> h_stack uh) -> False.
Proof.
  intros HL HS HQ Hv Hne Ht Hu [Hc Hat] [Huc Huat] Hw Hin. pose proof HL as [HM HTh]. destruct (HS t th Ht) as [S1 _]. destruct (HS u uh Hu) as [S2 _].
  pose proof (sd_wv use t _ v S1 Hv Hw) as Ew. assert (holdw v th = true) as Hh by (unfold holdw; rewrite Hat, Hc, Ew; by rewrite bool_decide_true).
  assert (x_count (v_mutex s v) = 0%Z) as H0. { apply (HQ v Hv t th Ht). unfold quiet, fpc. by rewrite Hat, Hh. }
  destruct (count_pos use ru s v HL HS Hv) as [_ Hle]. specialize (Hle u uh Hu). apply (xi_wm _ _ _ (HM v) t th Ht) in Hh.
  destruct (decide (wv (h_stack uh) = Some v)) as [Ewu|Ewu].
  - assert (holdw v uh = true) as Hh2 by (unfold holdw; rewrite Huat, Huc, Ewu; by rewrite bool_decide_true). apply (xi_wm _ _ _ (HM v) u uh Hu) in Hh2. congruence.
  - destruct (sd_last use u _ v S2 Hv Hin) as [k Hk]. destruct k.
    2:{ apply Ewu, (sd_wv use u _ v S2 Hv). apply last_Some in Hk as [l' ->]. apply elem_of_app. right. left. }
    unfold contrib, at_pc in Hle. rewrite Huat, Huc in Hle. cbn [pend pendp] in Hle. unfold tgt, lastr in Hle. rewrite Hk in Hle. unfold z1' in Hle. rewrite (decide_True (P := Some v = Some v)) in Hle by done. rewrite decide_False in Hle by done. lia.
Qed.
Lemma kinds_write v st : KWrite ∈ kinds v st <-> (v, KWrite) ∈ st.
Proof.
  unfold kinds. rewrite elem_of_list_omap. split.
  - intros ([w k] & Hin & E). cbn in E. destruct (decide (w = v)) as [->|]; [|done]. by injection E as ->.
  - intros H. exists (v, KWrite). split; [done|]. cbn. by rewrite decide_True.
Qed.
Lemma kinds_some v st : kinds v st <> [] -> v ∈ (fst <$> st).
Proof.
  intros H. destruct (kinds v st) as [|k l] eqn:E; [done|]. assert (k ∈ kinds v st) as Hk by (rewrite E; left). unfold kinds in Hk. apply elem_of_list_omap in Hk as ([w k'] & Hin & E'). cbn in E'.
  destruct (decide (w = v)) as [->|]; [|done]. apply elem_of_list_fmap. by exists (v, k').
Qed.
Lemma vno_race s : VInv false (racc use ru) s -> SAll use s -> QAll s -> ~ v_race s.
Proof.
  intros HI HS HQ (t & u & v & x & a & Hne & (th & rt & Hth & Rt & Et) & (uh & rr & Huh & Ru & Eu) & Ha). pose proof HI as [HL _ HT _].
  destruct (HT t th _ Hth Et) as (h & Hok & Hh & _). destruct (HT u uh _ Huh Eu) as (h2 & Hok2 & Hh2 & _).
  cbn [vok] in Hok. destruct Hok as [Hw _]. assert (racc use ru u (h_stack uh) h2 v a) as Hua by (destruct Ha as [-> | ->]; cbn [vok] in Hok2; apply Hok2).
  assert (uperm use ru u v (kinds v (h_stack uh)) (held_on v h2) a) as Hua' by (destruct Ha as [-> | ->]; exact Hua). clear Hua Hok2. rename Hua' into Hua.
  cbn [racc] in Hw. 
  assert (forall r n, held_on v h = Some (r, n) -> h = Some ((v, r), n)) as G1.
  { intros r n E. destruct h as [[[w r'] n']|]; [|done]. cbn in E. destruct (decide (w = v)) as [->|]; [|done]. by injection E as -> ->. }
  assert (forall r n, held_on v h2 = Some (r, n) -> h2 = Some ((v, r), n)) as G2.
  { intros r n E. destruct h2 as [[[w r'] n']|]; [|done]. cbn in E. destruct (decide (w = v)) as [->|]; [|done]. by injection E as -> ->. }
  assert (forall r, (exists n, held_on v h = Some (r, n)) -> (exists n, held_on v h2 = Some (r, n)) -> False) as GG.
  { intros r [n Hn] [n2 Hn2]. apply G1 in Hn as ->. apply G2 in Hn2 as ->.
    pose proof (proj2 (Hh (v, r) (S n)) (ex_intro _ n (conj eq_refl eq_refl))) as K1. pose proof (proj2 (Hh2 (v, r) (S n2)) (ex_intro _ n2 (conj eq_refl eq_refl))) as K2. congruence. }
  unfold uperm in Hw, Hua. destruct (use v) as [o| |] eqn:Hv; [congruence| |].
  2:{ destruct x as [| | |r|r|s0|s0]; cbn [fperm] in Hw; try done; destruct Ha as [-> | ->]; cbn [fperm] in Hua; try congruence; by eapply GG. }
  assert (KWrite ∈ kinds v (h_stack th) -> kinds v (h_stack uh) = []) as X1.
  { intros H. destruct (kinds v (h_stack uh)) as [|k l] eqn:E; [done|]. exfalso. eapply (vexcl s t u th uh v); try done; [by apply kinds_write|]. apply kinds_some. by rewrite E. }
  assert (KWrite ∈ kinds v (h_stack uh) -> kinds v (h_stack th) = []) as X2.
  { intros H. destruct (kinds v (h_stack th)) as [|k l] eqn:E; [done|]. exfalso. eapply (vexcl s u t uh th v); try done; [by apply kinds_write|]. apply kinds_some. by rewrite E. }
  assert (KWrite ∈ kinds v (h_stack uh) -> kinds v (h_stack uh) <> []) as F2 by (intros H E; rewrite E in H; by apply elem_of_nil in H).
  destruct x as [| | |r|r|s0|s0]; cbn [perm] in Hw.
  (* LVault *)
  1: destruct Ha as [-> | ->]; cbn [perm] in Hua; [apply Hua; by apply X1|]; apply (F2 Hua); by apply X1.
  (* LSets *)
  1: { assert (KWrite ∈ kinds v (h_stack uh) \/ (u_requester (ru v) = u /\ kinds v (h_stack uh) <> [])) as Hua' by (destruct Ha as [-> | ->]; exact Hua).
       destruct Hw as [Hw|[Ho Hw]], Hua' as [Hx|[Ho' Hx]]; [apply (F2 Hx); by apply X1|apply Hx; by apply X1|apply Hw; by apply X2|congruence]. }
  (* LErrors *)
  1: { destruct Hw as [Hw Hf]. destruct Ha as [-> | ->]; cbn [perm] in Hua; [destruct Hf; congruence|]. destruct Hua as [Hua _]. apply (F2 Hua); by apply X1. }
  (* LData *)
  1: destruct Ha as [-> | ->]; cbn [perm] in Hua; [apply Hua; by apply X1|]; apply (F2 Hua); by apply X1.
  - apply (GG r Hw). destruct Ha as [-> | ->]; exact Hua.
  - assert (in_set (ru v) u (kinds v (h_stack uh)) s0) as Hua' by (destruct Ha as [-> | ->]; exact Hua). unfold in_set in Hw, Hua'. destruct (u_alone (ru v) s0); [congruence|].
    destruct Hw as [Hw|[Ho Hw]], Hua' as [Hx|[Ho' Hx]].
    + apply (F2 Hx). by apply X1.
    + apply Hx. by apply X1.
    + apply Hw. by apply X2.
    + congruence.
  - destruct Hw as [Ho Hw]. destruct Ha as [-> | ->]; cbn [perm] in Hua.
    + destruct Hua as [Hua|Hua]; [congruence|]. apply Hw. by apply X2.
    + destruct Hua as [Hua _]. congruence.
Qed.
Lemma vrun_all l : forall s s', VInv false (racc use ru) s -> SAll use s -> QAll s -> vrun s l = Some s' -> VInv false (racc use ru) s' /\ SAll use s' /\ QAll s'.
Proof.
  induction l as [|t l IH]; intros s s' HI HS HQ; cbn; [by intros [= <-]|]. destruct (vstep s t) as [s1|] eqn:E; [|done]. cbn.
  pose proof (vstep_inv _ _ _ _ _ HI E) as HI1. pose proof (sall_step use ru s t s1 HI HS E) as HS1. apply IH; [done|done|]. by eapply (qall_step s t).
Qed.
Lemma init_all ps : SAll use (v_init ps) /\ QAll (v_init ps).
Proof.
  split.
  - intros t th Ht. cbn in Ht. apply lookup_replicate in Ht as [-> _]. split; [done|]. cbn. by constructor.
  - intros v _ u uh Hu Hq. cbn in Hu. apply lookup_replicate in Hu as [-> _]. done.
Qed.
End Quiet.
