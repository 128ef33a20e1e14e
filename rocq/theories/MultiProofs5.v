(** Proofs about MultiModel.v: threads can always finish. *)
From Verif Require Export MultiProofs4.
From Verif Require Import MutexProofs MutexProofs2 MutexProofs3 LockProofs.
Open Scope nat_scope.

Definition tcost (th : vthread) : nat := 60 * length (h_stack th) + 25 * length (h_calls th) + match h_at th with Some (_, p) => cost p | None => 0 end.
Definition vwork (s : vstate) : nat := sum_list_with tcost (v_threads s) + 120 * sum_list_with length (v_acts s).
Lemma vrun_app l1 l2 s : vrun s (l1 ++ l2) = (s' ← vrun s l1; vrun s' l2).
Proof. revert s. induction l1 as [|a l1 IH]; intros s; cbn; [done|]. destruct (vstep s a); cbn; [apply IH|done]. Qed.

Lemma put_cost v th p q : h_at th = Some (v, p) -> resting p = false -> cost q < cost p -> tcost (put_pc v th q) < tcost th.
Proof.
  intros E Hp Hq. unfold put_pc. rewrite E, decide_True by done. unfold tcost. cbn [h_stack h_calls h_at]. rewrite E. destruct (resting q); lia.
Qed.
Lemma wk_cost v th : tcost (wk v th) <= tcost th /\ (h_at th = Some (v, Waiting) -> tcost (wk v th) + 3 <= tcost th).
Proof.
  unfold wk, put_pc, at_pc. destruct (h_at th) as [[w p]|] eqn:E; [|done]. destruct (decide (w = v)) as [->|Hne].
  - unfold tcost. cbn [h_stack h_calls h_at]. rewrite E. split; [destruct p; cbn; lia|]. intros [= ->]. cbn. lia.
  - split; [done|]. intros [= -> _]. done.
Qed.
Lemma wk_sum v l : sum_list_with tcost (wk v <$> l) <= sum_list_with tcost l.
Proof. induction l as [|th l IH]; [done|]. cbn [fmap list_fmap sum_list_with]. pose proof (proj1 (wk_cost v th)). lia. Qed.
Lemma wk_sum_lt v l u uh : l !! u = Some uh -> h_at uh = Some (v, Waiting) -> sum_list_with tcost (wk v <$> l) + 3 <= sum_list_with tcost l.
Proof.
  revert u. induction l as [|th l IH]; intros [|u] H Hu; try done.
  - injection H as ->. cbn [fmap list_fmap sum_list_with]. pose proof (proj2 (wk_cost v uh) Hu). pose proof (wk_sum v l). lia.
  - cbn [fmap list_fmap sum_list_with]. pose proof (proj1 (wk_cost v th)). specialize (IH u H Hu). lia.
Qed.
Lemma step_down vf acc s t th s' : VInv vf acc s -> v_threads s !! t = Some th -> (forall v, h_at th <> Some (v, RU37)) -> vstep s t = Some s' -> vwork s' < vwork s.
Proof.
  intros [HL Hlen HT HO] Hth Hno E. pose proof HL as [HM HTh]. unfold vstep in E. rewrite Hth in E. cbn [mbind option_bind] in E.
  destruct (v_acts s !! t) as [acts|] eqn:Ha; [|done]. cbn [mbind option_bind] in E. pose proof (proj1 (Forall_lookup _ _) HTh _ _ Hth) as HTt. unfold vwork.
  pose proof (fun th' => sum_insert tcost (v_threads s) t th th' Hth) as Hs.
  destruct (h_at th) as [[v p]|] eqn:Hat.
  { destruct (go (view s v) t) as [b|] eqn:Eg; [|done]. cbn [mbind option_bind] in E. injection E as <-.
    destruct (go_view s v t th p b HL Hth Hat Eg) as [(_ & q & x & _ & Hc & -> & _)|(-> & _)]; [|by destruct (Hno v)]. cbn [v_threads v_acts].
    specialize (Hs (put_pc v th q)). pose proof (put_cost v th p q Hat (ti_at _ HTt v p Hat) Hc). lia. }
  destruct (h_calls th) as [|[v c] calls] eqn:Hca.
  2:{ injection E as <-. cbn [set_thread v_threads v_acts]. specialize (Hs (VThread (h_stack th) (h_count th) calls (Some (v, start c)))).
      unfold tcost in Hs at 2 4. cbn [h_stack h_calls h_at] in Hs. rewrite Hca, Hat in Hs. cbn [length] in Hs. assert (cost (start c) <= 21) by (destruct c; cbn; lia). lia. }
  destruct acts as [|[v a] rest]; [done|]. pose proof (sum_insert length (v_acts s) t _ rest Ha) as Hl. cbn [length] in Hl.
  assert (v_rest th) as Hr by done. destruct a as [k| |r|r|x|x].
  - destruct (lock_thread th v k HTt Hr) as (_ & _ & _ & _ & Hle). destruct (rlock k (h_count th)) as [l c]. cbn [fst snd h_calls] in Hle. injection E as <-. cbn [set_thread v_threads v_acts].
    specialize (Hs (VThread ((v, k) :: h_stack th) c (map (pair v) l) None)). unfold tcost in Hs at 2 4. cbn [h_stack h_calls h_at length] in Hs. rewrite Hca, Hat in Hs. cbn [length] in Hs. lia.
  - destruct (h_stack th) as [|[w k] st] eqn:Est; [done|]. destruct (unlock_thread th w k st HTt Hr Est) as (l & El & _ & _ & _ & _ & Hle). rewrite El in E. cbn [mbind option_bind] in E. injection E as <-. cbn [set_thread v_threads v_acts].
    specialize (Hs (VThread st (count_of (snd <$> st)) (map (pair w) l) None)). unfold tcost in Hs at 2 4. cbn [h_stack h_calls h_at] in Hs. rewrite Hca, Hat, Est, map_length in Hs. cbn [length] in Hs. lia.
  - destruct (v_recs s !! (v, r)) as [[u n]|]; [destruct (decide (u = t)); [|done]|]; injection E as <-; cbn [set_recs v_threads v_acts]; lia.
  - destruct (v_recs s !! (v, r)) as [[u [|n]]|]; [done| |done]. destruct (decide (u = t)); [|done]. injection E as <-; cbn [set_recs v_threads v_acts]; lia.
  - injection E as <-; cbn [v_threads v_acts]; lia.
  - injection E as <-; cbn [v_threads v_acts]; lia.
Qed.

(** ** Sums *)
Lemma zsum_swap {A B} (f : A -> B -> Z) (l : list A) (k : list B) : zsum (fun a => zsum (f a) k) l = zsum (fun b => zsum (fun a => f a b) l) k.
Proof.
  induction l as [|a l IH]; cbn [zsum].
  - induction k as [|b k IHk]; [done|]. cbn [zsum]. lia.
  - rewrite IH. clear IH. induction k as [|b k IHk]; [done|]. cbn [zsum]. lia.
Qed.
Lemma zsum_ext {A} (f g : A -> Z) l : (forall x, x ∈ l -> f x = g x) -> zsum f l = zsum g l.
Proof. induction l as [|x l IH]; intros H; [done|]. cbn [zsum]. rewrite (H x) by left. rewrite IH; [done|]. intros y Hy. apply H. by right. Qed.
Lemma zsum_nonpos {A} (f : A -> Z) l : (forall x, x ∈ l -> (f x <= 0)%Z) -> (zsum f l <= 0)%Z.
Proof. induction l as [|x l IH]; intros H; [done|]. cbn [zsum]. pose proof (H x ltac:(left)). assert (zsum f l <= 0)%Z; [|lia]. apply IH. intros y Hy. apply H. by right. Qed.
Lemma zsum_pos {A} (f : A -> Z) l : (forall x, x ∈ l -> (0 < f x)%Z) -> l <> [] -> (0 < zsum f l)%Z.
Proof.
  intros H. assert (forall k, (forall x, x ∈ k -> (0 < f x)%Z) -> (0 <= zsum f k)%Z) as G.
  { clear. induction k as [|x k IH]; intros H; [done|]. cbn [zsum]. pose proof (H x ltac:(left)). assert (0 <= zsum f k)%Z; [|lia]. apply IH. intros y Hy. apply H. by right. }
  destruct l as [|x l]; [done|]. intros _. cbn [zsum]. pose proof (H x ltac:(left)). assert (0 <= zsum f l)%Z; [|lia]. apply G. intros y Hy. apply H. by right.
Qed.
Lemma zsum_sub {A} (f g : A -> Z) l : (zsum (fun x => f x - g x) l = zsum f l - zsum g l)%Z.
Proof. induction l as [|x l IH]; cbn [zsum]; lia. Qed.
Lemma zsum_zero {A} (l : list A) : zsum (fun _ => 0%Z) l = 0%Z.
Proof. induction l as [|x l IH]; cbn [zsum]; lia. Qed.
Lemma zsum_ind (o : option nat) l : NoDup l -> (0 <= zsum (fun v => z1' (o = Some v)) l <= 1)%Z /\ (forall b, o = Some b -> b ∈ l -> zsum (fun v => z1' (o = Some v)) l = 1%Z) /\
  (forall b, o = Some b -> b ∉ l -> zsum (fun v => z1' (o = Some v)) l = 0%Z).
Proof.
  intros Hn.
  assert (forall b, o = Some b -> b ∉ l -> zsum (fun v => z1' (o = Some v)) l = 0%Z) as H0.
  { intros b -> Hb. rewrite <- (zsum_zero l). apply zsum_ext. intros x Hx. unfold z1'. rewrite decide_False; [done|]. intros [= ->]. done. }
  assert (forall b, o = Some b -> b ∈ l -> zsum (fun v => z1' (o = Some v)) l = 1%Z) as H1.
  { intros b -> Hb. clear H0. induction Hn as [|x l Hx Hn IH]; [by apply elem_of_nil in Hb|]. cbn [zsum]. apply elem_of_cons in Hb as [->|Hb].
    - unfold z1' at 1. rewrite decide_True by done. rewrite (zsum_ext _ (fun _ => 0%Z)), zsum_zero; [done|]. intros y Hy. unfold z1'. rewrite decide_False; [done|]. intros [= ->]. done.
    - rewrite (IH Hb). unfold z1'. rewrite decide_False; [done|]. intros [= ->]. done. }
  split; [|done]. destruct o as [b|].
  - destruct (decide (b ∈ l)) as [H|H]; [rewrite (H1 b eq_refl H); lia|rewrite (H0 b eq_refl H); lia].
  - rewrite (zsum_ext _ (fun _ => 0%Z)), zsum_zero; [lia|]. intros y Hy. unfold z1'. by rewrite decide_False.
Qed.

Lemma zsum_none l : zsum (fun v : nat => z1' (None = Some v)) l = 0%Z.
Proof. rewrite <- (zsum_zero l). apply zsum_ext. intros x _. unfold z1'. by rewrite decide_False. Qed.

Lemma descend acc s : VInv true acc s -> (exists l s', vrun s l = Some s' /\ vwork s' < vwork s) \/ (v_finished s /\ Forall (fun th => h_stack th = [] /\ v_rest th) (v_threads s) /\ v_recs s = ∅).
Proof.
  intros HI. pose proof HI as [HL Hlen HT HO]. pose proof HL as [HM HTh].
  (* a thread that is not spinning moves *)
  set (moves := fun u => match v_threads s !! u with Some th => (forall v, h_at th <> Some (v, RU37)) /\ is_Some (vstep s u) | None => False end).
  assert (forall u, Decision (moves u)) as Hdec.
  { intros u. unfold moves. destruct (v_threads s !! u) as [th|]; [|right; tauto]. destruct (vstep s u) as [s'|]; [|right; intros [_ [? ?]]; done].
    destruct (h_at th) as [[v p]|]; [|left; split; [done|eauto]]. destruct (decide (p = RU37)) as [->|Hp]; [right; intros [H _]; by apply (H v)|left; split; [|eauto]]. intros w [= _ ?]. done. }
  destruct (decide (Exists moves (seq 0 (length (v_threads s))))) as [Hy|Hy].
  { left. apply Exists_exists in Hy as (u & _ & Hu). unfold moves in Hu. destruct (v_threads s !! u) as [th|] eqn:Ep; [|done]. destruct Hu as [Hr [s' E]].
    exists [u], s'. cbn. rewrite E. split; [done|]. by eapply step_down. }
  assert (forall u th, v_threads s !! u = Some th -> (forall v, h_at th <> Some (v, RU37)) -> vstep s u = None) as Hstuck.
  { intros u th Ep Hr. destruct (vstep s u) as [s'|] eqn:E; [|done]. exfalso. apply Hy, Exists_exists. exists u. split; [apply elem_of_seq; pose proof (lookup_lt_Some _ _ _ Ep); lia|].
    unfold moves. rewrite Ep. eauto. }
  clear Hy Hdec moves.
  assert (forall u th, v_threads s !! u = Some th -> exists acts, v_acts s !! u = Some acts) as Hex.
  { intros u th H. apply lookup_lt_Some in H. rewrite <- Hlen in H. apply lookup_lt_is_Some in H as [? ?]. eauto. }
  assert (forall u th v p, v_threads s !! u = Some th -> h_at th = Some (v, p) -> p <> RU37 -> go (view s v) u = None) as Hgo.
  { intros u th v p Hu Hat Hp. assert (vstep s u = None) as E by (eapply Hstuck; [done|]; intros w; rewrite Hat; congruence). destruct (Hex u th Hu) as [ac Ea].
    unfold vstep in E. rewrite Hu in E. cbn [mbind option_bind] in E. rewrite Ea in E. cbn [mbind option_bind] in E. rewrite Hat in E. by destruct (go (view s v) u). }
  assert (forall u th v p, v_threads s !! u = Some th -> h_at th = Some (v, p) -> m_pcs (view s v) !! u = Some p) as Hpc.
  { intros u th v p Hu Hat. cbn [view m_pcs]. rewrite list_lookup_fmap, Hu. cbn. unfold at_pc. by rewrite Hat, decide_True. }
  assert (forall u th v, v_threads s !! u = Some th -> h_at th <> None -> (exists p, h_at th = Some (v, p) /\ at_pc v th = p) \/ at_pc v th = Out) as Hatpc.
  { intros u th v Hu Hn. unfold at_pc. destruct (h_at th) as [[w p]|]; [|done]. destruct (decide (w = v)) as [->|]; eauto. }
  (* somebody spins *)
  assert ((exists u th v, v_threads s !! u = Some th /\ h_at th = Some (v, RU37)) -> exists l s', vrun s l = Some s' /\ vwork s' < vwork s) as Hspin.
  { intros (u & th & v & Hu & Hat). destruct (Hex u th Hu) as [ac Ea]. pose proof (lookup_lt_Some _ _ _ Hu) as Hlt.
    assert (go (view s v) u = Some (goto u RU36 (notify (view s v)))) as Eg by (unfold go; by rewrite (Hpc u th v RU37 Hu Hat)).
    assert (vstep s u = Some (put_view s v (goto u RU36 (notify (view s v))))) as E1.
    { unfold vstep. rewrite Hu. cbn [mbind option_bind]. rewrite Ea. cbn [mbind option_bind]. rewrite Hat, Eg. done. }
    destruct (go_view s v u th RU37 _ HL Hu Hat Eg) as [[? _]|(_ & Epv & HL')]; [done|]. rewrite Epv in E1.
    set (s1 := VState (upd (v_mutex s) v (v_mutex s v)) (<[u := put_pc v (wk v th) RU36]> (wk v <$> v_threads s)) (v_recs s) (v_acts s)) in *.
    assert (h_at (wk v th) = Some (v, RU37)) as Hat1 by (unfold wk, put_pc, at_pc; rewrite Hat, !decide_True by done; done).
    assert ((wk v <$> v_threads s) !! u = Some (wk v th)) as Hu1 by (by rewrite list_lookup_fmap, Hu).
    pose proof (sum_insert tcost (wk v <$> v_threads s) u (wk v th) (put_pc v (wk v th) RU36) Hu1) as Hs.
    assert (tcost (put_pc v (wk v th) RU36) = S (tcost (wk v th))) as Hk.
    { unfold put_pc at 1. rewrite Hat1, decide_True by done. unfold tcost. cbn [h_stack h_calls h_at resting]. rewrite Hat1. cbn. lia. }
    destruct (x_flag (v_mutex s v)) eqn:Ef.
    - apply (xi_flag _ _ _ (HM v)) in Ef as (w & wh & Hw & Hup). destruct (decide (h_at wh = Some (v, Waiting))) as [Hwt|Hwt].
      + exists [u], s1. cbn [vrun]. rewrite E1. split; [done|]. unfold vwork, s1. cbn [v_threads v_acts]. pose proof (wk_sum_lt v _ _ _ Hw Hwt). lia.
      + exfalso. unfold at_pc in Hup. destruct (h_at wh) as [[w' q]|] eqn:Ewh; [|done]. destruct (decide (w' = v)) as [->|]; [|done].
        assert (q <> RU37) as Hq by (by intros ->). pose proof (Hgo w wh v q Hw Ewh Hq) as En. unfold go in En. rewrite (Hpc w wh v q Hw Ewh) in En. cbn [mbind option_bind] in En. destruct q; done.
    - assert (v_threads s1 !! u = Some (put_pc v (wk v th) RU36)) as Hu2 by (unfold s1; cbn [v_threads]; rewrite list_lookup_insert by (by rewrite fmap_length); done).
      assert (h_at (put_pc v (wk v th) RU36) = Some (v, RU36)) as Hat2 by (unfold put_pc at 1; rewrite Hat1, decide_True by done; done).
      assert (go (view s1 v) u = Some (goto u RU39 (view s1 v))) as Eg2.
      { unfold go. assert (m_pcs (view s1 v) !! u = Some RU36) as -> by (cbn [view m_pcs]; rewrite list_lookup_fmap, Hu2; cbn; unfold at_pc; by rewrite Hat2, decide_True). cbn [mbind option_bind].
        assert (m_flag (view s1 v) = false) as -> by (cbn [view m_flag]; unfold s1; cbn [v_mutex]; unfold upd; by rewrite decide_True). done. }
      destruct (go_view s1 v u _ RU36 _ HL' Hu2 Hat2 Eg2) as [(_ & q & x & _ & Hq & Epv2 & _)|[? _]]; [|done].
      assert (vstep s1 u = Some (put_view s1 v (goto u RU39 (view s1 v)))) as E2.
      { unfold vstep. rewrite Hu2. cbn [mbind option_bind]. assert (v_acts s1 !! u = Some ac) as -> by done. cbn [mbind option_bind]. rewrite Hat2, Eg2. done. }
      assert (q = RU39) as ->.
      { assert (put_pc v (put_pc v (wk v th) RU36) q = put_pc v (put_pc v (wk v th) RU36) RU39) as G.
        { pose proof (f_equal v_threads Epv2) as G. unfold put_view in G. cbn [v_threads goto m_pcs] in G.
          assert (Forall TInv (v_threads s1)) as HT1 by apply HL'.
          rewrite (put_insert v _ _ u _ RU39 Hu2) in G. cbn [view m_pcs] in G. rewrite put_at in G by (eapply Forall_impl; [exact HT1|]; by intros ? [_ _ ?]).
          assert (u < length (v_threads s1)) as Hl1 by (by eapply lookup_lt_Some).
          pose proof (f_equal (fun l => l !! u) G) as G'. cbn beta in G'. rewrite !list_lookup_insert in G' by done. by injection G'. }
        pose proof (f_equal h_at G) as G'. unfold put_pc at 1 3 in G'. rewrite Hat2, !decide_True in G' by done. cbn [h_at resting] in G'. destruct (resting q); [done|]. by injection G'. }
      exists [u; u], (put_view s1 v (goto u RU39 (view s1 v))). cbn [vrun]. rewrite E1. cbn [mbind option_bind]. rewrite E2. split; [done|]. rewrite Epv2. unfold vwork. cbn [v_threads v_acts].
      pose proof (sum_insert tcost (v_threads s1) u _ (put_pc v (put_pc v (wk v th) RU36) RU39) Hu2) as Hs2.
      assert (tcost (put_pc v (put_pc v (wk v th) RU36) RU39) + 2 = tcost (wk v th)) as Hk2.
      { rewrite (put_put v (wk v th) RU36 RU39 RU37 Hat1 eq_refl). unfold put_pc at 1. rewrite Hat1, decide_True by done. unfold tcost. cbn [h_stack h_calls h_at resting]. rewrite Hat1. cbn. lia. }
      unfold s1 in Hs2 at 2. cbn [v_threads] in Hs2. pose proof (wk_sum v (v_threads s)). change (v_acts s1) with (v_acts s). lia. }
  destruct (decide (Exists (fun th => snd <$> h_at th = Some RU37) (v_threads s))) as [Hy|Hy].
  { left. apply Hspin. apply Exists_exists in Hy as (th & Hth & Hp). apply elem_of_list_lookup_1 in Hth as [u Hu]. apply fmap_Some in Hp as ([v p] & E & Ep). cbn in Ep. subst p. eauto. }
  assert (forall u th v, v_threads s !! u = Some th -> h_at th <> Some (v, RU37)) as Hno.
  { intros u th v Hu Hat. apply Hy, Exists_exists. exists th. split; [by eapply elem_of_list_lookup_2|]. by rewrite Hat. }
  clear Hspin Hy.
  (* a thread at rest that has calls left is blocked at a record *)
  assert (forall u th, v_threads s !! u = Some th -> h_at th = None -> h_calls th = []) as Hcalls.
  { intros u th Hu Hat. pose proof (Hstuck u th Hu ltac:(by rewrite Hat)) as E. destruct (Hex u th Hu) as [ac Ea].
    unfold vstep in E. rewrite Hu in E. cbn [mbind option_bind] in E. rewrite Ea in E. cbn [mbind option_bind] in E. rewrite Hat in E. by destruct (h_calls th) as [|[]]. }
  assert (forall u th, v_threads s !! u = Some th -> h_at th = None -> forall va rest, v_acts s !! u = Some (va :: rest) -> exists v r', va = (v, ARec r') /\ exists w n, w <> u /\ v_recs s !! (v, r') = Some (w, n)) as Hblk.
  { intros u th Hu Hat [v a] rest Ea. pose proof (Hcalls u th Hu Hat) as Hca. destruct (HT u th _ Hu Ea) as (h & Hok & Hh & _). pose proof (Hstuck u th Hu ltac:(by rewrite Hat)) as E.
    pose proof (proj1 (Forall_lookup _ _) HTh _ _ Hu) as HTu. assert (v_rest th) as Hr by done.
    unfold vstep in E. rewrite Hu in E. cbn [mbind option_bind] in E. rewrite Ea in E. cbn [mbind option_bind] in E. rewrite Hat, Hca in E. destruct a as [k| |r|r|x|x]; try done.
    - exfalso. by destruct (rlock k (h_count th)).
    - exfalso. cbn [vok] in Hok. destruct Hok as [_ Hok]. destruct (h_stack th) as [|[w k] st] eqn:Est; [done|]. destruct (unlock_thread th w k st HTu Hr Est) as (l & El & _). by rewrite El in E.
    - exists v, r. split; [done|]. destruct (v_recs s !! (v, r)) as [[w n]|] eqn:Er; [|done]. destruct (decide (w = u)) as [->|Hn]; [done|]. eauto.
    - exfalso. cbn [vok] in Hok. destruct h as [[r' n]|]; [|done]. destruct Hok as [-> _].
      pose proof (proj2 (Hh (v, r) (S n)) (ex_intro _ n (conj eq_refl eq_refl))) as Er. rewrite Er in E. by rewrite decide_True in E. }
  assert (forall r w n, v_recs s !! r = Some (w, n) -> False) as Hnone.
  { intros r w n Er. pose proof (HO r w n Er) as Hv. rewrite Hlen in Hv. apply lookup_lt_is_Some in Hv as [th Ev]. destruct (Hex w th Ev) as [va Ea]. destruct (HT w th va Ev Ea) as (h & Hok & Hh & Hr).
    destruct (proj1 (Hh r n) Er) as (n' & -> & ->). destruct (Hr eq_refl ltac:(done)) as [_ Hat]. destruct va as [|a rest]; [by destruct Hok|].
    destruct (Hblk w th Ev Hat a rest Ea) as (v & r' & -> & w' & m & Hw & Er'). cbn [vok vinc] in Hok. destruct (decide (r = (v, r'))) as [->|]; [|done]. congruence. }
  assert (forall u th, v_threads s !! u = Some th -> h_at th = None -> v_acts s !! u = Some [] /\ h_stack th = [] /\ v_rest th) as Hdone.
  { intros u th Hu Hat. destruct (Hex u th Hu) as [ac Ea]. destruct ac as [|a rest].
    - destruct (HT u th [] Hu Ea) as (h & [Hst _] & _). split; [done|]. split; [done|]. split; [by eapply Hcalls|done].
    - destruct (Hblk u th Hu Hat a rest Ea) as (v & r & -> & w & n & _ & Er). by destruct (Hnone _ _ _ Er). }
  (* nobody is at the ReadMutex *)
  assert (forall v u, x_rm (v_mutex s v) = Some u -> False) as Hrm.
  { intros v u Hr. destruct (xi_rm_in _ _ _ (HM v) u Hr) as [th Hu]. pose proof (proj2 (xi_rm _ _ _ (HM v) u th Hu) Hr) as Hh.
    unfold at_pc in Hh. destruct (h_at th) as [[w q]|] eqn:Hat; [|done]. destruct (decide (w = v)) as [->|]; [|done].
    assert (q <> RU37) as Hq by (intros ->; by eapply Hno). pose proof (Hgo u th v q Hu Hat Hq) as En. unfold go in En. rewrite (Hpc u th v q Hu Hat) in En. cbn [mbind option_bind] in En. destruct q; done. }
  assert (forall u th v p, v_threads s !! u = Some th -> h_at th = Some (v, p) -> p = Waiting \/ ((p = RL20 \/ p = WL50) /\ x_wm (v_mutex s v) <> None)) as Hin.
  { intros u th v p Hu Hat. assert (p <> RU37) as Hp by (intros ->; by eapply Hno). pose proof (Hgo u th v p Hu Hat Hp) as En. unfold go in En. rewrite (Hpc u th v p Hu Hat) in En. cbn [mbind option_bind view m_wm m_rm] in En.
    assert (x_rm (v_mutex s v) = None) as Er by (destruct (x_rm (v_mutex s v)) eqn:E; [by destruct (Hrm v n)|done]). pose proof (ti_at _ (proj1 (Forall_lookup _ _) HTh _ _ Hu) v p Hat) as Hres. rewrite Er in En.
    destruct p; try done; try (by left); right; (split; [auto|]); intros E; by rewrite E in En. }
  assert (forall u th v p, v_threads s !! u = Some th -> h_at th = Some (v, p) -> (0 < x_count (v_mutex s v))%Z) as Hcount.
  { assert (forall u th v, v_threads s !! u = Some th -> h_at th = Some (v, Waiting) -> (0 < x_count (v_mutex s v))%Z) as Hwt.
    { intros u th v Hu Hat. destruct (xi_wake _ _ _ (HM v) u th Hu) as [?|(_ & w & wh & Hw & Hn)]; [unfold at_pc; by rewrite Hat, decide_True|done|].
      exfalso. unfold at_pc in Hn. destruct (h_at wh) as [[w' q]|] eqn:Ewh; [|done]. destruct (decide (w' = v)) as [->|]; [|done]. destruct (Hin w wh v q Hw Ewh) as [->|[[-> | ->] _]]; done. }
    intros u th v p Hu Hat. destruct (Hin u th v p Hu Hat) as [->|[_ Hw]]; [by eapply Hwt|]. destruct (x_wm (v_mutex s v)) as [w|] eqn:Ew; [|done].
    destruct (xi_wm_in _ _ _ (HM v) w Ew) as [wh Hwh]. pose proof (proj2 (xi_wm _ _ _ (HM v) w wh Hwh) Ew) as Hh. unfold holdw in Hh.
    destruct (h_at wh) as [[w' q]|] eqn:Ewh.
    - apply andb_true_iff in Hh as [H1 H2]. apply bool_decide_eq_true in H1 as ->. destruct (Hin w wh v q Hwh Ewh) as [->|[[-> | ->] _]]; try done. by eapply Hwt.
    - destruct (Hdone w wh Hwh Ewh) as (_ & Hst & Hr & _). rewrite Hr, Hst in Hh. by rewrite bool_decide_false in Hh. }
  right.
  (* the sum of the counters *)
  set (S0 := remove_dups (omap (fun th => fst <$> h_at th) (v_threads s))).
  assert (NoDup S0) as Hnd by apply NoDup_remove_dups.
  assert (forall u th v p, v_threads s !! u = Some th -> h_at th = Some (v, p) -> v ∈ S0) as HS.
  { intros u th v p Hu Hat. apply elem_of_remove_dups, elem_of_list_omap. exists th. split; [by eapply elem_of_list_lookup_2|]. by rewrite Hat. }
  assert (S0 = []) as Hemp.
  { destruct (decide (S0 = [])) as [?|Hne]; [done|]. exfalso.
    assert (0 < zsum (fun v => x_count (v_mutex s v)) S0)%Z as Hpos.
    { apply zsum_pos; [|done]. intros v Hv. apply elem_of_remove_dups, elem_of_list_omap in Hv as (th & Hth & E). apply elem_of_list_lookup_1 in Hth as [u Hu].
      apply fmap_Some in E as ([w p] & Hat & ->). by eapply Hcount. }
    rewrite (zsum_ext _ (fun v => zsum (contrib v) (v_threads s))) in Hpos by (intros v _; apply (xi_count _ _ _ (HM v))).
    rewrite (zsum_swap contrib S0 (v_threads s)) in Hpos.
    assert (zsum (fun b => zsum (fun a => contrib a b) S0) (v_threads s) <= 0)%Z; [|lia]. apply zsum_nonpos. intros th Hth. apply elem_of_list_lookup_1 in Hth as [u Hu].
    pose proof (proj1 (Forall_lookup _ _) HTh _ _ Hu) as [_ Hpl _].
    destruct (h_at th) as [[b p]|] eqn:Hat.
    2:{ destruct (Hdone u th Hu Hat) as (_ & Hst & Hr & _). rewrite (zsum_ext _ (fun _ => 0%Z)), zsum_zero; [done|]. intros v _. unfold contrib, at_pc. rewrite Hat, Hr, Hst. unfold tgt, z1'. cbn. done. }
    pose proof (HS u th b p Hu Hat) as Hb. unfold cur in Hpl. rewrite Hat in Hpl. cbn [app] in Hpl.
    assert (forall v, at_pc v th = if decide (b = v) then p else Out) as Hap by (intros v; unfold at_pc; by rewrite Hat).
    pose proof (zsum_ind (lastr (h_stack th)) S0 Hnd) as [Hlr _]. pose proof (zsum_ind (Some b) S0 Hnd) as (_ & Hb1 & _). specialize (Hb1 b eq_refl Hb).
    destruct (Hin u th b p Hu Hat) as [->|[[-> | ->] _]]; cbn [call_of planned] in Hpl.
    - destruct (h_calls th) as [|[] []] eqn:Hca; [|done..]. destruct Hpl as (st' & Hst & Hwv).
      assert (forall v, contrib v th = z1' (lastr (h_stack th) = Some v) - match lastr (h_stack th) with Some _ => z1' (Some b = Some v) | None => 0 end)%Z as Hc.
      { intros v. unfold contrib. rewrite Hap, Hca. assert (pendp (if decide (b = v) then Waiting else Out) = 0%Z) as -> by (by destruct (decide (b = v))). cbn [pend]. unfold tgt.
        assert (wv (h_stack th) = Some b) as -> by (rewrite Hst; cbn [wv]; by rewrite Hwv). lia. }
      rewrite (zsum_ext _ (fun v => z1' (lastr (h_stack th) = Some v) - match lastr (h_stack th) with Some _ => z1' (Some b = Some v) | None => 0 end)%Z) by (intros; apply Hc). rewrite zsum_sub.
      destruct (lastr (h_stack th)) as [a|] eqn:El; [lia|]. pose proof (zsum_zero S0) as Hz0; rewrite Hz0; pose proof (zsum_none S0) as Hz1; first [lia | rewrite Hz1; lia | (rewrite zsum_ext with (g := fun _ : nat => 0%Z) by done; lia)].
    - destruct (h_calls th) as [|[] []] eqn:Hca; [|done..]. destruct Hpl as (Hwv & Hst).
      assert (forall v, contrib v th = z1' (lastr (h_stack th) = Some v) - z1' (Some b = Some v))%Z as Hc.
      { intros v. unfold contrib. rewrite Hap, Hca. cbn [pend]. unfold tgt. rewrite Hwv. assert (pendp (if decide (b = v) then RL20 else Out) = z1' (Some b = Some v)) as ->.
        { unfold z1'. destruct (decide (b = v)) as [->|]; [by rewrite decide_True|]. rewrite decide_False by congruence. done. }
        destruct (lastr (h_stack th)); [|lia]. unfold z1' at 2. match goal with |- context [decide (None = Some v)] => destruct (decide (None = Some v)) end; [done|lia]. }
      rewrite (zsum_ext _ (fun v => z1' (lastr (h_stack th) = Some v) - z1' (Some b = Some v))%Z) by (intros; apply Hc). rewrite zsum_sub. lia.
    - destruct (h_calls th) as [|[] []] eqn:Hca; [|done..]. destruct Hpl as (st' & Hst & Hwv).
      assert (forall v, contrib v th = z1' (lastr (h_stack th) = Some v) - match lastr (h_stack th) with Some _ => z1' (Some b = Some v) | None => 0 end)%Z as Hc.
      { intros v. unfold contrib. rewrite Hap, Hca. assert (pendp (if decide (b = v) then WL50 else Out) = 0%Z) as -> by (by destruct (decide (b = v))). cbn [pend]. unfold tgt.
        assert (wv (h_stack th) = Some b) as -> by (rewrite Hst; cbn [wv]; by rewrite Hwv). lia. }
      rewrite (zsum_ext _ (fun v => z1' (lastr (h_stack th) = Some v) - match lastr (h_stack th) with Some _ => z1' (Some b = Some v) | None => 0 end)%Z) by (intros; apply Hc). rewrite zsum_sub.
      destruct (lastr (h_stack th)) as [a|] eqn:El; [lia|]. pose proof (zsum_zero S0) as Hz0; rewrite Hz0; pose proof (zsum_none S0) as Hz1; first [lia | rewrite Hz1; lia | (rewrite zsum_ext with (g := fun _ : nat => 0%Z) by done; lia)]. }
  assert (forall u th, v_threads s !! u = Some th -> h_at th = None) as Hall.
  { intros u th Hu. destruct (h_at th) as [[v p]|] eqn:Hat; [|done]. pose proof (HS u th v p Hu Hat) as Hv. rewrite Hemp in Hv. by apply elem_of_nil in Hv. }
  split; [|split].
  - intros t (th & acts & Hth & Ha & Hb). destruct (Hdone t th Hth (Hall t th Hth)) as (E & _ & Hr). assert (acts = []) as -> by congruence. by destruct Hb.
  - apply Forall_lookup. intros u th Hu. destruct (Hdone u th Hu (Hall u th Hu)) as (_ & ? & ?). done.
  - apply map_empty. intros r. destruct (v_recs s !! r) as [[w n]|] eqn:Er; [|done]. by destruct (Hnone _ _ _ Er).
Qed.
Lemma can_finish acc s : VInv true acc s -> exists l s', vrun s l = Some s' /\ v_finished s'.
Proof.
  remember (vwork s) as n eqn:En. revert s En. induction n as [n IH] using lt_wf_ind. intros s -> HI.
  destruct (descend acc s HI) as [(l & s1 & E & Hw)|[Hf _]]; [|by exists [], s].
  destruct (IH (vwork s1) Hw s1 eq_refl) as (l2 & s2 & E2 & H2); [by eapply vrun_inv|]. exists (l ++ l2), s2. split; [|done]. rewrite vrun_app, E. done.
Qed.
Lemma no_deadlock acc s : VInv true acc s -> ~ v_deadlock s.
Proof.
  intros HI [[t Hb] Hstuck]. destruct (can_finish acc s HI) as (l & s' & E & Hf). destruct l as [|u l]; cbn in E; [|by rewrite Hstuck in E].
  injection E as <-. by apply (Hf t).
Qed.
(** When every call has returned, every lock is free. *)
Lemma all_free vf acc s : VInv vf acc s -> v_finished s -> v_all_free s.
Proof.
  intros [HL Hlen HT HO] Hf. pose proof HL as [HM HTh].
  assert (forall t th, v_threads s !! t = Some th -> v_rest th /\ h_stack th = [] /\ forall r n, v_recs s !! r <> Some (t, n)) as Hr.
  { intros t th Ht. assert (is_Some (v_acts s !! t)) as [acts Ha] by (apply lookup_lt_is_Some; rewrite Hlen; by eapply lookup_lt_Some).
    assert (acts = []) as ->. { destruct acts as [|a l]; [done|]. exfalso. apply (Hf t). exists th, (a :: l). split; [done|]. split; [done|]. by left. }
    assert (v_rest th) as Hr. { destruct (decide (h_calls th = [])) as [E1|E1]; [destruct (h_at th) as [e|] eqn:E2|].
      - exfalso. apply (Hf t). exists th, []. split; [done|]. split; [done|]. right. intros [_ ?]. congruence.
      - done.
      - exfalso. apply (Hf t). exists th, []. split; [done|]. split; [done|]. right. by intros [? _]. }
    destruct (HT t th [] Ht Ha) as (h & [Hst ->] & Hh & _). split; [done|]. split; [done|]. intros r n E. by apply Hh in E as (? & ? & _). }
  split; [|split].
  - intros v. pose proof (HM v) as HI. destruct (v_mutex s v) as [wm rm c f] eqn:Ex.
    assert (wm = None) as ->.
    { destruct wm as [u|]; [|done]. exfalso. destruct (xi_wm_in _ _ _ HI u eq_refl) as [th Hu]. pose proof (proj2 (xi_wm _ _ _ HI u th Hu) eq_refl) as Hh. destruct (Hr u th Hu) as ([E1 E2] & E3 & _).
      unfold holdw in Hh. rewrite E2, E1, E3 in Hh. by rewrite bool_decide_false in Hh. }
    assert (rm = None) as ->.
    { destruct rm as [u|]; [|done]. exfalso. destruct (xi_rm_in _ _ _ HI u eq_refl) as [th Hu]. pose proof (proj2 (xi_rm _ _ _ HI u th Hu) eq_refl) as Hh. destruct (Hr u th Hu) as ([E1 E2] & E3 & _).
      unfold at_pc in Hh. by rewrite E2 in Hh. }
    assert (c = 0%Z) as ->.
    { pose proof (xi_count _ _ _ HI) as E. cbn in E. rewrite E. rewrite (zsum_ext _ (fun _ => 0%Z)), zsum_zero; [done|]. intros th Hth. apply elem_of_list_lookup_1 in Hth as [u Hu]. destruct (Hr u th Hu) as ([E1 E2] & E3 & _).
      unfold contrib, at_pc. rewrite E1, E2, E3. unfold tgt, z1'. cbn. done. }
    assert (f = false) as ->; [|done].
    { destruct f; [|done]. exfalso. destruct (proj1 (xi_flag _ _ _ HI) eq_refl) as (u & th & Hu & Hup). destruct (Hr u th Hu) as ([E1 E2] & E3 & _). unfold at_pc in Hup. by rewrite E2 in Hup. }
  - apply map_empty. intros r. destruct (v_recs s !! r) as [[w n]|] eqn:Er; [|done]. exfalso. pose proof (HO r w n Er) as Hl. rewrite Hlen in Hl. apply lookup_lt_is_Some in Hl as [th Hth].
    destruct (Hr w th Hth) as (_ & _ & H). by apply (H r n).
  - intros t th Ht. destruct (Hr t th Ht) as (_ & E & _). split; [done|]. rewrite (ti_count _ (proj1 (Forall_lookup _ _) HTh _ _ Ht)), E. done.
Qed.
