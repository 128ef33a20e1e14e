(** Proofs about MultiModel.v: no data races on vaults that threads share, if the calls are [apart]. *)
From Verif Require Export MultiProofs6.
From Verif Require Import MutexProofs MutexProofs2 MutexProofs3 LockProofs.
Open Scope nat_scope.

(** ** Locks on a shared vault are the outermost ones *)
Section Shared.
Context (use : nat -> usage) (ru : nat -> rules).
Fixpoint sd (t : nat) (st : list (nat * rkind)) : Prop := match st with [] => True | (v, _) :: st => may use t (fst <$> st) v /\ sd t st end.
Definition SInv (t : nat) (th : vthread) : Prop := sd t (h_stack th) /\ Forall (may use t (fst <$> h_stack th)) (fst <$> (cur th ++ h_calls th)).

Lemma all_last v (st : list (nat * rkind)) : Forall (eq v) (fst <$> st) -> st <> [] -> exists k, last st = Some (v, k).
Proof.
  induction st as [|[w k] st IH]; [done|]. cbn [fmap list_fmap fst]. rewrite Forall_cons. intros [<- H] _. destruct st as [|e st]; [cbn; eauto|]. rewrite last_cons_cons. by apply IH.
Qed.
Lemma sd_last t st v : sd t st -> use v = Shared -> v ∈ (fst <$> st) -> exists k, last st = Some (v, k).
Proof.
  induction st as [|[w k] st IH]; cbn [sd fmap list_fmap fst]; intros Hs Hv Hin; [by apply elem_of_nil in Hin|]. destruct Hs as [Hm Hs].
  destruct st as [|e st]; [cbn; apply elem_of_list_singleton in Hin as ->; eauto|]. rewrite last_cons_cons. apply elem_of_cons in Hin as [->|Hin]; [|by apply IH].
  destruct Hm as [Hm|[Hm|[_ Hm]]]; [congruence|congruence|]. by apply all_last.
Qed.
Lemma wv_in st v : wv st = Some v -> v ∈ (fst <$> st).
Proof.
  induction st as [|[w k] st IH]; cbn [wv fmap list_fmap fst]; [done|]. destruct (wv st); intros E; [right; by apply IH|]. destruct k; [done|]. injection E as ->. left.
Qed.
Lemma all_wv v (st : list (nat * rkind)) : Forall (eq v) (fst <$> st) -> wv st = None \/ wv st = Some v.
Proof.
  intros H. destruct (wv st) as [w|] eqn:E; [|by left]. right. apply wv_in in E. by rewrite (proj1 (Forall_forall _ _) H _ E).
Qed.
Lemma sd_wv t st v : sd t st -> use v = Shared -> (v, KWrite) ∈ st -> wv st = Some v.
Proof.
  induction st as [|[w k] st IH]; cbn [sd wv]; intros Hs Hv Hin; [by apply elem_of_nil in Hin|]. destruct Hs as [Hm Hs]. apply elem_of_cons in Hin as [[= <- <-]|Hin].
  - destruct Hm as [Hm|[Hm|[_ Hm]]]; [congruence|congruence|]. destruct (all_wv v st Hm) as [-> | ->]; done.
  - by rewrite (IH Hs Hv Hin).
Qed.
Lemma sd_tgt t st v : sd t st -> use v = Shared -> (0 <= tgt st v)%Z.
Proof.
  intros Hs Hv. unfold tgt. destruct (decide (wv st = Some v)) as [E|E].
  - destruct (sd_last t st v Hs Hv (wv_in _ _ E)) as [k Hk]. unfold lastr. rewrite Hk. destruct k; unfold z1'; [|rewrite decide_False by done; lia].
    rewrite (decide_True (P := Some v = Some v)) by done. destruct (decide _); lia.
  - assert (z1' (wv st = Some v) = 0%Z) as -> by (unfold z1'; by rewrite decide_False). unfold z1'. destruct (decide _), (lastr st); lia.
Qed.
Lemma pendp_le p : (pendp p <= pendc (call_of p))%Z \/ (pendp p <= 0)%Z.
Proof. destruct p; cbn; lia. Qed.
Lemma contrib_pos t th v : TInv th -> SInv t th -> use v = Shared -> (0 <= contrib v th)%Z.
Proof.
  intros [_ Hp _] [Hs Hc] Hv. pose proof (sd_tgt t _ v Hs Hv) as Ht. unfold contrib.
  assert ((v, CReadLock) ∈ cur th ++ h_calls th -> tgt (h_stack th) v = 1%Z) as Hone.
  { intros Hin. assert (may use t (fst <$> h_stack th) v) as Hm. { apply (proj1 (Forall_forall _ _) Hc). apply elem_of_list_fmap. by exists (v, CReadLock). }
    destruct Hm as [Hm|[Hm|[_ Hm]]]; [congruence|congruence|].
    assert (wv (h_stack th) = None /\ h_stack th <> []) as [Hw Hne].
    { destruct (cur th ++ h_calls th) as [|[b c] [|[b' c'] [|]]]; cbn [planned] in Hp.
      - by apply elem_of_nil in Hin.
      - apply elem_of_list_singleton in Hin. injection Hin as <- <-. done.
      - apply elem_of_cons in Hin as [E|Hin]; [injection E as <- <-; done|]. apply elem_of_list_singleton in Hin. injection Hin as <- <-. destruct c; try done; tauto.
      - destruct c, c'; done. }
    destruct (all_last v _ Hm Hne) as [k Hk]. destruct (lastr_none _ Hw Hne) as [a Ha]. unfold lastr in Ha. rewrite Hk in Ha. destruct k; [|done].
    unfold tgt, lastr. rewrite Hk, Hw. unfold z1'. rewrite (decide_True (P := Some v = Some v)) by done. rewrite decide_False by done. done. }
  assert (forall l, planned (h_stack th) l -> (pend v l <= 1 /\ (0 < pend v l -> (v, CReadLock) ∈ l))%Z) as Hl.
  { intros l Hl. destruct l as [|[b c] [|[b' c'] [|]]]; cbn [planned] in Hl; cbn [pend].
    - split; [lia|]. lia.
    - destruct (decide (b = v)) as [->|]; [|split; lia]. destruct c; cbn; split; try lia. intros _. left.
    - destruct (decide (b = v)) as [->|], (decide (b' = v)) as [->|]; destruct c, c'; cbn; split; try lia; try done; intros _; right; left.
    - destruct c, c'; done. }
  assert (pendp (at_pc v th) + pend v (h_calls th) <= pend v (cur th ++ h_calls th) \/ pendp (at_pc v th) + pend v (h_calls th) <= 0)%Z as Hle.
  { unfold cur, at_pc in *. destruct (h_at th) as [[w p]|]; cbn [app pend] in *; [|left; cbn; lia]. destruct (decide (w = v)) as [->|]; [|left; cbn; lia].
    destruct (pendp_le p) as [?|?]; [left; lia|]. destruct (h_calls th) as [|[b c] [|]]; cbn [planned pend] in *; [right; lia| |destruct (call_of p), c; done].
    destruct (decide (b = v)) as [->|]; [|right; lia]. destruct c; cbn; try (right; lia). left. destruct p; cbn in *; try done; lia. }
  destruct (Hl _ Hp) as [H1 H2]. destruct (decide (0 < pend v (cur th ++ h_calls th))%Z) as [Hpos|Hpos]; [rewrite (Hone (H2 Hpos))|]; lia.
Qed.
Lemma zsum_nonneg {A} (f : A -> Z) l : (forall x, x ∈ l -> (0 <= f x)%Z) -> (0 <= zsum f l)%Z /\ (forall x, x ∈ l -> (f x <= zsum f l)%Z).
Proof.
  induction l as [|x l IH]; intros H; cbn [zsum]; [split; [lia|]; intros x Hx; by apply elem_of_nil in Hx|].
  destruct IH as [I1 I2]; [intros y Hy; apply H; by right|]. pose proof (H x ltac:(left)). split; [lia|]. intros y Hy. apply elem_of_cons in Hy as [->|Hy]; [lia|]. specialize (I2 y Hy). lia.
Qed.
Definition SAll (s : vstate) : Prop := forall t th, v_threads s !! t = Some th -> SInv t th.
Lemma count_pos s v : LInv (v_mutex s) (v_threads s) -> SAll s -> use v = Shared ->
  (0 <= x_count (v_mutex s v))%Z /\ forall t th, v_threads s !! t = Some th -> (contrib v th <= x_count (v_mutex s v))%Z.
Proof.
  intros [HM HT] HS Hv. rewrite (xi_count _ _ _ (HM v)). destruct (zsum_nonneg (contrib v) (v_threads s)) as [H1 H2].
  - intros th Hth. apply elem_of_list_lookup_1 in Hth as [t Ht]. eapply contrib_pos; [by eapply Forall_lookup_1|by apply HS|done].
  - split; [done|]. intros t th Ht. apply H2. by eapply elem_of_list_lookup_2.
Qed.

(** ** Every step keeps it *)
Lemma s_put t th v p q : SInv t th -> h_at th = Some (v, p) -> SInv t (put_pc v th q).
Proof.
  intros [H1 H2] E. unfold put_pc. rewrite E, decide_True by done. split; [done|]. unfold cur in *. rewrite E in H2. cbn [h_at h_stack h_calls] in *. cbn [app fmap list_fmap fst] in H2. apply Forall_cons in H2 as [H2 H3].
  destruct (resting q); cbn [app fmap list_fmap fst]; [done|]. by constructor.
Qed.
Lemma s_wk t th v : SInv t th -> SInv t (wk v th).
Proof.
  intros H. unfold wk. destruct (h_at th) as [[w p]|] eqn:E; [destruct (decide (w = v)) as [->|Hne]; [by eapply s_put|]|]; unfold put_pc; rewrite E; [|done]. by rewrite decide_False.
Qed.
Lemma sall_step s t s' : VInv false (racc use ru) s -> SAll s -> vstep s t = Some s' -> SAll s'.
Proof.
  intros HI HS E. pose proof HI as [HL Hlen HT HO]. pose proof HL as [HM HTh]. unfold vstep in E. destruct (v_threads s !! t) as [th|] eqn:Hth; [|done]. cbn [mbind option_bind] in E.
  destruct (v_acts s !! t) as [acts|] eqn:Ha; [|done]. cbn [mbind option_bind] in E. pose proof (lookup_lt_Some _ _ _ Hth) as Hlt.
  destruct (HT t th acts Hth Ha) as (h & Hok & _ & _). destruct (HS t th Hth) as [S1 S2].
  assert (forall th', SInv t th' -> forall u uh, <[t := th']> (v_threads s) !! u = Some uh -> SInv u uh) as Hins.
  { intros th' H u uh Hu. apply (lookup_ins _ _ _ _ _ Hlt) in Hu as [[-> ->]|[_ Hu]]; [done|]. by apply HS. }
  destruct (h_at th) as [[v p]|] eqn:Hat.
  { destruct (go (view s v) t) as [b|] eqn:Eg; [|done]. cbn [mbind option_bind] in E. injection E as <-.
    destruct (go_view s v t th p b HL Hth Hat Eg) as [(_ & q & x & Hs & _ & -> & _)|(-> & -> & _)]; unfold SAll; cbn [v_threads].
    - apply Hins. eapply s_put; [by split|done].
    - intros u uh Hu. apply lookup_ins in Hu; [|by rewrite fmap_length]. destruct Hu as [[-> ->]|[_ Hu]].
      + pose proof (s_wk t th v (conj S1 S2)) as Hw. unfold wk in Hw |- *. unfold put_pc at 2. rewrite Hat, decide_True by done. unfold at_pc. rewrite Hat, decide_True by done. cbn [wake resting].
        eapply s_put; [|reflexivity]. unfold put_pc, at_pc in Hw. by rewrite Hat, !decide_True in Hw by done.
      + rewrite list_lookup_fmap in Hu. apply fmap_Some in Hu as (y & Hy & ->). by apply s_wk, HS. }
  destruct (h_calls th) as [|[v c] calls] eqn:Hca.
  2:{ injection E as <-. unfold SAll, set_thread. cbn [v_threads]. apply Hins. split; [done|]. unfold cur in *. rewrite Hat in S2. cbn [h_at h_stack h_calls app] in *. done. }
  destruct acts as [|[v a] rest]; [done|]. destruct a as [k| |r|r|x|x]; cbn [vok] in Hok.
  - destruct Hok as (_ & Hm & _). destruct (rlock k (h_count th)) as [l c]. injection E as <-. unfold SAll, set_thread. cbn [v_threads]. apply Hins. split; [done|]. cbn [cur h_at h_stack h_calls app].
    apply Forall_fmap. change (map (pair v) l) with (pair v <$> l). apply Forall_fmap. apply Forall_forall. intros y _. cbn [compose fst]. by apply may_top.
  - destruct (h_stack th) as [|[w k] st] eqn:Est; [done|]. cbn [sd] in S1. destruct S1 as [S1 S3]. destruct (runlock k (h_count th)) as [[l c]|]; [|done]. cbn [mbind option_bind] in E. injection E as <-.
    unfold SAll, set_thread. cbn [v_threads]. apply Hins. split; [done|]. cbn [cur h_at h_stack h_calls app].
    apply Forall_fmap. change (map (pair w) l) with (pair w <$> l). apply Forall_fmap. apply Forall_forall. intros y _. done.
  - destruct (v_recs s !! (v, r)) as [[u n]|]; [destruct (decide (u = t)); [|done]|]; injection E as <-; done.
  - destruct (v_recs s !! (v, r)) as [[u [|n]]|]; [done| |done]. destruct (decide (u = t)); [|done]. injection E as <-. done.
  - by injection E as <-.
  - by injection E as <-.
Qed.
End Shared.
