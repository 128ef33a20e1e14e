(** Proofs about MultiModel.v: steps inside calls, and the invariant of every run. *)
From Verif Require Export MultiProofs2.
From Verif Require Import MutexProofs MutexProofs2 MutexProofs3 LockProofs.
Open Scope nat_scope.

Definition succ_of (p q : pc) : Prop := (resting q = true /\ q = rest_of p /\ resting p = false) \/ (resting q = false /\ call_of q = call_of p).
Section Put.
Context (th : vthread) (v : nat) (p q : pc).
Context (HT : TInv th) (Hat : h_at th = Some (v, p)) (Hs : succ_of p q).
Lemma put_is : put_pc v th q = VThread (h_stack th) (h_count th) (h_calls th) (if resting q then None else Some (v, q)).
Proof. unfold put_pc. by rewrite Hat, decide_True. Qed.
Lemma put_inv : TInv (put_pc v th q).
Proof.
  rewrite put_is. destruct HT as [Hc Hp Ha]. unfold cur in Hp. rewrite Hat in Hp. cbn [app] in Hp. split; cbn [h_stack h_count h_calls]; [done| |].
  - unfold cur. cbn [h_at]. destruct Hs as [(-> & _ & _)|[-> Eq]]; cbn [app]; [|by rewrite Eq].
    destruct (h_calls th) as [|[b c] [|[b' c'] l]]; cbn [planned]; [done| |].
    + cbn [planned] in Hp. destruct (call_of p), c; try done; [destruct Hp as (-> & st' & ? & ? & _)|]; [eauto|tauto].
    + cbn [planned] in Hp. destruct (call_of p), c, l; done.
  - intros w r. cbn [h_at]. destruct Hs as [(-> & _)|[Hr _]]; [done|]. rewrite Hr. by intros [= _ <-].
Qed.
Lemma put_holdw : holdw v (put_pc v th q) = holds_wm q.
Proof.
  rewrite put_is. destruct HT as [Hc Hp Ha]. unfold cur in Hp. rewrite Hat in Hp. cbn [app] in Hp. unfold holdw. cbn [h_at h_calls h_stack].
  destruct Hs as [(E1 & E2 & E3)|[E1 Eq]]; rewrite E1; [|by rewrite bool_decide_true].
  subst q. destruct p; try done; cbn [rest_of holds_wm call_of] in *;
  (destruct (h_calls th) as [|[b c] l]; cbn [planned] in Hp;
   [first [rewrite Hp; by rewrite bool_decide_false | destruct Hp as (st' & Hst & Hw); rewrite Hst; cbn [wv]; rewrite Hw; by rewrite bool_decide_true | destruct Hp as [Hp _]; rewrite Hp; by rewrite bool_decide_false]
   |destruct c; try done; try (by destruct l)]).
Qed.
Lemma put_holdw_other w : w <> v -> holdw w (put_pc v th q) = holdw w th.
Proof.
  intros Hne. rewrite put_is. destruct HT as [Hc Hp Ha]. unfold cur in Hp. rewrite Hat in Hp. cbn [app] in Hp. unfold holdw. cbn [h_at h_calls h_stack]. rewrite Hat.
  rewrite (bool_decide_false (v = w)) by (intros ->; done). cbn [andb].
  destruct Hs as [(E1 & E2 & E3)|[E1 Eq]]; rewrite E1; [|rewrite (bool_decide_false (v = w)) by (intros ->; done); done].
  clear E1 E2. destruct p; try done; cbn [rest_of holds_wm call_of] in *;
  (destruct (h_calls th) as [|[b c] l]; cbn [planned] in Hp;
   [first [rewrite Hp; by rewrite bool_decide_false | destruct Hp as (st' & Hst & Hw); rewrite Hst; cbn [wv]; rewrite Hw; rewrite bool_decide_false by congruence; done | destruct Hp as [Hp _]; rewrite Hp; by rewrite bool_decide_false]
   |destruct c; try done; try (by destruct l)]).
Qed.
Lemma put_contrib : contrib v (put_pc v th q) = (contrib v th + pendp p - pendp q)%Z.
Proof.
  unfold contrib. rewrite (at_put v th q v p Hat), decide_True by done. rewrite put_is. cbn [h_stack h_calls].
  assert (at_pc v th = p) as -> by (unfold at_pc; by rewrite Hat, decide_True). destruct Hs as [(E1 & E2 & E3)|[E1 Eq]]; rewrite E1; [|lia].
  assert (pendp q = 0%Z) as -> by (by destruct q). cbn [pendp]. lia.
Qed.
Lemma put_contrib_other w : w <> v -> contrib w (put_pc v th q) = contrib w th.
Proof.
  intros Hne. unfold contrib. rewrite (at_put v th q w p Hat), decide_False by done. rewrite put_is. cbn [h_stack h_calls].
  assert (at_pc w th = Out) as -> by (unfold at_pc; by rewrite Hat, decide_False). done.
Qed.
Lemma put_x l x x' t : XInv v l x -> l !! t = Some th ->
  lock_moves (holds_wm p) (holds_wm q) t (x_wm x) (x_wm x') ->
  lock_moves (holds_rm p) (holds_rm q) t (x_rm x) (x_rm x') ->
  (x_count x' = x_count x + pendp p - pendp q)%Z ->
  (flag_up q = x_flag x' /\ (x_flag x = true -> flag_up p = true) \/ (flag_up q = flag_up p /\ x_flag x' = x_flag x)) ->
  (blocked q = true -> blocked p = true \/ (0 < x_count x')%Z) ->
  ((exists u uh, l !! u = Some uh /\ blocked (at_pc v uh) = true) -> (0 < x_count x')%Z \/
     (x_count x' = x_count x /\ (notifier p = true -> x_count x = 0%Z -> notifier q = true)) \/ (x_count x' = 0%Z /\ notifier q = true)) ->
  XInv v (<[t := put_pc v th q]> l) x'.
Proof.
  intros HI Ht H1 H2 H3 H4 H5 H6.
  assert (at_pc v th = p) as Ep by (unfold at_pc; by rewrite Hat, decide_True).
  pose proof (at_put v th q v p Hat) as Eq. rewrite decide_True in Eq by done.
  assert (holdw v th = holds_wm p) as Ew by (unfold holdw; by rewrite Hat, bool_decide_true).
  assert (forall f : pc -> bool, f Out = false -> f Reading = false -> f Writing = false -> f (if resting q then Out else q) = f q) as Hf.
  { intros f F1 F2 F3. destruct q; cbn; congruence. }
  eapply x_step; [exact HI|exact Ht|..]; rewrite ?Ep, ?Eq, ?Ew, ?put_holdw, ?put_contrib, ?Hf by done; try done. lia.
Qed.
Lemma put_x_other w l x t : w <> v -> XInv w l x -> l !! t = Some th -> XInv w (<[t := put_pc v th q]> l) x.
Proof.
  intros Hne HI Ht.
  assert (at_pc w th = Out) as Ep by (unfold at_pc; by rewrite Hat, decide_False).
  pose proof (at_put v th q w p Hat) as Eq. rewrite decide_False in Eq by done.
  eapply x_same; [exact HI|exact Ht|..]; rewrite ?Ep, ?Eq; try done; [by apply put_holdw_other|by apply put_contrib_other].
Qed.
End Put.

Record LInv (mx : nat -> vmutex) (l : list vthread) : Prop := {
  li_mutex : forall v, XInv v l (mx v);
  li_thread : Forall TInv l;
}.
Definition upd (mx : nat -> vmutex) (v : nat) (x : vmutex) : nat -> vmutex := fun w => if decide (w = v) then x else mx w.
Lemma li_put mx l t th v p q x' : LInv mx l -> l !! t = Some th -> h_at th = Some (v, p) -> succ_of p q ->
  lock_moves (holds_wm p) (holds_wm q) t (x_wm (mx v)) (x_wm x') ->
  lock_moves (holds_rm p) (holds_rm q) t (x_rm (mx v)) (x_rm x') ->
  (x_count x' = x_count (mx v) + pendp p - pendp q)%Z ->
  (flag_up q = x_flag x' /\ (x_flag (mx v) = true -> flag_up p = true) \/ (flag_up q = flag_up p /\ x_flag x' = x_flag (mx v))) ->
  (blocked q = true -> blocked p = true \/ (0 < x_count x')%Z) ->
  ((exists u uh, l !! u = Some uh /\ blocked (at_pc v uh) = true) -> (0 < x_count x')%Z \/
     (x_count x' = x_count (mx v) /\ (notifier p = true -> x_count (mx v) = 0%Z -> notifier q = true)) \/ (x_count x' = 0%Z /\ notifier q = true)) ->
  LInv (upd mx v x') (<[t := put_pc v th q]> l).
Proof.
  intros [HM HT] Ht Hat Hs H1 H2 H3 H4 H5 H6. pose proof (proj1 (Forall_lookup _ _) HT _ _ Ht) as Hth. split.
  - intros w. unfold upd. destruct (decide (w = v)) as [->|Hne]; [by eapply put_x|by eapply put_x_other].
  - apply Forall_insert; [done|]. by eapply put_inv.
Qed.
Lemma wk_inv v th : TInv th -> TInv (wk v th).
Proof.
  intros [Hc Hp Ha]. destruct (wk_at v th Ha) as (_ & E1 & E2 & E3). split; rewrite ?E1, ?E2, ?E3; [done| |].
  - unfold cur in *. unfold wk, put_pc, at_pc. destruct (h_at th) as [[w p]|] eqn:E; [|by rewrite E]. destruct (decide (w = v)) as [->|]; [|by rewrite E].
    cbn [h_at]. specialize (Ha v p E). assert (resting (wake p) = false) as -> by (by destruct p). by assert (call_of (wake p) = call_of p) as -> by (by destruct p).
  - intros w r. unfold wk, put_pc, at_pc. destruct (h_at th) as [[w' p]|] eqn:E; [|by rewrite E]. destruct (decide (w' = v)) as [->|]; [|rewrite E; by intros [= <- <-]; eapply Ha].
    cbn [h_at]. destruct (resting (wake p)) eqn:Er; [done|]. by intros [= _ <-].
Qed.
Lemma li_wake mx l v : LInv mx l -> LInv mx (wk v <$> l).
Proof.
  intros [HM HT]. split.
  - intros w. apply x_wake; [|by apply HM]. eapply Forall_impl; [exact HT|]. by intros th [_ _ ?].
  - apply Forall_fmap. eapply Forall_impl; [exact HT|]. intros th. apply wk_inv.
Qed.

(** The result of a step of a thread inside a call. *)
Lemma put_view_goto s v t th q x : Forall TInv (v_threads s) -> v_threads s !! t = Some th ->
  put_view s v (MState (<[t := q]> (m_pcs (view s v))) (x_wm x) (x_rm x) (x_count x) (x_flag x)) =
  VState (upd (v_mutex s) v x) (<[t := put_pc v th q]> (v_threads s)) (v_recs s) (v_acts s).
Proof.
  intros HT Ht. unfold put_view. cbn [m_pcs m_wm m_rm m_count m_flag view]. rewrite (put_insert v _ _ t th q Ht).
  rewrite put_at by (eapply Forall_impl; [exact HT|]; by intros ? [_ _ ?]). by destruct x.
Qed.
Lemma put_view_notify s v t th p : Forall TInv (v_threads s) -> v_threads s !! t = Some th -> h_at th = Some (v, p) -> resting p = false ->
  put_view s v (goto t RU36 (notify (view s v))) =
  VState (upd (v_mutex s) v (v_mutex s v)) (<[t := put_pc v (wk v th) RU36]> (wk v <$> v_threads s)) (v_recs s) (v_acts s).
Proof.
  intros HT Ht Hat Hr. unfold put_view. cbn [goto notify m_pcs m_wm m_rm m_count m_flag view]. rewrite (put_insert v _ _ t th RU36 Ht). rewrite put_wake. unfold upd.
  f_equal; [by destruct (v_mutex s v)|]. f_equal. unfold wk. symmetry. apply (put_put v th _ _ p Hat). unfold at_pc. rewrite Hat, decide_True by done. by destruct p.
Qed.
Lemma upd_id mx v w : upd mx v (mx v) w = mx w.
Proof. unfold upd. by destruct (decide (w = v)) as [->|]. Qed.
Lemma li_ext mx mx' l : (forall v, mx v = mx' v) -> LInv mx l -> LInv mx' l.
Proof. intros H [H1 H2]. split; [|done]. intros v. rewrite <- H. apply H1. Qed.

Ltac ps := first [eassumption|idtac]; try done; cbn; try done; try lia; try (solve [left; done | right; done | right; right; done | right; left; repeat split; congruence | left; split; auto
  | intros _; right; left; split; [lia|done] | intros ?; exfalso; eauto | intros ?; left; lia ]).
Lemma go_view s v t th p b : LInv (v_mutex s) (v_threads s) -> v_threads s !! t = Some th -> h_at th = Some (v, p) -> go (view s v) t = Some b ->
  (p <> RU37 /\ exists q x, succ_of p q /\ cost q < cost p /\ put_view s v b = VState (upd (v_mutex s) v x) (<[t := put_pc v th q]> (v_threads s)) (v_recs s) (v_acts s) /\
     LInv (upd (v_mutex s) v x) (<[t := put_pc v th q]> (v_threads s))) \/
  (p = RU37 /\ put_view s v b = VState (upd (v_mutex s) v (v_mutex s v)) (<[t := put_pc v (wk v th) RU36]> (wk v <$> v_threads s)) (v_recs s) (v_acts s) /\
     LInv (upd (v_mutex s) v (v_mutex s v)) (<[t := put_pc v (wk v th) RU36]> (wk v <$> v_threads s))).
Proof.
  intros HL Ht Hat E. pose proof HL as [HM HT]. pose proof (HM v) as HI.
  assert (at_pc v th = p) as Ep by (unfold at_pc; by rewrite Hat, decide_True).
  unfold go in E. cbn [view m_pcs] in E. rewrite list_lookup_fmap, Ht in E. cbn [fmap option_fmap option_map mbind option_bind] in E. rewrite Ep in E.
  cbn [view m_wm m_rm m_count m_flag] in E.
  pose proof (xi_wm _ _ _ HI _ _ Ht) as Hw. assert (holdw v th = holds_wm p) as Ew by (unfold holdw; by rewrite Hat, bool_decide_true). rewrite Ew in Hw.
  pose proof (xi_rm _ _ _ HI _ _ Ht) as Hr. rewrite Ep in Hr.
  assert (forall u uh, v_threads s !! u = Some uh -> blocked (at_pc v uh) = true -> holdw v uh = true /\ flag_up (at_pc v uh) = true) as Hbl.
  { intros u uh _ Hb. unfold at_pc, holdw in *. destruct (h_at uh) as [[w r]|]; [|done]. destruct (decide (w = v)) as [->|]; [|done]. rewrite bool_decide_true by done. by destruct r. }
  assert (holds_wm p = true -> blocked p = false -> (exists u uh, v_threads s !! u = Some uh /\ blocked (at_pc v uh) = true) -> False) as Hno.
  { intros H Hb (u & uh & Hu & Hub). destruct (Hbl _ _ Hu Hub) as [H' _]. apply (xi_wm _ _ _ HI _ _ Hu) in H'. apply Hw in H. assert (u = t) by congruence. subst. congruence. }
  assert (forall uh u, v_threads s !! u = Some uh -> notifier (at_pc v uh) = true -> x_rm (v_mutex s v) = Some u) as Hnr.
  { intros uh u Hu Hn. apply (xi_rm _ _ _ HI _ _ Hu). by destruct (at_pc v uh). }
  assert (x_flag (v_mutex s v) = true -> holds_wm p = true -> flag_up p = true) as Hfl.
  { intros Hf H. apply (xi_flag _ _ _ HI) in Hf as (u & uh & Hu & Hup).
    assert (holdw v uh = true) as H' by (unfold at_pc, holdw in *; destruct (h_at uh) as [[w r]|]; [|done]; destruct (decide (w = v)) as [->|]; [|done]; rewrite bool_decide_true by done; by destruct r).
    apply (xi_wm _ _ _ HI _ _ Hu) in H'. apply Hw in H. assert (u = t) by congruence. subst. congruence. }
  destruct p; try done; try (right; split; [done|]; injection E as <-; split; [by eapply put_view_notify|]); try (left; split; [done|]).
  - destruct (x_wm (v_mutex s v)) eqn:Ex; [done|]. injection E as <-. exists RL21, (VMutex (Some t) (x_rm (v_mutex s v)) (x_count (v_mutex s v)) (x_flag (v_mutex s v))).
    split; [by right|]. split; [cbn; lia|]. split; [by rewrite <- put_view_goto|]. eapply (li_put _ _ _ _ _ RL20); ps.
  - destruct (x_rm (v_mutex s v)) eqn:Ex; [done|]. injection E as <-. exists RL22, (VMutex (x_wm (v_mutex s v)) (Some t) (x_count (v_mutex s v)) (x_flag (v_mutex s v))).
    split; [by right|]. split; [cbn; lia|]. split; [by rewrite <- put_view_goto|]. eapply (li_put _ _ _ _ _ RL21); ps.
  - injection E as <-. exists RL23, (VMutex (x_wm (v_mutex s v)) (x_rm (v_mutex s v)) (x_count (v_mutex s v) + 1) (x_flag (v_mutex s v))).
    split; [by right|]. split; [cbn; lia|]. split; [by rewrite <- put_view_goto|]. eapply (li_put _ _ _ _ _ RL22); ps.
  - injection E as <-. exists RL24, (VMutex (x_wm (v_mutex s v)) None (x_count (v_mutex s v)) (x_flag (v_mutex s v))).
    split; [by right|]. split; [cbn; lia|]. split; [by rewrite <- put_view_goto|]. eapply (li_put _ _ _ _ _ RL23); ps.
  - injection E as <-. exists Reading, (VMutex None (x_rm (v_mutex s v)) (x_count (v_mutex s v)) (x_flag (v_mutex s v))).
    split; [by left|]. split; [cbn; lia|]. split; [by rewrite <- put_view_goto|]. eapply (li_put _ _ _ _ _ RL24); ps.
  - destruct (x_rm (v_mutex s v)) eqn:Ex; [done|]. injection E as <-. exists RU33, (VMutex (x_wm (v_mutex s v)) (Some t) (x_count (v_mutex s v)) (x_flag (v_mutex s v))).
    split; [by right|]. split; [cbn; lia|]. split; [by rewrite <- put_view_goto|]. eapply (li_put _ _ _ _ _ RU32); ps.
  - injection E as <-. exists RU35, (VMutex (x_wm (v_mutex s v)) (x_rm (v_mutex s v)) (x_count (v_mutex s v) - 1) (x_flag (v_mutex s v))).
    split; [by right|]. split; [cbn; lia|]. split; [by rewrite <- put_view_goto|]. eapply (li_put _ _ _ _ _ RU33); ps.
    intros (u & uh & Hu & Hub). destruct (xi_wake _ _ _ HI _ _ Hu Hub) as [H0|(H0 & u2 & uh2 & Hu2 & Hn2)].
      * destruct (decide (x_count (v_mutex s v) = 1%Z)) as [->|]; [by right; right|left; lia].
      * exfalso. pose proof (Hnr _ _ Hu2 Hn2) as G. pose proof (proj1 Hr eq_refl). assert (u2 = t) by congruence. subst u2. assert (uh2 = th) by congruence. subst uh2. by rewrite Ep in Hn2.
  - destruct (decide (x_count (v_mutex s v) = 0%Z)) as [E0|E0]; injection E as <-.
    + exists RU36, (v_mutex s v). split; [by right|]. split; [cbn; lia|]. split; [by rewrite <- put_view_goto|]. eapply (li_put _ _ _ _ _ RU35); ps.
    + exists RU39, (v_mutex s v). split; [by right|]. split; [cbn; lia|]. split; [by rewrite <- put_view_goto|]. eapply (li_put _ _ _ _ _ RU35); ps.
  - destruct (x_flag (v_mutex s v)) eqn:E0; injection E as <-.
    + exists RU37, (v_mutex s v). split; [by right|]. split; [cbn; lia|]. split; [by rewrite <- put_view_goto|]. eapply (li_put _ _ _ _ _ RU36); ps.
    + exists RU39, (v_mutex s v). split; [by right|]. split; [cbn; lia|]. split; [by rewrite <- put_view_goto|]. eapply (li_put _ _ _ _ _ RU36); ps.
      intros (u & uh & Hu & Hub). exfalso. destruct (Hbl _ _ Hu Hub) as [_ Hf]. assert (x_flag (v_mutex s v) = true) by (apply (xi_flag _ _ _ HI); eauto). congruence.
  - assert (LInv (v_mutex s) (wk v <$> v_threads s)) as HL' by (by apply li_wake). assert ((wk v <$> v_threads s) !! t = Some (wk v th)) as Ht' by (by rewrite list_lookup_fmap, Ht).
    assert (h_at (wk v th) = Some (v, RU37)) as Hat' by (unfold wk, put_pc; rewrite Hat, decide_True by done; cbn [h_at]; by rewrite Ep).
    eapply (li_put _ _ _ _ _ RU37); ps.
  - injection E as <-. exists Out, (VMutex (x_wm (v_mutex s v)) None (x_count (v_mutex s v)) (x_flag (v_mutex s v))).
    split; [by left|]. split; [cbn; lia|]. split; [by rewrite <- put_view_goto|]. eapply (li_put _ _ _ _ _ RU39); ps.
  - destruct (x_wm (v_mutex s v)) eqn:Ex; [done|]. injection E as <-. exists WL52, (VMutex (Some t) (x_rm (v_mutex s v)) (x_count (v_mutex s v)) (x_flag (v_mutex s v))).
    split; [by right|]. split; [cbn; lia|]. split; [by rewrite <- put_view_goto|]. eapply (li_put _ _ _ _ _ WL50); ps.
  - injection E as <-. exists WL54, (VMutex (x_wm (v_mutex s v)) (x_rm (v_mutex s v)) (x_count (v_mutex s v)) true).
    split; [by right|]. split; [cbn; lia|]. split; [by rewrite <- put_view_goto|]. eapply (li_put _ _ _ _ _ WL52); ps.
  - injection E as <-. destruct (0 <? x_count (v_mutex s v))%Z eqn:E0.
    + apply Z.ltb_lt in E0. exists WL54w, (v_mutex s v). split; [by right|]. split; [cbn; lia|]. split; [by rewrite <- put_view_goto|]. eapply (li_put _ _ _ _ _ WL54); ps.
    + exists WL56, (v_mutex s v). split; [by right|]. split; [cbn; lia|]. split; [by rewrite <- put_view_goto|]. eapply (li_put _ _ _ _ _ WL54); ps.
  - injection E as <-. exists Waiting, (v_mutex s v). split; [by right|]. split; [cbn; lia|]. split; [by rewrite <- put_view_goto|]. eapply (li_put _ _ _ _ _ WL54w); ps.
  - injection E as <-. exists Writing, (VMutex (x_wm (v_mutex s v)) (x_rm (v_mutex s v)) (x_count (v_mutex s v)) false).
    split; [by left|]. split; [cbn; lia|]. split; [by rewrite <- put_view_goto|]. eapply (li_put _ _ _ _ _ WL56); ps.
  - injection E as <-. exists Out, (VMutex None (x_rm (v_mutex s v)) (x_count (v_mutex s v)) (x_flag (v_mutex s v))).
    split; [by left|]. split; [cbn; lia|]. split; [by rewrite <- put_view_goto|]. eapply (li_put _ _ _ _ _ WU64); ps.
Qed.
