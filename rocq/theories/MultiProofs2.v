(** Proofs about MultiModel.v: every step keeps the invariant. *)
From Verif Require Export MultiProofs.
From Verif Require Import MutexProofs MutexProofs2 MutexProofs3 LockProofs.
Open Scope nat_scope.

(** The calls a thread still has to make on mutexes, given its locks. *)
Definition planned (st : list (nat * rkind)) (l : list (nat * mcall)) : Prop :=
  match l with
  | [] => True
  | [(b, CReadUnlock); (b', CWriteLock)] => b' = b /\ exists st', st = (b, KWrite) :: st' /\ wv st' = None /\ st' <> []
  | [(b, CWriteLock)] => exists st', st = (b, KWrite) :: st' /\ wv st' = None
  | [(b, CReadUnlock)] | [(b, CWriteUnlock)] => st = []
  | [(b, CWriteUnlock); (b', CReadLock)] => b' = b /\ wv st = None /\ st <> []
  | [(b, CReadLock)] => wv st = None /\ st <> []
  | _ => False
  end.
Definition call_of (p : pc) : mcall :=
  match p with
  | RL20 | RL21 | RL22 | RL23 | RL24 => CReadLock
  | RU32 | RU33 | RU35 | RU36 | RU37 | RU39 => CReadUnlock
  | WU64 => CWriteUnlock
  | _ => CWriteLock
  end.
Definition cur (th : vthread) : list (nat * mcall) := match h_at th with Some (v, p) => [(v, call_of p)] | None => [] end.
Record TInv (th : vthread) : Prop := {
  ti_count : h_count th = count_of (snd <$> h_stack th);
  ti_plan : planned (h_stack th) (cur th ++ h_calls th);
  ti_at : at_ok th;
}.

Lemma wv_count st : wv st = None <-> c_write (count_of (snd <$> st)) = 0.
Proof.
  induction st as [|[v k] st IH]; [done|]. cbn [wv fmap list_fmap snd count_of]. destruct (wv st) as [w|].
  - assert (c_write (count_of (snd <$> st)) <> 0) as H by (intros H; by apply IH in H). split; [done|]. destruct k; cbn; [|done].
    destruct (c_write (count_of (snd <$> st)) =? 0) eqn:E; [by apply Nat.eqb_eq in E|done].
  - destruct IH as [IH _]. rewrite (IH eq_refl). destruct k; cbn; done.
Qed.
Lemma read_count st : wv st = None -> (c_read (count_of (snd <$> st)) = 0 <-> st = []).
Proof.
  destruct st as [|[v k] st]; [done|]. cbn [wv fmap list_fmap snd count_of]. destruct (wv st) eqn:E; [done|]. destruct k; [|done]. intros _.
  apply wv_count in E. rewrite E. done.
Qed.
Lemma lastr_cons v k st : st <> [] -> lastr ((v, k) :: st) = lastr st.
Proof. destruct st as [|e st]; [done|]. intros _. unfold lastr. by rewrite last_cons_cons. Qed.
Lemma lastr_none st : wv st = None -> st <> [] -> is_Some (lastr st).
Proof.
  unfold lastr. induction st as [|[v k] st IH]; [done|]. cbn [wv]. destruct (wv st) eqn:E; [done|]. destruct k; [|done]. intros _ _.
  destruct st as [|e st]; [cbn; eauto|]. rewrite last_cons_cons. by apply IH.
Qed.

(** *** Locking *)
Lemma lock_thread th v k : TInv th -> v_rest th -> let th' := VThread ((v, k) :: h_stack th) (rlock k (h_count th)).2 (map (pair v) (rlock k (h_count th)).1) None in
  TInv th' /\ (forall w, holdw w th' = holdw w th) /\ (forall w, contrib w th' = contrib w th) /\ (forall w, at_pc w th' = at_pc w th) /\ length (h_calls th') <= 2.
Proof.
  intros [Hc _ _] [E1 E2]. cbn zeta. destruct (rlock_spec k (snd <$> h_stack th)) as [G _].
  assert (forall w, at_pc w th = Out) as Ha by (intros w; unfold at_pc; by rewrite E2).
  assert (forall w, holdw w th = bool_decide (wv (h_stack th) = Some w)) as Hw by (intros w; unfold holdw; by rewrite E1, E2).
  assert (forall w, contrib w th = tgt (h_stack th) w) as Hk by (intros w; unfold contrib; rewrite E1, Ha; cbn; lia).
  rewrite Hc. pose proof (wv_count (h_stack th)) as Hwc. pose proof (read_count (h_stack th)) as Hrc.
  assert (c_write (count_of (snd <$> h_stack th)) <> 0 -> exists x, wv (h_stack th) = Some x) as Hws.
  { intros H. destruct (wv (h_stack th)) eqn:E; [eauto|]. exfalso. by apply H, Hwc. }
  split; [split|split; [|split; [|split]]].
  - cbn [h_count h_stack fmap list_fmap snd]. by rewrite G.
  - cbn [cur h_at h_stack h_calls app]. destruct k; cbn [rlock].
    + destruct (c_write _ =? 0) eqn:Ew; cbn [fst map]; [|done]. apply Nat.eqb_eq in Ew. destruct (c_read _ =? 0) eqn:Er; cbn [map planned wv]; [|done].
      apply Hwc in Ew. rewrite Ew. done.
    + cbn [fst]. destruct (c_write _ =? 0) eqn:Ew; cbn [map]; [|done]. apply Nat.eqb_eq, Hwc in Ew. destruct (0 <? c_read _) eqn:Er; cbn [app map planned].
      * split; [done|]. eexists. split; [done|]. split; [done|]. intros E. apply (Hrc Ew) in E. rewrite E in Er. done.
      * eauto.
  - by intros ? ?.
  - intros w. rewrite Hw. unfold holdw. cbn [h_at h_calls h_stack]. destruct k; cbn [rlock].
    + destruct (c_write _ =? 0) eqn:Ew; cbn [fst map]; [apply Nat.eqb_eq in Ew; destruct (c_read _ =? 0) eqn:Er|].
      * cbn [map]. apply Hwc in Ew. rewrite Ew. by rewrite bool_decide_false.
      * cbn [map wv]. apply Hwc in Ew. rewrite Ew. done.
      * cbn [wv]. apply Nat.eqb_neq, Hws in Ew as [? ->]. done.
    + cbn [fst]. destruct (c_write _ =? 0) eqn:Ew; cbn [map].
      * apply Nat.eqb_eq, Hwc in Ew. rewrite Ew. rewrite (bool_decide_false (None = Some w)) by done. by destruct (0 <? c_read _).
      * cbn [wv]. apply Nat.eqb_neq, Hws in Ew as [? ->]. done.
  - intros w. rewrite Hk. unfold contrib, tgt. cbn [h_stack h_calls]. change (pendp (at_pc w _)) with 0%Z. destruct k; cbn [rlock].
    + destruct (c_write _ =? 0) eqn:Ew; cbn [fst map]; [apply Nat.eqb_eq in Ew; destruct (c_read _ =? 0) eqn:Er|].
      * apply Nat.eqb_eq in Er. apply Hwc in Ew. apply (Hrc Ew) in Er. rewrite Er. cbn. unfold z1'. destruct (decide (v = w)) as [->|Hne].
        -- rewrite (decide_True (P := Some w = Some w)) by done. rewrite decide_False by done. done.
        -- rewrite (decide_False (P := Some v = Some w)) by congruence. rewrite decide_False by done. done.
      * assert (h_stack th <> []) as Hne by (intros E; apply Nat.eqb_neq in Er; apply Er, Hrc; [by apply Hwc|done]). rewrite lastr_cons by done. cbn [wv pend map]. apply Hwc in Ew. rewrite Ew. lia.
      * assert (h_stack th <> []) as Hne by (intros E; by rewrite E in Ew). rewrite lastr_cons by done. cbn [wv pend]. apply Nat.eqb_neq, Hws in Ew as [? ->]. lia.
    + cbn [fst]. destruct (c_write _ =? 0) eqn:Ew; cbn [map].
      * apply Nat.eqb_eq, Hwc in Ew. destruct (0 <? c_read _) eqn:Er; cbn [app map pend pendc wv].
        -- assert (h_stack th <> []) as Hne by (intros E; apply (Hrc Ew) in E; by rewrite E in Er). rewrite lastr_cons by done. rewrite Ew. destruct (lastr_none _ Ew Hne) as [a ->].
           unfold z1'. rewrite (decide_False (P := None = Some w)) by done. destruct (decide (v = w)) as [->|Hvw]; [rewrite (decide_True (P := Some w = Some w)) by done; lia|].
           rewrite (decide_False (P := Some v = Some w)) by congruence. lia.
        -- assert (h_stack th = []) as -> by (apply (Hrc Ew); apply Nat.ltb_nlt in Er; lia). cbn. unfold z1'. rewrite !decide_False by done. destruct (decide (v = w)); lia.
      * assert (h_stack th <> []) as Hne by (intros E; by rewrite E in Ew). rewrite lastr_cons by done. cbn [wv pend]. apply Nat.eqb_neq, Hws in Ew as [? ->]. lia.
  - intros w. by rewrite Ha.
  - cbn [h_calls]. rewrite map_length. destruct k; cbn [rlock fst]; [destruct (c_write _ =? 0); [destruct (c_read _ =? 0)|]|destruct (c_write _ =? 0); [destruct (0 <? c_read _)|]]; cbn; lia.
Qed.
Lemma unlock_thread th v k st : TInv th -> v_rest th -> h_stack th = (v, k) :: st ->
  exists l, runlock k (h_count th) = Some (l, count_of (snd <$> st)) /\ let th' := VThread st (count_of (snd <$> st)) (map (pair v) l) None in
  TInv th' /\ (forall w, holdw w th' = holdw w th) /\ (forall w, contrib w th' = contrib w th) /\ (forall w, at_pc w th' = at_pc w th) /\ length l <= 2.
Proof.
  intros [Hc _ _] [E1 E2] Hst.
  assert (forall w, at_pc w th = Out) as Ha by (intros w; unfold at_pc; by rewrite E2).
  assert (forall w, holdw w th = bool_decide (wv ((v, k) :: st) = Some w)) as Hw by (intros w; unfold holdw; by rewrite E1, E2, Hst).
  assert (forall w, contrib w th = tgt ((v, k) :: st) w) as Hk by (intros w; unfold contrib; rewrite E1, Ha, Hst; cbn; lia).
  rewrite Hst in Hc. cbn [fmap list_fmap snd] in Hc. destruct (runlock_spec k (snd <$> st)) as (l & El & _ & Hl). exists l. rewrite Hc. split; [done|]. cbn zeta.
  pose proof (wv_count st) as Hwc. pose proof (read_count st) as Hrc.
  change ((fix list_fmap (l : list (nat * rkind)) : list rkind := match l with [] => [] | x :: l0 => x.2 :: list_fmap l0 end) st) with (snd <$> st) in *.
  cbn [count_of] in El.
  assert (forall w, at_pc w (VThread st (count_of (snd <$> st)) (map (pair v) l) None) = Out) as Ha' by done.
  destruct (count_of (snd <$> st)) as [r w0] eqn:Ec. cbn [c_read c_write] in *.
  assert (match k with
          | KRead => match w0 with O => match r with O => l = [CReadUnlock] | S _ => l = [] end | S _ => l = [] end
          | KWrite => match w0 with O => match r with O => l = [CWriteUnlock] | S _ => l = [CWriteUnlock; CReadLock] end | S _ => l = [] end
          end) as Hlist.
  { destruct k, w0 as [|w0], r as [|r]; cbn in El; by injection El. }
  assert (w0 = 0 -> wv st = None) as G1 by (intros ->; by apply Hwc). assert (w0 <> 0 -> exists x, wv st = Some x) as G2 by (intros H; destruct (wv st) eqn:E; [eauto|]; exfalso; by apply H, Hwc).
  split; [split|split; [|split; [|split]]].
  - cbn [h_count h_stack]. by rewrite Ec.
  - cbn [cur h_at h_stack h_calls app]. destruct k, w0 as [|w0], r as [|r]; subst l; cbn [map planned]; try done.
    + apply Hrc; [by apply G1|done].
    + apply Hrc; [by apply G1|done].
    + split; [done|]. split; [by apply G1|]. intros ->. by injection Ec.
  - by intros ? ?.
  - intros w. rewrite Hw. unfold holdw. cbn [h_at h_calls h_stack]. destruct k, w0 as [|w0], r as [|r]; subst l; cbn [map wv];
      try (rewrite (G1 eq_refl); done); try (destruct (G2 ltac:(done)) as [x ->]; done);
      rewrite (G1 eq_refl); destruct (decide (v = w)) as [->|Hne]; [by rewrite !bool_decide_true|rewrite !bool_decide_false by congruence; done|by rewrite !bool_decide_true|rewrite !bool_decide_false by congruence; done].
  - intros w. rewrite Hk. unfold contrib, tgt. cbn [h_stack h_calls]. rewrite Ha'. cbn [pendp]. destruct k, w0 as [|w0], r as [|r]; subst l; cbn [map pend pendc wv].
    + assert (st = []) as -> by (apply Hrc; [by apply G1|done]). cbn. unfold z1'. rewrite (decide_False (P := None = Some w)) by done. destruct (decide (v = w)) as [->|]; [rewrite (decide_True (P := Some w = Some w)) by done; lia|].
      rewrite (decide_False (P := Some v = Some w)) by congruence. lia.
    + rewrite lastr_cons by (intros ->; by injection Ec). rewrite (G1 eq_refl). lia.
    + destruct (G2 ltac:(done)) as [x Hx]. rewrite lastr_cons by (intros ->; by injection Ec). rewrite Hx. lia.
    + destruct (G2 ltac:(done)) as [x Hx]. rewrite lastr_cons by (intros ->; by injection Ec). rewrite Hx. lia.
    + assert (st = []) as -> by (apply Hrc; [by apply G1|done]). cbn. unfold z1'. rewrite !decide_False by done. destruct (decide (v = w)); lia.
    + assert (st <> []) as Hne by (intros ->; by injection Ec). rewrite lastr_cons by done. rewrite (G1 eq_refl). destruct (lastr_none _ (G1 eq_refl) Hne) as [a ->].
      unfold z1'. rewrite (decide_False (P := None = Some w)) by done. destruct (decide (v = w)) as [->|]; [rewrite (decide_True (P := Some w = Some w)) by done; lia|].
      rewrite (decide_False (P := Some v = Some w)) by congruence. lia.
    + destruct (G2 ltac:(done)) as [x Hx]. rewrite lastr_cons by (intros ->; by injection Ec). rewrite Hx. lia.
    + destruct (G2 ltac:(done)) as [x Hx]. rewrite lastr_cons by (intros ->; by injection Ec). rewrite Hx. lia.
  - intros w. by rewrite Ha.
  - done.
Qed.
(** *** The beginning of a call *)
Lemma call_thread th v c calls : TInv th -> h_at th = None -> h_calls th = (v, c) :: calls ->
  let th' := VThread (h_stack th) (h_count th) calls (Some (v, start c)) in
  TInv th' /\ (forall w, holdw w th' = holdw w th) /\ (forall w, contrib w th' = contrib w th) /\ forall w, exists c', at_pc w th = Out /\ (at_pc w th' = Out \/ at_pc w th' = start c').
Proof.
  intros [Hc Hp _] E1 E2. cbn zeta. unfold cur in Hp. rewrite E1, E2 in Hp. cbn [app] in Hp.
  assert (forall w, at_pc w th = Out) as Ha by (intros w; unfold at_pc; by rewrite E1).
  split; [split|split; [|split]].
  - done.
  - unfold cur. cbn [h_at h_stack h_calls]. assert (call_of (start c) = c) as -> by (by destruct c). done.
  - intros w p. cbn. intros [= _ <-]. by destruct c.
  - intros w. unfold holdw. rewrite E1, E2. cbn [h_at]. destruct c; cbn [start holds_wm]; try (by rewrite andb_false_r). by rewrite andb_true_r.
  - intros w. unfold contrib. rewrite Ha, E2. unfold at_pc. cbn [h_stack h_calls h_at pend pendp]. destruct (decide (v = w)); destruct c; cbn [start pendp pendc]; lia.
  - intros w. exists c. split; [done|]. unfold at_pc. cbn [h_at]. destruct (decide (v = w)); auto.
Qed.
