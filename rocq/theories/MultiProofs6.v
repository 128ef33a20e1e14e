(** Proofs about MultiModel.v: the calls keep the discipline. *)
From Verif Require Export MultiProofs5.
From Verif Require Import MutexProofs MutexProofs2 MutexProofs3 LockProofs.
Open Scope nat_scope.

(** ** From one vault to several *)
Definition hmap (v : nat) (h : held) : vheld := match h with Some (r, n) => Some ((v, r), n) | None => None end.
Definition stk (v : nat) (st : list rkind) : list (nat * rkind) := map (pair v) st.
Definition acs (a : cact) : Prop := match a with ARead _ | AWrite _ => True | _ => False end.
Lemma lift vf (acc : permission) (acc' : vperm) v st0 rest : (forall st h a, acs a -> acc st h a -> acc' (stk v st ++ st0) (hmap v h) v a) ->
  (forall st h k, acc' (stk v st ++ st0) h v (ALock k)) -> vok vf acc' st0 None rest ->
  forall l st h, ok vf acc st h l -> vok vf acc' (stk v st ++ st0) (hmap v h) (on v l ++ rest).
Proof.
  intros Ha Hl Hr l. induction l as [|a l IH]; intros st h H.
  - destruct H as [-> ->]. done.
  - destruct a as [k| |r|r|x|x]; cbn [on map app]; cbn [ok vok] in *.
    + destruct H as [H1 H2]. split; [intros E; by rewrite (H1 E)|]. split; [apply Hl|]. by apply (IH (k :: st) h).
    + destruct H as [H1 H2]. split; [intros E; by rewrite (H1 E)|]. destruct st as [|k st]; [done|]. cbn [stk map app]. by apply (IH st h).
    + destruct (inc h r) as [h'|] eqn:E; [|done]. destruct h as [[r' n]|]; cbn [inc hmap vinc] in *.
      * destruct (decide (r' = r)) as [->|]; [|done]. injection E as <-. rewrite decide_True by done. by apply (IH st (Some (r, S n))).
      * injection E as <-. by apply (IH st (Some (r, 0))).
    + destruct h as [[r' n]|]; [|done]. destruct H as [-> H]. cbn [hmap]. split; [done|]. destruct n; by apply IH in H.
    + destruct H as [H1 H2]. split; [by apply Ha|]. by apply IH.
    + destruct H as [H1 H2]. split; [by apply Ha|]. by apply IH.
Qed.

Definition vgood (vf : bool) (acc : vperm) (st : list (nat * rkind)) (l : list (nat * cact)) : Prop := forall rest, vok vf acc st None rest -> vok vf acc st None (l ++ rest).
Section Good.
Context (vf : bool) (acc : vperm).
Lemma vgood_nil st : vgood vf acc st [].
Proof. by intros rest H. Qed.
Lemma vgood_app st l1 l2 : vgood vf acc st l1 -> vgood vf acc st l2 -> vgood vf acc st (l1 ++ l2).
Proof. intros H1 H2 rest H. rewrite <- app_assoc. by apply H1, H2. Qed.
Lemma vgood_concat st ls : Forall (vgood vf acc st) ls -> vgood vf acc st (concat ls).
Proof. induction 1 as [|l ls H Hl IH]; cbn; [apply vgood_nil|]. by apply vgood_app. Qed.
Lemma vgood_read st v x l : acc st None v (ARead x) -> vgood vf acc st l -> vgood vf acc st ((v, ARead x) :: l).
Proof. intros H1 H2 rest H. cbn. split; [done|]. by apply H2. Qed.
Lemma vgood_write st v x l : acc st None v (AWrite x) -> vgood vf acc st l -> vgood vf acc st ((v, AWrite x) :: l).
Proof. intros H1 H2 rest H. cbn. split; [done|]. by apply H2. Qed.
Lemma vgood_sec st v k body : acc st None v (ALock k) -> vgood vf acc ((v, k) :: st) body -> vgood vf acc st (vsec v k body).
Proof. intros Ha H rest Hr. unfold vsec. cbn. split; [done|]. split; [done|]. rewrite <- app_assoc. apply H. cbn. done. Qed.
Lemma vgood_lift (a : permission) v st l : ok vf a [] None l -> (forall s h x, acs x -> a s h x -> acc (stk v s ++ st) (hmap v h) v x) ->
  (forall s h k, acc (stk v s ++ st) h v (ALock k)) -> vgood vf acc st (on v l).
Proof. intros H H1 H2 rest Hr. by apply (lift vf a acc v st rest H1 H2 Hr l [] None). Qed.
End Good.

(** ** Induction over calls and the calls of their callbacks *)
Fixpoint vcall_rect' (P : vcall -> Prop)
  (H1 : forall v c, P (VOn v c)) (H2 : forall a b n rs, P (VCopy a b n rs)) (H3 : forall a b o ss n rs, P (VAssign a b o ss n rs)) (H4 : forall a b, P (VMove a b))
  (H5 : forall a b o ss, P (VMoveAssign a b o ss)) (H6 : forall v rs, Forall (fun e : nat * list vcall => Forall P e.2) rs -> P (VSortBy v rs))
  (H7 : forall v rs ss, Forall (fun e : nat * list vcall => Forall P e.2) rs -> P (VGenerate v rs ss)) (c : vcall) : P c :=
  let calls := fix calls (l : list vcall) : Forall P l := match l with [] => Forall_nil_2 P | c :: l => Forall_cons_2 P c l (vcall_rect' P H1 H2 H3 H4 H5 H6 H7 c) (calls l) end in
  let recs := fix recs (l : list (nat * list vcall)) : Forall (fun e : nat * list vcall => Forall P e.2) l :=
    match l with [] => Forall_nil_2 _ | e :: l => Forall_cons_2 _ e l (calls e.2) (recs l) end in
  match c with
  | VOn v c => H1 v c | VCopy a b n rs => H2 a b n rs | VAssign a b o ss n rs => H3 a b o ss n rs | VMove a b => H4 a b | VMoveAssign a b o ss => H5 a b o ss
  | VSortBy v rs => H6 v rs (recs rs) | VGenerate v rs ss => H7 v rs ss (recs rs)
  end.
Lemma dumps_inside (rs : list (nat * list vcall)) :
  ~ ((fix any l := match l with [] => False | e :: l => (fix some k := match k with [] => False | c :: k => v_dumps c \/ some k end) (snd e) \/ any l end) rs) <->
  Forall (fun e : nat * list vcall => Forall (fun c => ~ v_dumps c) e.2) rs.
Proof.
  induction rs as [|[r cs] rs IH]; [split; [intros _; by apply Forall_nil|by intros _ H]|]. rewrite Forall_cons, <- IH. cbn [snd].
  assert (~ ((fix some k := match k with [] => False | c :: k => v_dumps c \/ some k end) cs) <-> Forall (fun c => ~ v_dumps c) cs) as <-; [|tauto].
  clear. induction cs as [|c cs IH]; [split; [intros _; by apply Forall_nil|by intros _ H]|]. rewrite Forall_cons, <- IH. tauto.
Qed.
Lemma apart_inside use ru t inside (rs : list (nat * list vcall)) :
  ((fix all l := match l with [] => True | e :: l => (fix every k := match k with [] => True | c :: k => apart use ru t inside c /\ every k end) (snd e) /\ all l end) rs) <->
  Forall (fun e : nat * list vcall => Forall (apart use ru t inside) e.2) rs.
Proof.
  induction rs as [|[r cs] rs IH]; [split; [intros _; by apply Forall_nil|done]|]. rewrite Forall_cons, <- IH. cbn [snd].
  assert (((fix every k := match k with [] => True | c :: k => apart use ru t inside c /\ every k end) cs) <-> Forall (apart use ru t inside) cs) as <-; [|tauto].
  clear. induction cs as [|c cs IH]; [split; [intros _; by apply Forall_nil|done]|]. rewrite Forall_cons, <- IH. tauto.
Qed.

(** ** No lock of a vault inside the mutex of a record *)
Definition vany : vperm := fun _ _ _ _ => True.
Lemma any_on v st c : ~ dumps c -> vgood true vany st (on v (skeleton c)).
Proof. intros H. eapply (vgood_lift _ _ any); [by apply good_ok, skeleton_any|intros; exact I|intros; exact I]. Qed.
Lemma ok_part vf acc l : good vf acc [] None l -> ok vf acc [] None l.
Proof. apply good_ok. Qed.
Lemma any_part v st l : good true any [] None l -> vgood true vany st (on v l).
Proof. intros H. eapply (vgood_lift _ _ any); [by apply good_ok|intros; exact I|intros; exact I]. Qed.
Ltac vgoodies := repeat first
  [ apply vgood_nil | apply vgood_app | apply vgood_read; [exact I|] | apply vgood_write; [exact I|] | apply vgood_sec; [exact I|] ].
Lemma copy_any to from n rs st : vgood true vany st (copy_content to from n rs).
Proof.
  unfold copy_content. apply vgood_read; [exact I|]. apply vgood_app.
  - apply vgood_concat, Forall_forall. intros l Hl. apply elem_of_replicate in Hl as [-> _]. (apply any_on; first [assumption | intros []]).
  - apply vgood_write; [exact I|]. apply vgood_concat, Forall_fmap, Forall_forall. intros r _. cbn [compose]. apply vgood_app.
    + apply any_part. goodies.
    + vgoodies.
Qed.
Lemma concat_calls {A} vf acc st (f : A -> list (nat * cact)) cs : Forall (fun c => vgood vf acc st (f c)) cs -> vgood vf acc st (concat (map f cs)).
Proof. intros H. apply vgood_concat. change (map f cs) with (f <$> cs). by apply Forall_fmap. Qed.
Lemma vskeleton_any c : ~ v_dumps c -> forall st, vgood true vany st (vskeleton c).
Proof.
  induction c as [v c|a b n rs|a b o ss n rs|a b|a b o ss|v rs IH|v rs ss IH] using vcall_rect'; intros H st; cbn [v_dumps vskeleton] in *.
  - (apply any_on; first [assumption | intros []]).
  - apply vgood_sec; [exact I|]. apply copy_any.
  - apply vgood_app; [(apply any_on; first [assumption | intros []])|]. apply vgood_sec; [exact I|]. apply vgood_sec; [exact I|]. apply copy_any.
  - vgoodies.
  - apply vgood_app; [(apply any_on; first [assumption | intros []])|]. vgoodies.
  - apply vgood_sec; [exact I|]. apply vgood_read; [exact I|]. apply vgood_concat, Forall_fmap. apply dumps_inside in H. apply Forall_forall. intros [r cs] Hin. cbn [fst snd compose].
    apply (proj1 (Forall_forall _ _) IH) in Hin as IHe. apply (proj1 (Forall_forall _ _) H) in Hin. cbn [snd] in *.
    apply vgood_app; [apply any_part; goodies|]. apply vgood_app; [|apply any_part; goodies].
    apply concat_calls. rewrite Forall_forall in *. intros c Hc. by apply IHe, Hin.
  - apply vgood_sec; [exact I|]. apply vgood_app; [apply any_part; goodies|]. apply vgood_app; [|apply vgood_read; [exact I|]].
    + apply vgood_concat, Forall_fmap. apply dumps_inside in H. apply Forall_forall. intros [r cs] Hin. cbn [fst snd compose].
      apply (proj1 (Forall_forall _ _) IH) in Hin as IHe. apply (proj1 (Forall_forall _ _) H) in Hin. cbn [snd] in *.
      apply vgood_app; [apply any_part; goodies|]. apply vgood_app; [|apply vgood_app; [apply any_part; goodies|vgoodies]].
      apply concat_calls. rewrite Forall_forall in *. intros c Hc. by apply IHe, Hin.
    + apply vgood_concat, Forall_fmap, Forall_forall. intros s _. cbn [compose]. apply any_part. goodies.
Qed.

(** ** Accesses under the right lock *)
Definition kinds (v : nat) (st : list (nat * rkind)) : list rkind := omap (fun e : nat * rkind => if decide (e.1 = v) then Some e.2 else None) st.
Definition held_on (v : nat) (h : vheld) : held := match h with Some ((w, r), n) => if decide (w = v) then Some (r, n) else None | None => None end.
(** Nobody changes the vault. *)
Definition fperm (R : rules) (t : nat) : permission := fun _ h a =>
  match a with
  | AWrite LVault | AWrite (LData _) | AWrite LErrors => False
  | ARead LSets | AWrite LSets => u_requester R = t
  | ARead (LLife r) | AWrite (LLife r) => exists n, h = Some (r, n)
  | ARead (LSet s) | AWrite (LSet s) | ARead (LParent s) | AWrite (LParent s) => u_owner R s = t
  | _ => True
  end.
Definition uperm (use : nat -> usage) (ru : nat -> rules) (t : nat) (v : nat) : permission :=
  match use v with Mine u => fun _ _ _ => u = t | Frozen => fperm (ru v) t | Shared => perm (ru v) t end.
Definition racc (use : nat -> usage) (ru : nat -> rules) (t : nat) : vperm := fun st h v a =>
  match a with ALock _ => may use t (fst <$> st) v | _ => uperm use ru t v (kinds v st) (held_on v h) a end.
Lemma kinds_stk v st st0 : kinds v (stk v st ++ st0) = st ++ kinds v st0.
Proof. induction st as [|k st IH]; [done|]. cbn. rewrite decide_True by done. f_equal. apply IH. Qed.
Lemma perm_more R t st st' h a : perm R t st h a -> perm R t (st ++ st') h a.
Proof.
  assert (st <> [] -> st ++ st' <> []) as H1 by (by destruct st). assert (KWrite ∈ st -> KWrite ∈ st ++ st') as H2 by (clear; set_solver).
  destruct a as [| | | |[]|[]]; cbn [perm]; unfold in_set; try (case_match); tauto.
Qed.
Lemma uperm_more use ru t v st st' h a : uperm use ru t v st h a -> uperm use ru t v (st ++ st') h a.
Proof. unfold uperm. destruct (use v); [done|apply perm_more|done]. Qed.
Lemma held_hmap v h : held_on v (hmap v h) = h.
Proof. destruct h as [[r n]|]; [|done]. cbn. by rewrite decide_True. Qed.
Lemma fst_stk v st : Forall (eq v) (fst <$> stk v st).
Proof. induction st as [|k st IH]; [constructor|]. by constructor. Qed.
Lemma may_stk use t st0 v st : may use t (fst <$> st0) v -> may use t (fst <$> (stk v st ++ st0)) v.
Proof. intros [H|[H|[H1 H2]]]; [by left|by right; left|]. right; right. split; [done|]. rewrite fmap_app. apply Forall_app. split; [apply fst_stk|done]. Qed.
Lemma priv_part use ru t v st l : use v = Mine t -> ok false any [] None l -> vgood false (racc use ru t) st (on v l).
Proof.
  intros Hp H. eapply (vgood_lift _ _ any); [done| |]; [intros s h a Ha _; unfold racc, uperm; rewrite Hp; by destruct a|intros s h k; by left].
Qed.
Lemma racc_access use ru t st h v a : acs a -> uperm use ru t v (kinds v st) (held_on v h) a -> racc use ru t st h v a.
Proof. intros Ha Hp. by destruct a. Qed.
Lemma part use ru t v st l : may use t (fst <$> st) v -> good false (uperm use ru t v) [] None l -> vgood false (racc use ru t) st (on v l).
Proof.
  intros Hp H. eapply (vgood_lift _ _ (uperm use ru t v)); [by apply good_ok| |].
  - intros s h a Ha H1. apply racc_access; [done|]. rewrite kinds_stk, held_hmap. by apply uperm_more.
  - intros s h k. cbn. by apply may_stk.
Qed.

(** Any call on a private vault. *)
Lemma skeleton_weak c : good false any [] None (skeleton c).
Proof. destruct c; opts; goodies; try (apply good_fmap_read; by intros); try (apply good_fmap_write; by intros). Qed.
Lemma skeleton_mine (u : nat) c : good false (fun _ _ _ => u = u) [] None (skeleton c).
Proof. destruct c; opts; goodies; try (apply good_fmap_read; by intros); try (apply good_fmap_write; by intros); done. Qed.
(** Calls on a vault nobody changes. *)
Lemma skeleton_harmless R t c : harmless R t c -> good false (fperm R t) [] None (skeleton c).
Proof.
  intros H. destruct c; cbn [harmless] in H; try done; repeat match type of H with _ /\ _ => destruct H as [H ?] end; opts; goodies;
    try (apply good_fmap_read; by intros); try (apply good_fmap_write; by intros); cbn [fperm]; try assumption; tauto.
Qed.
Section Race.
Context (use : nat -> usage) (ru : nat -> rules) (t : nat).
Notation R := (racc use ru t).
Lemma priv_call v st c : use v = Mine t -> vgood false R st (on v (skeleton c)).
Proof. intros H. apply priv_part; [done|]. apply good_ok, skeleton_weak. Qed.
Lemma priv_acc v st h a : use v = Mine t -> acs a -> R st h v a.
Proof. intros H Ha. apply racc_access; [done|]. unfold uperm. by rewrite H. Qed.
Lemma kinds_top v k st : kinds v ((v, k) :: st) = k :: kinds v st.
Proof. unfold kinds. cbn. by rewrite decide_True. Qed.
Lemma may_top v (k : rkind) (st : list (nat * rkind)) : may use t (fst <$> st) v -> may use t (fst <$> ((v, k) :: st)) v.
Proof. apply (may_stk use t st v [k]). Qed.
Lemma top_acc v k (st : list (nat * rkind)) a : acs a -> uperm use ru t v [k] None a -> R ((v, k) :: st) None v a.
Proof. intros Ha Hp. apply racc_access; [done|]. rewrite kinds_top. by apply (uperm_more use ru t v [k]). Qed.
(** Reading the vault or a record under its lock. *)
Lemma top_read v k (st : list (nat * rkind)) x : may use t (fst <$> st) v -> (x = LVault \/ exists r, x = LData r) -> R ((v, k) :: st) None v (ARead x).
Proof.
  intros Hm Hx. apply top_acc; [done|]. unfold uperm. destruct Hm as [Hm|[Hm|[Hm _]]]; rewrite Hm; [done| |]; by destruct Hx as [->|[r ->]].
Qed.
Lemma record_part v (st : list (nat * rkind)) r : may use t (fst <$> st) v -> vgood false R st (on v (set_record (Some r) None)) /\ vgood false R st (on v (touch r)).
Proof. intros Hm. split; apply part; try done; unfold uperm; destruct Hm as [->|[->|[-> _]]]; goodies; cbn [fperm]; try done; by eexists. Qed.
Lemma copy_clean to from n rs (st : list (nat * rkind)) : may use t (fst <$> st) from -> use to = Mine t -> vgood false R ((from, KRead) :: st) (copy_content to from n rs).
Proof.
  intros Hm Hp. unfold copy_content. apply vgood_read; [apply top_read; auto|]. apply vgood_app.
  - apply vgood_concat, Forall_forall. intros l Hl. apply elem_of_replicate in Hl as [-> _]. by apply priv_call.
  - apply vgood_write; [by apply priv_acc|]. apply vgood_concat, Forall_fmap, Forall_forall. intros r _. cbn [compose]. apply vgood_app.
    + intros rest Hr. cbn [on rsec map app vok vinc]. split; [|by split]. apply racc_access; [done|]. rewrite kinds_top. unfold uperm. by destruct Hm as [->|[->|[-> _]]].
    + apply vgood_write; [by apply priv_acc|]. apply vgood_nil.
Qed.
Lemma vskeleton_apart c : forall st, apart use ru t (fst <$> st) c -> vgood false R st (vskeleton c).
Proof.
  induction c as [v c|a b n rs|a b o ss n rs|a b|a b o ss|v rs IH|v rs ss IH] using vcall_rect'; intros st H; cbn [apart vskeleton] in *.
  - destruct H as (Hm & Hc & Hf). apply part; [done|]. unfold uperm. destruct Hm as [->|[Hm|[Hm _]]]; [apply skeleton_mine| |]; rewrite Hm; [by apply skeleton_harmless, Hf|by apply skeleton_clean, Hc].
  - destruct H as [Hm Hp]. apply vgood_sec; [done|]. by apply copy_clean.
  - destruct H as [Ha Hb]. assert (forall inside, may use t inside b) as Hm by (intros ?; destruct Hb; [by left|by right; left]).
    apply vgood_app; [by apply priv_call|]. apply vgood_sec; [by left|]. apply vgood_sec; [apply Hm|]. by apply copy_clean.
  - destruct H as [Ha Hb]. apply vgood_sec; [by left|]. cbn [app]. apply vgood_read; [by apply priv_acc|]. apply vgood_write; [by apply priv_acc|]. apply priv_part; [done|]. apply good_ok. goodies.
  - destruct H as [Ha Hb]. apply vgood_app; [by apply priv_call|]. apply vgood_sec; [by left|]. cbn [app]. apply vgood_read; [by apply priv_acc|]. apply vgood_write; [by apply priv_acc|]. apply priv_part; [done|]. apply good_ok. goodies.
  - destruct H as [Hm H]. apply apart_inside in H. apply vgood_sec; [done|]. apply vgood_read; [apply top_read; auto|]. apply vgood_concat, Forall_fmap, Forall_forall. intros [r cs] Hin. cbn [fst snd compose].
    apply (proj1 (Forall_forall _ _) IH) in Hin as IHe. apply (proj1 (Forall_forall _ _) H) in Hin. cbn [snd] in *.
    destruct (record_part v ((v, KRead) :: st) r (may_top _ _ _ Hm)) as [P1 P2]. apply vgood_app; [done|]. apply vgood_app; [|done].
    apply concat_calls. rewrite Forall_forall in *. intros c Hc. by apply IHe, Hin.
  - destruct H as (Hm & Hnf & Hss & H). apply apart_inside in H. apply vgood_sec; [done|]. cbn [on map app].
    assert (KWrite ∈ [KWrite]) as Hk by (by left).
    assert (use v = Mine t \/ use v = Shared) as Hu by (destruct Hm as [?|[?|[? _]]]; [by left|done|by right]).
    assert (forall x, (x = LVault \/ (exists r, x = LData r)) -> R ((v, KWrite) :: st) None v (AWrite x)) as Hw.
    { intros x Hx. apply top_acc; [done|]. unfold uperm. destruct Hu as [-> | ->]; [done|]. by destruct Hx as [->|[r ->]]. }
    apply vgood_read; [apply top_read; auto|]. apply vgood_write; [by apply Hw; left|].
    apply vgood_app; [|apply vgood_read; [apply top_acc; [done|]; unfold uperm; destruct Hu as [-> | ->]; [done|by left]|]].
    + apply vgood_concat, Forall_fmap, Forall_forall. intros [r cs] Hin. cbn [fst snd compose].
      apply (proj1 (Forall_forall _ _) IH) in Hin as IHe. apply (proj1 (Forall_forall _ _) H) in Hin. cbn [snd] in *.
      destruct (record_part v ((v, KWrite) :: st) r (may_top _ _ _ Hm)) as [P1 P2]. apply vgood_app; [done|]. apply vgood_app; [|apply vgood_app; [done|]].
      * apply concat_calls. rewrite Forall_forall in *. intros c Hc. by apply IHe, Hin.
      * apply vgood_write; [apply Hw; eauto|]. apply vgood_nil.
    + apply vgood_concat, Forall_fmap, Forall_forall. intros s Hs. cbn [compose on map].
      assert (use v = Shared -> in_set (ru v) t [KWrite] s) as Hi by (intros E; apply (in_met _ _ _ ss); [intros s'; by apply Hss|done|done]).
      apply vgood_read; [|apply vgood_write; [|apply vgood_nil]]; (apply top_acc; [done|]); unfold uperm; (destruct Hu as [Hu|Hu]; rewrite Hu; [done|by apply Hi]).
Qed.
End Race.

(** ** Programs *)
Lemma vprogram_ok vf acc cs : Forall (fun c => vgood vf acc [] (vskeleton c)) cs -> vok vf acc [] None (vprogram cs).
Proof.
  intros H. unfold vprogram. pose proof (concat_calls vf acc [] vskeleton cs H) as Hg. specialize (Hg []). rewrite app_nil_r in Hg. by apply Hg.
Qed.
