(** Proofs about LockModel.v: a static discipline on programs, and what it gives in every interleaving. *)
From Verif Require Export LockSpec.
From Verif Require Import MutexProofs MutexProofs2 MutexProofs3.
Open Scope nat_scope.

(** The mutex a thread holds, if any, and how many times more than once. *)
(** ** The discipline: properly nested, the lock of the vault never inside the mutex of a record, one record at a time; [acc] says which accesses are fine. *)
Definition held := option (nat * nat).
Definition inc (h : held) (r : nat) : option held :=
  match h with None => Some (Some (r, 0)) | Some (r', n) => if decide (r' = r) then Some (Some (r, S n)) else None end.
Definition permission := list rkind -> held -> cact -> Prop.
Fixpoint ok (vf : bool) (acc : permission) (st : list rkind) (h : held) (l : list cact) : Prop :=
  match l with
  | [] => st = [] /\ h = None
  | ALock k :: l => (vf = true -> h = None) /\ ok vf acc (k :: st) h l
  | AUnlock :: l => (vf = true -> h = None) /\ match st with [] => False | _ :: st' => ok vf acc st' h l end
  | ARec r :: l => match inc h r with Some h' => ok vf acc st h' l | None => False end
  | ARecEnd r :: l => match h with Some (r', n) => r' = r /\ ok vf acc st (match n with 0 => None | S n => Some (r, n) end) l | None => False end
  | a :: l => acc st h a /\ ok vf acc st h l
  end.
Definition good (vf : bool) (acc : permission) (st : list rkind) (h : held) (l : list cact) : Prop := forall rest, ok vf acc st h rest -> ok vf acc st h (l ++ rest).

Section Good.
Context (vf : bool) (acc : permission).
Lemma good_nil st h : good vf acc st h [].
Proof. by intros rest H. Qed.
Lemma good_app st h l1 l2 : good vf acc st h l1 -> good vf acc st h l2 -> good vf acc st h (l1 ++ l2).
Proof. intros H1 H2 rest H. rewrite <- app_assoc. by apply H1, H2. Qed.
Lemma good_concat {A} st h (f : A -> list cact) xs : (forall x, x ∈ xs -> good vf acc st h (f x)) -> good vf acc st h (concat (f <$> xs)).
Proof.
  induction xs as [|x xs IH]; intros H; cbn; [apply good_nil|]. apply good_app; [apply H; left|]. apply IH. intros y Hy. apply H. by right.
Qed.
Lemma good_read st h x l : acc st h (ARead x) -> good vf acc st h l -> good vf acc st h (ARead x :: l).
Proof. intros H1 H2 rest H. cbn. split; [done|]. by apply H2. Qed.
Lemma good_write st h x l : acc st h (AWrite x) -> good vf acc st h l -> good vf acc st h (AWrite x :: l).
Proof. intros H1 H2 rest H. cbn. split; [done|]. by apply H2. Qed.
Lemma good_sec st h k body : (vf = true -> h = None) -> good vf acc (k :: st) h body -> good vf acc st h (sec k body).
Proof.
  intros Hv H rest Hr. unfold sec. cbn. split; [done|]. rewrite <- app_assoc. apply H. cbn. done.
Qed.
Lemma good_rsec st h h' r body : inc h r = Some h' -> good vf acc st h' body -> good vf acc st h (rsec r body).
Proof.
  intros Hi H rest Hr. unfold rsec. cbn. rewrite Hi. rewrite <- app_assoc. apply H. cbn. destruct h as [[r' n]|]; cbn in Hi.
  - destruct (decide (r' = r)) as [->|]; [|done]. injection Hi as <-. done.
  - injection Hi as <-. done.
Qed.
End Good.

(** ** The skeletons *)
Definition any : permission := fun _ _ _ => True.
Definition in_set (R : rules) (t : nat) (st : list rkind) (s : nat) : Prop :=
  if u_alone R s then u_owner R s = t else KWrite ∈ st \/ (u_owner R s = t /\ st <> []).
Definition perm (R : rules) (t : nat) : permission := fun st h a =>
  match a with
  | ARead LVault | ARead (LData _) => st <> []
  | AWrite LVault | AWrite (LData _) => KWrite ∈ st
  | ARead LSets | AWrite LSets => KWrite ∈ st \/ (u_requester R = t /\ st <> [])
  | ARead LErrors => u_files R = Some t
  | AWrite LErrors => KWrite ∈ st /\ (u_files R = None \/ u_files R = Some t)
  | ARead (LLife r) | AWrite (LLife r) => exists n, h = Some (r, n)
  | ARead (LSet s) | AWrite (LSet s) => in_set R t st s
  | ARead (LParent s) => u_owner R s = t \/ KWrite ∈ st
  | AWrite (LParent s) => u_owner R s = t /\ st <> []
  | _ => True
  end.

Lemma in_mine R t st s : u_owner R s = t -> st <> [] -> in_set R t st s.
Proof. intros H1 H2. unfold in_set. destruct (u_alone R s); [done|]. by right. Qed.
Lemma in_alone R t st s : u_owner R s = t -> u_alone R s = true -> in_set R t st s.
Proof. intros H1 H2. unfold in_set. by rewrite H2. Qed.
Lemma in_met R t st (l : list nat) s : (forall s, s ∈ l -> u_alone R s = true -> u_owner R s = t) -> s ∈ l -> KWrite ∈ st -> in_set R t st s.
Proof. intros H1 H2 H3. unfold in_set. destruct (u_alone R s) eqn:E; [by apply H1|]. by left. Qed.
Lemma elem_concat {A B} (f : A -> list B) (l : list A) x y : x ∈ l -> y ∈ f x -> y ∈ concat (f <$> l).
Proof. induction l as [|z l IH]; intros Hx Hy; [by apply elem_of_nil in Hx|]. cbn. apply elem_of_app. apply elem_of_cons in Hx as [->|Hx]; [by left|]. right. by apply IH. Qed.
Lemma elem_concat_id {A} (l : list (list A)) x y : x ∈ l -> y ∈ x -> y ∈ concat l.
Proof. intros H1 H2. rewrite <- (list_fmap_id l). by apply (elem_concat (fun x => x) l x). Qed.
Ltac metx := first [eassumption | match goal with H : ?x ∈ ?l |- ?x.1 ∈ fst <$> ?l => apply elem_of_list_fmap; by exists x end
  | match goal with H : ?x ∈ ?l, H' : ?y ∈ ?x.2 |- ?y ∈ _ => by apply (elem_concat snd l x y) end | match goal with H : ?x ∈ ?l, H' : ?y ∈ ?x |- ?y ∈ _ => by apply (elem_concat_id l x y) end].
Ltac side := try exact I; cbn [perm any]; try (eexists; reflexivity); try (intros; discriminate);
  try (solve [ set_solver | left; set_solver | right; split; [assumption|discriminate] | split; [assumption|discriminate] | left; assumption | split; [set_solver|assumption]
    | apply in_mine; [assumption|discriminate] | apply in_alone; assumption | eapply in_met; [eassumption|cbn [meets]; metx|set_solver] ]).
Ltac goodies :=
  repeat first
    [ progress cbn [skeleton touch_opt fst snd]
    | progress unfold get_is_valid, touch, touches, get_key_type_locks, set_record, ref_get, with_ref, read_data, write_data, set_clear, set_reset, erase_one, set_data_to_record, ref_set
    | apply good_nil | apply good_read; [side|] | apply good_write; [side|] | apply good_sec; [try discriminate; try reflexivity|]
    | eapply good_rsec; [cbn [inc]; try rewrite decide_True by reflexivity; reflexivity|] | apply good_app | apply good_concat; intros ? ? ].
Lemma good_fmap_read vf (acc : permission) st h (rs : list nat) : (forall r, acc st h (ARead (LData r))) -> good vf acc st h ((fun r => ARead (LData r)) <$> rs).
Proof. intros H. induction rs as [|r rs IH]; cbn; [apply good_nil|]. by apply good_read. Qed.
Lemma good_fmap_write vf (acc : permission) st h (rs : list nat) : (forall r, acc st h (AWrite (LData r))) -> good vf acc st h ((fun r => AWrite (LData r)) <$> rs).
Proof. intros H. induction rs as [|r rs IH]; cbn; [apply good_nil|]. by apply good_write. Qed.
Ltac opts := repeat match goal with x : option nat |- _ => destruct x end; repeat match goal with x : bool |- _ => destruct x end.
Lemma skeleton_any c : ~ dumps c -> good true any [] None (skeleton c).
Proof.
  intros H. destruct c; try (exfalso; by apply H); clear H; opts; goodies; try (apply good_fmap_read; by intros); try (apply good_fmap_write; by intros).
Qed.
Lemma skeleton_clean R t c : clean R t c -> good false (perm R t) [] None (skeleton c).
Proof.
  intros [HM H]. destruct c; try done; cbn [meets] in *; repeat match type of H with _ /\ _ => destruct H as [H ?] end; opts; goodies;
    try (apply good_fmap_read; intros r'; side); try (apply good_fmap_write; intros r'; side).
  - pose proof (proj1 (Forall_forall _ _) H0 _ H1) as Hx. cbn beta in Hx. split; [exact Hx|discriminate].
  - apply in_alone; tauto.
  - apply in_mine; [tauto|discriminate].
  - apply in_mine; [tauto|discriminate].
Qed.
Lemma good_ok vf acc l : good vf acc [] None l -> ok vf acc [] None l.
Proof. intros H. specialize (H []). rewrite app_nil_r in H. by apply H. Qed.
Lemma program_ok vf acc cs : Forall (fun c => good vf acc [] None (skeleton c)) cs -> ok vf acc [] None (program cs).
Proof. intros H. apply good_ok. unfold program. apply good_concat. by apply Forall_forall. Qed.

(** ** The machine *)
(** Thread [t] holds exactly [h]. *)
Definition holds (m : gmap nat (nat * nat)) (t : nat) (h : held) : Prop :=
  forall r n, m !! r = Some (t, n) <-> exists n', h = Some (r, n') /\ n = S n'.
Record CInv (vf : bool) (acc : nat -> permission) (s : cstate) : Prop := {
  ci_lock : RInv3 (c_lock s);
  ci_len : length (c_todo s) = length (s_threads (c_lock s));
  ci_thread : forall t th acts, s_threads (c_lock s) !! t = Some th -> c_todo s !! t = Some acts ->
    exists h, ok vf (acc t) (t_stack th) h acts /\ holds (c_recs s) t h /\ (vf = true -> h <> None -> at_rest (c_lock s) t = true);
  ci_owner : forall r v n, c_recs s !! r = Some (v, n) -> v < length (c_todo s);
}.
Lemma c_init_inv vf acc ps : (forall t p, ps !! t = Some p -> ok vf (acc t) [] None p) -> CInv vf acc (c_init ps).
Proof.
  intros H. split; cbn; [apply rs_init_inv|by rewrite replicate_length| |intros r v n E; by rewrite lookup_empty in E]. intros t th acts Ht Ha. apply lookup_replicate in Ht as [-> _]. cbn.
  exists None. split; [by apply H|]. split; [|done]. intros r n. rewrite lookup_empty. split; [done|]. intros (n' & ? & _). done.
Qed.

(** A step of one thread leaves the stacks of the others, and the others at rest, as they are. *)
Lemma go_other s u s' t p : go s u = Some s' -> t <> u -> m_pcs s !! t = Some p -> resting p = true -> m_pcs s' !! t = Some p.
Proof.
  intros E Hne Hp Hr. unfold go in E. destruct (m_pcs s !! u) as [q|] eqn:Hu; [|done]. cbn [mbind option_bind] in E.
  assert (forall x l, (<[u := x]> l : list pc) !! t = l !! t) as Hx by (intros; by apply list_lookup_insert_ne).
  destruct q; try done; try (destruct (m_wm s); [done|]); try (destruct (m_rm s); [done|]); injection E as <-;
    cbn [goto with_wm with_rm with_count with_flag notify m_pcs]; rewrite Hx; try done.
  rewrite list_lookup_fmap, Hp. by destruct p.
Qed.
Definition actor (a : ract) : nat := match a with RLock t _ | RUnlock t | RNext t | RGo t => t end.
Lemma rstep_other s a s' t : rstep s a = Some s' -> t <> actor a ->
  s_threads s' !! t = s_threads s !! t /\ (at_rest s t = true -> at_rest s' t = true).
Proof.
  intros E Hne. unfold at_rest. destruct a as [u k|u|u|u]; cbn [actor] in Hne; cbn [rstep] in E.
  - destruct (s_threads s !! u) as [th|]; [|done]. cbn [mbind option_bind] in E. destruct (m_pcs (s_base s) !! u) as [p|]; [|done]. cbn [mbind option_bind] in E.
    destruct (resting p && _); [|done]. destruct (rlock k (t_count th)). injection E as <-. cbn [s_threads s_base]. by rewrite list_lookup_insert_ne.
  - destruct (s_threads s !! u) as [th|]; [|done]. cbn [mbind option_bind] in E. destruct (m_pcs (s_base s) !! u) as [p|]; [|done]. cbn [mbind option_bind] in E.
    destruct (resting p && _); [|done]. destruct (t_stack th); [done|]. destruct (runlock r (t_count th)) as [[]|]; [|done]. cbn [mbind option_bind] in E. injection E as <-. cbn [s_threads s_base]. by rewrite list_lookup_insert_ne.
  - destruct (s_threads s !! u) as [th|]; [|done]. cbn [mbind option_bind] in E. destruct (t_todo th); [done|]. destruct (call (s_base s) u m) as [b|] eqn:Ec; [|done]. cbn [mbind option_bind] in E. injection E as <-. cbn [s_threads s_base].
    unfold call in Ec. destruct (m_pcs (s_base s) !! u) as [p|]; [|done]. cbn [mbind option_bind] in Ec. destruct (entry m p); [|done]. cbn [mbind option_bind] in Ec. injection Ec as <-. cbn [goto m_pcs]. by rewrite !list_lookup_insert_ne.
  - destruct (go (s_base s) u) as [b|] eqn:Eg; [|done]. cbn [mbind option_bind] in E. injection E as <-. cbn [s_threads s_base]. split; [done|].
    destruct (s_threads s !! t) as [th|]; [|done]. destruct (m_pcs (s_base s) !! t) as [p|] eqn:Hp; [|done]. intros H. pose proof (proj1 (andb_prop _ _ H)) as Hr.
    by rewrite (go_other _ _ _ _ _ Eg Hne Hp Hr).
Qed.
Lemma rstep_len s a s' : rstep s a = Some s' -> length (s_threads s') = length (s_threads s).
Proof.
  intros E. destruct a as [u k|u|u|u]; cbn [rstep] in E.
  - destruct (s_threads s !! u) as [th|]; [|done]. cbn [mbind option_bind] in E. destruct (m_pcs (s_base s) !! u) as [p|]; [|done]. cbn [mbind option_bind] in E.
    destruct (resting p && _); [|done]. destruct (rlock k (t_count th)). injection E as <-. cbn. by rewrite insert_length.
  - destruct (s_threads s !! u) as [th|]; [|done]. cbn [mbind option_bind] in E. destruct (m_pcs (s_base s) !! u) as [p|]; [|done]. cbn [mbind option_bind] in E.
    destruct (resting p && _); [|done]. destruct (t_stack th); [done|]. destruct (runlock r (t_count th)) as [[]|]; [|done]. cbn [mbind option_bind] in E. injection E as <-. cbn. by rewrite insert_length.
  - destruct (s_threads s !! u) as [th|]; [|done]. cbn [mbind option_bind] in E. destruct (t_todo th); [done|]. destruct (call (s_base s) u m) as [b|]; [|done]. cbn [mbind option_bind] in E. injection E as <-. cbn. by rewrite insert_length.
  - destruct (go (s_base s) u); [|done]. cbn [mbind option_bind] in E. by injection E as <-.
Qed.
(** What the step does to the stack of the thread that makes it. *)
Lemma rstep_own s a s' th : rstep s a = Some s' -> s_threads s !! actor a = Some th ->
  exists th', s_threads s' !! actor a = Some th' /\
    match a with
    | RLock _ k => t_stack th' = k :: t_stack th
    | RUnlock _ => exists k, t_stack th = k :: t_stack th'
    | RNext _ | RGo _ => t_stack th' = t_stack th
    end.
Proof.
  intros E Hth. pose proof (lookup_lt_Some _ _ _ Hth) as Hl. destruct a as [u k|u|u|u]; cbn [actor] in *; cbn [rstep] in E; try rewrite Hth in E; cbn [mbind option_bind] in E.
  - destruct (m_pcs (s_base s) !! u) as [p|]; [|done]. cbn [mbind option_bind] in E.
    destruct (resting p && _); [|done]. destruct (rlock k (t_count th)). injection E as <-. cbn [s_threads]. rewrite list_lookup_insert by done. eexists. split; [done|]. done.
  - destruct (m_pcs (s_base s) !! u) as [p|]; [|done]. cbn [mbind option_bind] in E.
    destruct (resting p && _); [|done]. destruct (t_stack th) as [|k st]; [done|]. destruct (runlock k (t_count th)) as [[]|]; [|done]. cbn [mbind option_bind] in E. injection E as <-. cbn [s_threads]. rewrite list_lookup_insert by done. eexists. split; [done|]. cbn. eauto.
  - destruct (t_todo th); [done|]. destruct (call (s_base s) u m) as [b|]; [|done]. cbn [mbind option_bind] in E. injection E as <-. cbn [s_threads]. rewrite list_lookup_insert by done. eexists. split; [done|]. done.
  - destruct (go (s_base s) u); [|done]. cbn [mbind option_bind] in E. injection E as <-. cbn [s_threads]. eauto.
Qed.
Lemma holds_other m m' t u h : holds m u h -> t <> u -> (forall r, m' !! r = m !! r \/ ((exists n, m' !! r = Some (t, n)) \/ m' !! r = None) /\ ((exists n, m !! r = Some (t, n)) \/ m !! r = None)) -> holds m' u h.
Proof.
  intros H Hne Hm r n. rewrite <- (H r n). destruct (Hm r) as [->|[H1 H2]]; [done|]. split; intros E.
  - destruct H1 as [[n' H1]|H1]; rewrite H1 in E; [injection E as Eq _; by destruct Hne|done].
  - destruct H2 as [[n' H2]|H2]; rewrite H2 in E; [injection E as Eq _; by destruct Hne|done].
Qed.

(** All threads keep the discipline after a step of thread [t] that leaves [t] with [h'] and [acts']. *)
Lemma step_inv vf acc s t l' m' acts' : CInv vf acc s -> t < length (c_todo s) -> RInv3 l' -> length (s_threads l') = length (s_threads (c_lock s)) ->
  (forall u, u <> t -> s_threads l' !! u = s_threads (c_lock s) !! u /\ (at_rest (c_lock s) u = true -> at_rest l' u = true)) ->
  (forall r, m' !! r = c_recs s !! r \/ ((exists n, m' !! r = Some (t, n)) \/ m' !! r = None) /\ ((exists n, c_recs s !! r = Some (t, n)) \/ c_recs s !! r = None)) ->
  (forall th, s_threads l' !! t = Some th -> exists h, ok vf (acc t) (t_stack th) h acts' /\ holds m' t h /\ (vf = true -> h <> None -> at_rest l' t = true)) ->
  CInv vf acc (CState l' m' (<[t := acts']> (c_todo s))).
Proof.
  intros [HL Hlen HT HO] Hl HR Hlen' Hoth Hm Hown. split; cbn; [done|by rewrite insert_length, Hlen, Hlen'| |].
  2:{ intros r v n E. rewrite insert_length. destruct (Hm r) as [E'|[[[n' E']|E'] _]]; rewrite E' in E; [by eapply HO|injection E as <- _; done|done]. }
  intros u th acts Hu Ha.
  destruct (decide (u = t)) as [->|Hne].
  - rewrite list_lookup_insert in Ha by done. injection Ha as <-. by apply Hown.
  - rewrite list_lookup_insert_ne in Ha by done. destruct (Hoth u Hne) as [E1 E2]. rewrite E1 in Hu. destruct (HT u th acts Hu Ha) as (h & H1 & H2 & H3).
    exists h. split; [done|]. split; [by eapply holds_other|]. intros Hv Hh. by apply E2, H3.
Qed.
Lemma cstep_inv vf acc s t s' : CInv vf acc s -> cstep s t = Some s' -> CInv vf acc s'.
Proof.
  intros HI E. pose proof HI as [HL Hlen HT HO]. unfold cstep in E. destruct (s_threads (c_lock s) !! t) as [th|] eqn:Hth; [|done]. cbn [mbind option_bind] in E.
  destruct (m_pcs (s_base (c_lock s)) !! t) as [p|] eqn:Hp; [|done]. cbn [mbind option_bind] in E. destruct (c_todo s !! t) as [acts|] eqn:Ha; [|done]. cbn [mbind option_bind] in E.
  pose proof (lookup_lt_Some _ _ _ Ha) as Hl. destruct (HT t th acts Hth Ha) as (h & Hok & Hh & Hrest).
  assert (at_rest (c_lock s) t = resting p && bool_decide (t_todo th = [])) as Har by (unfold at_rest; by rewrite Hth, Hp).
  assert (forall r, c_recs s !! r = c_recs s !! r \/ ((exists n, c_recs s !! r = Some (t, n)) \/ c_recs s !! r = None) /\ ((exists n, c_recs s !! r = Some (t, n)) \/ c_recs s !! r = None)) as Hsame by auto.
  destruct (resting p) eqn:Er; cbn [negb] in E.
  2:{ unfold lock_step in E. destruct (rstep (c_lock s) (RGo t)) as [l|] eqn:El; [|done]. cbn [mbind option_bind] in E. injection E as <-.
      rewrite <- (list_insert_id (c_todo s) t acts Ha). apply step_inv; [done|done|by eapply rstep_inv|by eapply rstep_len| |done|].
      - intros u Hne. by eapply rstep_other.
      - intros th' Hth'. destruct (rstep_own _ _ _ _ El Hth) as (th2 & E2 & Est). cbn [actor] in E2. assert (th2 = th') as -> by congruence.
        exists h. rewrite Est. split; [done|]. split; [done|]. intros Hv Hn. specialize (Hrest Hv Hn). by rewrite Har in Hrest. }
  destruct (t_todo th) as [|c todo] eqn:Etd.
  2:{ unfold lock_step in E. destruct (rstep (c_lock s) (RNext t)) as [l|] eqn:El; [|done]. cbn [mbind option_bind] in E. injection E as <-.
      rewrite <- (list_insert_id (c_todo s) t acts Ha). apply step_inv; [done|done|by eapply rstep_inv|by eapply rstep_len| |done|].
      - intros u Hne. by eapply rstep_other.
      - intros th' Hth'. destruct (rstep_own _ _ _ _ El Hth) as (th2 & E2 & Est). cbn [actor] in E2. assert (th2 = th') as -> by congruence.
        exists h. rewrite Est. split; [done|]. split; [done|]. intros Hv Hn. specialize (Hrest Hv Hn). by rewrite Har in Hrest. }
  cbn in Har. destruct acts as [|a rest]; [done|]. destruct a as [k| |r|r|x|x]; cbn [ok] in Hok.
  - destruct Hok as [Hv Hok]. unfold lock_step in E. destruct (rstep (c_lock s) (RLock t k)) as [l|] eqn:El; [|done]. cbn [mbind option_bind] in E. injection E as <-.
    apply step_inv; [done|done|by eapply rstep_inv|by eapply rstep_len| |done|].
    + intros u Hne. by eapply rstep_other.
    + intros th' Hth'. destruct (rstep_own _ _ _ _ El Hth) as (th2 & E2 & Est). cbn [actor] in E2. assert (th2 = th') as -> by congruence.
      exists h. rewrite Est. split; [done|]. split; [done|]. intros Hvf Hn. by destruct Hn, (Hv Hvf).
  - destruct Hok as [Hv Hok]. unfold lock_step in E. destruct (rstep (c_lock s) (RUnlock t)) as [l|] eqn:El; [|done]. cbn [mbind option_bind] in E. injection E as <-.
    apply step_inv; [done|done|by eapply rstep_inv|by eapply rstep_len| |done|].
    + intros u Hne. by eapply rstep_other.
    + intros th' Hth'. destruct (rstep_own _ _ _ _ El Hth) as (th2 & E2 & k & Est). cbn [actor] in E2. assert (th2 = th') as -> by congruence.
      rewrite Est in Hok. exists h. split; [done|]. split; [done|]. intros Hvf Hn. by destruct Hn, (Hv Hvf).
  - destruct (inc h r) as [h'|] eqn:Ei; [|done].
    assert (exists n, s' = CState (c_lock s) (<[r := (t, S n)]> (c_recs s)) (<[t := rest]> (c_todo s)) /\ h' = Some (r, n) /\
      ((exists n, c_recs s !! r = Some (t, n)) \/ c_recs s !! r = None) /\ (h = None \/ exists m, h = Some (r, m))) as (n & -> & -> & Hr & Hh2).
    { destruct (c_recs s !! r) as [[u n]|] eqn:Er'.
      - destruct (decide (u = t)) as [->|]; [|done]. injection E as <-. destruct (proj1 (Hh r n) Er') as (n' & -> & ->). cbn in Ei. rewrite decide_True in Ei by done. injection Ei as <-.
        exists (S n'). split; [done|]. split; [done|]. split; [eauto|]. right. eauto.
      - injection E as <-. destruct h as [[r' n]|]; cbn in Ei; [|injection Ei as <-; exists 0; auto].
        destruct (decide (r' = r)) as [->|]; [|done]. injection Ei as <-. pose proof (proj2 (Hh r (S n)) (ex_intro _ n (conj eq_refl eq_refl))). congruence. }
    apply step_inv; [done|done|done|done|auto| |].
    + intros r'. destruct (decide (r' = r)) as [->|Hn']; [|left; by rewrite lookup_insert_ne]. right. rewrite lookup_insert. split; [eauto|done].
    + intros th' Hth'. assert (th' = th) as -> by congruence. exists (Some (r, n)). split; [done|]. split; [|by rewrite Har].
      intros r' m. destruct (decide (r' = r)) as [->|Hn'].
      * rewrite lookup_insert. split; [intros [= <-]; eauto|]. intros (n' & [= <-] & ->). done.
      * rewrite lookup_insert_ne by done. rewrite (Hh r' m). destruct Hh2 as [->|[m' ->]]; split; intros (n' & E1 & _); congruence.
  - destruct h as [[r' n]|]; [|done]. destruct Hok as [-> Hok].
    pose proof (proj2 (Hh r (S n)) (ex_intro _ n (conj eq_refl eq_refl))) as Er'. rewrite Er' in E. rewrite decide_True in E by done. injection E as <-.
    apply step_inv; [done|done|done|done|auto| |].
    + intros r'. destruct (decide (r' = r)) as [->|Hn'].
      * right. split; [|eauto]. destruct (decide (n = 0)); [right; by rewrite lookup_delete|left; rewrite lookup_insert; eauto].
      * left. destruct (decide (n = 0)); [by rewrite lookup_delete_ne|by rewrite lookup_insert_ne].
    + intros th' Hth'. assert (th' = th) as -> by congruence. eexists. split; [exact Hok|]. split; [|by rewrite Har].
      intros r' m. destruct n as [|n].
      * rewrite decide_True by done. destruct (decide (r' = r)) as [->|Hn']; [rewrite lookup_delete; split; [done|]; by intros (? & ? & _)|].
        rewrite lookup_delete_ne by done. rewrite (Hh r' m). split; intros (n' & E1 & _); congruence.
      * rewrite decide_False by done. destruct (decide (r' = r)) as [->|Hn'].
        -- rewrite lookup_insert. split; [intros [= <-]; eauto|]. intros (n' & [= <-] & ->). done.
        -- rewrite lookup_insert_ne by done. rewrite (Hh r' m). split; intros (n' & E1 & _); congruence.
  - injection E as <-. apply step_inv; [done|done|done|done|auto|auto|]. intros th' Hth'. assert (th' = th) as -> by congruence. exists h. destruct Hok. done.
  - injection E as <-. apply step_inv; [done|done|done|done|auto|auto|]. intros th' Hth'. assert (th' = th) as -> by congruence. exists h. destruct Hok. done.
Qed.
Lemma crun_inv vf acc l : forall s s', CInv vf acc s -> crun s l = Some s' -> CInv vf acc s'.
Proof.
  induction l as [|t l IH]; intros s s' HI; cbn; [by intros [= <-]|]. destruct (cstep s t) as [s1|] eqn:E; [|done]. cbn. apply IH. by eapply cstep_inv.
Qed.

(** ** No data races *)
Lemma at_rest_inv l t : at_rest l t = true -> exists th p, s_threads l !! t = Some th /\ m_pcs (s_base l) !! t = Some p /\ resting p = true /\ t_todo th = [].
Proof.
  unfold at_rest. destruct (s_threads l !! t) as [th|]; [|done]. destruct (m_pcs (s_base l) !! t) as [p|]; [|done]. intros H.
  apply andb_prop in H as [H1 H2]. apply bool_decide_eq_true in H2. eauto 10.
Qed.
Lemma excl l t u th uh : RInv3 l -> at_rest l t = true -> at_rest l u = true -> t <> u -> s_threads l !! t = Some th -> s_threads l !! u = Some uh ->
  KWrite ∈ t_stack th -> t_stack uh = [].
Proof.
  intros HI Ht Hu Hne Eth Euh Hk. apply at_rest_inv in Ht as (th' & p & E1 & Hp & Hr & Htd). apply at_rest_inv in Hu as (uh' & q & E2 & Hq & Hur & Hutd).
  assert (th' = th) as -> by congruence. assert (uh' = uh) as -> by congruence.
  pose proof (quiet_target l t th p HI Eth Hp Htd Hr) as Hpt. pose proof (proj2 (target_write (t_stack th)) Hk) as Hw. rewrite <- Hpt in Hw. rewrite Hw in Hp.
  pose proof (quiet_target l u uh q HI Euh Hq Hutd Hur) as Hqt. apply count_zero. rewrite <- Hqt.
  pose proof (m2_inv _ _ (r3_base l HI)) as HM. destruct q; try done.
  - pose proof (mi_none _ _ HM t _ Hp eq_refl) as H0. pose proof (readers_pos _ u _ Hq eq_refl). rewrite (mi_count _ _ HM) in H0. lia.
  - pose proof (proj1 (mi_wm _ _ HM t _ Hp) eq_refl). pose proof (proj1 (mi_wm _ _ HM u _ Hq) eq_refl). congruence.
Qed.
Lemma no_race R s : CInv false (perm R) s -> ~ race s.
Proof.
  intros HI (t & u & x & a & Hne & [Ht (rt & Et)] & [Hu (ru & Eu)] & Ha). pose proof HI as [HL _ HT _].
  pose proof (at_rest_inv _ _ Ht) as (th & p & Eth & _). pose proof (at_rest_inv _ _ Hu) as (uh & q & Euh & _).
  destruct (HT t th _ Eth Et) as (h & Hok & Hh & _). destruct (HT u uh _ Euh Eu) as (h2 & Hok2 & Hh2 & _).
  pose proof (excl _ t u th uh HL Ht Hu Hne Eth Euh) as X1. pose proof (excl _ u t uh th HL Hu Ht (not_eq_sym Hne) Euh Eth) as X2.
  cbn [ok] in Hok. destruct Hok as [Hw _].
  assert (perm R u (t_stack uh) h2 a) as Hua by (destruct Ha as [-> | ->]; cbn [ok] in Hok2; apply Hok2).
  clear Hok2 Eu Et.
  assert (forall P : Prop, t_stack uh = [] -> t_stack uh <> [] -> P) as F1 by (intros; done).
  assert (KWrite ∈ t_stack uh -> t_stack uh <> []) as F2 by (intros H E; rewrite E in H; by apply elem_of_nil in H).
  assert (KWrite ∈ t_stack th -> t_stack th <> []) as F3 by (intros H E; rewrite E in H; by apply elem_of_nil in H).
  destruct x as [| | |r|r|s0|s0]; cbn [perm] in Hw.
  (* LVault *)
  1: destruct Ha as [-> | ->]; cbn [perm] in Hua; [apply Hua; by apply X1|]; apply (F2 Hua); by apply X1.
  (* LSets *)
  1: { assert (KWrite ∈ t_stack uh \/ (u_requester R = u /\ t_stack uh <> [])) as Hua' by (destruct Ha as [-> | ->]; exact Hua).
       destruct Hw as [Hw|[Ho Hw]], Hua' as [Hx|[Ho' Hx]]; [apply (F2 Hx); by apply X1|apply Hx; by apply X1|apply Hw; by apply X2|congruence]. }
  (* LErrors *)
  1: { destruct Hw as [Hw Hf]. destruct Ha as [-> | ->]; cbn [perm] in Hua; [destruct Hf; congruence|]. destruct Hua as [Hua _]. apply (F2 Hua); by apply X1. }
  (* LData *)
  1: destruct Ha as [-> | ->]; cbn [perm] in Hua; [apply Hua; by apply X1|]; apply (F2 Hua); by apply X1.
  - destruct Hw as [n ->]. assert (exists n, h2 = Some (r, n)) as [n2 ->] by (destruct Ha as [-> | ->]; exact Hua).
    pose proof (proj2 (Hh r (S n)) (ex_intro _ n (conj eq_refl eq_refl))) as G1. pose proof (proj2 (Hh2 r (S n2)) (ex_intro _ n2 (conj eq_refl eq_refl))) as G2. congruence.
  - assert (in_set R u (t_stack uh) s0) as Hua' by (destruct Ha as [-> | ->]; exact Hua). unfold in_set in Hw, Hua'. destruct (u_alone R s0); [congruence|].
    destruct Hw as [Hw|[Ho Hw]], Hua' as [Hx|[Ho' Hx]].
    + apply (F2 Hx). by apply X1.
    + apply Hx. by apply X1.
    + apply Hw. by apply X2.
    + congruence.
  - destruct Hw as [Ho Hw]. destruct Ha as [-> | ->]; cbn [perm] in Hua.
    + destruct Hua as [Hua|Hua]; [congruence|]. apply Hw. by apply X2.
    + destruct Hua as [Hua _]. congruence.
Qed.

(** ** Progress *)
Definition cwork (s : cstate) : nat := rwork (c_lock s) + 120 * sum_list_with length (c_todo s).
Lemma crun_app l1 l2 s : crun s (l1 ++ l2) = (s' ← crun s l1; crun s' l2).
Proof. revert s. induction l1 as [|a l1 IH]; intros s; cbn; [done|]. destruct (cstep s a); cbn; [apply IH|done]. Qed.
(** A step that is not inside a call on the underlying mutex brings the end nearer. *)
Lemma rest_step_down s t p s' : RInv3 (c_lock s) -> m_pcs (s_base (c_lock s)) !! t = Some p -> resting p = true -> cstep s t = Some s' -> cwork s' < cwork s.
Proof.
  intros HL Ep Hr E. unfold cstep in E. destruct (s_threads (c_lock s) !! t) as [th|] eqn:Eth; [|done]. cbn [mbind option_bind] in E. rewrite Ep in E. cbn [mbind option_bind] in E.
  destruct (c_todo s !! t) as [acts|] eqn:Ea; [|done]. cbn [mbind option_bind] in E. rewrite Hr in E. cbn [negb] in E.
  destruct (r3_thread _ HL t th p Eth Ep) as [Hc Hpl].
  destruct (t_todo th) as [|c todo] eqn:Etd.
  2:{ unfold lock_step in E. cbn [rstep] in E. rewrite Eth in E. cbn [mbind option_bind] in E. rewrite Etd in E. unfold call in E. rewrite Ep in E. cbn [mbind option_bind] in E.
      destruct (entry c p) as [q|] eqn:Eq; [|done]. cbn [mbind option_bind] in E. injection E as <-. unfold cwork. cbn [c_lock c_todo].
      unfold rwork. cbn [s_base s_threads]. unfold work. cbn [goto m_pcs].
      pose proof (sum_insert thread_cost (s_threads (c_lock s)) t th (RThread (t_stack th) (t_count th) todo) Eth) as Hs.
      unfold thread_cost in Hs at 2 4. cbn [t_stack t_todo] in Hs. rewrite Etd in Hs. cbn [length] in Hs.
      pose proof (sum_insert cost (m_pcs (s_base (c_lock s))) t p q Ep) as Hs2. pose proof (entry_cost _ _ _ Eq). lia. }
  destruct acts as [|a rest]; [done|]. pose proof (sum_insert length (c_todo s) t (a :: rest) rest Ea) as Hl. cbn [length] in Hl.
  destruct a as [k| |r|r|x|x].
  - unfold lock_step in E. cbn [rstep] in E. rewrite Eth in E. cbn [mbind option_bind] in E. rewrite Ep in E. cbn [mbind option_bind] in E. rewrite Hr, Etd in E. cbn [andb] in E.
    rewrite bool_decide_true in E by done. assert (length (rlock k (t_count th)).1 <= 2) as Hle by (destruct k, (t_count th) as [[] []]; cbn; lia). destruct (rlock k (t_count th)) as [todo c] eqn:El. cbn [mbind option_bind] in E. injection E as <-.
    unfold cwork. cbn [c_lock c_todo]. unfold rwork. cbn [s_base s_threads].
    pose proof (sum_insert thread_cost (s_threads (c_lock s)) t th (RThread (k :: t_stack th) c todo) Eth) as Hs.
    unfold thread_cost in Hs at 2 4. cbn [t_stack t_todo] in Hs. rewrite Etd in Hs. cbn [length fst] in Hs, Hle. lia.
  - unfold lock_step in E. cbn [rstep] in E. rewrite Eth in E. cbn [mbind option_bind] in E. rewrite Ep in E. cbn [mbind option_bind] in E. rewrite Hr, Etd in E. cbn [andb] in E.
    rewrite bool_decide_true in E by done. destruct (t_stack th) as [|k st] eqn:Est; [done|]. destruct (runlock_spec k st) as (todo & E1 & _ & Hle). rewrite Hc, E1 in E. cbn [mbind option_bind] in E. injection E as <-.
    unfold cwork. cbn [c_lock c_todo]. unfold rwork. cbn [s_base s_threads].
    pose proof (sum_insert thread_cost (s_threads (c_lock s)) t th (RThread st (count_of st) todo) Eth) as Hs.
    unfold thread_cost in Hs at 2 4. cbn [t_stack t_todo] in Hs. rewrite Etd, Est in Hs. cbn [length] in Hs. lia.
  - destruct (c_recs s !! r) as [[u n]|]; [destruct (decide (u = t)); [|done]|]; injection E as <-; unfold cwork; cbn [c_lock c_todo]; lia.
  - destruct (c_recs s !! r) as [[u [|n]]|]; [done| |done]. destruct (decide (u = t)); [|done]. injection E as <-; unfold cwork; cbn [c_lock c_todo]; lia.
  - injection E as <-; unfold cwork; cbn [c_lock c_todo]; lia.
  - injection E as <-; unfold cwork; cbn [c_lock c_todo]; lia.
Qed.
Lemma inside_crun l : forall s b', length (c_todo s) = length (s_threads (c_lock s)) -> length (s_threads (c_lock s)) = length (m_pcs (s_base (c_lock s))) ->
  Forall inside l -> mrun false (s_base (c_lock s)) l = Some b' ->
  exists l', crun s l' = Some (CState (RState (s_threads (c_lock s)) b') (c_recs s) (c_todo s)).
Proof.
  induction l as [|a l IH]; intros s b' H1 H2 Hl; cbn.
  - intros [= <-]. exists []. cbn. by destruct s as [[] ? ?].
  - inversion Hl as [|? ? Ha Hl']; subst. destruct a as [t| |]; try done. cbn [mstep]. destruct (go (s_base (c_lock s)) t) as [b1|] eqn:E; [|done]. cbn [mbind option_bind].
    intros Hr. destruct (go_rest _ _ _ E) as [Hlen _].
    destruct (IH (CState (RState (s_threads (c_lock s)) b1) (c_recs s) (c_todo s)) b') as (l' & E'); cbn [c_lock c_todo s_base s_threads]; [done|by rewrite H2, Hlen|done|done|].
    exists (t :: l'). cbn [crun]. unfold cstep.
    assert (exists q, m_pcs (s_base (c_lock s)) !! t = Some q) as [q Eq] by (unfold go in E; destruct (m_pcs (s_base (c_lock s)) !! t); [eauto|done]).
    pose proof (lookup_lt_Some _ _ _ Eq) as Hlt. assert (is_Some (s_threads (c_lock s) !! t)) as [th Eth] by (apply lookup_lt_is_Some; lia). assert (is_Some (c_todo s !! t)) as [ac Ea] by (apply lookup_lt_is_Some; lia).
    rewrite Eth. cbn [mbind option_bind]. rewrite Eq. cbn [mbind option_bind]. rewrite Ea. cbn [mbind option_bind].
    assert (resting q = false) as -> by (unfold go in E; rewrite Eq in E; by destruct q). cbn [negb]. unfold lock_step. cbn [rstep]. rewrite E. cbn [mbind option_bind]. exact E'.
Qed.
Lemma descend acc s : CInv true acc s -> (exists l s', crun s l = Some s' /\ cwork s' < cwork s) \/ finished s.
Proof.
  intros HI. pose proof HI as [HL Hlen HT HO]. pose proof (r3_len _ HL) as Hlp.
  set (moves := fun u => match m_pcs (s_base (c_lock s)) !! u with Some p => resting p = true /\ is_Some (cstep s u) | None => False end).
  assert (forall u, Decision (moves u)) as Hdec.
  { intros u. unfold moves. destruct (m_pcs (s_base (c_lock s)) !! u) as [p|]; [|right; tauto].
    destruct (resting p); [|right; by intros [? _]]. destruct (cstep s u); [left; eauto|right; intros [_ [? ?]]; done]. }
  destruct (decide (Exists moves (seq 0 (length (m_pcs (s_base (c_lock s))))))) as [Hy|Hy].
  { left. apply Exists_exists in Hy as (u & _ & Hu). unfold moves in Hu. destruct (m_pcs (s_base (c_lock s)) !! u) as [p|] eqn:Ep; [|done]. destruct Hu as [Hr [s' E]].
    exists [u], s'. cbn. rewrite E. split; [done|]. by eapply rest_step_down. }
  assert (forall u p, m_pcs (s_base (c_lock s)) !! u = Some p -> resting p = true -> cstep s u = None) as Hstuck.
  { intros u p Ep Hr. destruct (cstep s u) as [s'|] eqn:E; [|done]. exfalso. apply Hy, Exists_exists. exists u. split; [apply elem_of_seq; pose proof (lookup_lt_Some _ _ _ Ep); lia|].
    unfold moves. rewrite Ep. eauto. }
  clear Hy Hdec moves.
  assert (forall u acts, c_todo s !! u = Some acts -> exists th p, s_threads (c_lock s) !! u = Some th /\ m_pcs (s_base (c_lock s)) !! u = Some p) as Hex.
  { intros u ac H. apply lookup_lt_Some in H. rewrite Hlen in H. pose proof H as H'. rewrite Hlp in H'. apply lookup_lt_is_Some in H as [th ?], H' as [p ?]. eauto. }
  (* a thread at rest that has calls left and is not blocked at a record can move *)
  assert (forall u, at_rest (c_lock s) u = true -> forall r rest, c_todo s !! u = Some (r :: rest) -> exists r', r = ARec r' /\ exists v n, v <> u /\ c_recs s !! r' = Some (v, n)) as Hblk.
  { intros u Hr a rest Eu. destruct (at_rest_inv _ _ Hr) as (th & p & Eth & Ep & Hrp & Etd). destruct (HT u th _ Eth Eu) as (h & Hok & Hh & _).
    specialize (Hstuck u p Ep Hrp). unfold cstep in Hstuck. rewrite Eth in Hstuck. cbn [mbind option_bind] in Hstuck. rewrite Ep in Hstuck. cbn [mbind option_bind] in Hstuck. rewrite Eu in Hstuck. cbn [mbind option_bind] in Hstuck.
    rewrite Hrp, Etd in Hstuck. cbn [negb] in Hstuck. destruct a as [k| |r|r|x|x]; try done.
    - exfalso. unfold lock_step in Hstuck. cbn [rstep] in Hstuck. rewrite Eth in Hstuck. cbn [mbind option_bind] in Hstuck. rewrite Ep in Hstuck. cbn [mbind option_bind] in Hstuck.
      rewrite Hrp, Etd in Hstuck. cbn in Hstuck. by destruct (rlock k (t_count th)).
    - exfalso. cbn [ok] in Hok. destruct Hok as [_ Hok]. destruct (t_stack th) as [|k st] eqn:Est; [done|].
      unfold lock_step in Hstuck. cbn [rstep] in Hstuck. rewrite Eth in Hstuck. cbn [mbind option_bind] in Hstuck. rewrite Ep in Hstuck. cbn [mbind option_bind] in Hstuck.
      rewrite Hrp, Etd in Hstuck. cbn in Hstuck. rewrite Est in Hstuck. destruct (r3_thread _ HL u th p Eth Ep) as [Hc _]. rewrite Est in Hc.
      destruct (runlock_spec k st) as (todo & E1 & _). rewrite Hc, E1 in Hstuck. done.
    - exists r. split; [done|]. destruct (c_recs s !! r) as [[v n]|] eqn:Er; [|done]. destruct (decide (v = u)) as [->|Hn]; [done|]. eauto.
    - exfalso. cbn [ok] in Hok. destruct h as [[r' n]|]; [|done]. destruct Hok as [-> _].
      pose proof (proj2 (Hh r (S n)) (ex_intro _ n (conj eq_refl eq_refl))) as Er. rewrite Er in Hstuck. by rewrite decide_True in Hstuck. }
  (* nobody holds the mutex of a record *)
  assert (forall r v n, c_recs s !! r = Some (v, n) -> v < length (c_todo s) -> False) as Hnone.
  { intros r v n Er Hv. apply lookup_lt_is_Some in Hv as [va Ev]. destruct (Hex v va Ev) as (th & p & Eth & Ep). destruct (HT v th va Eth Ev) as (h & Hok & Hh & Hr).
    destruct (proj1 (Hh r n) Er) as (n' & -> & ->). specialize (Hr eq_refl ltac:(done)). destruct va as [|a rest]; [by destruct Hok|].
    destruct (Hblk v Hr a rest Ev) as (r' & -> & w & m & Hw & Er'). cbn [ok inc] in Hok. destruct (decide (r = r')) as [->|]; [|done]. congruence. }
  assert (forall u a rest, at_rest (c_lock s) u = true -> c_todo s !! u = Some (a :: rest) -> False) as Hidle.
  { intros u a rest Hr Eu. destruct (Hblk u Hr a rest Eu) as (r & -> & v & n & _ & Er). eapply Hnone; [exact Er|]. by eapply HO. }
  (* no thread is between two calls on the underlying mutex *)
  assert (forall u th p, s_threads (c_lock s) !! u = Some th -> m_pcs (s_base (c_lock s)) !! u = Some p -> resting p = true -> t_todo th = [] /\ p = Out) as Hout.
  { intros u th p Eth Ep Hr. assert (is_Some (c_todo s !! u)) as [ua Eu] by (apply lookup_lt_is_Some; rewrite Hlen; by eapply lookup_lt_Some).
    destruct (r3_thread _ HL u th p Eth Ep) as [Hc Hpl]. destruct (t_todo th) as [|c todo] eqn:Etd.
    - split; [done|]. assert (at_rest (c_lock s) u = true) as Har by (unfold at_rest; rewrite Eth, Ep, Hr, Etd; done).
      destruct ua as [|a rest]; [|by destruct (Hidle u a rest Har Eu)]. destruct (HT u th [] Eth Eu) as (h & [Hst _] & _).
      rewrite (quiet_target _ u th p HL Eth Ep Etd Hr), Hst. done.
    - exfalso. specialize (Hstuck u p Ep Hr). unfold cstep in Hstuck. rewrite Eth in Hstuck. cbn [mbind option_bind] in Hstuck. rewrite Ep in Hstuck. cbn [mbind option_bind] in Hstuck. rewrite Eu in Hstuck. cbn [mbind option_bind] in Hstuck.
      rewrite Hr, Etd in Hstuck. cbn [negb] in Hstuck. unfold lock_step in Hstuck. cbn [rstep] in Hstuck. rewrite Eth in Hstuck. cbn [mbind option_bind] in Hstuck. rewrite Etd in Hstuck.
      destruct (plan_entry p c todo _ Hpl Hr) as [q Eq]. unfold call in Hstuck. rewrite Ep in Hstuck. cbn [mbind option_bind] in Hstuck. rewrite Eq in Hstuck. done. }
  destruct (decide (Exists (fun p => p <> Out) (m_pcs (s_base (c_lock s))))) as [Hy|Hy].
  - left. apply Exists_exists in Hy as (p & Hp & Hpp). apply elem_of_list_lookup_1 in Hp as [t Ht].
    destruct (progress false (s_base (c_lock s)) (r3_base _ HL)) as (l & b' & Hl & E & Hw).
    + intros u. assert (forall q, m_pcs (s_base (c_lock s)) !! u = Some q -> resting q = true -> q = Out) as Hq.
      { intros q Hq Hr. assert (is_Some (s_threads (c_lock s) !! u)) as [uh Euh] by (apply lookup_lt_is_Some; rewrite Hlp; by eapply lookup_lt_Some). by destruct (Hout u uh q Euh Hq Hr). }
      split; intros Hu; by specialize (Hq _ Hu eq_refl).
    + eauto.
    + destruct (inside_crun l s b' Hlen Hlp Hl E) as (l' & E'). eexists l', _. split; [exact E'|]. unfold cwork, rwork. cbn [c_lock c_todo s_base s_threads]. lia.
  - right. intros t (acts & Ea & Hb). destruct (Hex t acts Ea) as (th & p & Eth & Ep).
    assert (p = Out) as -> by (destruct (decide (p = Out)); [done|]; exfalso; apply Hy, Exists_exists; exists p; split; [by eapply elem_of_list_lookup_2|done]).
    destruct (Hout t th Out Eth Ep eq_refl) as [Htd _]. assert (at_rest (c_lock s) t = true) as Har by (unfold at_rest; rewrite Eth, Ep, Htd; done).
    destruct Hb as [Hb|Hb]; [|congruence]. destruct acts as [|a rest]; [done|]. by destruct (Hidle t a rest Har Ea).
Qed.
Lemma can_finish acc s : CInv true acc s -> exists l s', crun s l = Some s' /\ finished s'.
Proof.
  remember (cwork s) as n eqn:En. revert s En. induction n as [n IH] using lt_wf_ind. intros s -> HI.
  destruct (descend acc s HI) as [(l & s1 & E & Hw)|Hf]; [|by exists [], s].
  destruct (IH (cwork s1) Hw s1 eq_refl) as (l2 & s2 & E2 & H2); [by eapply crun_inv|]. exists (l ++ l2), s2. split; [|done]. rewrite crun_app, E. done.
Qed.
Lemma no_deadlock acc s : CInv true acc s -> ~ deadlock s.
Proof.
  intros HI [[t Hb] Hstuck]. destruct (can_finish acc s HI) as (l & s' & E & Hf). destruct l as [|u l]; cbn in E; [|by rewrite Hstuck in E].
  injection E as <-. by apply (Hf t).
Qed.
