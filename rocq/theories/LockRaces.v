(** Which programs have a data race (C57): whatever races is in the table of RaceSpec.v. *)
From Verif Require Export RaceSpec.
From Verif Require Import MutexProofs MutexProofs2 MutexProofs3 LockProofs.
Open Scope nat_scope.

Definition under (g : prot) (st : list rkind) : Prop := (g = GWrite -> KWrite ∈ st) /\ (g = GRead -> st <> []).
Definition listed (cl : list capi) (st : list rkind) (x : loc) (w : bool) : Prop := exists c w' g, c ∈ cl /\ (x, w', g) ∈ uses c /\ (w = true -> w' = true) /\ under g st.
Definition perm2 (cl : list capi) : permission := fun st h a =>
  match a with
  | ARead LVault | ARead (LData _) => st <> []
  | AWrite LVault | AWrite (LData _) => KWrite ∈ st
  | ARead (LLife r) | AWrite (LLife r) => exists n, h = Some (r, n)
  | ARead x => listed cl st x false
  | AWrite x => listed cl st x true
  | _ => True
  end.
Lemma use_listed cl c st x w w' g : c ∈ cl -> (x, w', g) ∈ uses c -> (w = true -> w' = true) -> under g st -> listed cl st x w.
Proof. intros. exists c, w', g. done. Qed.
Lemma under_none st : under GNone st.
Proof. by split. Qed.
Lemma under_read st : st <> [] -> under GRead st.
Proof. intros. by split. Qed.
Lemma under_write st : KWrite ∈ st -> under GWrite st.
Proof. intros. by split. Qed.
Lemma in_fmap {A} (f : A -> used) (l : list A) x y : x ∈ l -> f x = y -> y ∈ f <$> l.
Proof. intros H <-. apply elem_of_list_fmap. by exists x. Qed.
Ltac inset := first [eassumption | match goal with H : ?x ∈ ?l, H' : ?y ∈ ?x.2 |- _ ∈ _ => exact (elem_concat snd l x y H H') end | match goal with H : ?x ∈ ?l, H' : ?y ∈ ?x |- _ ∈ _ => exact (elem_concat_id l x y H H') end].
Ltac memb := first [
  (apply elem_of_list_here) + (apply elem_of_list_further; memb) + (apply elem_of_app; ((left; memb) + (right; memb))) + (eapply in_fmap; [inset|reflexivity])].
Ltac und := first [apply under_none | apply under_read; discriminate | apply under_write; set_solver].
Ltac lst := match goal with H : ?c ∈ _ |- listed _ _ _ _ => eapply (use_listed _ c); [exact H|cbn [uses]; memb|first [discriminate|reflexivity|intros _; reflexivity]|und] end.
Ltac side2 := try exact I; cbn [perm2]; try (eexists; reflexivity); try (intros; discriminate); try (solve [set_solver]); try lst.
Ltac goodies2 :=
  repeat first
    [ progress cbn [skeleton touch_opt fst snd]
    | progress unfold get_is_valid, touch, touches, get_key_type_locks, set_record, ref_get, with_ref, read_data, write_data, set_clear, set_reset, erase_one, set_data_to_record, ref_set
    | apply good_nil | apply good_read; [side2|] | apply good_write; [side2|] | apply good_sec; [try discriminate; try reflexivity|]
    | eapply good_rsec; [cbn [inc]; try rewrite decide_True by reflexivity; reflexivity|] | apply good_app | apply good_concat; intros ? ? ].
Lemma skeleton_listed cl c : c ∈ cl -> good false (perm2 cl) [] None (skeleton c).
Proof.
  intros Hc. destruct c; opts; goodies2; try (apply good_fmap_read; intros r'; side2); try (apply good_fmap_write; intros r'; side2).
Qed.
Definition of_thread (cs : list (list capi)) (t : nat) : list capi := match cs !! t with Some cl => cl | None => [] end.
Lemma of_thread_calls cs t c : c ∈ of_thread cs t -> calls cs t c.
Proof. unfold of_thread. destruct (cs !! t) as [cl|] eqn:E; [by exists cl|]. intros H. by apply elem_of_nil in H. Qed.
Lemma programs_listed cs : CInv false (fun t => perm2 (of_thread cs t)) (c_init (program <$> cs)).
Proof.
  apply c_init_inv. intros t p Hp. rewrite list_lookup_fmap in Hp. apply fmap_Some in Hp as (cl & Hcl & ->). apply program_ok, Forall_forall. intros c Hc.
  apply skeleton_listed. unfold of_thread. by rewrite Hcl.
Qed.
Lemma race_racy cs s : CInv false (fun t => perm2 (of_thread cs t)) s -> race s -> racy cs.
Proof.
  intros HI (t & u & x & a & Hne & [Ht (rt & Et)] & [Hu (ru & Eu)] & Ha). pose proof HI as [HL _ HT _].
  pose proof (at_rest_inv _ _ Ht) as (th & p & Eth & _). pose proof (at_rest_inv _ _ Hu) as (uh & q & Euh & _).
  destruct (HT t th _ Eth Et) as (h & Hok & Hh & _). destruct (HT u uh _ Euh Eu) as (h2 & Hok2 & Hh2 & _).
  pose proof (excl _ t u th uh HL Ht Hu Hne Eth Euh) as X1. pose proof (excl _ u t uh th HL Hu Ht (not_eq_sym Hne) Euh Eth) as X2.
  cbn [ok] in Hok. destruct Hok as [Hw _].
  assert (perm2 (of_thread cs u) (t_stack uh) h2 a) as Hua by (destruct Ha as [-> | ->]; cbn [ok] in Hok2; apply Hok2).
  clear Hok2 Eu Et.
  assert (KWrite ∈ t_stack uh -> t_stack uh <> []) as F2 by (intros H E; rewrite E in H; by apply elem_of_nil in H).
  assert (KWrite ∈ t_stack th -> t_stack th <> []) as F3 by (intros H E; rewrite E in H; by apply elem_of_nil in H).
  assert (forall w, listed (of_thread cs t) (t_stack th) x true -> listed (of_thread cs u) (t_stack uh) x w -> racy cs) as Hgo.
  { intros w (c & w1 & g & Hc & Hx & Hw1 & [G1 G2]) (d & w2 & g' & Hd & Hx' & _ & [G1' G2']). exists t, u, c, d. split; [done|]. split; [by apply of_thread_calls|]. split; [by apply of_thread_calls|].
    exists x, w1, g, w2, g'. split; [done|]. split; [done|]. split; [left; by apply Hw1|]. intros [[-> Hg]|[-> Hg]].
    - specialize (X1 (G1 eq_refl)). destruct g'; [done|by apply (G2' eq_refl)|]. apply (F2 (G1' eq_refl)), X1.
    - specialize (X2 (G1' eq_refl)). destruct g; [done|by apply (G2 eq_refl)|]. apply (F3 (G1 eq_refl)), X2. }
  destruct x as [| | |r|r|s0|s0]; cbn [perm2] in Hw.
  1: exfalso; destruct Ha as [-> | ->]; cbn [perm2] in Hua; [apply Hua; by apply X1|]; apply (F2 Hua); by apply X1.
  1: destruct Ha as [-> | ->]; by eapply Hgo.
  1: destruct Ha as [-> | ->]; by eapply Hgo.
  1: exfalso; destruct Ha as [-> | ->]; cbn [perm2] in Hua; [apply Hua; by apply X1|]; apply (F2 Hua); by apply X1.
  2: destruct Ha as [-> | ->]; by eapply Hgo.
  2: destruct Ha as [-> | ->]; by eapply Hgo.
  exfalso. destruct Hw as [n ->]. assert (exists n, h2 = Some (r, n)) as [n2 ->] by (destruct Ha as [-> | ->]; exact Hua).
  pose proof (proj2 (Hh r (S n)) (ex_intro _ n (conj eq_refl eq_refl))) as G1. pose proof (proj2 (Hh2 r (S n2)) (ex_intro _ n2 (conj eq_refl eq_refl))) as G2. congruence.
Qed.
