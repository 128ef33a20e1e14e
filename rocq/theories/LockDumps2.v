(** The calls keep to the discipline of LockDumps.v. *)
From Verif Require Export LockDumps.
From Verif Require Import LockProofs.
Open Scope nat_scope.

Section Skel.
Context (L : nat -> nat -> Prop) (I : nat -> bool -> nat -> Prop) (W : nat -> Prop) (t : nat).
Definition dgood (st : list rkind) (h : held) (l : list cact) : Prop := forall rest, dok L I W t st h rest -> dok L I W t st h (l ++ rest).
Lemma dgood_nil st h : dgood st h [].
Proof. by intros rest H. Qed.
Lemma dgood_app st h l1 l2 : dgood st h l1 -> dgood st h l2 -> dgood st h (l1 ++ l2).
Proof. intros H1 H2 rest H. rewrite <- app_assoc. by apply H1, H2. Qed.
Lemma dgood_concat {A} st h (f : A -> list cact) xs : (forall x, x ∈ xs -> dgood st h (f x)) -> dgood st h (concat (f <$> xs)).
Proof.
  induction xs as [|x xs IH]; intros H; cbn; [apply dgood_nil|]. apply dgood_app; [apply H; left|]. apply IH. intros y Hy. apply H. by right.
Qed.
Lemma dgood_read st h x l : dgood st h l -> dgood st h (ARead x :: l).
Proof. intros H rest Hr. cbn. by apply H. Qed.
Lemma dgood_write st h x l : dgood st h l -> dgood st h (AWrite x :: l).
Proof. intros H rest Hr. cbn. by apply H. Qed.
Lemma dgood_fmap_read st h (rs : list nat) : dgood st h ((fun r => ARead (LData r)) <$> rs).
Proof. induction rs as [|r rs IH]; cbn; [apply dgood_nil|]. by apply dgood_read. Qed.
Lemma dgood_fmap_write st h (rs : list nat) : dgood st h ((fun r => AWrite (LData r)) <$> rs).
Proof. induction rs as [|r rs IH]; cbn; [apply dgood_nil|]. by apply dgood_write. Qed.
Lemma dgood_sec st k body : (k = KWrite -> W t) -> dgood (k :: st) None body -> dgood st None (sec k body).
Proof. intros Hk H rest Hr. unfold sec. cbn. split; [done|]. split; [done|]. rewrite <- app_assoc. apply H. cbn. done. Qed.
Lemma dgood_sec_in r n body : L t r -> dgood [KRead] (Some (r, n)) body -> dgood [] (Some (r, n)) (sec KRead body).
Proof.
  intros Hk H rest Hr. unfold sec. cbn. split; [done|]. split; [by intros r' n' [= <- <-]|]. rewrite <- app_assoc. apply H. cbn. split; [by intros r' n' [= <- <-]|done].
Qed.
Lemma dgood_rsec st h h' r body : (st <> [] -> I t (bool_decide (KWrite ∈ st)) r) -> inc h r = Some h' -> dgood st h' body -> dgood st h (rsec r body).
Proof.
  intros HI Hi H rest Hr. unfold rsec. cbn. split; [done|]. rewrite Hi. rewrite <- app_assoc. apply H. cbn. destruct h as [[r' n]|]; cbn in Hi.
  - destruct (decide (r' = r)) as [->|]; [|done]. injection Hi as <-. done.
  - injection Hi as <-. done.
Qed.
End Skel.
Lemma dgood_ok L I W t l : dgood L I W t [] None l -> dok L I W t [] None l.
Proof. intros H. specialize (H []). rewrite app_nil_r in H. by apply H. Qed.

Ltac inn := first [eassumption | match goal with H : ?x ∈ ?l |- ?x.1 ∈ fst <$> ?l => apply elem_of_list_fmap; by exists x end
  | match goal with H : ?x ∈ ?l, H' : ?y ∈ ?x.2 |- ?y ∈ concat (snd <$> _) => by apply (elem_concat snd l x y) end
  | apply elem_of_app; left; inn | apply elem_of_app; right; inn | left | apply elem_of_list_here | apply elem_of_list_further; inn].
Ltac dgo :=
  repeat first
    [ progress cbn [skeleton touch_opt fst snd]
    | progress unfold get_is_valid, touch, touches, get_key_type_locks, set_record, ref_get, with_ref, read_data, write_data, set_clear, set_reset, erase_one, set_data_to_record, ref_set
    | apply dgood_nil | apply dgood_fmap_read | apply dgood_fmap_write | apply dgood_read | apply dgood_write | apply dgood_sec; [first [discriminate | by intros _]|]
    | eapply dgood_rsec; [|cbn [inc]; try rewrite decide_True by reflexivity; reflexivity|] | apply dgood_app | apply dgood_concat; intros ? ? ].
Lemma skeleton_dgood (L : nat -> nat -> Prop) (I : nat -> bool -> nat -> Prop) (W : nat -> Prop) t c :
  (forall r, c = KRefDump r -> L t r) -> (forall b r, r ∈ takes c -> (b = true -> writes c) -> I t b r) -> (writes c -> W t) ->
  dgood L I W t [] None (skeleton c).
Proof.
  intros HL HI HW.
  assert (forall st r, r ∈ takes c -> (KWrite ∈ st -> writes c) -> st <> [] -> I t (bool_decide (KWrite ∈ st)) r) as HI2.
  { intros st r Hr Hw _. apply HI; [done|]. intros Hb. apply Hw. by apply bool_decide_eq_true in Hb. }
  clear HI. destruct c; cbn [writes] in HW; try specialize (HW Logic.I); opts; cbn [takes some_of] in HI2; dgo;
    try (intros Hst; first [by destruct Hst | apply HI2; [cbn; inn|cbn [writes]; solve [tauto | intros Hx; set_solver]|done]]).
  all: try (apply HI2; try done; destruct sss; [by apply elem_of_nil in H|left]).
  apply dgood_sec_in; [by apply HL|]. dgo.
Qed.
