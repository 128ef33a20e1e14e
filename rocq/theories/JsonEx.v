(** Decision procedures for the concrete cases beside the theorems about JSON. *)
From Verif Require Export FileEx JsonSpec.
Open Scope nat_scope.

Lemma all_keys_b (ks : list string) (P : string -> Prop) {d : forall k, Decision (P k)} : bool_decide (Forall P ks) = true -> forall k, k ∈ ks -> P k.
Proof. intros H k Hk. apply bool_decide_eq_true in H. rewrite Forall_forall in H. by apply H. Qed.
Lemma all_stored1 (w : world) (r : nat) (P : string -> value -> Prop) {d : forall k v, Decision (P k v)} :
  bool_decide (map_Forall P (from_option r_data ∅ (w_recs w !! r))) = true -> forall k v, stored w r k = Some v -> P k v.
Proof.
  intros H k v Hs. apply bool_decide_eq_true in H. unfold stored in Hs. destruct (w_recs w !! r) as [rc|]; [|done]. cbn in Hs, H.
  destruct (r_valid rc); [|done]. by apply H.
Qed.
Ltac jx := repeat match goal with
  | |- _ /\ _ => split
  | |- forall r k v, r ∈ ?X -> stored ?w r k = Some v -> plain_value v => apply (all_stored w X (fun _ v => plain_value v)); vmr
  | |- forall k v, stored ?w ?r k = Some v -> plain_value v => apply (all_stored1 w r (fun _ v => plain_value v)); vmr
  | |- forall k, k ∈ ?ks -> plain_json (tx k) => apply (all_keys_b ks (fun k => plain_json (tx k))); vmr
  | |- false = true -> _ => let H := fresh in intros H; discriminate H
  | |- ?b = true -> plain_json _ => intros _; dec
  | |- forall r, true = false -> _ => let H := fresh in intros ? H; discriminate H
  | |- forall r, false = false -> _ -> plain_json _ => intros ? _ _; dec
  | |- _ => progress ex
  end.
