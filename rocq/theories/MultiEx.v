(** Tactic for the examples of T_Multi.v. *)
From Verif Require Import MultiModel MultiSpec.
From Verif Require Export LockEx.
Open Scope nat_scope.
(** Vault 0 is shared, vault 9 is shared and not changed, another vault [t + 1] belongs to thread [t]. *)
Definition mine (v : nat) : usage := match v with 0 => Shared | 9 => Frozen | S t => Mine t end.
Definition idle (th : vthread) : bool := match h_calls th, h_at th with [], None => true | _, _ => false end.
Lemma finished_if s : forallb idle (v_threads s) = true -> forallb (fun a => match a with [] => true | _ => false end) (v_acts s) = true -> v_finished s.
Proof.
  intros H1 H2 t (th & acts & Ht & Ha & Hb). rewrite forallb_forall in H1, H2.
  assert (idle th = true) as H3 by (apply H1, elem_of_list_In; by eapply elem_of_list_lookup_2).
  specialize (H2 acts). rewrite <- elem_of_list_In in H2. specialize (H2 (elem_of_list_lookup_2 _ _ _ Ha)). destruct acts; [|done].
  unfold idle in H3. destruct Hb as [?|Hb]; [done|]. apply Hb. unfold v_rest. destruct (h_calls th); [|done]. by destruct (h_at th).
Qed.
Ltac vxm := repeat match goal with
  | |- _ /\ _ => split
  | |- forall _, _ => intros ?
  | |- may _ _ _ _ => first [left; reflexivity | right; left; reflexivity | right; right; split; [reflexivity|repeat constructor]]
  | |- True => exact I
  | H : Mine _ = _ |- _ => discriminate H
  | H : Shared = Frozen |- _ => discriminate H
  | H : Frozen = Shared |- _ => discriminate H
  | H : false = true |- _ => discriminate H
  | H : _ ∈ [] |- _ => by apply elem_of_nil in H
  | H : _ ∈ _ :: _ |- _ => apply elem_of_cons in H as [-> | H]
  | |- _ \/ _ => first [left; reflexivity | right; reflexivity]
  | |- Forall _ _ => constructor
  | |- _ = _ => first [reflexivity|discriminate|congruence]
  | |- _ <> _ => intros ?
  | |- clean _ _ _ => unfold clean
  | _ => progress (cbn in *)
  | |- ~ _ => intros ?
  | _ => tauto
  end.
Ltac vx :=
  repeat match goal with
  | |- _ /\ _ => split
  | |- v_finished _ => apply finished_if; vm_compute; reflexivity
  | |- forall _, _ =>
      intros [|[|[|?]]] cl c Hcl Hc; cbn in Hcl; try discriminate Hcl; injection Hcl as <-;
      repeat (apply elem_of_cons in Hc as [-> | Hc]; [cbn; vxm|]); by apply elem_of_nil in Hc
  | |- _ = _ => vm_compute; reflexivity
  end.
