(** Rules and a tactic for the examples of T_Lock.v. *)
From Verif Require Import LockModel LockSpec.
Open Scope nat_scope.
(** Record set [s] belongs to thread [s mod 10], sets below 10 to one thread's calls only; thread 0 fills sets by requests, thread 1 reads files. *)
Definition each : rules := Rules (fun s => s mod 10) (fun s => s <? 10) 0 (Some 1).
Ltac lxm := repeat match goal with
  | |- _ /\ _ => split
  | |- forall _, _ => intros ?
  | |- True => exact I
  | H : false = true |- _ => discriminate H
  | H : _ ∈ [] |- _ => by apply elem_of_nil in H
  | H : _ ∈ _ :: _ |- _ => apply elem_of_cons in H as [-> | H]
  | |- _ \/ _ => first [left; reflexivity | right; reflexivity]
  | |- Forall _ _ => constructor
  | |- _ = _ => first [reflexivity|discriminate|congruence]
  | |- _ <> _ => intros ?
  | |- clean _ _ _ => unfold clean
  | _ => progress (cbn in *)
  | |- ~ _ => intros ?
  | _ => tauto
  end.
Ltac lx :=
  repeat match goal with
  | |- _ /\ _ => split
  | |- forall _, _ =>
      intros [|[|[|?]]] cl c Hcl Hc; cbn in Hcl; try discriminate Hcl; injection Hcl as <-;
      repeat (apply elem_of_cons in Hc as [-> | Hc]; [cbn; lxm|]); by apply elem_of_nil in Hc
  | |- _ = _ => vm_compute; reflexivity
  end.
From Verif Require Import DumpSpec.
(** Program lists with and without a standoff. *)
Definition quiet_dumps : list (list capi) := [[KRefDump 0; KRefGet 1]; [KRefSet 1 [[]]; KRefDump 0; KRefDump 3; KRefGet 3]; [KUpdateKey; KSortBy [1; 2]; KRefValid 0]].
Lemma calls_at cs t c : calls cs t c -> c ∈ default [] (cs !! t).
Proof. intros (cl & Hcl & Hc). by rewrite Hcl. Qed.
Ltac lstep H := repeat (apply elem_of_cons in H as [H | H]); try (by apply elem_of_nil in H).
Lemma quiet_dumps_quiet : ~ standoff quiet_dumps.
Proof.
  intros (t & u & r & c & Hne & Ht & Hu & Hr & _). apply calls_at in Ht, Hu.
  destruct t as [|[|[|t]]]; cbn in Ht; lstep Ht; try discriminate Ht; injection Ht as ->;
  (destruct u as [|[|[|u]]]; cbn in Hu; lstep Hu; subst c; cbn in Hr; lstep Hr; try discriminate Hr; done).
Qed.
Definition loud_dumps : list (list capi) := [[KUpdateKey; KRefDump 0]; [KGet; KSortBy [3; 0; 1]]; [KGetKeyValue; KReadFile []]].
Lemma loud_dumps_loud : standoff loud_dumps.
Proof.
  exists 0, 1, 0, (KSortBy [3; 0; 1]). split; [done|]. split; [eexists; split; [reflexivity|]; right; left|]. split; [eexists; split; [reflexivity|]; right; left|].
  split; [right; left|]. right. exists 2, (KReadFile []). split; [done|]. split; [done|]. split; [|done]. eexists. split; [reflexivity|]. right; left.
Qed.
Definition reading_dumps : list (list capi) := [[KRefDump 0; KRefGet 1]; [KGet; KSortBy [3; 0; 1]]; [KRefDump 1; KRequest 0 [] [1]]].
Lemma reading_dumps_read t c : calls reading_dumps t c -> ~ writes c.
Proof. intros H. apply calls_at in H. destruct t as [|[|[|t]]]; cbn in H; lstep H; subst c; by intros Hw. Qed.
