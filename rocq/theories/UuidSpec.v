(** Vocabulary of the theorems about UUIDs (C38). *)
From Verif Require Export UuidModel.
From Coq Require Import Ascii.
Open Scope Z_scope.

(** The character at position [i] (from 0) of a version 4 UUID: xxxxxxxx-xxxx-4xxx-[89ab]xxx-xxxxxxxxxxxx. *)
Definition uuid_char (i : nat) (c : ascii) : Prop :=
  if decide (i ∈ [8; 13; 18; 23]%nat) then c ∈ tx "-"
  else if decide (i = 14%nat) then c ∈ tx "4"
  else if decide (i = 19%nat) then c ∈ tx "89ab"
  else c ∈ tx "0123456789abcdef".
Definition uuid4 (t : text) : Prop := length t = 36%nat /\ forall i c, t !! i = Some c -> uuid_char i c.
(** What the random numbers can be. *)
Definition random64 (x : Z) : Prop := 0 <= x < 2 ^ 64.
Global Instance uuid_char_dec i c : Decision (uuid_char i c).
Proof. unfold uuid_char. repeat case_decide; apply _. Defined.
