(** Vocabulary of the theorems about printed tables (C37). *)
From Coq Require Import Ascii.
From Verif Require Export PrintModel StringsSpec Spec.
Open Scope nat_scope.

(** Lines, each ended by a line feed. *)
Definition lines (ls : list text) : text := concat ((fun l => l ++ [LF]) <$> ls).
(** A row of a table with columns of the given widths: every text is followed by blanks up to the width of its column. *)
Definition row_of (widths : list nat) (ts : list text) : text :=
  "|"%char :: concat (zip_with (fun m t => " "%char :: t ++ repeat " "%char (m - length t) ++ tx " |") widths ts).
(** A line without texts. *)
Definition rule_of (corner dash : ascii) (widths : list nat) : text := corner :: concat ((fun m => repeat dash (m + 2) ++ [corner]) <$> widths).
(** The texts fit in the columns. *)
Definition fit_columns (widths : list nat) (ts : list text) : Prop := Forall2 (fun m t => length t <= m) widths ts.
(** [m] is the number of bytes of the longest text of the column [k]: the name of the key and the texts of the values of the records [R]. *)
Definition column_width_is (w : world) (R : nat -> Prop) (k : string) (m : nat) : Prop :=
  length (tx k) <= m /\ (forall r v, R r -> stored w r k = Some v -> length (to_string v) <= m) /\
  (m = length (tx k) \/ exists r v, R r /\ stored w r k = Some v /\ m = length (to_string v)).
Definition column_widths_are (w : world) (R : nat -> Prop) (ks : list string) (widths : list nat) : Prop := Forall2 (column_width_is w R) ks widths.
(** The texts of a record under the keys [ks]. *)
Definition texts_of (w : world) (r : nat) (ks : list string) (ts : list text) : Prop :=
  Forall2 (fun k t => exists v, stored w r k = Some v /\ t = to_string v) ks ts.
(** The number of bytes of a line of a table. *)
Definition table_width (widths : list nat) : nat := 1 + sum_list_with (fun m => m + 3) widths.
Definition records_line (n : nat) : text := tx " (" ++ dec (Z.of_nat n) ++ tx " records)".
Definition c_plus : ascii := "+". Definition c_dash : ascii := "-". Definition c_dollar : ascii := "$". Definition c_tilde : ascii := "~".
Definition tab : text := ["009"%char].
