(** Vocabulary of the theorems about CSV files (C28-C31). *)
From Verif Require Export CsvModel.
From Coq Require Import Ascii.
Open Scope Z_scope.

(** What a user of a reader sees: whether there is a character, which one, which one follows, and the position. *)
Definition seen (r : reader) : bool * Z * ascii * ascii := (rd_is_end r, rd_current r, rd_char r, rd_next r).
(** The reader after [n] moves. *)
Fixpoint moved (n : nat) (r : reader) : reader := match n with O => r | S n => moved n (move r) end.
(** A line as the writer makes it: the fields, separated, and CR LF. *)
Fixpoint joined (sep : text) (fields : list text) : text :=
  match fields with
  | [] => []
  | [f] => f
  | f :: fs => f ++ sep ++ joined sep fs
  end.
Definition csv_line (sep : ascii) (fields : list text) : text := joined [sep] (format_csv <$> fields) ++ [CR; LF].
(** Fields the writer puts between quotes. *)
Definition quoted (f : text) : Prop := quote ∈ f \/ comma ∈ f \/ LF ∈ f.
(** A field that survives: it is quoted, or has nothing in it that ends a field. *)
Definition plain_field (sep : ascii) (f : text) : Prop := quoted f \/ (CR ∉ f /\ sep ∉ f).
Definition plain_sep (sep : ascii) : Prop := sep <> quote /\ sep <> CR /\ sep <> LF.
(** The fields without a last field that is empty. *)
Definition without_last_empty (fields : list text) : list text :=
  match last fields with Some [] => removelast fields | _ => fields end.
Global Instance quoted_dec f : Decision (quoted f).
Proof. unfold quoted. apply _. Defined.
Global Instance plain_field_dec sep f : Decision (plain_field sep f).
Proof. unfold plain_field, quoted. apply _. Defined.

(** ** CSV files of other programs (RFC 4180, more liberal line ends) *)

(** A quoted field: quotes in it are doubled. *)
Definition doubled (f : text) : text := concat ((fun c : ascii => if decide (c = quote) then [quote; quote] else [c]) <$> f).
(** [written sep t f]: [t] is a way to write field [f], bare or between quotes. *)
Inductive written (sep : ascii) : text -> text -> Prop :=
  | written_bare f : Forall (fun c => c <> quote /\ c <> CR /\ c <> LF /\ c <> sep) f -> written sep f f
  | written_quoted f : written sep ([quote] ++ doubled f ++ [quote]) f.
Inductive line_end : text -> Prop := end_lf : line_end [LF] | end_cr : line_end [CR] | end_crlf : line_end [CR; LF].
(** A line that is not blank. *)
Definition written_line (sep : ascii) (t : text) (fields : list text) : Prop :=
  exists ws, Forall2 (written sep) ws fields /\ t = joined [sep] ws /\ t <> [].
(** A file: lines with any mixture of line ends, blank lines that end with CR LF, and perhaps a last line without end. *)
Inductive written_file (sep : ascii) : text -> list (list text) -> Prop :=
  | file_end : written_file sep [] []
  | file_last t fields : written_line sep t fields -> without_last_empty fields <> [] -> written_file sep t [fields]
  | file_line t e fields rest rows : written_line sep t fields -> line_end e -> written_file sep rest rows -> written_file sep (t ++ e ++ rest) (fields :: rows)
  | file_blank rest rows : written_file sep rest rows -> written_file sep ([CR; LF] ++ rest) ([] :: rows).

(** ** What is read back of any row at all *)

(** The pieces of a text between the characters [c]: always at least one. *)
Fixpoint pieces (c : ascii) (x : text) : list text :=
  match x with
  | [] => [[]]
  | d :: x' => if decide (d = c) then [] :: pieces c x' else match pieces c x' with p :: ps => (d :: p) :: ps | [] => [[d]] end
  end.
(** A field as rows of fields: a quoted one is one field; any other is cut into rows at carriage returns and into fields at separators. *)
Definition cut (sep : ascii) (x : text) : list (list text) :=
  if bool_decide (quoted x) then [[x]] else pieces sep <$> pieces CR x.
(** The last row of [a] goes on with the first row of [b]. *)
Fixpoint glue (a b : list (list text)) : list (list text) :=
  match a with
  | [] => b
  | [r] => match b with s :: b' => (r ++ s) :: b' | [] => [r] end
  | r :: a' => r :: glue a' b
  end.
(** The rows that one written row turns into. *)
Definition as_rows (sep : ascii) (fields : list text) : list (list text) := foldr (fun x rows => glue (cut sep x) rows) [[]] fields.
