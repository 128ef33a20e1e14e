(** Vocabulary of the theorems about files (C34, C35). *)
From Verif Require Export CsvSpec StringsSpec FileModel Spec.
From Coq Require Import Ascii.
Open Scope nat_scope.

(** ** Reading *)

(** The keys the fields of a row belong to. *)
Definition row_keys (ob : obj) (load : bool) (keys user : list string) : list string :=
  if load then keys else match user with [] => o_order ob | _ => user end.
(** The value a field has for a key of the vault: the key exists and the text is one of its type. *)
Definition cell_value (ob : obj) (k : string) (s : text) : option value :=
  t ← get_key_type ob k; match from_string t s with FsOk v => Some v | _ => None end.
Definition well_formed (ob : obj) (cells : list (string * text)) : Prop := Forall (fun c : string * text => is_Some (cell_value ob c.1 c.2)) cells.
(** [k] is the key of the first field that is not well-formed. *)
Definition first_wrong (ob : obj) (cells : list (string * text)) (k : string) : Prop :=
  exists c1 s c2, cells = c1 ++ (k, s) :: c2 /\ well_formed ob c1 /\ cell_value ob k s = None.
(** The value of key [k] in the record made from a row: that of the last field for [k], otherwise the default. *)
Definition row_value (ob : obj) (cells : list (string * text)) (k : string) : option value :=
  match last (filter (fun c : string * text => c.1 = k) cells) with
  | Some c => cell_value ob k c.2
  | None => o_tmpl ob !! k
  end.
(** A record among [X] already has the row's value of the unique key [k]. *)
Definition clash (w : world) (ob : obj) (X : gset nat) (cells : list (string * text)) (k : string) : Prop :=
  k ∈ get_unique_keys ob /\ exists r, r ∈ X /\ stored w r k = row_value ob cells k.

(** What became of row number [line] ([X]: the records the vault has by then): the record made from it, and the reports about it. *)
Inductive row_read (w : world) (ob : obj) (load : bool) (line : nat) (X : gset nat) (cells : list (string * text)) : option nat -> list (nat * string) -> Prop :=
  | row_accepted r : cells <> [] -> well_formed ob cells -> (forall k, ~ clash w ob X cells k) -> valid_rec w r ->
      (forall k, stored w r k = row_value ob cells k) -> row_read w ob load line X cells (Some r) []
  | row_empty : cells = [] -> row_read w ob load line X cells None []
  | row_malformed k : first_wrong ob cells k -> row_read w ob load line X cells None [(if load then S line else line, k)]
  | row_clash k ks1 ks2 : cells <> [] -> well_formed ob cells -> get_unique_keys ob = ks1 ++ k :: ks2 -> (forall k', k' ∈ ks1 -> ~ clash w ob X cells k') ->
      clash w ob X cells k -> row_read w ob load line X cells None [(line, k)].
(** All rows, from number [line] on: the records made, in order, and the reports, in order. *)
Inductive rows_read (w : world) (ob : obj) (load : bool) (ks : list string) : nat -> gset nat -> list (list text) -> list nat -> list (nat * string) -> Prop :=
  | rows_none line X : rows_read w ob load ks line X [] [] []
  | rows_made line X row rows r rs reps : row_read w ob load line X (zip ks row) (Some r) [] -> r ∉ X ->
      rows_read w ob load ks (S line) ({[r]} ∪ X) rows rs reps -> rows_read w ob load ks line X (row :: rows) (r :: rs) reps
  | rows_rejected line X row rows rep rs reps : row_read w ob load line X (zip ks row) None rep ->
      rows_read w ob load ks (S line) X rows rs reps -> rows_read w ob load ks line X (row :: rows) rs (rep ++ reps).
(** Rows that can be read without undefined behaviour. *)
Definition row_safe (ob : obj) (load : bool) (keys user : list string) (row : list text) : Prop :=
  (load = false -> user = [] -> length row <= length (o_order ob)) /\
  forall c, c ∈ zip (row_keys ob load keys user) row -> forall t, get_key_type ob c.1 = Some t -> from_string t c.2 <> FsUB.

(** The keys and the rows ReadFile takes from the lines of a file; [handler]: the function that may change every row. *)
Definition loaded_keys (load : bool) (lines : list (list text)) : list string :=
  if load then match lines with [] => [] | line :: _ => st <$> line end else [].
Definition loaded_rows (load : bool) (handler : list string -> list text -> list text) (lines : list (list text)) : list (list text) :=
  if load then match lines with [] => [] | line :: rest => handler (st <$> line) <$> rest end else lines.

(** ** Saving and loading *)

(** The text of a field of a record: nothing if the record has no such key. *)
Definition field_text (w : world) (r : nat) (k : string) : text := match stored w r k with Some v => to_string v | None => [] end.
(** The line of a record: its fields as CSV, with any text as separator. *)
Definition record_line (w : world) (sep : text) (ks : list string) (r : nat) : text := joined sep (format_csv <$> (field_text w r <$> ks)) ++ [CR; LF].

(** The value survives: its text is read as the same value, and stands in a file with separator [sep] as one field. *)
Definition survives (sep : ascii) (v : value) : Prop := from_string (vty v) (to_string v) = FsOk v /\ plain_field sep (to_string v).
(** A key name that stands in a file as one field. *)
Definition plain_name (sep : ascii) (k : string) : Prop := ~ quoted (tx k) /\ CR ∉ tx k /\ sep ∉ tx k.
