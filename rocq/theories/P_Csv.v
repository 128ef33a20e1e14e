(** Generated by tools/gen_p.py from T_Csv.v: the property theorems, nothing else. *)
From Verif Require Import T_Csv Ex_Base Ex_Csv.
Open Scope Z_scope.

(** A reader delivers exactly the characters of its file, in order, with the right look-ahead, position and end, for every size of file. *)
Theorem C30_reader_exact :
  forall f n,
    (rd_is_end (moved n (open_reader f)) = true <-> (n < length f)%nat) /\
    ((n < length f)%nat -> f !! n = Some (rd_char (moved n (open_reader f)))) /\
    ((S n < length f)%nat -> f !! S n = Some (rd_next (moved n (open_reader f)))) /\
    ((0 < length f)%nat -> rd_current (moved n (open_reader f)) = Z.of_nat (Nat.min n (length f))) /\
    rd_size (moved n (open_reader f)) = Z.of_nat (length f) /\
    ((rd_move (moved n (open_reader f))).2 = true <-> (n < length f)%nat).
Proof. exact t_C30_reader_exact. Qed.
Print Assumptions C30_reader_exact.
Example ex_C30_reader_exact :
  exists f n,
    seen (moved n (open_reader f)) = (true, 1%Z, comma, default NUL (last f)).
Proof. exact tex_C30_reader_exact. Qed.

(** Reading by blocks of 4096 characters looks exactly like reading the whole file at once. *)
Theorem C30_chunked_equals_whole :
  forall f n, (2 <= length f)%nat -> seen (moved n (open_chunked f)) = seen (moved n (open_whole f)).
Proof. exact t_C30_chunked_equals_whole. Qed.
Print Assumptions C30_chunked_equals_whole.
Example ex_C30_chunked_equals_whole :
  exists f n,
    (2 <= length f)%nat /\
    seen (moved n (open_chunked f)) = (true, 4096%Z, comma, comma).
Proof. exact tex_C30_chunked_equals_whole. Qed.

(** At the end of some large files the reader asks the stream for -1 characters. *)
Theorem C30_negative_read_iff :
  forall f n, zlen f > BIG -> (rd_neg (moved n (open_reader f)) = true <-> zlen f <= Z.of_nat n /\ zlen f mod BLOCK = BLOCK - 1).
Proof. exact t_C30_negative_read_iff. Qed.
Print Assumptions C30_negative_read_iff.
Example ex_C30_negative_read_iff :
  exists f,
    zlen f > BIG.
Proof. exact tex_C30_negative_read_iff. Qed.

Theorem C30_negative_read_refuted :
  exists f n, zlen f > BIG /\ rd_neg (moved n (open_reader f)) = true.
Proof. exact t_C30_negative_read_refuted. Qed.
Print Assumptions C30_negative_read_refuted.

(** Every call of GetNextVector moves the reader forward, unless it is at the end; when it returns false there is nothing left, and at the
    end it returns false. *)
Theorem C31_consumes :
  forall f n sep b row r', get_next sep (moved n (open_reader f)) = (b, row, r') ->
    exists m, r' = moved (n + m) (open_reader f) /\ ((n < length f)%nat -> (0 < m)%nat /\ (n + m <= length f)%nat) /\
      (b = false -> row = [] /\ (length f <= n + m)%nat) /\ ((length f <= n)%nat -> b = false).
Proof. exact t_C31_consumes. Qed.
Print Assumptions C31_consumes.
Example ex_C31_consumes :
  exists f n sep b row r',
    get_next sep (moved n (open_reader f)) = (b, row, r').
Proof. exact tex_C31_consumes. Qed.

(** What it delivers, and how much it consumes, depends only on the text that is left. *)
Theorem C31_function_of_rest :
  forall f g n m sep b row r', (n <= length f)%nat -> (m <= length g)%nat -> drop n f = drop m g ->
    get_next sep (moved n (open_reader f)) = (b, row, r') ->
    exists i, r' = moved (n + i) (open_reader f) /\ get_next sep (moved m (open_reader g)) = (b, row, moved (m + i) (open_reader g)).
Proof. exact t_C31_function_of_rest. Qed.
Print Assumptions C31_function_of_rest.
Example ex_C31_function_of_rest :
  exists f g n m sep b row r',
    (n <= length f)%nat /\
    (m <= length g)%nat /\
    drop n f = drop m g /\
    get_next sep (moved n (open_reader f)) = (b, row, r').
Proof. exact tex_C31_function_of_rest. Qed.

(** Calling it until it returns false ends after at most one call per character and one more. *)
Theorem C31_finite :
  forall sep f fuel, (length f < fuel)%nat ->
    rows_loop fuel sep (open_reader f) = parse_file sep f /\ (length (parse_file sep f) <= length f)%nat.
Proof. exact t_C31_finite. Qed.
Print Assumptions C31_finite.
Example ex_C31_finite :
  exists sep f fuel,
    (length f < fuel)%nat /\
    parse_file sep f = [[tx "a"; tx "b"]].
Proof. exact tex_C31_finite. Qed.

(** Rows written as lines of formatted fields are read back as they were, provided that no field the writer leaves unquoted has a
    carriage return or the separator in it and no row ends with an empty field. *)
Theorem C28_roundtrip_partial :
  forall sep rows, plain_sep sep -> Forall (Forall (plain_field sep)) rows -> Forall (fun fields => last fields <> Some []) rows ->
    parse_file sep (concat (csv_line sep <$> rows)) = rows.
Proof. exact t_C28_roundtrip_partial. Qed.
Print Assumptions C28_roundtrip_partial.
Example ex_C28_roundtrip_partial :
  exists sep rows,
    plain_sep sep /\
    Forall (Forall (plain_field sep)) rows /\
    Forall (fun fields => last fields <> Some []) rows.
Proof. exact tex_C28_roundtrip_partial. Qed.

(** ... exactly then. *)
Theorem C28_roundtrip_iff :
  forall sep rows, plain_sep sep ->
    (parse_file sep (concat (csv_line sep <$> rows)) = rows <-> Forall (fun fields => Forall (plain_field sep) fields /\ last fields <> Some []) rows).
Proof. exact t_C28_roundtrip_iff. Qed.
Print Assumptions C28_roundtrip_iff.
Example ex_C28_roundtrip_iff :
  exists sep rows,
    plain_sep sep /\
    parse_file sep (concat (csv_line sep <$> rows)) = rows.
Proof. exact tex_C28_roundtrip_iff. Qed.
Example ex_C28_roundtrip_iff__not :
  exists sep rows,
    plain_sep sep /\
    parse_file sep (concat (csv_line sep <$> rows)) = [[tx "a"]; [tx "b"]; [tx "c"]].
Proof. exact tex_C28_roundtrip_iff__not. Qed.

(** Any rows at all: what is read back is each row with the fields that are not quoted cut into rows at carriage returns and into fields at
    separators, without the last field of a row if it is empty. *)
Theorem C28_reads_back_exact :
  forall sep rows, plain_sep sep ->
    parse_file sep (concat (csv_line sep <$> rows)) = concat ((fun fields => without_last_empty <$> as_rows sep fields) <$> rows).
Proof. exact t_C28_reads_back_exact. Qed.
Print Assumptions C28_reads_back_exact.
Example ex_C28_reads_back_exact :
  exists sep rows,
    plain_sep sep /\
    parse_file sep (concat (csv_line sep <$> rows)) = [[tx "a"; tx "b"; tx "c"]; [tx "d"; []]; [tx ",;"]].
Proof. exact tex_C28_reads_back_exact. Qed.

Theorem C28_carriage_return_refuted :
  exists field, field <> [] /\ parse_file comma (csv_line comma [field]) <> [[field]].
Proof. exact t_C28_carriage_return_refuted. Qed.
Print Assumptions C28_carriage_return_refuted.

Theorem C28_other_separator_refuted :
  exists sep field, plain_sep sep /\ CR ∉ field /\ field <> [] /\ parse_file sep (csv_line sep [field]) <> [[field]].
Proof. exact t_C28_other_separator_refuted. Qed.
Print Assumptions C28_other_separator_refuted.

(** A last field that is empty is lost; nothing else changes the number of fields. *)
Theorem C29_fields_read_back :
  forall sep rows, plain_sep sep -> Forall (Forall (plain_field sep)) rows ->
    parse_file sep (concat (csv_line sep <$> rows)) = without_last_empty <$> rows.
Proof. exact t_C29_fields_read_back. Qed.
Print Assumptions C29_fields_read_back.
Example ex_C29_fields_read_back :
  exists sep rows,
    plain_sep sep /\
    Forall (Forall (plain_field sep)) rows.
Proof. exact tex_C29_fields_read_back. Qed.

Theorem C29_field_count_partial :
  forall sep fields, plain_sep sep -> Forall (plain_field sep) fields -> last fields <> Some [] ->
    length <$> parse_file sep (csv_line sep fields) = [length fields].
Proof. exact t_C29_field_count_partial. Qed.
Print Assumptions C29_field_count_partial.
Example ex_C29_field_count_partial :
  exists sep fields,
    plain_sep sep /\
    Forall (plain_field sep) fields /\
    last fields <> Some [].
Proof. exact tex_C29_field_count_partial. Qed.

(** With the separator the writer knows, the numbers of fields are kept exactly if everything is. *)
Theorem C29_field_count_iff :
  forall rows, (length <$> parse_file comma (concat (csv_line comma <$> rows)) = length <$> rows <->
    Forall (fun fields => Forall (plain_field comma) fields /\ last fields <> Some []) rows).
Proof. exact t_C29_field_count_iff. Qed.
Print Assumptions C29_field_count_iff.
Example ex_C29_field_count_iff :
  exists rows,
    length <$> parse_file comma (concat (csv_line comma <$> rows)) = [3%nat; 0%nat; 1%nat].
Proof. exact tex_C29_field_count_iff. Qed.

Theorem C29_last_empty_refuted :
  exists fields, length fields = 2%nat /\ Forall (plain_field comma) fields /\ length <$> parse_file comma (csv_line comma fields) = [1%nat].
Proof. exact t_C29_last_empty_refuted. Qed.
Print Assumptions C29_last_empty_refuted.

(** Files of other programs: every line is read as its fields, whichever fields are between quotes, whatever is between the quotes, and whether the line
    ends with LF, CR, CR LF or (the last one) not at all; only an empty last field of a line is not delivered. *)
Theorem C55_foreign_files :
  forall sep t rows, plain_sep sep -> written_file sep t rows -> parse_file sep t = without_last_empty <$> rows.
Proof. exact t_C55_foreign_files. Qed.
Print Assumptions C55_foreign_files.
Example ex_C55_foreign_files :
  exists sep t rows,
    plain_sep sep /\
    written_file sep t rows /\
    length t = 18%nat.
Proof. exact tex_C55_foreign_files. Qed.

(** Blank lines are not treated alike: the same two blank lines are delivered as empty rows when lines end with CR LF and as one or no row when they end with LF. *)
Theorem C29_blank_lines_refuted :
  exists a b : text, a <> [] /\ b <> [] /\ CR ∉ a ++ b /\
    parse_file comma (a ++ [CR; LF; CR; LF] ++ b) = [a] :: [] :: [[b]] /\ parse_file comma (a ++ [LF; LF] ++ b) = [[a]; [b]] /\
    parse_file comma (a ++ [LF; LF; LF] ++ b) = [a] :: [] :: [[b]].
Proof. exact t_C29_blank_lines_refuted. Qed.
Print Assumptions C29_blank_lines_refuted.
