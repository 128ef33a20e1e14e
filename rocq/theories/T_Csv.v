(** C28-C31: CSV files. *)
From Verif Require Export CsvSpec.
From Verif Require Import CsvProofs CsvExact.
From Coq Require Import Ascii.
Open Scope Z_scope.

(** A reader delivers exactly the characters of its file, in order, with the right look-ahead, position and end, for every size of file. *)
Lemma t_C30_reader_exact :
  forall f n,
    (rd_is_end (moved n (open_reader f)) = true <-> (n < length f)%nat) /\
    ((n < length f)%nat -> f !! n = Some (rd_char (moved n (open_reader f)))) /\
    ((S n < length f)%nat -> f !! S n = Some (rd_next (moved n (open_reader f)))) /\
    ((0 < length f)%nat -> rd_current (moved n (open_reader f)) = Z.of_nat (Nat.min n (length f))) /\
    rd_size (moved n (open_reader f)) = Z.of_nat (length f) /\
    ((rd_move (moved n (open_reader f))).2 = true <-> (n < length f)%nat).
Proof.
  intros f n. pose proof (moved_open f n) as HI. unfold zlen in HI.
  split. { rewrite (inv_is_end _ _ _ HI), bool_decide_eq_true. unfold zlen. lia. }
  split. { intros Hn. rewrite <- (ri_char _ _ _ HI) by (unfold zlen; lia). replace (Z.min _ _) with (Z.of_nat n) by lia. by rewrite char_at_nat. }
  split. { intros Hn. rewrite <- (ri_next _ _ _ HI) by (unfold zlen; lia). replace (Z.min _ _ + 1) with (Z.of_nat (S n)) by lia. by rewrite char_at_nat. }
  split. { intros Hn. rewrite (inv_current _ _ _ HI) by (unfold zlen; lia). lia. }
  split. { by rewrite (ri_size _ _ _ HI). }
  destruct (decide (n < length f)%nat) as [Hn|Hn].
  - split; [done|]. intros _. apply (move_inv _ _ _ HI). unfold zlen. lia.
  - split; [|done]. rewrite (move_end _ _ _ HI) by (unfold zlen; lia). done.
Qed.
(** Reading by blocks of 4096 characters looks exactly like reading the whole file at once. *)
Lemma t_C30_chunked_equals_whole :
  forall f n, (2 <= length f)%nat -> seen (moved n (open_chunked f)) = seen (moved n (open_whole f)).
Proof.
  intros f n Hf. eapply (seen_same _ _ f); [apply moved_inv, open_chunked_inv; unfold zlen; lia|apply moved_inv, open_whole_inv; unfold zlen; lia|unfold zlen; lia].
Qed.
(** At the end of some large files the reader asks the stream for -1 characters. *)
Lemma t_C30_negative_read_iff :
  forall f n, zlen f > BIG -> (rd_neg (moved n (open_reader f)) = true <-> zlen f <= Z.of_nat n /\ zlen f mod BLOCK = BLOCK - 1).
Proof.
  intros f n Hf. assert (open_reader f = open_chunked f) as Eo by (unfold open_reader, BIG in *; by rewrite !decide_True by lia).
  pose proof (moved_open f n) as HI. rewrite Eo in HI.
  assert (rd_data (moved n (open_chunked f)) = None) as Ed.
  { assert (rd_data (open_chunked f) = None) as H0 by done. clear -H0. revert H0. generalize (open_chunked f). induction n as [|n IH]; intros r H0; [done|]. cbn [moved]. apply IH.
    unfold move, rd_move. rewrite H0. destruct (decide _); [|done]. by destruct (decide (rd_cpos r + 1 = BLOCK)). }
  rewrite Eo. pose proof (ri_mode _ _ _ HI) as Hm. rewrite Ed in Hm. destruct Hm as (_ & _ & _ & _ & _ & _ & ->). rewrite bool_decide_eq_true.
  assert (Z.min (Z.of_nat n) (zlen f) = zlen f <-> zlen f <= Z.of_nat n) by lia. tauto.
Qed.
Lemma t_C30_negative_read_refuted :
  exists f n, zlen f > BIG /\ rd_neg (moved n (open_reader f)) = true.
Proof.
  exists (repeat NUL (Z.to_nat 10489855)), (Z.to_nat 10489855).
  assert (zlen (repeat NUL (Z.to_nat 10489855)) = 10489855) as E by (unfold zlen; rewrite repeat_length, Z2Nat.id by lia; done).
  rewrite t_C30_negative_read_iff by (rewrite E; unfold BIG; lia). rewrite !E, Z2Nat.id by lia. split; [unfold BIG; lia|]. split; [lia|reflexivity].
Qed.

(** Every call of GetNextVector moves the reader forward, unless it is at the end; when it returns false there is nothing left, and at the
    end it returns false. *)
Lemma t_C31_consumes :
  forall f n sep b row r', get_next sep (moved n (open_reader f)) = (b, row, r') ->
    exists m, r' = moved (n + m) (open_reader f) /\ ((n < length f)%nat -> (0 < m)%nat /\ (n + m <= length f)%nat) /\
      (b = false -> row = [] /\ (length f <= n + m)%nat) /\ ((length f <= n)%nat -> b = false).
Proof.
  intros f n sep b row r' E. pose proof (moved_open f n) as HI. destruct (get_next_text sep _ _ _ HI) as (b0 & row0 & m & E1 & E2 & Hm & Hb).
  rewrite E in E1. injection E1 as <- <- ->. exists m. rewrite moved_add. split; [done|]. unfold zlen in *. split; [intros Hn; lia|]. split.
  - intros ->. apply (ptext_false _ _ _ _ _ _ _ _ (le_n _)) in E2 as [-> E2]. split; [done|]. unfold rest in E2.
    pose proof (f_equal length E2) as Hl. rewrite drop_length in Hl. cbn in Hl. lia.
  - intros Hn. rewrite rest_end in E2 by (unfold zlen; lia). rewrite ptext_end in E2. by injection E2 as <- _ _.
Qed.
(** What it delivers, and how much it consumes, depends only on the text that is left. *)
Lemma t_C31_function_of_rest :
  forall f g n m sep b row r', (n <= length f)%nat -> (m <= length g)%nat -> drop n f = drop m g ->
    get_next sep (moved n (open_reader f)) = (b, row, r') ->
    exists i, r' = moved (n + i) (open_reader f) /\ get_next sep (moved m (open_reader g)) = (b, row, moved (m + i) (open_reader g)).
Proof.
  intros f g n m sep b row r' Hn Hm Ed E. pose proof (moved_open f n) as HI. pose proof (moved_open g m) as HJ. unfold zlen in HI, HJ.
  destruct (get_next_text sep _ _ _ HI) as (b0 & row0 & i & E1 & E2 & _ & Hb). destruct (get_next_text sep _ _ _ HJ) as (b1 & row1 & j & E3 & E4 & _ & Hb').
  rewrite E in E1. injection E1 as <- <- ->. exists i. rewrite !moved_add. split; [done|]. rewrite E3.
  replace (Z.min (Z.of_nat n) (Z.of_nat (length f))) with (Z.of_nat n) in * by lia. replace (Z.min (Z.of_nat m) (Z.of_nat (length g))) with (Z.of_nat m) in * by lia.
  unfold rest in E2 at 1. unfold rest in E4 at 1. rewrite Nat2Z.id in E2, E4. rewrite Ed, E4 in E2. injection E2 as <- <- Er.
  assert (j = i) as ->; [|done]. apply (f_equal length) in Er. apply (f_equal length) in Ed. unfold rest in Er. rewrite !drop_length in Er, Ed. unfold zlen in *. lia.
Qed.
(** Calling it until it returns false ends after at most one call per character and one more. *)
Lemma t_C31_finite :
  forall sep f fuel, (length f < fuel)%nat ->
    rows_loop fuel sep (open_reader f) = parse_file sep f /\ (length (parse_file sep f) <= length f)%nat.
Proof.
  intros sep f fuel Hf. rewrite parse_file_text, (rows_loop_text sep f _ _ 0) by apply open_inv. change (rest f 0) with f.
  split; [apply rows_text_fuel; lia|apply rows_text_length].
Qed.

(** Rows written as lines of formatted fields are read back as they were, provided that no field the writer leaves unquoted has a
    carriage return or the separator in it and no row ends with an empty field. *)
Lemma t_C28_roundtrip_partial :
  forall sep rows, plain_sep sep -> Forall (Forall (plain_field sep)) rows -> Forall (fun fields => last fields <> Some []) rows ->
    parse_file sep (concat (csv_line sep <$> rows)) = rows.
Proof.
  intros sep rows Hs Hf Hl. rewrite parse_lines by done. clear Hf. induction Hl as [|fs rows Hx Hl IH]; [done|]. cbn [fmap list_fmap]. f_equal; [|done].
  unfold without_last_empty. destruct (last fs) as [[|]|]; done.
Qed.
(** ... exactly then. *)
Lemma t_C28_roundtrip_iff :
  forall sep rows, plain_sep sep ->
    (parse_file sep (concat (csv_line sep <$> rows)) = rows <-> Forall (fun fields => Forall (plain_field sep) fields /\ last fields <> Some []) rows).
Proof. intros sep rows Hs. rewrite parse_any by done. apply reads_back. Qed.
(** Any rows at all: what is read back is each row with the fields that are not quoted cut into rows at carriage returns and into fields at
    separators, without the last field of a row if it is empty. *)
Lemma t_C28_reads_back_exact :
  forall sep rows, plain_sep sep ->
    parse_file sep (concat (csv_line sep <$> rows)) = concat ((fun fields => without_last_empty <$> as_rows sep fields) <$> rows).
Proof. intros sep rows Hs. by apply parse_any. Qed.
Lemma t_C28_carriage_return_refuted :
  exists field, field <> [] /\ parse_file comma (csv_line comma [field]) <> [[field]].
Proof. exists (tx "a" ++ [CR] ++ tx "b"). split; [done|]. vm_compute. done. Qed.
Lemma t_C28_other_separator_refuted :
  exists sep field, plain_sep sep /\ CR ∉ field /\ field <> [] /\ parse_file sep (csv_line sep [field]) <> [[field]].
Proof. exists ";"%char, (tx "a;b"). split; [done|]. split; [apply (bool_decide_eq_true_1 _); vm_compute; done|]. split; [done|]. vm_compute. done. Qed.
(** A last field that is empty is lost; nothing else changes the number of fields. *)
Lemma t_C29_fields_read_back :
  forall sep rows, plain_sep sep -> Forall (Forall (plain_field sep)) rows ->
    parse_file sep (concat (csv_line sep <$> rows)) = without_last_empty <$> rows.
Proof. apply parse_lines. Qed.
Lemma t_C29_field_count_partial :
  forall sep fields, plain_sep sep -> Forall (plain_field sep) fields -> last fields <> Some [] ->
    length <$> parse_file sep (csv_line sep fields) = [length fields].
Proof.
  intros sep fs Hs Hf Hl. pose proof (t_C28_roundtrip_partial sep [fs] Hs) as H. cbn [fmap list_fmap concat] in H. rewrite app_nil_r in H.
  rewrite H; [done|by constructor|by constructor].
Qed.
(** With the separator the writer knows, the numbers of fields are kept exactly if everything is. *)
Lemma t_C29_field_count_iff :
  forall rows, (length <$> parse_file comma (concat (csv_line comma <$> rows)) = length <$> rows <->
    Forall (fun fields => Forall (plain_field comma) fields /\ last fields <> Some []) rows).
Proof. intros rows. rewrite parse_any by done. apply count_kept. Qed.
Lemma t_C29_last_empty_refuted :
  exists fields, length fields = 2%nat /\ Forall (plain_field comma) fields /\ length <$> parse_file comma (csv_line comma fields) = [1%nat].
Proof. exists [tx "a"; []]. split; [done|]. split; [|vm_compute; done]. repeat (apply Forall_cons; split; [right; split; apply (bool_decide_eq_true_1 _); vm_compute; done|]). by apply Forall_nil. Qed.

(** Files of other programs: every line is read as its fields, whichever fields are between quotes, whatever is between the quotes, and whether the line
    ends with LF, CR, CR LF or (the last one) not at all; only an empty last field of a line is not delivered. *)
Lemma t_C55_foreign_files :
  forall sep t rows, plain_sep sep -> written_file sep t rows -> parse_file sep t = without_last_empty <$> rows.
Proof. exact parse_written. Qed.
(** Blank lines are not treated alike: the same two blank lines are delivered as empty rows when lines end with CR LF and as one or no row when they end with LF. *)
Lemma t_C29_blank_lines_refuted :
  exists a b : text, a <> [] /\ b <> [] /\ CR ∉ a ++ b /\
    parse_file comma (a ++ [CR; LF; CR; LF] ++ b) = [a] :: [] :: [[b]] /\ parse_file comma (a ++ [LF; LF] ++ b) = [[a]; [b]] /\
    parse_file comma (a ++ [LF; LF; LF] ++ b) = [a] :: [] :: [[b]].
Proof. exists (tx "a"), (tx "b"). split; [done|]. split; [done|]. split; [apply (bool_decide_eq_true_1 _); vm_compute; done|]. vm_compute. done. Qed.

(** A sample file: three lines, three line ends, a quoted field with quotes and a line break in it. *)
Definition sample_line : text := joined [comma] [tx "a"; [quote] ++ doubled ([quote; LF] ++ tx "x,y") ++ [quote]; []].
Definition sample_file : text := sample_line ++ [LF] ++ ([CR; LF] ++ (tx "b" ++ [CR] ++ joined [comma] [[]; tx "c"])).
Lemma bare_field sep f : forallb (fun c => bool_decide (c <> quote /\ c <> CR /\ c <> LF /\ c <> sep)) f = true -> written sep f f.
Proof. intros H. apply written_bare. apply Forall_forall. intros c Hc. apply elem_of_list_In in Hc. rewrite forallb_forall in H. by specialize (H c Hc); apply bool_decide_eq_true in H. Qed.
Lemma sample_written : written_file comma sample_file [[tx "a"; [quote; LF] ++ tx "x,y"; []]; []; [tx "b"]; [[]; tx "c"]].
Proof.
  apply file_line; [|constructor|apply file_blank, file_line; [|constructor|apply file_last]].
  - exists [tx "a"; [quote] ++ doubled ([quote; LF] ++ tx "x,y") ++ [quote]; []]. split; [|done].
    apply Forall2_cons; split; [by apply bare_field|]. apply Forall2_cons; split; [apply written_quoted|]. apply Forall2_cons; split; [by apply bare_field|by apply Forall2_nil].
  - exists [tx "b"]. split; [|done]. apply Forall2_cons; split; [by apply bare_field|by apply Forall2_nil].
  - exists [[]; tx "c"]. split; [|done]. apply Forall2_cons; split; [by apply bare_field|]. apply Forall2_cons; split; [by apply bare_field|by apply Forall2_nil].
  - done.
Qed.
