(** Generated by tools/gen_p.py from T_Files.v: the property theorems, nothing else. *)
From Verif Require Import T_Files Ex_Base Ex_Files FileEx.
Open Scope nat_scope.

(** Reading a file is the operation OReadRows on the lines the parser delivers; so everything known about operations holds of it. *)
Theorem C35_is_an_operation :
  forall ord w o ob sep load user handler f w' ok, vault_at w o ob ->
    (read_file w o sep load user handler (Some f) = Some (w', ok) <->
     step ord w (OReadRows o load (loaded_keys load (parse_file sep f)) user (loaded_rows load handler (parse_file sep f))) = Some (w', OUnit) /\ ok = true).
Proof. exact t_C35_is_an_operation. Qed.
Print Assumptions C35_is_an_operation.
Example ex_C35_is_an_operation :
  exists w o ob sep load user handler f w' ok,
    vault_at w o ob /\
    read_file w o sep load user handler (Some f) = Some (w', ok).
Proof. exact tex_C35_is_an_operation. Qed.

(** Every line becomes a record or a report, except empty ones: see [row_read]. The records are new, nothing else is added, and the
    report of the vault is about this file only. *)
Theorem C35_loads_exactly_partial :
  forall b w o ob sep load user handler f w' ok, reach b w -> vault_at w o ob ->
    read_file w o sep load user handler (Some f) = Some (w', ok) ->
    ok = true /\ exists ob' rs,
      vault_at w' o ob' /\ o_recs ob' = o_recs ob ∪ list_to_set rs /\ NoDup rs /\ (forall r, r ∈ rs -> w_recs w !! r = None) /\
      (forall r k, r ∈ o_recs ob -> stored w' r k = stored w r k) /\
      rows_read w' ob load (row_keys ob load (loaded_keys load (parse_file sep f)) user) 1 (o_recs ob)
        (loaded_rows load handler (parse_file sep f)) rs (get_errors ob').
Proof. exact t_C35_loads_exactly_partial. Qed.
Print Assumptions C35_loads_exactly_partial.
Example ex_C35_loads_exactly_partial :
  exists b w o ob sep load user handler f w' ok,
    reach b w /\
    vault_at w o ob /\
    read_file w o sep load user handler (Some f) = Some (w', ok) /\
    o_recs (ob_at w' o) = {[3; 4; 6]} /\ get_errors (ob_at w' o) = [(3, "id"); (3, "id")].
Proof. exact tex_C35_loads_exactly_partial. Qed.

(** Reading is defined if no line has more fields than there are keys to take them (with keys neither loaded nor given) and no number is
    out of range. *)
Theorem C35_defined :
  forall b w o ob sep load user handler f, reach b w -> vault_at w o ob ->
    Forall (row_safe ob load (loaded_keys load (parse_file sep f)) user) (loaded_rows load handler (parse_file sep f)) ->
    exists w', read_file w o sep load user handler (Some f) = Some (w', true).
Proof. exact t_C35_defined. Qed.
Print Assumptions C35_defined.
Example ex_C35_defined :
  exists b w o ob sep load user handler f,
    reach b w /\
    vault_at w o ob /\
    Forall (row_safe ob load (loaded_keys load (parse_file sep f)) user) (loaded_rows load handler (parse_file sep f)).
Proof. exact tex_C35_defined. Qed.

(** A file that cannot be opened: the answer is false, the report is emptied, nothing else changes. *)
Theorem C35_no_file :
  forall w o ob sep load user handler, vault_at w o ob ->
    exists w' ob', read_file w o sep load user handler None = Some (w', false) /\ vault_at w' o ob' /\ get_errors ob' = [] /\
      o_recs ob' = o_recs ob /\ (forall x, x <> o -> w_objs w' !! x = w_objs w !! x) /\ w_recs w' = w_recs w /\ w_refs w' = w_refs w.
Proof. exact t_C35_no_file. Qed.
Print Assumptions C35_no_file.
Example ex_C35_no_file :
  exists w o ob,
    vault_at w o ob.
Proof. exact tex_C35_no_file. Qed.

(** What SaveToFile writes: the names of the keys if asked for, then one line for every record of the vault. *)
Theorem C34_saved_text :
  forall b ord w o ob keys sep hk, reach b w -> fair ord -> vault_at w o ob -> (hk = true -> keys = [] -> o_order ob <> []) ->
    exists rs, rs ≡ₚ elements (o_recs ob) /\
      save_file ord w o keys sep hk = Some (
        (if hk then joined sep (tx <$> (if decide (keys = []) then o_order ob else keys)) ++ (if decide (o_order ob = []) then [] else [CR; LF]) else []) ++
        concat (record_line w sep (if decide (keys = []) then o_order ob else keys) <$> rs)).
Proof. exact t_C34_saved_text. Qed.
Print Assumptions C34_saved_text.
Example ex_C34_saved_text :
  exists b ord w o ob keys sep hk,
    reach b w /\
    fair ord /\
    vault_at w o ob /\
    (hk = true -> keys = [] -> o_order ob <> []) /\
    save_file id_order w o keys sep hk = Some (saved (save_file id_order w o keys sep hk)) /\ length (saved (save_file id_order w o keys sep hk)) = 46.
Proof. exact tex_C34_saved_text. Qed.

(** Saving a vault and loading the file into a vault with the same keys gives, for every record in order, a new record with the same
    contents, and no report; provided that every text survives the file, the last field of no line is empty, and the records do not
    clash with each other or with the ones that are already there. *)
Theorem C34_save_load_partial :
  forall b ord w o p ob pb sep hk (handler : list string -> list text -> list text) f,
    reach b w -> fair ord -> vault_at w o ob -> vault_at w p pb -> plain_sep sep ->
    o_order ob <> [] -> o_order pb = o_order ob -> (forall k, get_key_type pb k = get_key_type ob k) ->
    (forall r k v, r ∈ o_recs ob -> stored w r k = Some v -> survives sep v /\ (last (o_order ob) = Some k -> to_string v <> [])) ->
    (forall k, hk = true -> k ∈ o_order ob -> plain_name sep k /\ (last (o_order ob) = Some k -> k <> ""%string)) ->
    (forall k r x, k ∈ get_unique_keys pb -> r ∈ o_recs ob -> x ∈ o_recs pb -> stored w x k <> stored w r k) ->
    (forall k r x, k ∈ get_unique_keys pb -> r ∈ o_recs ob -> x ∈ o_recs ob -> x <> r -> stored w x k <> stored w r k) ->
    (forall ks row, handler ks row = row) ->
    save_file ord w o [] [sep] hk = Some f ->
    exists w' pb' rs rs', read_file w p sep hk [] handler (Some f) = Some (w', true) /\ vault_at w' p pb' /\ get_errors pb' = [] /\
      rs ≡ₚ elements (o_recs ob) /\ Forall2 (fun r r' => forall k, stored w' r' k = stored w r k) rs rs' /\
      o_recs pb' = o_recs pb ∪ list_to_set rs' /\ NoDup rs' /\ (forall r, r ∈ rs' -> w_recs w !! r = None).
Proof. exact t_C34_save_load_partial. Qed.
Print Assumptions C34_save_load_partial.
Example ex_C34_save_load_partial :
  exists b ord w o p ob pb sep hk (handler : list string -> list text -> list text) f,
    reach b w /\
    fair ord /\
    vault_at w o ob /\
    vault_at w p pb /\
    plain_sep sep /\
    o_order ob <> [] /\
    o_order pb = o_order ob /\
    (forall k, get_key_type pb k = get_key_type ob k) /\
    (forall r k v, r ∈ o_recs ob -> stored w r k = Some v -> survives sep v /\ (last (o_order ob) = Some k -> to_string v <> [])) /\
    (forall k, hk = true -> k ∈ o_order ob -> plain_name sep k /\ (last (o_order ob) = Some k -> k <> ""%string)) /\
    (forall k r x, k ∈ get_unique_keys pb -> r ∈ o_recs ob -> x ∈ o_recs pb -> stored w x k <> stored w r k) /\
    (forall k r x, k ∈ get_unique_keys pb -> r ∈ o_recs ob -> x ∈ o_recs ob -> x <> r -> stored w x k <> stored w r k) /\
    (forall ks row, handler ks row = row) /\
    save_file ord w o [] [sep] hk = Some f.
Proof. exact tex_C34_save_load_partial. Qed.

(** A record whose last text is empty gets the default instead. *)
Theorem C34_last_empty_refuted :
  exists w o p ob pb f w' pb' r r', reach true w /\ vault_at w o ob /\ vault_at w p pb /\ o_order pb = o_order ob /\ o_keys pb = o_keys ob /\
    o_recs ob = {[r]} /\ stored w r "s" = Some (VStr "") /\ save_file id_order w o [] [comma] false = Some f /\
    read_file w p comma false [] (fun _ row => row) (Some f) = Some (w', true) /\ vault_at w' p pb' /\ get_errors pb' = [] /\
    o_recs pb' = {[r']} /\ stored w' r' "s" = Some (VStr "x").
Proof. exact t_C34_last_empty_refuted. Qed.
Print Assumptions C34_last_empty_refuted.

(** A record of a vault with one text key is lost, and not reported, if the text is empty. *)
Theorem C34_empty_record_lost_refuted :
  exists w o p ob pb f w' pb' r, reach true w /\ vault_at w o ob /\ vault_at w p pb /\ o_order pb = o_order ob /\ o_keys pb = o_keys ob /\
    o_recs ob = {[r]} /\ save_file id_order w o [] [comma] false = Some f /\
    read_file w p comma false [] (fun _ row => row) (Some f) = Some (w', true) /\ vault_at w' p pb' /\ get_errors pb' = [] /\ o_recs pb' = ∅.
Proof. exact t_C34_empty_record_lost_refuted. Qed.
Print Assumptions C34_empty_record_lost_refuted.

(** The names of the keys are not quoted: with a comma in one of them, nothing that was saved with names can be loaded. *)
Theorem C34_name_with_comma_refuted :
  exists w o p ob pb f w' pb' r k, reach true w /\ vault_at w o ob /\ vault_at w p pb /\ o_order pb = o_order ob /\ o_keys pb = o_keys ob /\
    o_recs ob = {[r]} /\ save_file id_order w o [] [comma] true = Some f /\
    read_file w p comma true [] (fun _ row => row) (Some f) = Some (w', true) /\ vault_at w' p pb' /\ get_errors pb' = [(2, k)] /\ k ∉ o_order pb /\ o_recs pb' = ∅.
Proof. exact t_C34_name_with_comma_refuted. Qed.
Print Assumptions C34_name_with_comma_refuted.

(** Saving the names of a vault without keys is undefined. *)
Theorem C34_no_keys_undefined_refuted :
  exists w o ob, reach true w /\ vault_at w o ob /\ save_file id_order w o [] [comma] true = None.
Proof. exact t_C34_no_keys_undefined_refuted. Qed.
Print Assumptions C34_no_keys_undefined_refuted.

(** A row with a value of a unique key that is taken is reported with the number of the line before it, if the file starts with names; a
    malformed row in the same place with its own number. *)
Theorem C35_line_number_refuted :
  exists w o ob f1 f2 w1 w2 ob1 ob2, reach true w /\ vault_at w o ob /\
    parse_file comma f1 = [[tx "id"]; [tx "1"]; [tx "1"]] /\ parse_file comma f2 = [[tx "id"]; [tx "1"]; [tx "z"]] /\
    read_file w o comma true [] (fun _ row => row) (Some f1) = Some (w1, true) /\ vault_at w1 o ob1 /\ get_errors ob1 = [(2, "id"%string)] /\
    read_file w o comma true [] (fun _ row => row) (Some f2) = Some (w2, true) /\ vault_at w2 o ob2 /\ get_errors ob2 = [(3, "id"%string)].
Proof. exact t_C35_line_number_refuted. Qed.
Print Assumptions C35_line_number_refuted.

(** The numbers count rows, not lines: the malformed number stands in the third line of the file. *)
Theorem C35_line_break_refuted :
  exists w o ob f w' ob', reach true w /\ vault_at w o ob /\ f = quote :: tx "a" ++ [LF] ++ tx "b" ++ [quote] ++ tx ",1" ++ [CR; LF] ++ tx "c,z" ++ [CR; LF] /\
    read_file w o comma false [] (fun _ row => row) (Some f) = Some (w', true) /\ vault_at w' o ob' /\ get_errors ob' = [(2, "n"%string)].
Proof. exact t_C35_line_break_refuted. Qed.
Print Assumptions C35_line_break_refuted.

(** An empty row is neither loaded nor reported. *)
Theorem C35_empty_row_refuted :
  exists w o ob f w' ob', reach true w /\ vault_at w o ob /\ parse_file comma f = [[tx "1"]; []; [tx "2"]] /\
    read_file w o comma false [] (fun _ row => row) (Some f) = Some (w', true) /\ vault_at w' o ob' /\ get_errors ob' = [] /\ size (o_recs ob') = 2.
Proof. exact t_C35_empty_row_refuted. Qed.
Print Assumptions C35_empty_row_refuted.

(** A row with more fields than the vault has keys, and a number that is out of range: undefined. *)
Theorem C35_extra_field_undefined_refuted :
  exists w o ob f, reach true w /\ vault_at w o ob /\ parse_file comma f = [[tx "1"; tx "2"]] /\ read_file w o comma false [] (fun _ row => row) (Some f) = None.
Proof. exact t_C35_extra_field_undefined_refuted. Qed.
Print Assumptions C35_extra_field_undefined_refuted.

Theorem C35_overflow_undefined_refuted :
  exists w o ob f, reach true w /\ vault_at w o ob /\ parse_file comma f = [[tx "2147483648"]] /\ read_file w o comma false [] (fun _ row => row) (Some f) = None.
Proof. exact t_C35_overflow_undefined_refuted. Qed.
Print Assumptions C35_overflow_undefined_refuted.
