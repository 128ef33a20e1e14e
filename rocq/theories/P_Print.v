(** Generated by tools/gen_p.py from T_Print.v: the property theorems, nothing else. *)
From Verif Require Import T_Print Ex_Base Ex_Print PrintEx.
Open Scope nat_scope.

(** C37: what Print writes for a vault: a header with the names of the keys, a row for each record that GetSortedRecords gives, with the texts
    of its values, in columns exactly as wide as the longest of the texts of all records, then the number of records. *)
Theorem C37_print_exact :
  forall b ord w o ob ids amt primary rev keys addr ks key rs, reach b w -> fair ord -> vault_at w o ob ->
    ks = match keys with [] => get_keys ob | _ => keys end -> (if decide (primary = ""%string) then head ks else Some primary) = Some key ->
    (forall k, k ∈ key :: ks -> is_Some (get_key_type ob k)) -> sorted_records w o key rev amt = Some rs ->
    exists widths rows,
      vault_print ord w o ids amt primary rev keys addr = Some (lines (
        [rule_of c_plus c_dash widths; row_of widths (tx <$> ks); rule_of c_plus c_dash widths] ++ rows ++
        [if match amt with None => true | Some n => size (o_recs ob) <=? n end then rule_of c_plus c_dash widths else rule_of c_dollar c_tilde widths;
         records_line (size (o_recs ob))])) /\
      column_widths_are w (fun r => r ∈ o_recs ob) ks widths /\
      Forall2 (fun r row => exists ts, texts_of w r ks ts /\ fit_columns widths ts /\ row = row_of widths ts ++ (if ids then tx " " ++ addr r else [])) rs rows.
Proof. exact t_C37_print_exact. Qed.
Print Assumptions C37_print_exact.
Example ex_C37_print_exact :
  exists b ord w o ob amt primary rev keys ks key rs,
    reach b w /\
    fair ord /\
    vault_at w o ob /\
    ks = match keys with [] => get_keys ob | _ => keys end /\
    (if decide (primary = ""%string) then head ks else Some primary) = Some key /\
    (forall k, k ∈ key :: ks -> is_Some (get_key_type ob k)) /\
    sorted_records w o key rev amt = Some rs /\
    length rs = 3.
Proof. exact tex_C37_print_exact. Qed.

(** C37: the same for a set. *)
Theorem C37_set_print_exact :
  forall ord w s sb p ids amt primary rev keys addr ks key rs, reach true w -> fair ord -> set_at w s sb -> o_parent sb = Some p ->
    ks = match keys with [] => get_keys sb | _ => keys end -> (if decide (primary = ""%string) then head ks else Some primary) = Some key ->
    (forall k, k ∈ key :: ks -> is_Some (get_key_type sb k)) -> sorted_records w s key rev amt = Some rs ->
    exists widths rows,
      set_print ord w s ids amt primary rev keys addr = Some (lines (
        [rule_of c_plus c_dash widths; row_of widths (tx <$> ks); rule_of c_plus c_dash widths] ++ rows ++
        [if match amt with None => true | Some n => size (o_recs sb) <=? n end then rule_of c_plus c_dash widths else rule_of c_dollar c_tilde widths;
         records_line (size (o_recs sb))])) /\
      column_widths_are w (fun r => r ∈ o_recs sb) ks widths /\
      Forall2 (fun r row => exists ts, texts_of w r ks ts /\ fit_columns widths ts /\ row = row_of widths ts ++ (if ids then tx " " ++ addr r else [])) rs rows.
Proof. exact t_C37_set_print_exact. Qed.
Print Assumptions C37_set_print_exact.
Example ex_C37_set_print_exact :
  exists ord w s sb p amt primary rev keys ks key rs,
    reach true w /\
    fair ord /\
    set_at w s sb /\
    o_parent sb = Some p /\
    ks = match keys with [] => get_keys sb | _ => keys end /\
    (if decide (primary = ""%string) then head ks else Some primary) = Some key /\
    (forall k, k ∈ key :: ks -> is_Some (get_key_type sb k)) /\
    sorted_records w s key rev amt = Some rs /\
    length rs = 3.
Proof. exact tex_C37_set_print_exact. Qed.

(** C37: without the identifiers all lines but the last ("(n records)") have the same number of bytes; if no name and no value contains a line
    break, these are the lines of the output. *)
Theorem C37_aligned :
  forall b ord w o ob pv amt primary rev keys addr ks key, reach b w -> fair ord -> source_at b w o ob pv ->
    ks = match keys with [] => get_keys ob | _ => keys end -> (if decide (primary = ""%string) then head ks else Some primary) = Some key ->
    (forall k, k ∈ key :: ks -> is_Some (get_key_type ob k)) ->
    exists n ls last, vault_print ord w o false amt primary rev keys addr = Some (lines (ls ++ [last])) /\ 4 <= length ls /\ Forall (fun l => length l = n) ls /\
      ((forall k, k ∈ ks -> LF ∉ tx k) -> (forall r k v, r ∈ o_recs ob -> k ∈ ks -> stored w r k = Some v -> LF ∉ to_string v) -> Forall (fun l => LF ∉ l) (ls ++ [last])).
Proof. exact t_C37_aligned. Qed.
Print Assumptions C37_aligned.
Example ex_C37_aligned :
  exists b ord w o ob pv primary keys ks key,
    reach b w /\
    fair ord /\
    source_at b w o ob pv /\
    ks = match keys with [] => get_keys ob | _ => keys end /\
    (if decide (primary = ""%string) then head ks else Some primary) = Some key /\
    (forall k, k ∈ key :: ks -> is_Some (get_key_type ob k)) /\
    size (o_recs ob) = 4.
Proof. exact tex_C37_aligned. Qed.

(** C37: when the records are filed under the key the table is sorted by, every one of them has its row. *)
Theorem C37_all_records_shown :
  forall b ord w o ob pv ids primary rev keys addr ks key, reach b w -> fair ord -> source_at b w o ob pv -> indexed w ob ->
    ks = match keys with [] => get_keys ob | _ => keys end -> (if decide (primary = ""%string) then head ks else Some primary) = Some key ->
    (forall k, k ∈ key :: ks -> is_Some (get_key_type ob k)) ->
    exists widths rs above rows below, vault_print ord w o ids None primary rev keys addr = Some (lines (above ++ rows ++ below)) /\ rs ≡ₚ elements (o_recs ob) /\
      Forall2 (fun r row => exists ts, texts_of w r ks ts /\ fit_columns widths ts /\ row = row_of widths ts ++ (if ids then tx " " ++ addr r else [])) rs rows.
Proof. exact t_C37_all_records_shown. Qed.
Print Assumptions C37_all_records_shown.
Example ex_C37_all_records_shown :
  exists b ord w o ob pv primary keys ks key,
    reach b w /\
    fair ord /\
    source_at b w o ob pv /\
    indexed w ob /\
    ks = match keys with [] => get_keys ob | _ => keys end /\
    (if decide (primary = ""%string) then head ks else Some primary) = Some key /\
    (forall k, k ∈ key :: ks -> is_Some (get_key_type ob k)) /\
    size (o_recs ob) = 3.
Proof. exact tex_C37_all_records_shown. Qed.

(** C37: a set without a vault prints a message. *)
Theorem C37_set_not_valid :
  forall ord w s sb ids amt primary rev keys addr, set_at w s sb -> o_parent sb = None ->
    set_print ord w s ids amt primary rev keys addr = Some (lines [tx "The parent Vault is not valid!"]).
Proof. exact t_C37_set_not_valid. Qed.
Print Assumptions C37_set_not_valid.
Example ex_C37_set_not_valid :
  exists w s sb,
    set_at w s sb /\
    o_parent sb = None.
Proof. exact tex_C37_set_not_valid. Qed.

(** C37: PrintAsTable on references to valid records of a vault: a row for each of them, or for the first [n]. *)
Theorem C37_table_of_refs :
  forall b w o ob rfs ids amt keys addr ks, reach b w -> vault_at w o ob -> rfs <> [] ->
    (forall rf, rf ∈ rfs -> f_vlt rf = Some o /\ exists r, f_rec rf = Some r /\ r ∈ o_recs ob) ->
    ks = match keys with [] => get_keys ob | _ => keys end -> (forall k, k ∈ ks -> is_Some (get_key_type ob k)) -> amt <> Some 0 ->
    exists widths rows,
      print_as_table w rfs ids amt keys addr = Some (lines (
        [rule_of c_plus c_dash widths; row_of widths (tx <$> ks); rule_of c_plus c_dash widths] ++ rows ++
        [if match amt with None => true | Some n => length rfs <=? n end then rule_of c_plus c_dash widths else rule_of c_dollar c_tilde widths;
         records_line (length rfs)])) /\
      column_widths_are w (fun r => exists rf, rf ∈ rfs /\ f_rec rf = Some r) ks widths /\
      Forall2 (fun rf row => exists r ts, f_rec rf = Some r /\ texts_of w r ks ts /\ fit_columns widths ts /\ row = row_of widths ts ++ (if ids then tx " " ++ addr r else []))
        (match amt with None => rfs | Some n => take n rfs end) rows.
Proof. exact t_C37_table_of_refs. Qed.
Print Assumptions C37_table_of_refs.
Example ex_C37_table_of_refs :
  exists b w o ob rfs amt keys ks,
    reach b w /\
    vault_at w o ob /\
    rfs <> [] /\
    (forall rf, rf ∈ rfs -> f_vlt rf = Some o /\ exists r, f_rec rf = Some r /\ r ∈ o_recs ob) /\
    ks = match keys with [] => get_keys ob | _ => keys end /\
    (forall k, k ∈ ks -> is_Some (get_key_type ob k)) /\
    amt <> Some 0.
Proof. exact tex_C37_table_of_refs. Qed.

(** C37: PrintRecord shows all keys of the record with the texts of their values. Missing: states in which AddUniqueKey has failed, see below. *)
Theorem C37_print_record_partial :
  forall b (ko : list string -> list string) w f rf r o ob addr, reach b w -> w_refs w !! f = Some rf -> f_rec rf = Some r -> f_vlt rf = Some o -> vault_at w o ob -> valid_rec w r ->
    (forall l, ko l ≡ₚ l) -> (forall k, is_Some (o_idx ob !! k) -> is_Some (get_key_type ob k)) ->
    exists ks ts, ks ≡ₚ get_keys ob /\ texts_of w r ks ts /\
      print_record ko w rf addr = Some (lines ((tx "Vault record " ++ addr r ++ tx ":") :: zip_with (fun k t => tab ++ tx k ++ tx " = " ++ t) ks ts)).
Proof. exact t_C37_print_record_partial. Qed.
Print Assumptions C37_print_record_partial.
Example ex_C37_print_record_partial :
  exists b (ko : list string -> list string) w f rf r o ob,
    reach b w /\
    w_refs w !! f = Some rf /\
    f_rec rf = Some r /\
    f_vlt rf = Some o /\
    vault_at w o ob /\
    valid_rec w r /\
    (forall l, ko l ≡ₚ l) /\
    (forall k, is_Some (o_idx ob !! k) -> is_Some (get_key_type ob k)).
Proof. exact tex_C37_print_record_partial. Qed.
