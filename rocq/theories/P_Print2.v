(** Generated by tools/gen_p.py from T_Print2.v: the property theorems, nothing else. *)
From Verif Require Import T_Print2.
Open Scope nat_scope.

(** Asked for a key that does not exist, Print shows whatever text it came across before, and does not keep the columns. *)
Theorem C37_unknown_key_refuted :
  exists w o ob keys ls l1 l2, reach true w /\ vault_at w o ob /\ vault_print id_order w o false None "" false keys (fun _ => []) = Some (lines ls) /\
    l1 ∈ take 5 ls /\ l2 ∈ take 5 ls /\ length l1 <> length l2 /\ Forall (fun l => LF ∉ l) ls /\ l2 = row_of [11; 3] (tx <$> ["a long name"; "a long name"]%string) /\ get_key_type ob "key" = None /\
    keys = ["name"; "key"]%string.
Proof. exact t_C37_unknown_key_refuted. Qed.
Print Assumptions C37_unknown_key_refuted.

(** Sorted by a key that does not exist, Print shows no records at all. *)
Theorem C37_unknown_primary_refuted :
  exists w o ob ls, reach true w /\ vault_at w o ob /\ size (o_recs ob) = 2 /\ vault_print id_order w o false None "id" false [] (fun _ => []) = Some (lines ls) /\
    ls = [rule_of c_plus c_dash [5]; row_of [5] [tx "name"]; rule_of c_plus c_dash [5]; rule_of c_plus c_dash [5]; records_line 2].
Proof. exact t_C37_unknown_primary_refuted. Qed.
Print Assumptions C37_unknown_primary_refuted.

(** A line break in a value breaks the row. *)
Theorem C37_line_break_refuted :
  exists w o ob ls l1 l2, reach true w /\ vault_at w o ob /\ vault_print id_order w o false None "" false [] (fun _ => []) = Some (lines ls) /\
    l1 ∈ take 4 ls /\ l2 ∈ take 4 ls /\ length l1 <> length l2 /\ Forall (fun l => LF ∉ l) ls.
Proof. exact t_C37_line_break_refuted. Qed.
Print Assumptions C37_line_break_refuted.

(** After AddUniqueKey has failed, PrintRecord reads a value that is not there. *)
Theorem C37_failed_unique_key_refuted :
  exists w f rf r, reach true w /\ w_refs w !! f = Some rf /\ f_rec rf = Some r /\ valid_rec w r /\ ref_valid w rf = Some true /\ print_record id w rf (fun _ => []) = None.
Proof. exact t_C37_failed_unique_key_refuted. Qed.
Print Assumptions C37_failed_unique_key_refuted.

(** And Print on a vault that has a record and no key takes the first key of an empty list. *)
Theorem C37_failed_unique_key_print_refuted :
  exists w o ob, reach true w /\ vault_at w o ob /\ get_keys ob = [] /\ vault_print id_order w o false None "" false [] (fun _ => []) = None.
Proof. exact t_C37_failed_unique_key_print_refuted. Qed.
Print Assumptions C37_failed_unique_key_print_refuted.

(** PrintAsTable shows the texts of another record for a reference whose record was erased. *)
Theorem C37_erased_reference_refuted :
  exists w f0 f1 ls, reach true w /\ print_as_table w [rf_at w f0; rf_at w f1] false None ["name"%string] (fun _ => []) = Some (lines ls) /\ ref_valid w (rf_at w f1) = Some false /\
    ls !! 3 = Some (row_of [5] [tx "alice"]) /\ ls !! 4 = Some (row_of [5] [tx "alice"]).
Proof. exact t_C37_erased_reference_refuted. Qed.
Print Assumptions C37_erased_reference_refuted.

(** PrintAsTable with an amount of 0 prints all. *)
Theorem C37_amount_zero_refuted :
  exists w f0 f1 ls, reach true w /\ print_as_table w [rf_at w f0; rf_at w f1] false (Some 0) [] (fun _ => []) = Some (lines ls) /\
    ls !! 3 = Some (row_of [5] [tx "alice"]) /\ ls !! 4 = Some (row_of [5] [tx "bob"]).
Proof. exact t_C37_amount_zero_refuted. Qed.
Print Assumptions C37_amount_zero_refuted.
