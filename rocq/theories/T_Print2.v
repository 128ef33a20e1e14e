(** Where printed tables go wrong (C37). *)
From Coq Require Import Ascii.
From Verif Require Export PrintSpec.
From Verif Require Import T_Base T_Sets JsonEx.
From Verif Require Export T_Refuted.
From Verif Require Export VaultModel Spec.
Open Scope nat_scope.

Definition two_names (a b : string) : list op :=
  [ONewVault 0; OAddKey 0 "name" (VStr ""); ONewRef 0; ONewRef 1; OCreateRecord 0 (Some 0) [("name"%string, VStr a)]; OCreateRecord 0 (Some 1) [("name"%string, VStr b)]].
(** Asked for a key that does not exist, Print shows whatever text it came across before, and does not keep the columns. *)
Lemma t_C37_unknown_key_refuted :
  exists w o ob keys ls l1 l2, reach true w /\ vault_at w o ob /\ vault_print id_order w o false None "" false keys (fun _ => []) = Some (lines ls) /\
    l1 ∈ take 5 ls /\ l2 ∈ take 5 ls /\ length l1 <> length l2 /\ Forall (fun l => LF ∉ l) ls /\ l2 = row_of [11; 3] (tx <$> ["a long name"; "a long name"]%string) /\ get_key_type ob "key" = None /\
    keys = ["name"; "key"]%string.
Proof.
  set (w := state true (two_names "a long name" "a")).
  set (ls := [rule_of c_plus c_dash [11; 3]; row_of [11; 3] (tx <$> ["name"; "key"]%string); rule_of c_plus c_dash [11; 3]; row_of [11; 3] (tx <$> ["a"; "a"]%string);
    row_of [11; 3] (tx <$> ["a long name"; "a long name"]%string); rule_of c_plus c_dash [11; 3]; tx " (2 records)"]).
  exists w, 0, (ob_at w 0), ["name"; "key"]%string, ls, (rule_of c_plus c_dash [11; 3]), (row_of [11; 3] (tx <$> ["a long name"; "a long name"]%string)). unfold w, ls.
  rx; try (vm_compute; reflexivity); try dec.
Qed.
(** Sorted by a key that does not exist, Print shows no records at all. *)
Lemma t_C37_unknown_primary_refuted :
  exists w o ob ls, reach true w /\ vault_at w o ob /\ size (o_recs ob) = 2 /\ vault_print id_order w o false None "id" false [] (fun _ => []) = Some (lines ls) /\
    ls = [rule_of c_plus c_dash [5]; row_of [5] [tx "name"]; rule_of c_plus c_dash [5]; rule_of c_plus c_dash [5]; records_line 2].
Proof.
  set (w := state true (two_names "alice" "bob")). eexists w, 0, (ob_at w 0), _. unfold w. rx; try (vm_compute; reflexivity).
Qed.
(** A line break in a value breaks the row. *)
Lemma t_C37_line_break_refuted :
  exists w o ob ls l1 l2, reach true w /\ vault_at w o ob /\ vault_print id_order w o false None "" false [] (fun _ => []) = Some (lines ls) /\
    l1 ∈ take 4 ls /\ l2 ∈ take 4 ls /\ length l1 <> length l2 /\ Forall (fun l => LF ∉ l) ls.
Proof.
  set (w := state true (two_names (st (tx "a" ++ [LF] ++ tx "b")) "bob")).
  exists w, 0, (ob_at w 0), [rule_of c_plus c_dash [4]; row_of [4] [tx "name"]; rule_of c_plus c_dash [4]; tx "| a"; tx "b  |"; tx "| bob  |"; rule_of c_plus c_dash [4]; records_line 2], (rule_of c_plus c_dash [4]), (tx "| a").
  unfold w. rx; try (vm_compute; reflexivity); try dec.
Qed.
(** After AddUniqueKey has failed, PrintRecord reads a value that is not there. *)
Lemma t_C37_failed_unique_key_refuted :
  exists w f rf r, reach true w /\ w_refs w !! f = Some rf /\ f_rec rf = Some r /\ valid_rec w r /\ ref_valid w rf = Some true /\ print_record id w rf (fun _ => []) = None.
Proof.
  set (w := state true (two_names "alice" "bob" ++ [OAddUniqueKey 0 "id" (TInt I32)])). exists w, 0, (rf_at w 0), 0. unfold w. rx; try (vm_compute; reflexivity).
Qed.
(** And Print on a vault that has a record and no key takes the first key of an empty list. *)
Lemma t_C37_failed_unique_key_print_refuted :
  exists w o ob, reach true w /\ vault_at w o ob /\ get_keys ob = [] /\ vault_print id_order w o false None "" false [] (fun _ => []) = None.
Proof.
  set (w := state true [ONewVault 0; OCreateRecord 0 None []; OAddUniqueKey 0 "id" (TInt I32)]). exists w, 0, (ob_at w 0). unfold w. rx; try (vm_compute; reflexivity).
Qed.
(** PrintAsTable shows the texts of another record for a reference whose record was erased. *)
Lemma t_C37_erased_reference_refuted :
  exists w f0 f1 ls, reach true w /\ print_as_table w [rf_at w f0; rf_at w f1] false None ["name"%string] (fun _ => []) = Some (lines ls) /\ ref_valid w (rf_at w f1) = Some false /\
    ls !! 3 = Some (row_of [5] [tx "alice"]) /\ ls !! 4 = Some (row_of [5] [tx "alice"]).
Proof.
  set (w := state true (two_names "alice" "bob" ++ [OEraseRef 0 1])).
  eexists w, 0, 1, [rule_of c_plus c_dash [5]; row_of [5] [tx "name"]; rule_of c_plus c_dash [5]; row_of [5] [tx "alice"]; row_of [5] [tx "alice"]; rule_of c_plus c_dash [5]; records_line 2]. unfold w.
  rx; try (vm_compute; reflexivity).
Qed.
(** PrintAsTable with an amount of 0 prints all. *)
Lemma t_C37_amount_zero_refuted :
  exists w f0 f1 ls, reach true w /\ print_as_table w [rf_at w f0; rf_at w f1] false (Some 0) [] (fun _ => []) = Some (lines ls) /\
    ls !! 3 = Some (row_of [5] [tx "alice"]) /\ ls !! 4 = Some (row_of [5] [tx "bob"]).
Proof.
  set (w := state true (two_names "alice" "bob")).
  eexists w, 0, 1, [rule_of c_plus c_dash [5]; row_of [5] [tx "name"]; rule_of c_plus c_dash [5]; row_of [5] [tx "alice"]; row_of [5] [tx "bob"]; rule_of c_dollar c_tilde [5]; records_line 2]. unfold w.
  rx; try (vm_compute; reflexivity).
Qed.
