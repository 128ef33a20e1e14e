(** Generated by tools/gen_ex.py from tools/examples.txt. *)
From Verif Require Import T_Print Ex_Base PrintEx.
Open Scope nat_scope.

Lemma tex_C37_print_exact :
  exists b ord w o ob amt primary rev keys ks key rs,
    reach b w /\
    fair ord /\
    vault_at w o ob /\
    ks = match keys with [] => get_keys ob | _ => keys end /\
    (if decide (primary = ""%string) then head ks else Some primary) = Some key /\
    (forall k, k ∈ key :: ks -> is_Some (get_key_type ob k)) /\
    sorted_records w o key rev amt = Some rs /\
    length rs = 3.
Proof. exists (true), (id_order), (W), (0), (ob_at (W) (0)), (Some 3), ("age"), (false), ([]), (get_keys (ob_at (W) 0)), ("age"), (default [] (sorted_records (W) 0 "age" false (Some 3))); px. Qed.

Lemma tex_C37_set_print_exact :
  exists ord w s sb p amt primary rev keys ks key rs,
    reach true w /\
    fair ord /\
    set_at w s sb /\
    o_parent sb = Some p /\
    ks = match keys with [] => get_keys sb | _ => keys end /\
    (if decide (primary = ""%string) then head ks else Some primary) = Some key /\
    (forall k, k ∈ key :: ks -> is_Some (get_key_type sb k)) /\
    sorted_records w s key rev amt = Some rs /\
    length rs = 3.
Proof. exists (id_order), (W), (10), (ob_at (W) (10)), (0), (None), (""), (false), (["age"; "name"]), (["age"; "name"]), ("age"), (default [] (sorted_records (W) 10 "age" false None)); px. Qed.

Lemma tex_C37_aligned :
  exists b ord w o ob pv primary keys ks key,
    reach b w /\
    fair ord /\
    source_at b w o ob pv /\
    ks = match keys with [] => get_keys ob | _ => keys end /\
    (if decide (primary = ""%string) then head ks else Some primary) = Some key /\
    (forall k, k ∈ key :: ks -> is_Some (get_key_type ob k)) /\
    size (o_recs ob) = 4.
Proof. exists (true), (id_order), (W), (0), (ob_at (W) (0)), ((0)), (""), (["age"; "name"]), (["age"; "name"]), ("age"); px. Qed.

Lemma tex_C37_all_records_shown :
  exists b ord w o ob pv primary keys ks key,
    reach b w /\
    fair ord /\
    source_at b w o ob pv /\
    indexed w ob /\
    ks = match keys with [] => get_keys ob | _ => keys end /\
    (if decide (primary = ""%string) then head ks else Some primary) = Some key /\
    (forall k, k ∈ key :: ks -> is_Some (get_key_type ob k)) /\
    size (o_recs ob) = 3.
Proof. exists (true), (id_order), (state true (sc_keys ++ [OCreateRecord 0 None [("id", VInt I32 1)]; OCreateRecord 0 None [("id", VInt I32 2)]; OCreateRecord 0 None [("id", VInt I32 3); ("age", VInt I32 40)]])), (0), (ob_at (state true (sc_keys ++ [OCreateRecord 0 None [("id", VInt I32 1)]; OCreateRecord 0 None [("id", VInt I32 2)]; OCreateRecord 0 None [("id", VInt I32 3); ("age", VInt I32 40)]])) (0)), ((0)), (""), (["age"; "name"]), (["age"; "name"]), ("age"); px. Qed.

Lemma tex_C37_set_not_valid :
  exists w s sb,
    set_at w s sb /\
    o_parent sb = None.
Proof. exists (W), (12), (ob_at (W) (12)); ex. Qed.

Lemma tex_C37_table_of_refs :
  exists b w o ob rfs amt keys ks,
    reach b w /\
    vault_at w o ob /\
    rfs <> [] /\
    (forall rf, rf ∈ rfs -> f_vlt rf = Some o /\ exists r, f_rec rf = Some r /\ r ∈ o_recs ob) /\
    ks = match keys with [] => get_keys ob | _ => keys end /\
    (forall k, k ∈ ks -> is_Some (get_key_type ob k)) /\
    amt <> Some 0.
Proof. exists (true), (W), (0), (ob_at (W) (0)), ([rf_at (W) 1; rf_at (W) 3; rf_at (W) 0]), (Some 2), ([]), (get_keys (ob_at (W) 0)); px. Qed.

Lemma tex_C37_print_record_partial :
  exists b (ko : list string -> list string) w f rf r o ob,
    reach b w /\
    w_refs w !! f = Some rf /\
    f_rec rf = Some r /\
    f_vlt rf = Some o /\
    vault_at w o ob /\
    valid_rec w r /\
    (forall l, ko l ≡ₚ l) /\
    (forall k, is_Some (o_idx ob !! k) -> is_Some (get_key_type ob k)).
Proof. exists (true), ((fun l => l)), (W), (1), (rf_at (W) (1)), (1), (0), (ob_at (W) (0)); px. Qed.
