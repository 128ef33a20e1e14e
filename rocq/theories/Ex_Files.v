(** Generated by tools/gen_ex.py from tools/examples.txt. *)
From Verif Require Import T_Files Ex_Base FileEx.
Open Scope nat_scope.

Lemma tex_C35_is_an_operation :
  exists w o ob sep load user handler f w' ok,
    vault_at w o ob /\
    read_file w o sep load user handler (Some f) = Some (w', ok).
Proof. exists (FW), (0), (ob_at (FW) (0)), (comma), (true), ([]), (fun _ row => row), (csv_line comma [tx "id"; tx "name"] ++ csv_line comma [tx "1"; tx "a,b"] ++ csv_line comma [tx "z"]), (after (read_file (FW) (0) (comma) (true) ([]) (fun _ row => row) (Some (csv_line comma [tx "id"; tx "name"] ++ csv_line comma [tx "1"; tx "a,b"] ++ csv_line comma [tx "z"])))), (true); fx. Qed.

Lemma tex_C35_loads_exactly_partial :
  exists b w o ob sep load user handler f w' ok,
    reach b w /\
    vault_at w o ob /\
    read_file w o sep load user handler (Some f) = Some (w', ok) /\
    o_recs (ob_at w' o) = {[3; 4; 6]} /\ get_errors (ob_at w' o) = [(3, "id"); (3, "id")].
Proof. exists (true), (FW), (5), (ob_at (FW) (5)), (comma), (true), ([]), (fun _ row => row), (csv_line comma [tx "id"; tx "name"] ++ csv_line comma [tx "1"; tx "a,b"] ++ csv_line comma [tx "z"] ++ csv_line comma [tx "9"] ++ csv_line comma [tx "7"]), (after (read_file (FW) (5) (comma) (true) ([]) (fun _ row => row) (Some (csv_line comma [tx "id"; tx "name"] ++ csv_line comma [tx "1"; tx "a,b"] ++ csv_line comma [tx "z"] ++ csv_line comma [tx "9"] ++ csv_line comma [tx "7"])))), (true); fx. Qed.

Lemma tex_C35_defined :
  exists b w o ob sep load user handler f,
    reach b w /\
    vault_at w o ob /\
    Forall (row_safe ob load (loaded_keys load (parse_file sep f)) user) (loaded_rows load handler (parse_file sep f)).
Proof. exists (true), (FW), (5), (ob_at (FW) (5)), (comma), (true), ([]), (fun _ row => row), (csv_line comma [tx "id"; tx "name"] ++ csv_line comma [tx "1"; tx "a,b"] ++ csv_line comma [tx "z"; tx "q"; tx "r"]); fx; apply rows_safe_b; vmr. Qed.

Lemma tex_C35_no_file :
  exists w o ob,
    vault_at w o ob.
Proof. exists (FW), (5), (ob_at (FW) (5)); fx. Qed.

Lemma tex_C34_saved_text :
  exists b ord w o ob keys sep hk,
    reach b w /\
    fair ord /\
    vault_at w o ob /\
    (hk = true -> keys = [] -> o_order ob <> []) /\
    save_file id_order w o keys sep hk = Some (saved (save_file id_order w o keys sep hk)) /\ length (saved (save_file id_order w o keys sep hk)) = 46.
Proof. exists (true), (id_order), (FW), (0), (ob_at (FW) (0)), ([]), ([comma]), (true); fx; try (intros _ _; ne). Qed.

Lemma tex_C34_save_load_partial :
  exists b ord w o p ob pb sep hk (handler : list string -> list text -> list text) f,
    reach b w /\
    fair ord /\
    vault_at w o ob /\
    vault_at w p pb /\
    plain_sep sep /\
    o_order ob <> [] /\
    o_order pb = o_order ob /\
    (forall k, get_key_type pb k = get_key_type ob k) /\
    (forall r k v, r ∈ o_recs ob -> stored w r k = Some v -> survives sep v /\ (last (o_order ob) = Some k -> to_string v <> [])) /\
    (forall k, hk = true -> k ∈ o_order ob -> plain_name sep k /\ (last (o_order ob) = Some k -> k <> ""%string)) /\
    (forall k r x, k ∈ get_unique_keys pb -> r ∈ o_recs ob -> x ∈ o_recs pb -> stored w x k <> stored w r k) /\
    (forall k r x, k ∈ get_unique_keys pb -> r ∈ o_recs ob -> x ∈ o_recs ob -> x <> r -> stored w x k <> stored w r k) /\
    (forall ks row, handler ks row = row) /\
    save_file ord w o [] [sep] hk = Some f.
Proof. exists (true), (id_order), (FW), (0), (5), (ob_at (FW) (0)), (ob_at (FW) 5), (comma), (true), (fun _ row => row), (saved (save_file id_order (FW) (0) [] [(comma)] (true))); save_load_tac. Qed.
