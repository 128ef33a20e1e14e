(** Generated by tools/gen_ex.py from tools/examples.txt. *)
From Verif Require Import T_Records Ex_Base.
Open Scope nat_scope.

Lemma tex_C01_unique_keys_stay_unique :
  exists b w o ob (k : string) r1 r2,
    reach b w /\
    vault_at w o ob /\
    k ∈ get_unique_keys ob /\
    r1 ∈ o_recs ob /\
    r2 ∈ o_recs ob /\
    r1 <> r2.
Proof. exists (true), (W), (0), (ob_at (W) (0)), ("id"), (0), (2); ex. Qed.

Lemma tex_C02_failed_create_changes_nothing :
  exists b ord w o ob f ps w' res,
    reach b w /\
    vault_at w o ob /\
    step ord w (OCreateRecord o f ps) = Some (w', ORes res) /\
    res_ok res = false.
Proof. exists (true), (id_order), (W), (0), (ob_at (W) (0)), (Some 9), ([("age", VInt I32 9); ("id", VInt I32 2)]), (nw (W) (OCreateRecord (0) (Some 9) ([("age", VInt I32 9); ("id", VInt I32 2)]))), (res_of (W) (OCreateRecord (0) (Some 9) ([("age", VInt I32 9); ("id", VInt I32 2)]))); ex. Qed.

Lemma tex_C02_create_succeeds_iff :
  exists b ord w o ob f ps w' res,
    reach b w /\
    vault_at w o ob /\
    step ord w (OCreateRecord o f ps) = Some (w', ORes res) /\
    res_ok res = true.
Proof. exists (true), (id_order), (W), (0), (ob_at (W) (0)), (Some 9), ([("age", VInt I32 9); ("id", VInt I32 8)]), (nw (W) (OCreateRecord (0) (Some 9) ([("age", VInt I32 9); ("id", VInt I32 8)]))), (res_of (W) (OCreateRecord (0) (Some 9) ([("age", VInt I32 9); ("id", VInt I32 8)]))); ex. Qed.

Lemma tex_C02_create_succeeds_iff__type :
  exists b ord w o ob f ps w' res,
    reach b w /\
    vault_at w o ob /\
    step ord w (OCreateRecord o f ps) = Some (w', ORes res) /\
    res_ok res = false.
Proof. exists (true), (id_order), (W), (0), (ob_at (W) (0)), (None), ([("age", VInt I64 9); ("id", VInt I32 8)]), (nw (W) (OCreateRecord (0) (None) ([("age", VInt I64 9); ("id", VInt I32 8)]))), (res_of (W) (OCreateRecord (0) (None) ([("age", VInt I64 9); ("id", VInt I32 8)]))); ex. Qed.

Lemma tex_C03_create_stores_exactly :
  exists b ord w o ob f ps w' res,
    reach b w /\
    vault_at w o ob /\
    step ord w (OCreateRecord o f ps) = Some (w', ORes res) /\
    res_ok res = true.
Proof. exists (true), (id_order), (W), (0), (ob_at (W) (0)), (Some 0), ([("age", VInt I32 9); ("id", VInt I32 8); ("age", VInt I32 30)]), (nw (W) (OCreateRecord (0) (Some 0) ([("age", VInt I32 9); ("id", VInt I32 8); ("age", VInt I32 30)]))), (res_of (W) (OCreateRecord (0) (Some 0) ([("age", VInt I32 9); ("id", VInt I32 8); ("age", VInt I32 30)]))); ex. Qed.
