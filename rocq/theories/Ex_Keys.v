(** Generated by tools/gen_ex.py from tools/examples.txt. *)
From Verif Require Import T_Keys Ex_Base.
Open Scope nat_scope.

Lemma tex_C13_getters_agree :
  exists b w o ob,
    reach b w /\
    vault_at w o ob /\
    get_keys ob = ["id"; "age"; "name"].
Proof. exists (true), (W), (0), (ob_at (W) (0)); ex. Qed.

Lemma tex_C13_set_keys :
  exists w s sb o ob,
    reach true w /\
    set_at w s sb /\
    o_parent sb = Some o /\
    vault_at w o ob.
Proof. exists (W), (10), (ob_at (W) (10)), (0), (ob_at (W) (0)); ex. Qed.

Lemma tex_C43_types_hold :
  exists b w o ob r,
    reach b w /\
    vault_at w o ob /\
    r ∈ o_recs ob.
Proof. exists (true), (W), (0), (ob_at (W) (0)), (0); ex. Qed.

Lemma tex_C15_duplicate_rejected :
  exists ord w o ob (k : string) d t w' out p,
    vault_at w o ob /\
    get_key_type ob k = Some t /\
    (p = OAddKey o k d \/ (p = OAddUniqueKey o k (vty d)) \/ exists g, p = OAddUniqueKeyFn o k (vty d) g) /\
    step ord w p = Some (w', out).
Proof. exists (id_order), (W), (0), (ob_at (W) (0)), ("age"), (VInt I32 5), (TInt I32), (nw (W) (OAddKey 0 "age" (VInt I32 5))), (out_of (W) (OAddKey 0 "age" (VInt I32 5))), (OAddKey 0 "age" (VInt I32 5)); ex; by left. Qed.

Lemma tex_C15_addkey_exact :
  exists b ord w o ob (k : string) d w' out,
    fair ord /\
    reach b w /\
    vault_at w o ob /\
    get_key_type ob k = None /\
    step ord w (OAddKey o k d) = Some (w', out) /\
    size (o_recs ob) = 4.
Proof. exists (true), (id_order), (W), (0), (ob_at (W) (0)), ("tall"), (VBool true), (nw (W) (OAddKey (0) ("tall") (VBool true))), (out_of (W) (OAddKey (0) ("tall") (VBool true))); ex. Qed.

Lemma tex_C15_sets_get_key :
  exists ord w o ob (k : string) d w' out s sb,
    fair ord /\
    reach true w /\
    vault_at w o ob /\
    get_key_type ob k = None /\
    step ord w (OAddKey o k d) = Some (w', out) /\
    set_at w s sb /\
    o_parent sb = Some o /\
    size (o_recs sb) = 3.
Proof. exists (id_order), (W), (0), (ob_at (W) (0)), ("tall"), (VBool true), (nw (W) (OAddKey (0) ("tall") (VBool true))), (out_of (W) (OAddKey (0) ("tall") (VBool true))), (10), (ob_at (W) (10)); ex. Qed.

Lemma tex_C16_generated_exact :
  exists b ord w o ob (k : string) t g w' out,
    fair ord /\
    reach b w /\
    allowed b w (OAddUniqueKeyFn o k t g) /\
    vault_at w o ob /\
    get_key_type ob k = None /\
    step ord w (OAddUniqueKeyFn o k t g) = Some (w', out) /\
    size (o_recs ob) = 4 /\ out = ORes (okres Success k (Some t) None).
Proof. exists (true), (id_order), (state true (sc_keys ++ sc_recs)), (0), (ob_at (state true (sc_keys ++ sc_recs)) (0)), ("nr"), (TInt I64), (fun i _ _ => VInt I64 (Z.of_nat i)), (nw (state true (sc_keys ++ sc_recs)) (OAddUniqueKeyFn (0) ("nr") (TInt I64) (fun i _ _ => VInt I64 (Z.of_nat i)))), (out_of (state true (sc_keys ++ sc_recs)) (OAddUniqueKeyFn (0) ("nr") (TInt I64) (fun i _ _ => VInt I64 (Z.of_nat i)))); ex. Qed.

Lemma tex_C16_generated_exact__clash :
  exists b ord w o ob (k : string) t g w' out,
    fair ord /\
    reach b w /\
    allowed b w (OAddUniqueKeyFn o k t g) /\
    vault_at w o ob /\
    get_key_type ob k = None /\
    step ord w (OAddUniqueKeyFn o k t g) = Some (w', out) /\
    size (o_recs ob) = 4 /\ out = ORes (bad UniqueKeyValueAlredyInSet k (Some t) None).
Proof. exists (true), (id_order), (state true (sc_keys ++ sc_recs)), (0), (ob_at (state true (sc_keys ++ sc_recs)) (0)), ("nr"), (TInt I64), (fun i _ _ => VInt I64 (Z.of_nat (i / 2))), (nw (state true (sc_keys ++ sc_recs)) (OAddUniqueKeyFn (0) ("nr") (TInt I64) (fun i _ _ => VInt I64 (Z.of_nat (i / 2))))), (out_of (state true (sc_keys ++ sc_recs)) (OAddUniqueKeyFn (0) ("nr") (TInt I64) (fun i _ _ => VInt I64 (Z.of_nat (i / 2))))); ex. Qed.

Lemma tex_C16_without_generator :
  exists b ord w o ob (k : string) t w' out,
    fair ord /\
    reach b w /\
    vault_at w o ob /\
    get_key_type ob k = None /\
    step ord w (OAddUniqueKey o k t) = Some (w', out) /\
    out = ORes (okres Success k (Some t) None).
Proof. exists (true), (id_order), (state true sc_keys), (0), (ob_at (state true sc_keys) (0)), ("nr"), (TInt I64), (nw (state true sc_keys) (OAddUniqueKey (0) ("nr") (TInt I64))), (out_of (state true sc_keys) (OAddUniqueKey (0) ("nr") (TInt I64))); ex. Qed.

Lemma tex_C16_without_generator__records :
  exists b ord w o ob (k : string) t w' out,
    fair ord /\
    reach b w /\
    vault_at w o ob /\
    get_key_type ob k = None /\
    step ord w (OAddUniqueKey o k t) = Some (w', out) /\
    o_recs ob <> ∅.
Proof. exists (true), (id_order), (W), (0), (ob_at (W) (0)), ("nr"), (TInt I64), (nw (W) (OAddUniqueKey (0) ("nr") (TInt I64))), (out_of (W) (OAddUniqueKey (0) ("nr") (TInt I64))); ex. Qed.
