(** Generated by tools/gen_ex.py from tools/examples.txt. *)
From Verif Require Import T_Refs Ex_Base.
Open Scope nat_scope.

Lemma tex_C18_allocated_iff_used :
  exists b w r,
    reach b w /\
    is_Some (w_recs w !! r).
Proof. exists (true), (W), (4); ex. Qed.

Lemma tex_C18_ref_ops_defined :
  exists b ord w p,
    fair ord /\
    reach b w /\
    plain_ref_op p.
Proof. exists (true), (id_order), (W), (OCopyRef 9 4); ex. Qed.

Lemma tex_C18_safe_programs_defined :
  exists ord w p,
    fair ord /\
    reach true w /\
    allowed true w p.
Proof. exists (id_order), (W), (OEraseRecords 0 "age" (VInt I32 30) None); ex. Qed.

Lemma tex_C20_isvalid_exact :
  exists b w f rf,
    reach b w /\
    w_refs w !! f = Some rf.
Proof. exists (true), (W), (4), (rf_at (W) (4)); ex. Qed.

Lemma tex_C20_equality_meaning :
  exists b w f g rf rg,
    reach b w /\
    w_refs w !! f = Some rf /\
    w_refs w !! g = Some rg.
Proof. exists (true), (W), (0), (1), (rf_at (W) 0), (rf_at (W) 1); ex. Qed.

Lemma tex_C20_equality_equivalence :
  exists b w f g h rf rg rh,
    reach b w /\
    w_refs w !! f = Some rf /\
    w_refs w !! g = Some rg /\
    w_refs w !! h = Some rh.
Proof. exists (true), (W), (0), (4), (9), (rf_at (W) (0)), (rf_at (W) 4), (rf_at (W) 9); ex. Qed.

Lemma tex_C42_setmany_is_sequence :
  exists ord w f ps w' res,
    w_refs w !! f <> None /\
    step ord w (OSetMany f ps) = Some (w', ORes res) /\
    res_ok res = false /\ stored w' 0 "age" <> stored w 0 "age".
Proof. exists (id_order), (W), (0), ([("age", VInt I32 9); ("id", VInt I32 8); ("name", VStr "x")]), (nw (W) (OSetMany (0) ([("age", VInt I32 9); ("id", VInt I32 8); ("name", VStr "x")]))), (res_of (W) (OSetMany (0) ([("age", VInt I32 9); ("id", VInt I32 8); ("name", VStr "x")]))); ex; ne. Qed.

Lemma tex_C42_success_stores_all :
  exists b ord w f r o ob ps w' res,
    fair ord /\
    reach b w /\
    allowed b w (OSetMany f ps) /\
    denotes w f r /\
    bound_to w f o /\
    vault_at w o ob /\
    step ord w (OSetMany f ps) = Some (w', ORes res) /\
    res_ok res = true.
Proof. exists (true), (id_order), (W), (0), (0), (0), (ob_at (W) (0)), ([("age", VInt I32 9); ("name", VStr "x"); ("age", VInt I32 10)]), (nw (W) (OSetMany (0) ([("age", VInt I32 9); ("name", VStr "x"); ("age", VInt I32 10)]))), (res_of (W) (OSetMany (0) ([("age", VInt I32 9); ("name", VStr "x"); ("age", VInt I32 10)]))); ex. Qed.
