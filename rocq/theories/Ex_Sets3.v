(** Generated by tools/gen_ex.py from tools/examples.txt. *)
From Verif Require Import T_Sets3 Ex_Base.
Open Scope nat_scope.

Lemma tex_C09_request_set_indexed :
  exists ord w o ob pv rt (k : string) bv ev ib ie amt p s w' res,
    fair ord /\
    reach true w /\
    source_at true w o ob pv /\
    o <> s /\
    vty ev = vty bv /\
    step ord w (ORequest o rt k bv ev ib ie amt p s) = Some (w', ORes res) /\
    size (o_recs (ob_at w' s)) = 3.
Proof. exists (id_order), (W), (0), (ob_at (W) (0)), ((0)), (RInterval), ("age"), (VInt I32 18), (VInt I32 40), (true), (false), (None), (None), (12), (nw (W) (ORequest (0) (RInterval) ("age") (VInt I32 18) (VInt I32 40) (true) (false) (None) (None) (12))), (res_of (W) (ORequest (0) (RInterval) ("age") (VInt I32 18) (VInt I32 40) (true) (false) (None) (None) (12))); ex. Qed.

Lemma tex_C10_complex_set_indexed :
  exists ord w o ob pv q s w' res,
    fair ord /\
    reach true w /\
    source_at true w o ob pv /\
    o <> s /\
    req_ok q /\
    step ord w (OComplex o q s) = Some (w', ORes res) /\
    size (o_recs (ob_at w' s)) = 2.
Proof. exists (id_order), (W), (0), (ob_at (W) (0)), ((0)), (QOr (QLeaf LGreater "age" (VInt I32 30) (fun _ _ => true)) (QLeaf LEqual "id" (VInt I32 4) (fun _ _ => true))), (12), (nw (W) (OComplex (0) (QOr (QLeaf LGreater "age" (VInt I32 30) (fun _ _ => true)) (QLeaf LEqual "id" (VInt I32 4) (fun _ _ => true))) (12))), (res_of (W) (OComplex (0) (QOr (QLeaf LGreater "age" (VInt I32 30) (fun _ _ => true)) (QLeaf LEqual "id" (VInt I32 4) (fun _ _ => true))) (12))); ex. Qed.

Lemma tex_C25_copy_exact :
  exists b ord w dst src sb w' out,
    fair ord /\
    reach b w /\
    allowed b w (OCopySet dst src) /\
    set_at w src sb /\
    w_objs w !! dst = None /\
    step ord w (OCopySet dst src) = Some (w', out) /\
    size (o_recs sb) = 3.
Proof. exists (true), (id_order), (W), (20), (10), (ob_at (W) 10), (nw (W) (OCopySet (20) (10))), (out_of (W) (OCopySet (20) (10))); ex. Qed.

Lemma tex_C25_assign_exact :
  exists b ord w dst src sb db w' out,
    fair ord /\
    reach b w /\
    allowed b w (OAssignSet dst src) /\
    set_at w src sb /\
    set_at w dst db /\
    dst <> src /\
    step ord w (OAssignSet dst src) = Some (w', out) /\
    size (o_recs sb) = 3 /\ o_recs db <> o_recs sb.
Proof. exists (true), (id_order), (W), (11), (10), (ob_at (W) 10), (ob_at (W) 11), (nw (W) (OAssignSet (11) (10))), (out_of (W) (OAssignSet (11) (10))); ex. Qed.

Lemma tex_C24_add_exact :
  exists b ord w s sb f rf va w' out,
    fair ord /\
    reach b w /\
    set_at w s sb /\
    w_refs w !! f = Some rf /\
    ref_valid w rf = Some va /\
    step ord w (OSetAdd s f) = Some (w', out) /\
    o_recs (ob_at w' s) <> o_recs sb.
Proof. exists (true), (id_order), (W), (10), (ob_at (W) (10)), (3), (rf_at (W) (3)), (true), (nw (W) (OSetAdd (10) (3))), (out_of (W) (OSetAdd (10) (3))); ex. Qed.
