(** Generated by tools/gen_ex.py from tools/examples.txt. *)
From Verif Require Import T_Sets Ex_Base.
Open Scope nat_scope.

Lemma tex_C23_join_exact :
  exists b ord w s a sb ab w' out,
    fair ord /\
    reach b w /\
    set_at w s sb /\
    set_at w a ab /\
    step ord w (OJoin s a) = Some (w', out) /\
    out = ORes (okres Success "" None None) /\ o_recs (ob_at w' s) <> o_recs sb.
Proof. exists (true), (id_order), (W), (10), (11), (ob_at (W) (10)), (ob_at (W) (11)), (nw (W) (OJoin (10) (11))), (out_of (W) (OJoin (10) (11))); ex. Qed.

Lemma tex_C23_exclude_exact :
  exists b ord w s a sb ab w' out,
    fair ord /\
    reach b w /\
    set_at w s sb /\
    set_at w a ab /\
    step ord w (OExclude s a) = Some (w', out) /\
    out = ORes (okres Success "" None None) /\ o_recs (ob_at w' s) <> o_recs sb.
Proof. exists (true), (id_order), (W), (10), (11), (ob_at (W) (10)), (ob_at (W) (11)), (nw (W) (OExclude (10) (11))), (out_of (W) (OExclude (10) (11))); ex. Qed.

Lemma tex_C23_intersect_exact :
  exists b ord w s a sb ab w' out,
    fair ord /\
    reach b w /\
    set_at w s sb /\
    set_at w a ab /\
    step ord w (OIntersect s a) = Some (w', out) /\
    out = ORes (okres Success "" None None) /\ o_recs (ob_at w' s) <> o_recs sb.
Proof. exists (true), (id_order), (W), (10), (11), (ob_at (W) (10)), (ob_at (W) (11)), (nw (W) (OIntersect (10) (11))), (out_of (W) (OIntersect (10) (11))); ex. Qed.

Lemma tex_C23_union_exact :
  exists b ord w x y z xb yb zb w' out,
    fair ord /\
    reach b w /\
    set_at w x xb /\
    set_at w y yb /\
    set_at w z zb /\
    allowed false w (OUnion x y z) /\
    step ord w (OUnion x y z) = Some (w', out) /\
    out = ORes (okres Success "" None None) /\ size (o_recs (ob_at w' z)) = 4.
Proof. exists (true), (id_order), (W), (10), (11), (12), (ob_at (W) (10)), (ob_at (W) (11)), (ob_at (W) (12)), (nw (W) (OUnion (10) (11) (12))), (out_of (W) (OUnion (10) (11) (12))); ex. Qed.

Lemma tex_C23_intersection_exact :
  exists b ord w x y z xb yb zb w' out,
    fair ord /\
    reach b w /\
    set_at w x xb /\
    set_at w y yb /\
    set_at w z zb /\
    allowed false w (OIntersection x y z) /\
    step ord w (OIntersection x y z) = Some (w', out) /\
    out = ORes (okres Success "" None None) /\ size (o_recs (ob_at w' z)) = 2.
Proof. exists (true), (id_order), (W), (10), (11), (12), (ob_at (W) (10)), (ob_at (W) (11)), (ob_at (W) (12)), (nw (W) (OIntersection (10) (11) (12))), (out_of (W) (OIntersection (10) (11) (12))); ex. Qed.

Lemma tex_C23_defined :
  exists ord w s a sb ab,
    fair ord /\
    reach true w /\
    set_at w s sb /\
    set_at w a ab /\
    o_recs sb <> o_recs ab.
Proof. exists (id_order), (W), (10), (11), (ob_at (W) (10)), (ob_at (W) (11)); ex. Qed.
