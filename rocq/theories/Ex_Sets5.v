(** Generated by tools/gen_ex.py from tools/examples.txt. *)
From Verif Require Import T_Sets5 Ex_Base.
Open Scope nat_scope.

Lemma tex_C23_join_answers :
  exists ord w s a sb ab w' res,
    fair ord /\
    reach true w /\
    set_at w s sb /\
    set_at w a ab /\
    step ord w (OJoin s a) = Some (w', ORes res) /\
    res_ok res = true /\
    o_recs (ob_at w' s) <> o_recs sb /\ filed (ob_at w' s) "age" (VInt I32 18) 3.
Proof. exists (id_order), (W), (10), (11), (ob_at (W) (10)), (ob_at (W) (11)), (nw (W) (OJoin (10) (11))), (res_of (W) (OJoin (10) (11))); ex. Qed.

Lemma tex_C23_union_answers :
  exists ord w x y z xb yb zb w' res,
    fair ord /\
    reach true w /\
    set_at w x xb /\
    set_at w y yb /\
    set_at w z zb /\
    step ord w (OUnion x y z) = Some (w', ORes res) /\
    res_ok res = true /\
    size (o_recs (ob_at w' z)) = 4 /\ filed (ob_at w' z) "age" (VInt I32 18) 3.
Proof. exists (id_order), (W), (10), (11), (12), (ob_at (W) (10)), (ob_at (W) (11)), (ob_at (W) (12)), (nw (W) (OUnion (10) (11) (12))), (res_of (W) (OUnion (10) (11) (12))); ex. Qed.

Lemma tex_C23_intersection_answers :
  exists ord w x y z xb yb zb w' res,
    fair ord /\
    reach true w /\
    set_at w x xb /\
    set_at w y yb /\
    set_at w z zb /\
    step ord w (OIntersection x y z) = Some (w', ORes res) /\
    res_ok res = true /\
    size (o_recs (ob_at w' z)) = 2 /\ filed (ob_at w' z) "age" (VInt I32 30) 1.
Proof. exists (id_order), (W), (10), (11), (12), (ob_at (W) (10)), (ob_at (W) (11)), (ob_at (W) (12)), (nw (W) (OIntersection (10) (11) (12))), (res_of (W) (OIntersection (10) (11) (12))); ex. Qed.

Lemma tex_C23_exclude_answers :
  exists ord w s a sb ab w' res,
    fair ord /\
    reach true w /\
    set_at w s sb /\
    set_at w a ab /\
    step ord w (OExclude s a) = Some (w', ORes res) /\
    res_ok res = true /\
    o_recs (ob_at w' s) <> o_recs sb /\ filed (ob_at w' s) "age" (VInt I32 40) 2.
Proof. exists (id_order), (W), (10), (11), (ob_at (W) (10)), (ob_at (W) (11)), (nw (W) (OExclude (10) (11))), (res_of (W) (OExclude (10) (11))); ex. Qed.

Lemma tex_C23_intersect_answers :
  exists ord w s a sb ab w' res,
    fair ord /\
    reach true w /\
    set_at w s sb /\
    set_at w a ab /\
    step ord w (OIntersect s a) = Some (w', ORes res) /\
    res_ok res = true /\
    o_recs (ob_at w' s) <> o_recs sb /\ filed (ob_at w' s) "age" (VInt I32 30) 1.
Proof. exists (id_order), (W), (10), (11), (ob_at (W) (10)), (ob_at (W) (11)), (nw (W) (OIntersect (10) (11))), (res_of (W) (OIntersect (10) (11))); ex. Qed.
