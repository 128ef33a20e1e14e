(** Generated by tools/gen_ex.py from tools/examples.txt. *)
From Verif Require Import T_Follow Ex_Base.
Open Scope nat_scope.

Lemma tex_C22_set_loses_iff_registered :
  exists b ord w p o ob w' out s sb,
    fair ord /\
    reach b w /\
    vault_at w o ob /\
    erases_from o p /\
    step ord w p = Some (w', out) /\
    set_at w s sb /\
    2 ∈ o_recs sb /\ ~ valid_rec w' 2.
Proof. exists (false), (id_order), (state false (sc ++ [OJoin 11 10])), (OEraseRef 0 2), (0), (ob_at (state false (sc ++ [OJoin 11 10])) (0)), (nw (state false (sc ++ [OJoin 11 10])) (OEraseRef 0 2)), (out_of (state false (sc ++ [OJoin 11 10])) (OEraseRef 0 2)), (11), (ob_at (state false (sc ++ [OJoin 11 10])) (11)); ex. Qed.

Lemma tex_C22_set_loses_iff_registered__filled :
  exists b ord w p o ob w' out s sb,
    fair ord /\
    reach b w /\
    vault_at w o ob /\
    erases_from o p /\
    step ord w p = Some (w', out) /\
    set_at w s sb /\
    0 ∈ o_recs sb /\ ~ valid_rec w' 0.
Proof. exists (true), (id_order), (W), (OEraseRef 0 0), (0), (ob_at (W) (0)), (nw (W) (OEraseRef 0 0)), (out_of (W) (OEraseRef 0 0)), (10), (ob_at (W) (10)); ex. Qed.

Lemma tex_C21_set_follows_iff_registered :
  exists b ord w f r o ob (k : string) v w' res s sb old,
    fair ord /\
    reach b w /\
    allowed b w (OSetData f k v) /\
    denotes w f r /\
    bound_to w f o /\
    vault_at w o ob /\
    step ord w (OSetData f k v) = Some (w', ORes res) /\
    res_ok res = true /\
    stored w r k = Some old /\
    set_at w s sb /\
    0 ∈ o_recs sb.
Proof. exists (true), (id_order), (W), (0), (0), (0), (ob_at (W) (0)), ("age"), (VInt I32 77), (nw (W) (OSetData (0) ("age") (VInt I32 77))), (res_of (W) (OSetData (0) ("age") (VInt I32 77))), (10), (ob_at (W) (10)), (VInt I32 30); ex. Qed.

Lemma tex_C21_set_follows_iff_registered__joined :
  exists b ord w f r o ob (k : string) v w' res s sb old,
    fair ord /\
    reach b w /\
    allowed b w (OSetData f k v) /\
    denotes w f r /\
    bound_to w f o /\
    vault_at w o ob /\
    step ord w (OSetData f k v) = Some (w', ORes res) /\
    res_ok res = true /\
    stored w r k = Some old /\
    set_at w s sb /\
    2 ∈ o_recs sb.
Proof. exists (false), (id_order), (state false (sc ++ [OJoin 11 10])), (2), (2), (0), (ob_at (state false (sc ++ [OJoin 11 10])) (0)), ("age"), (VInt I32 77), (nw (state false (sc ++ [OJoin 11 10])) (OSetData (2) ("age") (VInt I32 77))), (res_of (state false (sc ++ [OJoin 11 10])) (OSetData (2) ("age") (VInt I32 77))), (11), (ob_at (state false (sc ++ [OJoin 11 10])) (11)), (VInt I32 40); ex. Qed.

Lemma tex_C21_join_registers_nothing :
  exists ord w s a w' out,
    step ord w (OJoin s a) = Some (w', out) /\
    o_recs (ob_at w' 11) <> o_recs (ob_at w 11).
Proof. exists (id_order), (W), (11), (10), (nw (W) (OJoin (11) (10))), (out_of (W) (OJoin (11) (10))); ex. Qed.

Lemma tex_C21_subtract_keeps_registered :
  exists b ord w p s a w' out,
    fair ord /\
    reach b w /\
    (p = OExclude s a \/ p = OIntersect s a) /\
    step ord w p = Some (w', out) /\
    out = ORes (okres Success "" None None).
Proof. exists (false), (id_order), (state false sc), (OExclude 10 11), (10), (11), (nw (state false sc) (OExclude 10 11)), (out_of (state false sc) (OExclude 10 11)); ex; by left. Qed.

Lemma tex_C24_removal_keeps_registered :
  exists b ord w s sb p w' out,
    fair ord /\
    reach b w /\
    set_at w s sb /\
    erases_from s p /\
    step ord w p = Some (w', out) /\
    o_recs (ob_at w' 10) <> o_recs sb.
Proof. exists (false), (id_order), (state false sc), (10), (ob_at (state false sc) (10)), (OEraseRef 10 0), (nw (state false sc) (OEraseRef 10 0)), (out_of (state false sc) (OEraseRef 10 0)); ex. Qed.

Lemma tex_C24_removal_keeps_registered__by_value :
  exists b ord w s sb p w' out,
    fair ord /\
    reach b w /\
    set_at w s sb /\
    erases_from s p /\
    step ord w p = Some (w', out) /\
    o_recs (ob_at w' 10) <> o_recs sb.
Proof. exists (false), (id_order), (state false sc), (10), (ob_at (state false sc) (10)), (OEraseRecords 10 "age" (VInt I32 30) None), (nw (state false sc) (OEraseRecords 10 "age" (VInt I32 30) None)), (out_of (state false sc) (OEraseRecords 10 "age" (VInt I32 30) None)); ex. Qed.

Lemma tex_C21_intersection_registers_nothing :
  exists ord w a b res w' out r x,
    step ord w (OIntersection a b res) = Some (w', out) /\
    dependent w' r x /\
    o_recs (ob_at w' 12) <> ∅.
Proof. exists (id_order), (W), (10), (11), (12), (nw (W) (OIntersection (10) (11) (12))), (out_of (W) (OIntersection (10) (11) (12))), (0), (10); ex; eexists; (split; [vm_compute; reflexivity|split; [vm_compute; reflexivity|dec]]). Qed.

Lemma tex_C21_union_registers_first :
  exists ord w a ab b res w' out r x,
    fair ord /\
    set_at w a ab /\
    step ord w (OUnion a b res) = Some (w', out) /\
    dependent w' r x /\
    ~ dependent w r x.
Proof. exists (id_order), (W), (10), (ob_at (W) 10), (11), (12), (nw (W) (OUnion (10) (11) (12))), (out_of (W) (OUnion (10) (11) (12))), (2), (12); ex; [eexists; (split; [vm_compute; reflexivity|split; [vm_compute; reflexivity|dec]])|intros (rc & Hrc & _ & Hx); assert (E : ((fun c => bool_decide (12 ∈ r_deps c)) <$> w_recs W !! 2) = Some false) by (vm_compute; reflexivity); rewrite Hrc in E; apply (inj Some) in E; apply bool_decide_eq_false in E; exact (E Hx)]. Qed.
