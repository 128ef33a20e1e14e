(** Generated by tools/gen_p.py from T_Follow.v: the property theorems, nothing else. *)
From Verif Require Import T_Follow Ex_Base Ex_Follow.
Open Scope nat_scope.

(** C22: erasing records from a vault takes a record out of a set exactly when the record is registered with the set. A record the set
    only got by Join, from the second operand of Union, or by Intersection stays in it, although it is no longer valid. *)
Theorem C22_set_loses_iff_registered :
  forall b ord w p o ob w' out s sb, fair ord -> reach b w -> vault_at w o ob -> erases_from o p -> step ord w p = Some (w', out) ->
    set_at w s sb ->
    exists sb', set_at w' s sb' /\ sb' = ob_recs (o_recs sb') (ob_idx (o_idx sb') sb) /\
      (forall r, r ∈ o_recs sb' <-> r ∈ o_recs sb /\ ~ (dependent w r s /\ ~ valid_rec w' r)) /\
      (o_parent sb <> Some o -> sb' = sb).
Proof. exact t_C22_set_loses_iff_registered. Qed.
Print Assumptions C22_set_loses_iff_registered.
Example ex_C22_set_loses_iff_registered :
  exists b ord w p o ob w' out s sb,
    fair ord /\
    reach b w /\
    vault_at w o ob /\
    erases_from o p /\
    step ord w p = Some (w', out) /\
    set_at w s sb /\
    2 ∈ o_recs sb /\ ~ valid_rec w' 2.
Proof. exact tex_C22_set_loses_iff_registered. Qed.
Example ex_C22_set_loses_iff_registered__filled :
  exists b ord w p o ob w' out s sb,
    fair ord /\
    reach b w /\
    vault_at w o ob /\
    erases_from o p /\
    step ord w p = Some (w', out) /\
    set_at w s sb /\
    0 ∈ o_recs sb /\ ~ valid_rec w' 0.
Proof. exact tex_C22_set_loses_iff_registered__filled. Qed.

(** C21: a successful SetData refiles the record in a set exactly when the record is registered with the set, whether the set holds it or not:
    out of the entries under its old value - all of them, if the record is one - and into those under the new value. *)
Theorem C21_set_follows_iff_registered :
  forall b ord w f r o ob k v w' res s sb old, fair ord -> reach b w -> allowed b w (OSetData f k v) ->
    denotes w f r -> bound_to w f o -> vault_at w o ob ->
    step ord w (OSetData f k v) = Some (w', ORes res) -> res_ok res = true -> stored w r k = Some old ->
    set_at w s sb ->
    (~ dependent w r s -> w_objs w' !! s = Some sb) /\
    (dependent w r s -> exists sb', set_at w' s sb' /\ sb' = ob_idx (o_idx sb') sb /\
       (forall k' v' x, k' <> k -> (filed sb' k' v' x <-> filed sb k' v' x) /\ (filed_ord sb' k' v' x <-> filed_ord sb k' v' x)) /\
       forall ix, get_key_type sb k = Some (vty v) -> o_idx sb !! k = Some ix -> ix_multi ix = true -> forall v' x,
         (filed sb' k v' x <-> (v' = v /\ x = r) \/ (filed sb k v' x /\ ~ (v' = old /\ filed sb k old r))) /\
         (filed_ord sb' k v' x <-> (v' = v /\ x = r) \/ (filed_ord sb k v' x /\ ~ (v' = old /\ filed_ord sb k old r)))).
Proof. exact t_C21_set_follows_iff_registered. Qed.
Print Assumptions C21_set_follows_iff_registered.
Example ex_C21_set_follows_iff_registered :
  exists b ord w f r o ob (k : string) v w' res s sb old,
    fair ord /\
    reach b w /\
    allowed b w (OSetData f k v) /\
    denotes w f r /\
    bound_to w f o /\
    vault_at w o ob /\
    step ord w (OSetData f k v) = Some (w', ORes res) /\
    res_ok res = true /\
    stored w r k = Some old /\
    set_at w s sb /\
    0 ∈ o_recs sb.
Proof. exact tex_C21_set_follows_iff_registered. Qed.
Example ex_C21_set_follows_iff_registered__joined :
  exists b ord w f r o ob (k : string) v w' res s sb old,
    fair ord /\
    reach b w /\
    allowed b w (OSetData f k v) /\
    denotes w f r /\
    bound_to w f o /\
    vault_at w o ob /\
    step ord w (OSetData f k v) = Some (w', ORes res) /\
    res_ok res = true /\
    stored w r k = Some old /\
    set_at w s sb /\
    2 ∈ o_recs sb.
Proof. exact tex_C21_set_follows_iff_registered__joined. Qed.

(** C21: Join registers nothing: the records it adds are followed as far as they were before. *)
Theorem C21_join_registers_nothing :
  forall ord w s a w' out r x, step ord w (OJoin s a) = Some (w', out) -> (dependent w' r x <-> dependent w r x).
Proof. exact t_C21_join_registers_nothing. Qed.
Print Assumptions C21_join_registers_nothing.
Example ex_C21_join_registers_nothing :
  exists ord w s a w' out,
    step ord w (OJoin s a) = Some (w', out) /\
    o_recs (ob_at w' 11) <> o_recs (ob_at w 11).
Proof. exact tex_C21_join_registers_nothing. Qed.

(** C21: nor do Exclude and Intersect change what is registered: the records they take out of the set go on being refiled in it ... *)
Theorem C21_subtract_keeps_registered :
  forall b ord w p s a w' out r x, fair ord -> reach b w -> (p = OExclude s a \/ p = OIntersect s a) ->
    step ord w p = Some (w', out) -> (dependent w' r x <-> dependent w r x).
Proof. exact t_C21_subtract_keeps_registered. Qed.
Print Assumptions C21_subtract_keeps_registered.
Example ex_C21_subtract_keeps_registered :
  exists b ord w p s a w' out,
    fair ord /\
    reach b w /\
    (p = OExclude s a \/ p = OIntersect s a) /\
    step ord w p = Some (w', out) /\
    out = ORes (okres Success "" None None).
Proof. exact tex_C21_subtract_keeps_registered. Qed.

(** ... and so do records removed from the set, by reference or by value. *)
Theorem C24_removal_keeps_registered :
  forall b ord w s sb p w' out r x, fair ord -> reach b w -> set_at w s sb -> erases_from s p -> step ord w p = Some (w', out) ->
    (dependent w' r x <-> dependent w r x).
Proof. exact t_C24_removal_keeps_registered. Qed.
Print Assumptions C24_removal_keeps_registered.
Example ex_C24_removal_keeps_registered :
  exists b ord w s sb p w' out,
    fair ord /\
    reach b w /\
    set_at w s sb /\
    erases_from s p /\
    step ord w p = Some (w', out) /\
    o_recs (ob_at w' 10) <> o_recs sb.
Proof. exact tex_C24_removal_keeps_registered. Qed.
Example ex_C24_removal_keeps_registered__by_value :
  exists b ord w s sb p w' out,
    fair ord /\
    reach b w /\
    set_at w s sb /\
    erases_from s p /\
    step ord w p = Some (w', out) /\
    o_recs (ob_at w' 10) <> o_recs sb.
Proof. exact tex_C24_removal_keeps_registered__by_value. Qed.

(** C21: Intersection registers nothing either: a record is registered afterwards only if it was before. *)
Theorem C21_intersection_registers_nothing :
  forall ord w a b res w' out r x, step ord w (OIntersection a b res) = Some (w', out) -> dependent w' r x -> dependent w r x.
Proof. exact t_C21_intersection_registers_nothing. Qed.
Print Assumptions C21_intersection_registers_nothing.
Example ex_C21_intersection_registers_nothing :
  exists ord w a b res w' out r x,
    step ord w (OIntersection a b res) = Some (w', out) /\
    dependent w' r x /\
    o_recs (ob_at w' 12) <> ∅.
Proof. exact tex_C21_intersection_registers_nothing. Qed.

(** C21: Union registers the records of its first operand with the result, and no others. *)
Theorem C21_union_registers_first :
  forall ord w a ab b res w' out r x, fair ord -> set_at w a ab -> step ord w (OUnion a b res) = Some (w', out) -> dependent w' r x ->
    dependent w r x \/ (x = res /\ r ∈ o_recs ab).
Proof. exact t_C21_union_registers_first. Qed.
Print Assumptions C21_union_registers_first.
Example ex_C21_union_registers_first :
  exists ord w a ab b res w' out r x,
    fair ord /\
    set_at w a ab /\
    step ord w (OUnion a b res) = Some (w', out) /\
    dependent w' r x /\
    ~ dependent w r x.
Proof. exact tex_C21_union_registers_first. Qed.
