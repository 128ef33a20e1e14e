(** Generated by tools/gen_p.py from T_SetData.v: the property theorems, nothing else. *)
From Verif Require Import T_SetData Ex_Base Ex_SetData.
Open Scope nat_scope.

(** C08: rejected SetData changes nothing and says why; on a valid record of the vault it is accepted exactly for existing
    non-unique keys of the value's type. *)
Theorem C08_setdata_answer :
  forall b ord w f r o ob k v w' res, fair ord -> reach b w -> allowed b w (OSetData f k v) ->
    denotes w f r -> bound_to w f o -> vault_at w o ob ->
    step ord w (OSetData f k v) = Some (w', ORes res) ->
    (res_ok res = false -> w' = w) /\
    (~ valid_rec w r -> res = bad DataRecordNotValid k (Some (vty v)) None) /\
    (valid_rec w r -> res = match get_key_type ob k with
                            | None => bad WrongKey k (Some (vty v)) None
                            | Some t => if decide (t = vty v) then
                                          if decide (k ∈ get_unique_keys ob) then bad UniqueKeyValueAlredyInSet k (Some (vty v)) (Some t)
                                          else okres Success k (Some (vty v)) (Some t)
                                        else bad WrongType k (Some (vty v)) (Some t)
                            end).
Proof. exact t_C08_setdata_answer. Qed.
Print Assumptions C08_setdata_answer.
Example ex_C08_setdata_answer :
  exists b ord w f r o ob (k : string) v w' res,
    fair ord /\
    reach b w /\
    allowed b w (OSetData f k v) /\
    denotes w f r /\
    bound_to w f o /\
    vault_at w o ob /\
    step ord w (OSetData f k v) = Some (w', ORes res) /\
    res_ok res = false.
Proof. exact tex_C08_setdata_answer. Qed.
Example ex_C08_setdata_answer__ok :
  exists b ord w f r o ob (k : string) v w' res,
    fair ord /\
    reach b w /\
    allowed b w (OSetData f k v) /\
    denotes w f r /\
    bound_to w f o /\
    vault_at w o ob /\
    step ord w (OSetData f k v) = Some (w', ORes res) /\
    res_ok res = true.
Proof. exact tex_C08_setdata_answer__ok. Qed.

(** C08: the same through a reference that denotes no record. *)
Theorem C08_setdata_empty_ref :
  forall ord w f k v w' res, w_refs w !! f = Some (Ref None None) ->
    step ord w (OSetData f k v) = Some (w', ORes res) -> w' = w /\ res = bad DataRecordNotValid k (Some (vty v)) None.
Proof. exact t_C08_setdata_empty_ref. Qed.
Print Assumptions C08_setdata_empty_ref.
Example ex_C08_setdata_empty_ref :
  exists ord w f (k : string) v w' res,
    w_refs w !! f = Some (Ref None None) /\
    step ord w (OSetData f k v) = Some (w', ORes res).
Proof. exact tex_C08_setdata_empty_ref. Qed.

(** C07: after a successful SetData the record holds the new value and nothing else changed its value. *)
Theorem C07_read_your_write :
  forall b ord w f r o ob k v w' res, fair ord -> reach b w -> allowed b w (OSetData f k v) ->
    denotes w f r -> bound_to w f o -> vault_at w o ob ->
    step ord w (OSetData f k v) = Some (w', ORes res) -> res_ok res = true ->
    r ∈ o_recs ob /\ stored w' r k = Some v /\
    (forall r' k', (r', k') <> (r, k) -> stored w' r' k' = stored w r' k') /\
    w_refs w' = w_refs w /\ (forall x, valid_rec w' x <-> valid_rec w x) /\
    (forall f2 rf2, w_refs w' !! f2 = Some rf2 -> f_rec rf2 = Some r -> f_vlt rf2 = Some o ->
       ref_get_data w' rf2 k (vty v) = Some (okres Success k (Some (vty v)) (Some (vty v)), Some v)).
Proof. exact t_C07_read_your_write. Qed.
Print Assumptions C07_read_your_write.
Example ex_C07_read_your_write :
  exists b ord w f r o ob (k : string) v w' res,
    fair ord /\
    reach b w /\
    allowed b w (OSetData f k v) /\
    denotes w f r /\
    bound_to w f o /\
    vault_at w o ob /\
    step ord w (OSetData f k v) = Some (w', ORes res) /\
    res_ok res = true.
Proof. exact tex_C07_read_your_write. Qed.

(** C07: what GetData answers through a reference bound to a vault. *)
Theorem C07_getdata_exact :
  forall b w f rf r o ob k t, reach b w -> w_refs w !! f = Some rf -> f_rec rf = Some r -> f_vlt rf = Some o -> vault_at w o ob ->
    exists res got, ref_get_data w rf k t = Some (res, got) /\
    (~ valid_rec w r -> res = bad DataRecordNotValid k (Some t) None /\ got = None) /\
    (valid_rec w r -> match get_key_type ob k with
       | None => res = bad WrongKey k (Some t) None /\ got = None
       | Some t' => if decide (t' = t) then res = okres Success k (Some t) (Some t') /\ got = stored w r k /\ is_Some got
                    else res = bad WrongType k (Some t) (Some t') /\ got = None
       end).
Proof. exact t_C07_getdata_exact. Qed.
Print Assumptions C07_getdata_exact.
Example ex_C07_getdata_exact :
  exists b w f rf r o ob,
    reach b w /\
    w_refs w !! f = Some rf /\
    f_rec rf = Some r /\
    f_vlt rf = Some o /\
    vault_at w o ob.
Proof. exact tex_C07_getdata_exact. Qed.

(** C05: exactly what SetData does to the vault's indexes: the record is refiled, and every record filed under the old value
    together with it is no longer filed. *)
Theorem C05_setdata_effect_on_index :
  forall b ord w f r o ob k v w' res, fair ord -> reach b w -> allowed b w (OSetData f k v) ->
    denotes w f r -> bound_to w f o -> vault_at w o ob ->
    step ord w (OSetData f k v) = Some (w', ORes res) -> res_ok res = true ->
    exists ob', vault_at w' o ob' /\ ob' = ob_idx (o_idx ob') ob /\
    forall k' v' x,
      (filed ob' k' v' x <-> if decide (k' = k) then (v' = v /\ x = r) \/ (filed ob k v' x /\ ~ filed ob k v' r) else filed ob k' v' x) /\
      (filed_ord ob' k' v' x <-> if decide (k' = k) then (v' = v /\ x = r) \/ (filed_ord ob k v' x /\ ~ filed_ord ob k v' r) else filed_ord ob k' v' x).
Proof. exact t_C05_setdata_effect_on_index. Qed.
Print Assumptions C05_setdata_effect_on_index.
Example ex_C05_setdata_effect_on_index :
  exists b ord w f r o ob (k : string) v w' res,
    fair ord /\
    reach b w /\
    allowed b w (OSetData f k v) /\
    denotes w f r /\
    bound_to w f o /\
    vault_at w o ob /\
    step ord w (OSetData f k v) = Some (w', ORes res) /\
    res_ok res = true /\
    filed ob "age" (VInt I32 30) 1.
Proof. exact tex_C05_setdata_effect_on_index. Qed.

(** C05 (restricted): records whose value differs from the old value of the changed record stay filed as before, under every key. *)
Theorem C05_setdata_keeps_others_partial :
  forall b ord w f r o ob k v w' res x k', fair ord -> reach b w -> allowed b w (OSetData f k v) ->
    denotes w f r -> bound_to w f o -> vault_at w o ob ->
    step ord w (OSetData f k v) = Some (w', ORes res) -> res_ok res = true ->
    x <> r -> is_Some (get_key_type ob k') -> (k' = k -> stored w x k <> stored w r k) ->
    exists ob', vault_at w' o ob' /\ stored w' x k' = stored w x k' /\
      forall v', (filed ob' k' v' x <-> filed ob k' v' x) /\ (filed_ord ob' k' v' x <-> filed_ord ob k' v' x).
Proof. exact t_C05_setdata_keeps_others_partial. Qed.
Print Assumptions C05_setdata_keeps_others_partial.
Example ex_C05_setdata_keeps_others_partial :
  exists b ord w f r o ob (k : string) v w' res x (k' : string),
    fair ord /\
    reach b w /\
    allowed b w (OSetData f k v) /\
    denotes w f r /\
    bound_to w f o /\
    vault_at w o ob /\
    step ord w (OSetData f k v) = Some (w', ORes res) /\
    res_ok res = true /\
    x <> r /\
    is_Some (get_key_type ob k') /\
    (k' = k -> stored w x k <> stored w r k).
Proof. exact tex_C05_setdata_keeps_others_partial. Qed.

(** C21: a set of the safe class that holds the record refiles it in the same way; other sets are unchanged. *)
Theorem C21_sets_follow_updates :
  forall ord w f r o ob k v w' res s sb, fair ord -> reach true w -> allowed true w (OSetData f k v) ->
    denotes w f r -> bound_to w f o -> vault_at w o ob ->
    step ord w (OSetData f k v) = Some (w', ORes res) -> res_ok res = true ->
    set_at w s sb ->
    if decide (r ∈ o_recs sb) then
      exists sb', set_at w' s sb' /\ sb' = ob_idx (o_idx sb') sb /\ filed sb' k v r /\ filed_ord sb' k v r /\
        (forall v', v' <> v -> ~ filed sb' k v' r /\ ~ filed_ord sb' k v' r)
    else w_objs w' !! s = Some sb.
Proof. exact t_C21_sets_follow_updates. Qed.
Print Assumptions C21_sets_follow_updates.
Example ex_C21_sets_follow_updates :
  exists ord w f r o ob (k : string) v w' res s sb,
    fair ord /\
    reach true w /\
    allowed true w (OSetData f k v) /\
    denotes w f r /\
    bound_to w f o /\
    vault_at w o ob /\
    step ord w (OSetData f k v) = Some (w', ORes res) /\
    res_ok res = true /\
    set_at w s sb /\
    0 ∈ o_recs sb.
Proof. exact tex_C21_sets_follow_updates. Qed.
