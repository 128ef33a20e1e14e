(** Generated by tools/gen_ex.py from tools/examples.txt. *)
From Verif Require Import T_Find Ex_Base FindEx.
Open Scope nat_scope.

Lemma tex_C46_unique_keys_findable :
  exists b w o ob (k : string),
    reach b w /\
    vault_at w o ob /\
    k ∈ get_unique_keys ob /\
    size (o_recs ob) = 4.
Proof. exists (true), (W), (0), (ob_at (W) (0)), ("id"); fdx. Qed.

Lemma tex_C46_unique_keys_findable_in_sets :
  exists w s sb o (k : string),
    reach true w /\
    set_at w s sb /\
    o_parent sb = Some o /\
    k ∈ get_unique_keys sb /\
    size (o_recs sb) = 3.
Proof. exists (W), (10), (ob_at (W) (10)), (0), ("id"); fdx. Qed.

Lemma tex_C47_stays_findable_step :
  exists b ord w p w' out o ob (k : string),
    fair ord /\
    reach b w /\
    allowed b w p /\
    step ord w p = Some (w', out) /\
    ~ ends_key o k p /\
    ~ disturbs w p w' o k /\
    vault_at w o ob /\
    is_Some (get_key_type ob k) /\
    findable w ob k /\
    stored w 2 "age" <> stored w' 2 "age".
Proof. exists (true), (id_order), (W), (OSetData 2 "age" (VInt I32 30)), (nw (W) (OSetData 2 "age" (VInt I32 30))), (out_of (W) (OSetData 2 "age" (VInt I32 30))), (0), (ob_at (W) (0)), ("age"); fdx. Qed.

Lemma tex_C47_stays_findable_step__erase :
  exists b ord w p w' out o ob (k : string),
    fair ord /\
    reach b w /\
    allowed b w p /\
    step ord w p = Some (w', out) /\
    ~ ends_key o k p /\
    ~ disturbs w p w' o k /\
    vault_at w o ob /\
    is_Some (get_key_type ob k) /\
    findable w ob k /\
    size (o_recs (ob_at w' 0)) = 2.
Proof. exists (true), (id_order), (W), (OEraseRecords 0 "age" (VInt I32 30) None), (nw (W) (OEraseRecords 0 "age" (VInt I32 30) None)), (out_of (W) (OEraseRecords 0 "age" (VInt I32 30) None)), (0), (ob_at (W) (0)), ("age"); fdx. Qed.

Lemma tex_C47_stays_findable :
  exists b w w' o ob (k : string),
    reach b w /\
    vault_at w o ob /\
    is_Some (get_key_type ob k) /\
    findable w ob k /\
    calm b o k w w' /\
    size (o_recs (ob_at w' 0)) = 4.
Proof. exists (true), (W), (nw (nw (nw W (OEraseRef 0 2)) (OCreateRecord 0 None [("id", VInt I32 9); ("age", VInt I32 30)])) (OSetData 3 "age" (VInt I32 30))), (0), (ob_at (W) (0)), ("age"); fdx. Qed.

Lemma tex_C47_addkey_findable :
  exists b ord w o ob (k : string) d w' out,
    fair ord /\
    reach b w /\
    vault_at w o ob /\
    get_key_type ob k = None /\
    step ord w (OAddKey o k d) = Some (w', out) /\
    size (o_recs ob) = 4.
Proof. exists (true), (id_order), (W), (0), (ob_at (W) (0)), ("new"), (VInt I32 5), (nw (W) (OAddKey (0) ("new") (VInt I32 5))), (out_of (W) (OAddKey (0) ("new") (VInt I32 5))); fdx. Qed.

Lemma tex_C47_request_by_value :
  exists b ord w o ob pv rt (k : string) bv ev ib ie p s w' res,
    fair ord /\
    reach b w /\
    allowed b w (ORequest o rt k bv ev ib ie None p s) /\
    source_at b w o ob pv /\
    o <> s /\
    vty ev = vty bv /\
    get_key_type ob k = Some (vty bv) /\
    findable w ob k /\
    step ord w (ORequest o rt k bv ev ib ie None p s) = Some (w', ORes res) /\
    size (o_recs (ob_at w' s)) = 3.
Proof. exists (true), (id_order), (W), (0), (ob_at (W) (0)), ((0)), (RInterval), ("age"), (VInt I32 18), (VInt I32 40), (true), (false), (None), (12), (nw (W) (ORequest (0) (RInterval) ("age") (VInt I32 18) (VInt I32 40) (true) (false) None (None) (12))), (res_of (W) (ORequest (0) (RInterval) ("age") (VInt I32 18) (VInt I32 40) (true) (false) None (None) (12))); fdx. Qed.

Lemma tex_C47_complex_by_value :
  exists b ord w o ob pv q s w' res,
    fair ord /\
    reach b w /\
    allowed b w (OComplex o q s) /\
    source_at b w o ob pv /\
    o <> s /\
    well_keyed ob q /\
    (forall k, k ∈ request_keys q -> findable w ob k) /\
    step ord w (OComplex o q s) = Some (w', ORes res) /\
    size (o_recs (ob_at w' s)) = 2.
Proof. exists (true), (id_order), (W), (0), (ob_at (W) (0)), ((0)), (QOr (QLeaf LGreater "age" (VInt I32 30) (fun _ _ => true)) (QLeaf LEqual "id" (VInt I32 4) (fun _ _ => true))), (12), (nw (W) (OComplex (0) (QOr (QLeaf LGreater "age" (VInt I32 30) (fun _ _ => true)) (QLeaf LEqual "id" (VInt I32 4) (fun _ _ => true))) (12))), (res_of (W) (OComplex (0) (QOr (QLeaf LGreater "age" (VInt I32 30) (fun _ _ => true)) (QLeaf LEqual "id" (VInt I32 4) (fun _ _ => true))) (12))); fdx. Qed.

Lemma tex_C47_getrecords_by_value :
  exists b ord w o ob pv (k : string) v res l,
    fair ord /\
    reach b w /\
    source_at b w o ob pv /\
    get_key_type ob k = Some (vty v) /\
    findable w ob k /\
    get_records ord w o k v None = Some (res, l).
Proof. exists (true), (id_order), (W), (0), (ob_at (W) (0)), ((0)), ("age"), (VInt I32 30), (okres Success "age" (Some (TInt I32)) (Some (TInt I32))), ([0; 1]); fdx. Qed.

Lemma tex_C47_sorted_all :
  exists b w o ob pv (k : string) l,
    reach b w /\
    source_at b w o ob pv /\
    is_Some (get_key_type ob k) /\
    findable w ob k /\
    sorted_records w o k false None = Some l.
Proof. exists (true), (W), (0), (ob_at (W) (0)), ((0)), ("age"), ([3; 0; 1; 2]); fdx. Qed.
