(** Generated by tools/gen_ex.py from tools/examples.txt. *)
From Verif Require Import T_Query Ex_Base.
Open Scope nat_scope.

Lemma tex_C09_request_exact :
  exists b ord w o ob pv rt (k : string) bv ev ib ie p s w' res,
    fair ord /\
    reach b w /\
    allowed b w (ORequest o rt k bv ev ib ie None p s) /\
    source_at b w o ob pv /\
    o <> s /\
    vty ev = vty bv /\
    step ord w (ORequest o rt k bv ev ib ie None p s) = Some (w', ORes res) /\
    res_ok res = true /\ size (o_recs (ob_at w' s)) = 3.
Proof. exists (true), (id_order), (W), (0), (ob_at (W) (0)), ((0)), (RInterval), ("age"), (VInt I32 18), (VInt I32 40), (true), (false), (None), (12), (nw (W) (ORequest (0) (RInterval) ("age") (VInt I32 18) (VInt I32 40) (true) (false) None (None) (12))), (res_of (W) (ORequest (0) (RInterval) ("age") (VInt I32 18) (VInt I32 40) (true) (false) None (None) (12))); ex. Qed.

Lemma tex_C09_request_exact__set :
  exists b ord w o ob pv rt (k : string) bv ev ib ie p s w' res,
    fair ord /\
    reach b w /\
    allowed b w (ORequest o rt k bv ev ib ie None p s) /\
    source_at b w o ob pv /\
    o <> s /\
    vty ev = vty bv /\
    step ord w (ORequest o rt k bv ev ib ie None p s) = Some (w', ORes res) /\
    res_ok res = true /\ size (o_recs (ob_at w' s)) = 1.
Proof. exists (true), (id_order), (W), (10), (ob_at (W) 10), (0), (RGreater), ("age"), (VInt I32 30), ((VInt I32 30)), (false), (false), (None), (12), (nw (W) (ORequest (10) (RGreater) ("age") (VInt I32 30) ((VInt I32 30)) (false) (false) None (None) (12))), (res_of (W) (ORequest (10) (RGreater) ("age") (VInt I32 30) ((VInt I32 30)) (false) (false) None (None) (12))); ex. Qed.

Lemma tex_C04_request_sound :
  exists b ord w o ob pv rt (k : string) bv ev ib ie amt p s w' res sb' r,
    fair ord /\
    reach b w /\
    allowed b w (ORequest o rt k bv ev ib ie amt p s) /\
    source_at b w o ob pv /\
    o <> s /\
    vty ev = vty bv /\
    step ord w (ORequest o rt k bv ev ib ie amt p s) = Some (w', ORes res) /\
    set_at w' s sb' /\
    r ∈ o_recs sb'.
Proof. exists (true), (id_order), (W), (0), (ob_at (W) (0)), ((0)), (RLess), ("age"), (VInt I32 40), ((VInt I32 40)), (false), (false), (Some 2), (Some (fun r _ => Nat.even r)), (12), (nw (W) (ORequest (0) (RLess) ("age") (VInt I32 40) ((VInt I32 40)) (false) (false) (Some 2) (Some (fun r _ => Nat.even r)) (12))), (res_of (W) (ORequest (0) (RLess) ("age") (VInt I32 40) ((VInt I32 40)) (false) (false) (Some 2) (Some (fun r _ => Nat.even r)) (12))), (ob_at (nw (W) (ORequest (0) (RLess) ("age") (VInt I32 40) ((VInt I32 40)) (false) (false) (Some 2) (Some (fun r _ => Nat.even r)) (12))) (12)), (0); ex. Qed.

Lemma tex_C09_empty_interval :
  exists b ord w o ob pv (k : string) bv ev ib ie amt p s w' res sb',
    fair ord /\
    reach b w /\
    allowed b w (ORequest o RInterval k bv ev ib ie amt p s) /\
    source_at b w o ob pv /\
    o <> s /\
    vty ev = vty bv /\
    (vlt ev bv \/ (bv = ev /\ (ib = false \/ ie = false))) /\
    step ord w (ORequest o RInterval k bv ev ib ie amt p s) = Some (w', ORes res) /\
    set_at w' s sb'.
Proof. exists (true), (id_order), (W), (0), (ob_at (W) (0)), ((0)), ("age"), (VInt I32 40), (VInt I32 30), (false), (false), (None), (None), (12), (nw (W) (ORequest (0) RInterval ("age") (VInt I32 40) (VInt I32 30) (false) (false) (None) (None) (12))), (res_of (W) (ORequest (0) RInterval ("age") (VInt I32 40) (VInt I32 30) (false) (false) (None) (None) (12))), (ob_at (nw (W) (ORequest (0) RInterval ("age") (VInt I32 40) (VInt I32 30) (false) (false) (None) (None) (12))) (12)); ex; left; dec. Qed.

Lemma tex_C09_no_overrun :
  exists b ord w o ob bv ev,
    fair ord /\
    reach b w /\
    vault_at w o ob /\
    vty ev = vty bv.
Proof. exists (true), (id_order), (W), (0), (ob_at (W) (0)), (VInt I32 40), ((VInt I32 40)); ex. Qed.

Lemma tex_C11_request_limit :
  exists b ord w o ob pv rt (k : string) bv ev ib ie n p s w' res sb',
    fair ord /\
    reach b w /\
    allowed b w (ORequest o rt k bv ev ib ie (Some n) p s) /\
    source_at b w o ob pv /\
    o <> s /\
    vty ev = vty bv /\
    get_key_type ob k = Some (vty bv) /\
    step ord w (ORequest o rt k bv ev ib ie (Some n) p s) = Some (w', ORes res) /\
    set_at w' s sb' /\
    size (o_recs sb') = 2.
Proof. exists (true), (id_order), (W), (0), (ob_at (W) (0)), ((0)), (RLess), ("age"), (VInt I32 40), ((VInt I32 40)), (false), (false), (2), (None), (12), (nw (W) (ORequest (0) (RLess) ("age") (VInt I32 40) ((VInt I32 40)) (false) (false) (Some (2)) (None) (12))), (res_of (W) (ORequest (0) (RLess) ("age") (VInt I32 40) ((VInt I32 40)) (false) (false) (Some (2)) (None) (12))), (ob_at (nw (W) (ORequest (0) (RLess) ("age") (VInt I32 40) ((VInt I32 40)) (false) (false) (Some (2)) (None) (12))) (12)); ex. Qed.

Lemma tex_C10_complex_request_exact :
  exists b ord w o ob pv q s w' res,
    fair ord /\
    reach b w /\
    allowed b w (OComplex o q s) /\
    source_at b w o ob pv /\
    o <> s /\
    step ord w (OComplex o q s) = Some (w', ORes res) /\
    size (o_recs (ob_at w' s)) = 3.
Proof. exists (true), (id_order), (W), (0), (ob_at (W) (0)), ((0)), (QOr (QAnd (QLeaf LGreater "age" (VInt I32 18) (fun _ _ => true)) (QLeaf LLess "age" (VInt I32 40) (fun _ _ => true))) (QLeaf LEqual "id" (VInt I32 4) (fun _ _ => true))), (12), (nw (W) (OComplex (0) (QOr (QAnd (QLeaf LGreater "age" (VInt I32 18) (fun _ _ => true)) (QLeaf LLess "age" (VInt I32 40) (fun _ _ => true))) (QLeaf LEqual "id" (VInt I32 4) (fun _ _ => true))) (12))), (res_of (W) (OComplex (0) (QOr (QAnd (QLeaf LGreater "age" (VInt I32 18) (fun _ _ => true)) (QLeaf LLess "age" (VInt I32 40) (fun _ _ => true))) (QLeaf LEqual "id" (VInt I32 4) (fun _ _ => true))) (12))); ex. Qed.

Lemma tex_C04_getrecord_exact :
  exists b ord w o ob pv (k : string) v f rf w' res,
    fair ord /\
    reach b w /\
    allowed b w (OGetRecord o k v f) /\
    source_at b w o ob pv /\
    w_refs w !! f = Some rf /\
    step ord w (OGetRecord o k v f) = Some (w', ORes res) /\
    res_ok res = true.
Proof. exists (true), (id_order), (W), (0), (ob_at (W) (0)), ((0)), ("id"), (VInt I32 2), (9), (rf_at (W) (9)), (nw (W) (OGetRecord (0) ("id") (VInt I32 2) (9))), (res_of (W) (OGetRecord (0) ("id") (VInt I32 2) (9))); ex. Qed.

Lemma tex_C04_getrecords_exact :
  exists b ord w o ob pv (k : string) v res l,
    fair ord /\
    reach b w /\
    source_at b w o ob pv /\
    get_records ord w o k v None = Some (res, l).
Proof. exists (true), (id_order), (W), (0), (ob_at (W) (0)), ((0)), ("age"), (VInt I32 30), (okres Success "age" (Some (TInt I32)) (Some (TInt I32))), ([0; 1]); ex. Qed.

Lemma tex_C11_getrecords_limit :
  exists b ord w o ob pv (k : string) v n res l,
    fair ord /\
    reach b w /\
    source_at b w o ob pv /\
    get_key_type ob k = Some (vty v) /\
    get_records ord w o k v (Some n) = Some (res, l).
Proof. exists (true), (id_order), (W), (0), (ob_at (W) (0)), ((0)), ("age"), (VInt I32 30), (1), (okres Success "age" (Some (TInt I32)) (Some (TInt I32))), ([0]); ex. Qed.

Lemma tex_C12_sorted_order :
  exists b w o ob pv (k : string) l,
    reach b w /\
    source_at b w o ob pv /\
    is_Some (get_key_type ob k) /\
    sorted_records w o k false None = Some l.
Proof. exists (true), (W), (0), (ob_at (W) (0)), ((0)), ("age"), ([3; 0; 1; 2]); ex. Qed.

Lemma tex_C12_reverse_and_limit :
  exists w o (k : string) l,
    sorted_records w o k false None = Some l.
Proof. exists (W), (0), ("age"), ([3; 0; 1; 2]); ex. Qed.

Lemma tex_C12_unknown_key_empty :
  exists b w o ob pv (k : string),
    reach b w /\
    source_at b w o ob pv /\
    get_key_type ob k = None.
Proof. exists (true), (W), (0), (ob_at (W) (0)), ((0)), ("color"); ex. Qed.

Lemma tex_C12_sort_by :
  exists w o (k : string) rev amt f l vs,
    sorted_records w o k rev None = Some l /\
    sort_by w o k rev amt f = Some vs.
Proof. exists (W), (0), ("age"), (false), (None), (fun i _ => i <? 1), ([3; 0; 1; 2]), ([3; 0]); ex. Qed.
