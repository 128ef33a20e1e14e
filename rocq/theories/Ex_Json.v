(** Generated by tools/gen_ex.py from tools/examples.txt. *)
From Verif Require Import T_Json Ex_Base JsonEx.
Open Scope nat_scope.

Lemma tex_C36_vault_object_partial :
  exists b ord w o ob (ut : bool) tm addr,
    reach b w /\
    fair ord /\
    vault_at w o ob /\
    (forall k, k ∈ o_order ob -> plain_json (tx k)) /\
    (forall r k v, r ∈ o_recs ob -> stored w r k = Some v -> plain_value v) /\
    (ut = true -> plain_json tm) /\
    (forall r, ut = false -> r ∈ o_recs ob -> plain_json (addr r)) /\
    size (o_recs ob) = 4.
Proof. exists (true), (id_order), (W), (0), (ob_at (W) (0)), (true), (tx "Rec"), (fun _ => []); jx. Qed.

Lemma tex_C36_vault_object_partial__addr :
  exists b ord w o ob (ut : bool) tm addr,
    reach b w /\
    fair ord /\
    vault_at w o ob /\
    (forall k, k ∈ o_order ob -> plain_json (tx k)) /\
    (forall r k v, r ∈ o_recs ob -> stored w r k = Some v -> plain_value v) /\
    (ut = true -> plain_json tm) /\
    (forall r, ut = false -> r ∈ o_recs ob -> plain_json (addr r)).
Proof. exists (true), (id_order), (W), (0), (ob_at (W) (0)), (false), ([LF]), (fun _ => tx "0x7f"); jx. Qed.

Lemma tex_C36_vault_array_partial :
  exists b ord w o ob,
    reach b w /\
    fair ord /\
    vault_at w o ob /\
    (forall k, k ∈ o_order ob -> plain_json (tx k)) /\
    (forall r k v, r ∈ o_recs ob -> stored w r k = Some v -> plain_value v) /\
    size (o_recs ob) = 4.
Proof. exists (true), (id_order), (W), (0), (ob_at (W) (0)); jx. Qed.

Lemma tex_C36_set_object_partial :
  exists ord w s sb p (ut : bool) tm addr,
    reach true w /\
    fair ord /\
    set_at w s sb /\
    o_parent sb = Some p /\
    (forall k, k ∈ o_order sb -> plain_json (tx k)) /\
    (forall r k v, r ∈ o_recs sb -> stored w r k = Some v -> plain_value v) /\
    (ut = true -> plain_json tm) /\
    (forall r, ut = false -> r ∈ o_recs sb -> plain_json (addr r)) /\
    size (o_recs sb) = 3.
Proof. exists (id_order), (W), (10), (ob_at (W) 10), (0), (true), (tx "Rec"), (fun _ => []); jx. Qed.

Lemma tex_C36_set_array_partial :
  exists ord w s sb p,
    reach true w /\
    fair ord /\
    set_at w s sb /\
    o_parent sb = Some p /\
    (forall k, k ∈ o_order sb -> plain_json (tx k)) /\
    (forall r k v, r ∈ o_recs sb -> stored w r k = Some v -> plain_value v).
Proof. exists (id_order), (W), (10), (ob_at (W) 10), (0); jx. Qed.

Lemma tex_C36_ref_partial :
  exists b w f r o ob,
    reach b w /\
    denotes w f r /\
    bound_to w f o /\
    vault_at w o ob /\
    valid_rec w r /\
    (forall k, k ∈ o_order ob -> plain_json (tx k)) /\
    (forall k v, stored w r k = Some v -> plain_value v).
Proof. exists (true), (W), (1), (1), (0), (ob_at (W) (0)); jx. Qed.

Lemma tex_C36_ref_not_valid :
  exists b w f rf,
    reach b w /\
    w_refs w !! f = Some rf /\
    (forall r, f_rec rf = Some r -> ~ valid_rec w r) /\
    f_rec rf = Some 4.
Proof. exists (true), (W), (4), (rf_at (W) 4); jx; intros r Hr; assert (f_rec (rf_at W 4) = Some 4) as E by vmr; rewrite E in Hr; injection Hr as <-; apply (bool_decide_eq_false_1 _); vmr. Qed.

Lemma tex_C36_set_not_valid :
  exists w s sb,
    set_at w s sb /\
    o_parent sb = None.
Proof. exists (W), (12), (ob_at (W) 12); jx. Qed.

Lemma tex_C36_values_differ :
  exists v v',
    vty v = vty v' /\
    (forall n, vty v <> TOther n) /\
    json_of v = json_of v'.
Proof. exists (VStr "a""b"), (VStr "a""b"); repeat split; done. Qed.

Lemma tex_C36_vault_strings :
  exists b ord w o ob,
    reach b w /\
    fair ord /\
    vault_at w o ob /\
    size (o_recs ob) = 4.
Proof. exists (true), (id_order), (W), (0), (ob_at (W) (0)); jx. Qed.

Lemma tex_C36_set_strings :
  exists ord w s sb,
    reach true w /\
    fair ord /\
    set_at w s sb /\
    size (o_recs sb) = 3.
Proof. exists (id_order), (W), (10), (ob_at (W) 10); jx. Qed.

Lemma tex_C36_ref_strings :
  exists b w f r o ob,
    reach b w /\
    denotes w f r /\
    bound_to w f o /\
    vault_at w o ob /\
    valid_rec w r.
Proof. exists (true), (W), (1), (1), (0), (ob_at (W) (0)); jx. Qed.
