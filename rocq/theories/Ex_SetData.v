(** Generated by tools/gen_ex.py from tools/examples.txt. *)
From Verif Require Import T_SetData Ex_Base.
Open Scope nat_scope.

Lemma tex_C08_setdata_answer :
  exists b ord w f r o ob (k : string) v w' res,
    fair ord /\
    reach b w /\
    allowed b w (OSetData f k v) /\
    denotes w f r /\
    bound_to w f o /\
    vault_at w o ob /\
    step ord w (OSetData f k v) = Some (w', ORes res) /\
    res_ok res = false.
Proof. exists (true), (id_order), (W), (0), (0), (0), (ob_at (W) (0)), ("id"), (VInt I32 77), (nw (W) (OSetData (0) ("id") (VInt I32 77))), (res_of (W) (OSetData (0) ("id") (VInt I32 77))); ex. Qed.

Lemma tex_C08_setdata_answer__ok :
  exists b ord w f r o ob (k : string) v w' res,
    fair ord /\
    reach b w /\
    allowed b w (OSetData f k v) /\
    denotes w f r /\
    bound_to w f o /\
    vault_at w o ob /\
    step ord w (OSetData f k v) = Some (w', ORes res) /\
    res_ok res = true.
Proof. exists (true), (id_order), (W), (0), (0), (0), (ob_at (W) (0)), ("age"), (VInt I32 77), (nw (W) (OSetData (0) ("age") (VInt I32 77))), (res_of (W) (OSetData (0) ("age") (VInt I32 77))); ex. Qed.

Lemma tex_C08_setdata_empty_ref :
  exists ord w f (k : string) v w' res,
    w_refs w !! f = Some (Ref None None) /\
    step ord w (OSetData f k v) = Some (w', ORes res).
Proof. exists (id_order), (W), (9), ("age"), (VInt I32 77), (nw (W) (OSetData (9) ("age") (VInt I32 77))), (res_of (W) (OSetData (9) ("age") (VInt I32 77))); ex. Qed.

Lemma tex_C07_read_your_write :
  exists b ord w f r o ob (k : string) v w' res,
    fair ord /\
    reach b w /\
    allowed b w (OSetData f k v) /\
    denotes w f r /\
    bound_to w f o /\
    vault_at w o ob /\
    step ord w (OSetData f k v) = Some (w', ORes res) /\
    res_ok res = true.
Proof. exists (true), (id_order), (W), (0), (0), (0), (ob_at (W) (0)), ("age"), (VInt I32 77), (nw (W) (OSetData (0) ("age") (VInt I32 77))), (res_of (W) (OSetData (0) ("age") (VInt I32 77))); ex. Qed.

Lemma tex_C07_getdata_exact :
  exists b w f rf r o ob,
    reach b w /\
    w_refs w !! f = Some rf /\
    f_rec rf = Some r /\
    f_vlt rf = Some o /\
    vault_at w o ob.
Proof. exists (true), (W), (0), (rf_at (W) (0)), (0), (0), (ob_at (W) (0)); ex. Qed.

Lemma tex_C05_setdata_effect_on_index :
  exists b ord w f r o ob (k : string) v w' res,
    fair ord /\
    reach b w /\
    allowed b w (OSetData f k v) /\
    denotes w f r /\
    bound_to w f o /\
    vault_at w o ob /\
    step ord w (OSetData f k v) = Some (w', ORes res) /\
    res_ok res = true /\
    filed ob "age" (VInt I32 30) 1.
Proof. exists (true), (id_order), (W), (0), (0), (0), (ob_at (W) (0)), ("age"), (VInt I32 40), (nw (W) (OSetData (0) ("age") (VInt I32 40))), (res_of (W) (OSetData (0) ("age") (VInt I32 40))); ex. Qed.

Lemma tex_C05_setdata_keeps_others_partial :
  exists b ord w f r o ob (k : string) v w' res x (k' : string),
    fair ord /\
    reach b w /\
    allowed b w (OSetData f k v) /\
    denotes w f r /\
    bound_to w f o /\
    vault_at w o ob /\
    step ord w (OSetData f k v) = Some (w', ORes res) /\
    res_ok res = true /\
    x <> r /\
    is_Some (get_key_type ob k') /\
    (k' = k -> stored w x k <> stored w r k).
Proof. exists (true), (id_order), (W), (0), (0), (0), (ob_at (W) (0)), ("age"), (VInt I32 40), (nw (W) (OSetData (0) ("age") (VInt I32 40))), (res_of (W) (OSetData (0) ("age") (VInt I32 40))), (2), ("age"); ex; intros _; ne. Qed.

Lemma tex_C21_sets_follow_updates :
  exists ord w f r o ob (k : string) v w' res s sb,
    fair ord /\
    reach true w /\
    allowed true w (OSetData f k v) /\
    denotes w f r /\
    bound_to w f o /\
    vault_at w o ob /\
    step ord w (OSetData f k v) = Some (w', ORes res) /\
    res_ok res = true /\
    set_at w s sb /\
    0 ∈ o_recs sb.
Proof. exists (id_order), (W), (0), (0), (0), (ob_at (W) (0)), ("age"), (VInt I32 77), (nw (W) (OSetData (0) ("age") (VInt I32 77))), (res_of (W) (OSetData (0) ("age") (VInt I32 77))), (10), (ob_at (W) (10)); ex. Qed.
