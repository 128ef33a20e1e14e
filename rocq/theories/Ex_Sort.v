(** Generated by tools/gen_ex.py from tools/examples.txt. *)
From Verif Require Import T_Sort Ex_Base.
Open Scope nat_scope.

Lemma tex_C12_create_after_equals :
  exists b ord w o ob f ps w' res (k : string) v l l',
    reach b w /\
    vault_at w o ob /\
    step ord w (OCreateRecord o f ps) = Some (w', ORes res) /\
    res_ok res = true /\
    given ob ps k = Some v /\
    sorted_records w o k false None = Some l /\
    sorted_records w' o k false None = Some l'.
Proof. exists (true), (id_order), (W), (0), (ob_at (W) (0)), (None), ([("age", VInt I32 30); ("id", VInt I32 8)]), (nw (W) (OCreateRecord (0) (None) ([("age", VInt I32 30); ("id", VInt I32 8)]))), (res_of (W) (OCreateRecord (0) (None) ([("age", VInt I32 30); ("id", VInt I32 8)]))), ("age"), (VInt I32 30), ([3; 0; 1; 2]), ([3; 0; 1; 6; 2]); ex. Qed.

Lemma tex_C12_setdata_after_equals :
  exists b ord w f r o ob (k : string) v w' res l l',
    fair ord /\
    reach b w /\
    allowed b w (OSetData f k v) /\
    denotes w f r /\
    bound_to w f o /\
    vault_at w o ob /\
    step ord w (OSetData f k v) = Some (w', ORes res) /\
    res_ok res = true /\
    sorted_records w o k false None = Some l /\
    sorted_records w' o k false None = Some l'.
Proof. exists (true), (id_order), (W), (3), (3), (0), (ob_at (W) (0)), ("age"), (VInt I32 30), (nw (W) (OSetData (3) ("age") (VInt I32 30))), (res_of (W) (OSetData (3) ("age") (VInt I32 30))), ([3; 0; 1; 2]), ([0; 1; 3; 2]); ex. Qed.
