(** Generated by tools/gen_ex.py from tools/examples.txt. *)
From Verif Require Import T_Frame Ex_Base.
Open Scope nat_scope.

Lemma tex_C24_set_ops_leave_vaults :
  exists b ord w p w' out,
    fair ord /\
    reach b w /\
    allowed b w p /\
    set_or_ref_op w p /\
    step ord w p = Some (w', out) /\
    o_recs (ob_at w 10) <> o_recs (ob_at w' 10).
Proof. exists (true), (id_order), (W), (OSetClear 10), (nw (W) (OSetClear 10)), (out_of (W) (OSetClear 10)); ex. Qed.

Lemma tex_C24_set_ops_leave_vaults__remove :
  exists b ord w p w' out,
    fair ord /\
    reach b w /\
    allowed b w p /\
    set_or_ref_op w p /\
    step ord w p = Some (w', out) /\
    o_recs (ob_at w 10) <> o_recs (ob_at w' 10).
Proof. exists (false), (id_order), (state false sc), (OEraseRef 10 0), (nw (state false sc) (OEraseRef 10 0)), (out_of (state false sc) (OEraseRef 10 0)); ex. Qed.
