(** Generated by tools/gen_p.py from T_Frame.v: the property theorems, nothing else. *)
From Verif Require Import T_Frame Ex_Base Ex_Frame.
Open Scope nat_scope.

(** C24 (and queries, references): operations on sets and references, and queries, leave the vaults and their records untouched. *)
Theorem C24_set_ops_leave_vaults :
  forall b ord w p w' out, fair ord -> reach b w -> allowed b w p -> set_or_ref_op w p -> step ord w p = Some (w', out) -> vaults_kept w w'.
Proof. exact t_C24_set_ops_leave_vaults. Qed.
Print Assumptions C24_set_ops_leave_vaults.
Example ex_C24_set_ops_leave_vaults :
  exists b ord w p w' out,
    fair ord /\
    reach b w /\
    allowed b w p /\
    set_or_ref_op w p /\
    step ord w p = Some (w', out) /\
    o_recs (ob_at w 10) <> o_recs (ob_at w' 10).
Proof. exact tex_C24_set_ops_leave_vaults. Qed.
Example ex_C24_set_ops_leave_vaults__remove :
  exists b ord w p w' out,
    fair ord /\
    reach b w /\
    allowed b w p /\
    set_or_ref_op w p /\
    step ord w p = Some (w', out) /\
    o_recs (ob_at w 10) <> o_recs (ob_at w' 10).
Proof. exact tex_C24_set_ops_leave_vaults__remove. Qed.
