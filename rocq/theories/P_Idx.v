(** Generated by tools/gen_p.py from T_Idx.v: the property theorems, nothing else. *)
From Verif Require Import T_Idx Ex_Base Ex_Idx.
Open Scope nat_scope.

(** C27: an operation that is not about a vault leaves it as it is, queries included. *)
Theorem C27_independent_step :
  forall b ord w p w' out o ob, fair ord -> reach b w -> allowed b w p -> step ord w p = Some (w', out) -> vault_at w o ob -> ~ concerns w p o ->
    vault_same w w' o ob.
Proof. exact t_C27_independent_step. Qed.
Print Assumptions C27_independent_step.
Example ex_C27_independent_step :
  exists b ord w p w' out o ob,
    fair ord /\
    reach b w /\
    allowed b w p /\
    step ord w p = Some (w', out) /\
    vault_at w o ob /\
    ~ concerns w p o.
Proof. exact tex_C27_independent_step. Qed.

(** C27: as long as no operation is about a vault, it stays as it is, whatever happens to others (such as the vault it was copied from). *)
Theorem C27_independent :
  forall b w w' o ob, reach b w -> vault_at w o ob -> later_while b (fun w1 p => ~ concerns w1 p o) w w' -> vault_same w w' o ob.
Proof. exact t_C27_independent. Qed.
Print Assumptions C27_independent.
Example ex_C27_independent :
  exists b w w' o ob,
    reach b w /\
    vault_at w o ob /\
    later_while b (fun w1 p => ~ concerns w1 p o) w w'.
Proof. exact tex_C27_independent. Qed.
