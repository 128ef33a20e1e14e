(** Generated by tools/gen_ex.py from tools/examples.txt. *)
From Verif Require Import T_Idx Ex_Base.
Open Scope nat_scope.

Lemma tex_C27_independent_step :
  exists b ord w p w' out o ob,
    fair ord /\
    reach b w /\
    allowed b w p /\
    step ord w p = Some (w', out) /\
    vault_at w o ob /\
    ~ concerns w p o.
Proof. exists (true), (id_order), (W), (ODropVault 1), (nw (W) (ODropVault 1)), (out_of (W) (ODropVault 1)), (0), (ob_at (W) (0)); ex; nconc. Qed.

Lemma tex_C27_independent :
  exists b w w' o ob,
    reach b w /\
    vault_at w o ob /\
    later_while b (fun w1 p => ~ concerns w1 p o) w w'.
Proof. exists (true), (W), (nw W (ODropVault 1)), (0), (ob_at (W) (0)); ex; apply nw_later_while; [apply later_while_now|nconc|vmr]. Qed.
