(** Generated by tools/gen_ex.py from tools/examples.txt. *)
From Verif Require Import T_Copy Ex_Base.
Open Scope nat_scope.

Lemma tex_C27_copy_exact :
  exists b ord w dst src sb w' out,
    fair ord /\
    reach b w /\
    vault_at w src sb /\
    w_objs w !! dst = None /\
    unmentioned w dst /\
    step ord w (OCopyVault dst src) = Some (w', out) /\
    size (o_recs sb) = 4.
Proof. exists (true), (id_order), (W), (20), (0), (ob_at (W) 0), (nw (W) (OCopyVault (20) (0))), (out_of (W) (OCopyVault (20) (0))); ex; apply unmentionedb_ok; vmr. Qed.

Lemma tex_C27_assign_exact :
  exists b ord w dst src sb db w' out,
    fair ord /\
    reach b w /\
    vault_at w src sb /\
    vault_at w dst db /\
    dst <> src /\
    step ord w (OAssignVault dst src) = Some (w', out) /\
    size (o_recs sb) = 4 /\ size (o_recs db) = 1.
Proof. exists (true), (id_order), (W), (1), (0), (ob_at (W) 0), (ob_at (W) 1), (nw (W) (OAssignVault (1) (0))), (out_of (W) (OAssignVault (1) (0))); ex. Qed.
