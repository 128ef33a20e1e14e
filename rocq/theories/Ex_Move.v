(** Generated by tools/gen_ex.py from tools/examples.txt. *)
From Verif Require Import T_Move Ex_Base.
Open Scope nat_scope.

Lemma tex_C44_move_exact :
  exists ord w dst src sb w' out,
    vault_at w src sb /\
    w_objs w !! dst = None /\
    step ord w (OMoveVault dst src) = Some (w', out) /\
    size (o_recs sb) = 1.
Proof. exists (id_order), (W), (5), (1), (ob_at (W) 1), (nw (W) (OMoveVault (5) (1))), (out_of (W) (OMoveVault (5) (1))); ex. Qed.

Lemma tex_C44_references_do_not_follow :
  exists ord w dst src sb w' out f rf r,
    vault_at w src sb /\
    w_objs w !! dst = None /\
    step ord w (OMoveVault dst src) = Some (w', out) /\
    w_refs w !! f = Some rf /\
    f_rec rf = Some r /\
    f_vlt rf = Some src /\
    valid_rec w r /\
    size (o_recs sb) = 4.
Proof. exists (id_order), (W), (5), (0), (ob_at (W) 0), (nw (W) (OMoveVault (5) (0))), (out_of (W) (OMoveVault (5) (0))), (0), (rf_at (W) 0), (0); ex. Qed.

Lemma tex_C44_sets_do_not_follow :
  exists ord w dst src sb w' out s tb,
    vault_at w src sb /\
    w_objs w !! dst = None /\
    step ord w (OMoveVault dst src) = Some (w', out) /\
    set_at w s tb /\
    o_parent tb = Some src /\
    size (o_recs tb) = 3.
Proof. exists (id_order), (W), (5), (0), (ob_at (W) 0), (nw (W) (OMoveVault (5) (0))), (out_of (W) (OMoveVault (5) (0))), (10), (ob_at (W) 10); ex. Qed.

Lemma tex_C44_move_assign_exact :
  exists b ord w dst src sb db w' out,
    fair ord /\
    reach b w /\
    vault_at w src sb /\
    vault_at w dst db /\
    dst <> src /\
    step ord w (OMoveAssignVault dst src) = Some (w', out) /\
    size (o_recs sb) = 1 /\ size (o_recs db) = 4.
Proof. exists (true), (id_order), (W), (0), (1), (ob_at (W) 1), (ob_at (W) 0), (nw (W) (OMoveAssignVault (0) (1))), (out_of (W) (OMoveAssignVault (0) (1))); ex. Qed.

Lemma tex_C25_move_exact :
  exists b ord w dst src sb p w' out,
    fair ord /\
    reach b w /\
    set_at w src sb /\
    o_parent sb = Some p /\
    w_objs w !! dst = None /\
    step ord w (OMoveSet dst src) = Some (w', out) /\
    size (o_recs sb) = 3.
Proof. exists (true), (id_order), (W), (20), (10), (ob_at (W) 10), (0), (nw (W) (OMoveSet (20) (10))), (out_of (W) (OMoveSet (20) (10))); ex. Qed.
