(** Generated by tools/gen_ex.py from tools/examples.txt. *)
From Verif Require Import T_Drop Ex_Base.
Open Scope nat_scope.

Lemma tex_C26_dropdata_exact :
  exists b ord w o ob w' out,
    fair ord /\
    reach b w /\
    vault_at w o ob /\
    step ord w (ODropData o) = Some (w', out) /\
    size (o_recs ob) = 4.
Proof. exists (true), (id_order), (W), (0), (ob_at (W) (0)), (nw (W) (ODropData (0))), (out_of (W) (ODropData (0))); ex. Qed.

Lemma tex_C26_dropvault_exact :
  exists b ord w o ob w' out,
    fair ord /\
    reach b w /\
    vault_at w o ob /\
    step ord w (ODropVault o) = Some (w', out) /\
    size (o_recs ob) = 4.
Proof. exists (true), (id_order), (W), (0), (ob_at (W) (0)), (nw (W) (ODropVault (0))), (out_of (W) (ODropVault (0))); ex. Qed.

Lemma tex_C26_destroyed_exact :
  exists b ord w o ob w' out,
    fair ord /\
    reach b w /\
    vault_at w o ob /\
    step ord w (ODelVault o) = Some (w', out) /\
    size (o_recs ob) = 4.
Proof. exists (true), (id_order), (W), (0), (ob_at (W) (0)), (nw (W) (ODelVault (0))), (out_of (W) (ODelVault (0))); ex. Qed.

Lemma tex_C45_valid_iff_vault_exists :
  exists b w s sb,
    reach b w /\
    set_at w s sb /\
    set_parent_valid sb = true.
Proof. exists (true), (W), (10), (ob_at (W) 10); ex. Qed.

Lemma tex_C45_invalid_set_answers :
  exists w s sb f rf,
    set_at w s sb /\
    set_parent_valid sb = false /\
    w_refs w !! f = Some rf.
Proof. exists (W), (12), (ob_at (W) 12), (0), (rf_at (W) 0); ex. Qed.
