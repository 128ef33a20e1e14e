(** Generated by tools/gen_ex.py from tools/examples.txt. *)
From Verif Require Import T_RefOps Ex_Base.
Open Scope nat_scope.

Lemma tex_C48_new_exact :
  exists ord w f w' out,
    w_refs w !! f = None /\
    step ord w (ONewRef f) = Some (w', out).
Proof. exists (id_order), (W), (20), (nw (W) (ONewRef (20))), (out_of (W) (ONewRef (20))); ex. Qed.

Lemma tex_C48_delete_exact :
  exists b ord w f w' out,
    reach b w /\
    is_Some (w_refs w !! f) /\
    step ord w (ODelRef f) = Some (w', out) /\
    is_Some (w_recs w !! 4) /\ w_recs w' !! 4 = None.
Proof. exists (true), (id_order), (W), (4), (nw (W) (ODelRef (4))), (out_of (W) (ODelRef (4))); ex. Qed.

Lemma tex_C48_reset_exact :
  exists b ord w f w' out,
    reach b w /\
    is_Some (w_refs w !! f) /\
    step ord w (OResetRef f) = Some (w', out) /\
    denotes w f 1.
Proof. exists (true), (id_order), (W), (1), (nw (W) (OResetRef (1))), (out_of (W) (OResetRef (1))); ex. Qed.

Lemma tex_C48_copy_exact :
  exists b ord w dst src w' out,
    reach b w /\
    is_Some (w_refs w !! dst) /\
    is_Some (w_refs w !! src) /\
    step ord w (OCopyRef dst src) = Some (w', out) /\
    denotes w 1 1 /\ ~ denotes w 9 1.
Proof. exists (true), (id_order), (W), (9), (1), (nw (W) (OCopyRef (9) (1))), (out_of (W) (OCopyRef (9) (1))); ex. Qed.

Lemma tex_C48_move_exact :
  exists b ord w dst src w' out,
    reach b w /\
    is_Some (w_refs w !! dst) /\
    is_Some (w_refs w !! src) /\
    step ord w (OMoveRef dst src) = Some (w', out) /\
    denotes w 1 1 /\ denotes w 0 0.
Proof. exists (true), (id_order), (W), (0), (1), (nw (W) (OMoveRef (0) (1))), (out_of (W) (OMoveRef (0) (1))); ex. Qed.

Lemma tex_C48_getrecords_refs :
  exists b ord w o ob pv (k : string) v amt fs w' out,
    fair ord /\
    reach b w /\
    (vault_at w o ob /\ pv = o) \/ (set_at w o ob /\ o_parent ob = Some pv) /\
    step ord w (OGetRecords o k v amt fs) = Some (w', out) /\
    refs_to w' 0 = 2.
Proof. exists (true), (id_order), (W), (0), (ob_at (W) (0)), ((0)), ("age"), (VInt I32 30), (None), ([9; 4; 2]), (nw (W) (OGetRecords (0) ("age") (VInt I32 30) (None) ([9; 4; 2]))), (out_of (W) (OGetRecords (0) ("age") (VInt I32 30) (None) ([9; 4; 2]))); ex; left; ex. Qed.

Lemma tex_C48_getrecords_refs__set :
  exists b ord w o ob pv (k : string) v amt fs w' out,
    fair ord /\
    reach b w /\
    (vault_at w o ob /\ pv = o) \/ (set_at w o ob /\ o_parent ob = Some pv) /\
    step ord w (OGetRecords o k v amt fs) = Some (w', out) /\
    refs_to w' 0 = 2.
Proof. exists (true), (id_order), (W), (11), (ob_at (W) (11)), (0), ("age"), (VInt I32 30), (None), ([9; 4; 2]), (nw (W) (OGetRecords (11) ("age") (VInt I32 30) (None) ([9; 4; 2]))), (out_of (W) (OGetRecords (11) ("age") (VInt I32 30) (None) ([9; 4; 2]))); ex; right; ex. Qed.

Lemma tex_C48_getsorted_refs :
  exists b ord w o (k : string) rev amt fs w' out,
    fair ord /\
    reach b w /\
    is_Some (w_objs w !! o) /\
    step ord w (OGetSorted o k rev amt fs) = Some (w', out) /\
    refs_to w' 3 = 2.
Proof. exists (true), (id_order), (W), (0), ("age"), (false), (None), ([9; 4; 2; 0; 1]), (nw (W) (OGetSorted (0) ("age") (false) (None) ([9; 4; 2; 0; 1]))), (out_of (W) (OGetSorted (0) ("age") (false) (None) ([9; 4; 2; 0; 1]))); ex. Qed.

Lemma tex_C48_changed_only_by_name :
  exists ord w p w' out f,
    step ord w p = Some (w', out) /\
    ~ assigns f p /\
    ~ valid_rec w' 0.
Proof. exists (id_order), (W), (ODelVault 0), (nw (W) (ODelVault 0)), (out_of (W) (ODelVault 0)), (0); ex. Qed.
