(** Generated by tools/gen_p.py from T_Copy.v: the property theorems, nothing else. *)
From Verif Require Import T_Copy Ex_Base Ex_Copy.
Open Scope nat_scope.

(** C27: copying a vault gives a new vault with the same keys and copies of its records, found by all queries; nothing else changes. *)
Theorem C27_copy_exact :
  forall b ord w dst src sb w' out, fair ord -> reach b w -> vault_at w src sb -> w_objs w !! dst = None -> unmentioned w dst -> step ord w (OCopyVault dst src) = Some (w', out) ->
    out = OUnit /\ w_refs w' = w_refs w /\ (forall o, o <> dst -> w_objs w' !! o = w_objs w !! o) /\ (forall r, is_Some (w_recs w !! r) -> w_recs w' !! r = w_recs w !! r) /\
    exists db, vault_at w' dst db /\ equal_keys sb db /\ (forall k, o_tmpl db !! k = snd <$> o_keys sb !! k) /\ o_sets db = ∅ /\
      copied_records w w' (o_recs sb) (o_recs db) /\ indexed w' db.
Proof. exact t_C27_copy_exact. Qed.
Print Assumptions C27_copy_exact.
Example ex_C27_copy_exact :
  exists b ord w dst src sb w' out,
    fair ord /\
    reach b w /\
    vault_at w src sb /\
    w_objs w !! dst = None /\
    unmentioned w dst /\
    step ord w (OCopyVault dst src) = Some (w', out) /\
    size (o_recs sb) = 4.
Proof. exact tex_C27_copy_exact. Qed.

(** C27: assigning a vault to another ends the contents of the target and gives it the keys and copies of the records of the source. *)
Theorem C27_assign_exact :
  forall b ord w dst src sb db w' out, fair ord -> reach b w -> vault_at w src sb -> vault_at w dst db -> dst <> src -> step ord w (OAssignVault dst src) = Some (w', out) ->
    out = OUnit /\ w_refs w' = w_refs w /\ (forall r, r ∈ o_recs db -> ~ valid_rec w' r) /\
    (forall o ob, vault_at w o ob -> o <> dst -> vault_same w w' o ob) /\
    exists db', vault_at w' dst db' /\ equal_keys sb db' /\ (forall k, o_tmpl db' !! k = snd <$> o_keys sb !! k) /\ o_sets db' = ∅ /\
      copied_records w w' (o_recs sb) (o_recs db') /\ indexed w' db'.
Proof. exact t_C27_assign_exact. Qed.
Print Assumptions C27_assign_exact.
Example ex_C27_assign_exact :
  exists b ord w dst src sb db w' out,
    fair ord /\
    reach b w /\
    vault_at w src sb /\
    vault_at w dst db /\
    dst <> src /\
    step ord w (OAssignVault dst src) = Some (w', out) /\
    size (o_recs sb) = 4 /\ size (o_recs db) = 1.
Proof. exact tex_C27_assign_exact. Qed.
