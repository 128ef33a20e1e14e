(** Generated by tools/gen_p.py from T_RefOps.v: the property theorems, nothing else. *)
From Verif Require Import T_RefOps Ex_Base Ex_RefOps.
Open Scope nat_scope.

(** C48: a new reference variable denotes nothing; everything else is as before. *)
Theorem C48_new_exact :
  forall ord w f w' out, w_refs w !! f = None -> step ord w (ONewRef f) = Some (w', out) ->
    only_refs_changed w w' /\ is_Some (w_refs w' !! f) /\ (forall r, ~ denotes w' f r) /\ forall g, g <> f -> w_refs w' !! g = w_refs w !! g.
Proof. exact t_C48_new_exact. Qed.
Print Assumptions C48_new_exact.
Example ex_C48_new_exact :
  exists ord w f w' out,
    w_refs w !! f = None /\
    step ord w (ONewRef f) = Some (w', out).
Proof. exact tex_C48_new_exact. Qed.

(** C48: destroying a reference variable ends it; everything else is as before. *)
Theorem C48_delete_exact :
  forall b ord w f w' out, reach b w -> is_Some (w_refs w !! f) -> step ord w (ODelRef f) = Some (w', out) ->
    only_refs_changed w w' /\ w_refs w' !! f = None /\ forall g, g <> f -> w_refs w' !! g = w_refs w !! g.
Proof. exact t_C48_delete_exact. Qed.
Print Assumptions C48_delete_exact.
Example ex_C48_delete_exact :
  exists b ord w f w' out,
    reach b w /\
    is_Some (w_refs w !! f) /\
    step ord w (ODelRef f) = Some (w', out) /\
    is_Some (w_recs w !! 4) /\ w_recs w' !! 4 = None.
Proof. exact tex_C48_delete_exact. Qed.

(** C48: Reset makes the variable denote nothing; everything else is as before. *)
Theorem C48_reset_exact :
  forall b ord w f w' out, reach b w -> is_Some (w_refs w !! f) -> step ord w (OResetRef f) = Some (w', out) ->
    only_refs_changed w w' /\ is_Some (w_refs w' !! f) /\ (forall r, ~ denotes w' f r) /\ forall g, g <> f -> w_refs w' !! g = w_refs w !! g.
Proof. exact t_C48_reset_exact. Qed.
Print Assumptions C48_reset_exact.
Example ex_C48_reset_exact :
  exists b ord w f w' out,
    reach b w /\
    is_Some (w_refs w !! f) /\
    step ord w (OResetRef f) = Some (w', out) /\
    denotes w f 1.
Proof. exact tex_C48_reset_exact. Qed.

(** C48: copying makes the target denote what the source denotes, through the same vault; the source and everything else are as before. *)
Theorem C48_copy_exact :
  forall b ord w dst src w' out, reach b w -> is_Some (w_refs w !! dst) -> is_Some (w_refs w !! src) -> step ord w (OCopyRef dst src) = Some (w', out) ->
    only_refs_changed w w' /\ is_Some (w_refs w' !! dst) /\
    (forall r, denotes w' dst r <-> denotes w src r) /\
    (forall r o, denotes w src r -> (bound_to w' dst o <-> bound_to w src o)) /\
    forall g, g <> dst -> w_refs w' !! g = w_refs w !! g.
Proof. exact t_C48_copy_exact. Qed.
Print Assumptions C48_copy_exact.
Example ex_C48_copy_exact :
  exists b ord w dst src w' out,
    reach b w /\
    is_Some (w_refs w !! dst) /\
    is_Some (w_refs w !! src) /\
    step ord w (OCopyRef dst src) = Some (w', out) /\
    denotes w 1 1 /\ ~ denotes w 9 1.
Proof. exact tex_C48_copy_exact. Qed.

(** C48: moving makes the target denote what the source denoted and leaves the source (if it is another variable) empty; everything else is as before. *)
Theorem C48_move_exact :
  forall b ord w dst src w' out, reach b w -> is_Some (w_refs w !! dst) -> is_Some (w_refs w !! src) -> step ord w (OMoveRef dst src) = Some (w', out) ->
    only_refs_changed w w' /\ is_Some (w_refs w' !! dst) /\ is_Some (w_refs w' !! src) /\
    (forall r, denotes w' dst r <-> denotes w src r) /\
    (forall r o, denotes w src r -> (bound_to w' dst o <-> bound_to w src o)) /\
    (dst <> src -> forall r, ~ denotes w' src r) /\
    forall g, g <> dst -> g <> src -> w_refs w' !! g = w_refs w !! g.
Proof. exact t_C48_move_exact. Qed.
Print Assumptions C48_move_exact.
Example ex_C48_move_exact :
  exists b ord w dst src w' out,
    reach b w /\
    is_Some (w_refs w !! dst) /\
    is_Some (w_refs w !! src) /\
    step ord w (OMoveRef dst src) = Some (w', out) /\
    denotes w 1 1 /\ denotes w 0 0.
Proof. exact tex_C48_move_exact. Qed.

(** C48: GetRecords stores the records it lists in the given reference variables, in order and bound to the vault (for a set: its parent vault),
    and changes nothing else. *)
Theorem C48_getrecords_refs :
  forall b ord w o ob pv k v amt fs w' out, fair ord -> reach b w -> (vault_at w o ob /\ pv = o) \/ (set_at w o ob /\ o_parent ob = Some pv) ->
    step ord w (OGetRecords o k v amt fs) = Some (w', out) ->
    exists res l, get_records ord w o k v amt = Some (res, l) /\ out = ORes res /\ only_refs_changed w w' /\
      (forall f, f ∉ fs -> w_refs w' !! f = w_refs w !! f) /\
      (NoDup fs -> forall i f r, fs !! i = Some f -> l !! i = Some r -> is_Some (w_refs w !! f) -> denotes w' f r /\ bound_to w' f pv) /\
      (NoDup fs -> forall i f, fs !! i = Some f -> length l <= i -> w_refs w' !! f = w_refs w !! f).
Proof. exact t_C48_getrecords_refs. Qed.
Print Assumptions C48_getrecords_refs.
Example ex_C48_getrecords_refs :
  exists b ord w o ob pv (k : string) v amt fs w' out,
    fair ord /\
    reach b w /\
    (vault_at w o ob /\ pv = o) \/ (set_at w o ob /\ o_parent ob = Some pv) /\
    step ord w (OGetRecords o k v amt fs) = Some (w', out) /\
    refs_to w' 0 = 2.
Proof. exact tex_C48_getrecords_refs. Qed.
Example ex_C48_getrecords_refs__set :
  exists b ord w o ob pv (k : string) v amt fs w' out,
    fair ord /\
    reach b w /\
    (vault_at w o ob /\ pv = o) \/ (set_at w o ob /\ o_parent ob = Some pv) /\
    step ord w (OGetRecords o k v amt fs) = Some (w', out) /\
    refs_to w' 0 = 2.
Proof. exact tex_C48_getrecords_refs__set. Qed.

(** C48: GetSortedRecords stores the records it lists in the given reference variables, in order, and changes nothing else. The references are bound
    to the object asked (for a set: to the set itself, see C07_set_reference_refuted). *)
Theorem C48_getsorted_refs :
  forall b ord w o k rev amt fs w' out, fair ord -> reach b w -> is_Some (w_objs w !! o) ->
    step ord w (OGetSorted o k rev amt fs) = Some (w', out) ->
    exists l, sorted_records w o k rev amt = Some l /\ only_refs_changed w w' /\
      (forall f, f ∉ fs -> w_refs w' !! f = w_refs w !! f) /\
      (NoDup fs -> forall i f r, fs !! i = Some f -> l !! i = Some r -> is_Some (w_refs w !! f) -> denotes w' f r /\ bound_to w' f o) /\
      (NoDup fs -> forall i f, fs !! i = Some f -> length l <= i -> w_refs w' !! f = w_refs w !! f).
Proof. exact t_C48_getsorted_refs. Qed.
Print Assumptions C48_getsorted_refs.
Example ex_C48_getsorted_refs :
  exists b ord w o (k : string) rev amt fs w' out,
    fair ord /\
    reach b w /\
    is_Some (w_objs w !! o) /\
    step ord w (OGetSorted o k rev amt fs) = Some (w', out) /\
    refs_to w' 3 = 2.
Proof. exact tex_C48_getsorted_refs. Qed.

(** C48: a reference variable changes only by an operation that is given it to be assigned: no operation on vaults, records or sets, including
    erasing, dropping, copying and moving them, redirects or empties a reference variable. *)
Theorem C48_changed_only_by_name :
  forall ord w p w' out f, step ord w p = Some (w', out) -> ~ assigns f p -> w_refs w' !! f = w_refs w !! f.
Proof. exact t_C48_changed_only_by_name. Qed.
Print Assumptions C48_changed_only_by_name.
Example ex_C48_changed_only_by_name :
  exists ord w p w' out f,
    step ord w p = Some (w', out) /\
    ~ assigns f p /\
    ~ valid_rec w' 0.
Proof. exact tex_C48_changed_only_by_name. Qed.
