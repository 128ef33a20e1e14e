(** Generated by tools/gen_p.py from T_Move.v: the property theorems, nothing else. *)
From Verif Require Import T_Move Ex_Base Ex_Move.
Open Scope nat_scope.

(** C44: moving a vault to a new variable hands over everything it has: the new vault has its keys, unique keys, defaults, records and indexes, hence
    the same answers; the old variable is left without keys and records; records, reference variables and all other vaults and sets are untouched. *)
Theorem C44_move_exact :
  forall ord w dst src sb w' out, vault_at w src sb -> w_objs w !! dst = None -> step ord w (OMoveVault dst src) = Some (w', out) ->
    out = OUnit /\ vault_at w' dst sb /\ (exists eb, vault_at w' src eb /\ bare eb) /\
    (forall k rev amt, sorted_records w' dst k rev amt = sorted_records w src k rev amt) /\
    (forall x, x <> dst -> x <> src -> w_objs w' !! x = w_objs w !! x) /\ w_recs w' = w_recs w /\ w_refs w' = w_refs w.
Proof. exact t_C44_move_exact. Qed.
Print Assumptions C44_move_exact.
Example ex_C44_move_exact :
  exists ord w dst src sb w' out,
    vault_at w src sb /\
    w_objs w !! dst = None /\
    step ord w (OMoveVault dst src) = Some (w', out) /\
    size (o_recs sb) = 1.
Proof. exact tex_C44_move_exact. Qed.

(** C44: but a reference to a record of the moved vault goes on working through the old variable, whose vault has no keys: every GetData and SetData
    through it is refused as an unknown key, although the record is still valid. *)
Theorem C44_references_do_not_follow :
  forall ord w dst src sb w' out f rf r, vault_at w src sb -> w_objs w !! dst = None -> step ord w (OMoveVault dst src) = Some (w', out) ->
    w_refs w !! f = Some rf -> f_rec rf = Some r -> f_vlt rf = Some src -> valid_rec w r ->
    w_refs w' !! f = Some rf /\ valid_rec w' r /\ (forall k t, ref_get_data w' rf k t = Some (bad WrongKey k (Some t) None, None)) /\
    forall k v, step ord w' (OSetData f k v) = Some (w', ORes (bad WrongKey k (Some (vty v)) None)).
Proof. exact t_C44_references_do_not_follow. Qed.
Print Assumptions C44_references_do_not_follow.
Example ex_C44_references_do_not_follow :
  exists ord w dst src sb w' out f rf r,
    vault_at w src sb /\
    w_objs w !! dst = None /\
    step ord w (OMoveVault dst src) = Some (w', out) /\
    w_refs w !! f = Some rf /\
    f_rec rf = Some r /\
    f_vlt rf = Some src /\
    valid_rec w r /\
    size (o_recs sb) = 4.
Proof. exact tex_C44_references_do_not_follow. Qed.

(** C44: and a record set filled from the moved vault stays bound to the old variable, which does not list it: it keeps its records, and as long as it
    and the old vault are left alone it refuses every reference obtained from the new vault. *)
Theorem C44_sets_do_not_follow :
  forall ord w dst src sb w' out s tb, vault_at w src sb -> w_objs w !! dst = None -> step ord w (OMoveVault dst src) = Some (w', out) ->
    set_at w s tb -> o_parent tb = Some src ->
    set_at w' s tb /\ (exists eb, vault_at w' src eb /\ s ∉ o_sets eb) /\
    (forall w2 f rf r, w_objs w2 !! s = w_objs w' !! s -> w_objs w2 !! src = w_objs w' !! src ->
       w_refs w2 !! f = Some rf -> f_rec rf = Some r -> f_vlt rf = Some dst -> valid_rec w2 r ->
       step ord w2 (OSetAdd s f) = Some (w2, ORes (bad ParentVaultNotMatch "" None None))).
Proof. exact t_C44_sets_do_not_follow. Qed.
Print Assumptions C44_sets_do_not_follow.
Example ex_C44_sets_do_not_follow :
  exists ord w dst src sb w' out s tb,
    vault_at w src sb /\
    w_objs w !! dst = None /\
    step ord w (OMoveVault dst src) = Some (w', out) /\
    set_at w s tb /\
    o_parent tb = Some src /\
    size (o_recs tb) = 3.
Proof. exact tex_C44_sets_do_not_follow. Qed.

(** C44: move assignment first ends the contents of the target - its records become invalid, its sets are reset - and then hands over everything
    the source has; the source is left without keys and records. *)
Theorem C44_move_assign_exact :
  forall b ord w dst src sb db w' out, fair ord -> reach b w -> vault_at w src sb -> vault_at w dst db -> dst <> src ->
    step ord w (OMoveAssignVault dst src) = Some (w', out) ->
    out = OUnit /\ vault_at w' dst sb /\ (exists eb, vault_at w' src eb /\ bare eb) /\
    (forall k rev amt, sorted_records w' dst k rev amt = sorted_records w src k rev amt) /\
    w_refs w' = w_refs w /\ (forall r, valid_rec w' r <-> valid_rec w r /\ r ∉ o_recs db) /\
    (forall r k, r ∉ o_recs db -> stored w' r k = stored w r k) /\
    (forall s tb, set_at w s tb -> o_parent tb = Some dst -> exists tb', set_at w' s tb' /\ o_parent tb' = None /\ o_recs tb' = ∅) /\
    (forall x xb, w_objs w !! x = Some xb -> x <> dst -> x <> src -> (o_static_set xb = true -> o_parent xb <> Some dst) -> w_objs w' !! x = Some xb).
Proof. exact t_C44_move_assign_exact. Qed.
Print Assumptions C44_move_assign_exact.
Example ex_C44_move_assign_exact :
  exists b ord w dst src sb db w' out,
    fair ord /\
    reach b w /\
    vault_at w src sb /\
    vault_at w dst db /\
    dst <> src /\
    step ord w (OMoveAssignVault dst src) = Some (w', out) /\
    size (o_recs sb) = 1 /\ size (o_recs db) = 4.
Proof. exact tex_C44_move_assign_exact. Qed.

(** C25: moving a set to a new variable hands over its records, its vault and its keys, but not its indexes: under every key the new set has nothing filed,
    so every sorted listing of it is empty (and so is every query by value or range, theorems C04, C09). The old variable is left unbound and empty; records,
    references, vaults and other sets are untouched. *)
Theorem C25_move_exact :
  forall b ord w dst src sb p w' out, fair ord -> reach b w -> set_at w src sb -> o_parent sb = Some p -> w_objs w !! dst = None ->
    step ord w (OMoveSet dst src) = Some (w', out) ->
    out = OUnit /\
    (exists db, set_at w' dst db /\ o_parent db = Some p /\ o_recs db = o_recs sb /\ get_keys db = get_keys sb /\ get_unique_keys db = get_unique_keys sb /\
       (forall k, is_Some (get_key_type db k) <-> is_Some (get_key_type sb k)) /\
       (forall k v r, ~ filed db k v r /\ ~ filed_ord db k v r) /\ forall k rev amt, sorted_records w' dst k rev amt = Some []) /\
    (exists sb', set_at w' src sb' /\ o_parent sb' = None /\ o_recs sb' = ∅) /\
    (forall x xb, x <> dst -> x <> src -> w_objs w !! x = Some xb -> exists xb', w_objs w' !! x = Some xb' /\ xb' = ob_sets (o_sets xb') xb) /\
    w_refs w' = w_refs w /\ (forall r, valid_rec w' r <-> valid_rec w r) /\ (forall r k, stored w' r k = stored w r k).
Proof. exact t_C25_move_exact. Qed.
Print Assumptions C25_move_exact.
Example ex_C25_move_exact :
  exists b ord w dst src sb p w' out,
    fair ord /\
    reach b w /\
    set_at w src sb /\
    o_parent sb = Some p /\
    w_objs w !! dst = None /\
    step ord w (OMoveSet dst src) = Some (w', out) /\
    size (o_recs sb) = 3.
Proof. exact tex_C25_move_exact. Qed.
