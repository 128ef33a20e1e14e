(** Generated by tools/gen_p.py from T_Refuted.v: the property theorems, nothing else. *)
From Verif Require Import T_Refuted.
Open Scope nat_scope.

(** SetData on one record makes every other record with the same old value unfindable: by equality and in sorted order, although it
    still belongs to the vault and still holds the value. *)
Theorem C05_sharer_lost_refuted :
  exists ord w f r x o k v vx w' res, fair ord /\ reach true w /\ allowed true w (OSetData f k v) /\ denotes w f r /\ x <> r /\
    step ord w (OSetData f k v) = Some (w', ORes res) /\ res_ok res = true /\
    (exists ob', vault_at w' o ob' /\ x ∈ o_recs ob' /\ stored w x k = Some vx /\ stored w' x k = Some vx) /\
    get_records ord w o k vx None = Some (okres Success k (Some (vty vx)) (Some (vty vx)), [r; x]) /\
    get_records ord w' o k vx None = Some (bad WrongValue k (Some (vty vx)) (Some (vty vx)), []) /\
    sorted_records w o k false None = Some [r; x] /\ sorted_records w' o k false None = Some [r].
Proof. exact t_C05_sharer_lost_refuted. Qed.
Print Assumptions C05_sharer_lost_refuted.

(** Erasing one record removes every record with the same value from the sorted listings. *)
Theorem C06_sharer_lost_refuted :
  exists ord w o x k v w' res, fair ord /\ reach true w /\ step ord w (OEraseRecord o k v) = Some (w', ORes res) /\ res_ok res = true /\
    (exists ob', vault_at w' o ob' /\ x ∈ o_recs ob' /\ stored w' x k = Some v /\ filed ob' k v x) /\
    (exists r, sorted_records w o k false None = Some [r; x]) /\ sorted_records w' o k false None = Some [].
Proof. exact t_C06_sharer_lost_refuted. Qed.
Print Assumptions C06_sharer_lost_refuted.

(** SetData on a unique key is refused although no record holds the new value. *)
Theorem C08_unique_free_value_refuted :
  exists ord w f r o ob k v w' res, fair ord /\ reach true w /\ allowed true w (OSetData f k v) /\ denotes w f r /\ bound_to w f o /\ vault_at w o ob /\
    valid_rec w r /\ get_key_type ob k = Some (vty v) /\ set_Forall (fun x => stored w x k <> Some v) (o_recs ob) /\
    step ord w (OSetData f k v) = Some (w', ORes res) /\ res = bad UniqueKeyValueAlredyInSet k (Some (vty v)) (Some (vty v)).
Proof. exact t_C08_unique_free_value_refuted. Qed.
Print Assumptions C08_unique_free_value_refuted.

(** GetRecords and EraseRecords called with limit 0 handle one record. *)
Theorem C11_getrecords_zero_refuted :
  exists ord w o k v res r, fair ord /\ reach true w /\ get_records ord w o k v (Some 0) = Some (res, [r]).
Proof. exact t_C11_getrecords_zero_refuted. Qed.
Print Assumptions C11_getrecords_zero_refuted.

Theorem C11_eraserecords_zero_refuted :
  exists ord w o k v w' res r, fair ord /\ reach true w /\ step ord w (OEraseRecords o k v (Some 0)) = Some (w', ORes res) /\
    valid_rec w r /\ ~ valid_rec w' r.
Proof. exact t_C11_eraserecords_zero_refuted. Qed.
Print Assumptions C11_eraserecords_zero_refuted.

(** A refused AddUniqueKey leaves an index for the key that does not exist. *)
Theorem C16_failed_leaves_index_refuted :
  exists ord w o k t w' res ob ob', fair ord /\ reach true w /\ vault_at w o ob /\ step ord w (OAddUniqueKey o k t) = Some (w', ORes res) /\ res_ok res = false /\
    vault_at w' o ob' /\ ~ is_Some (o_idx ob !! k) /\ is_Some (o_idx ob' !! k) /\ get_key_type ob' k = None.
Proof. exact t_C16_failed_leaves_index_refuted. Qed.
Print Assumptions C16_failed_leaves_index_refuted.

(** A set filled by Join does not follow updates: it still finds the record under its old value and not under the new one. *)
Theorem C21_joined_set_refuted :
  exists ord w f r k v old w' res s sb', fair ord /\ reach false w /\ allowed false w (OSetData f k v) /\ denotes w f r /\
    step ord w (OSetData f k v) = Some (w', ORes res) /\ res_ok res = true /\ set_at w' s sb' /\ r ∈ o_recs sb' /\
    stored w' r k = Some v /\ v <> old /\ filed sb' k old r /\ ~ filed sb' k v r.
Proof. exact t_C21_joined_set_refuted. Qed.
Print Assumptions C21_joined_set_refuted.

(** A set filled by Join keeps an erased record, as a pointer to freed memory; clearing the set is then undefined behaviour. *)
Theorem C22_joined_set_refuted :
  exists ord w o f r w' s sb', fair ord /\ reach false w /\ allowed false w (OEraseRef o f) /\ denotes w f r /\
    step ord w (OEraseRef o f) = Some (w', OBool true) /\ set_at w' s sb' /\ r ∈ o_recs sb' /\ ~ valid_rec w' r /\
    w_recs (nw w' (OResetRef f)) !! r = None /\ step ord (nw w' (OResetRef f)) (OSetClear s) = None.
Proof. exact t_C22_joined_set_refuted. Qed.
Print Assumptions C22_joined_set_refuted.

(** A record removed from a set comes back into the set's lookups when it is updated. *)
Theorem C24_comes_back_refuted :
  exists ord w f r k v w' res s sb sb', fair ord /\ reach false w /\ allowed false w (OSetData f k v) /\ denotes w f r /\
    set_at w s sb /\ r ∉ o_recs sb /\ ~ filed sb k v r /\
    step ord w (OSetData f k v) = Some (w', ORes res) /\ set_at w' s sb' /\ r ∉ o_recs sb' /\ filed sb' k v r /\
    sorted_records w' s k false None = Some [2; r].
Proof. exact t_C24_comes_back_refuted. Qed.
Print Assumptions C24_comes_back_refuted.

(** A moved set holds the records but answers no query; the set moved from keeps answering. *)
Theorem C25_moved_set_refuted :
  exists ord ps w dst src w' k l, fair ord /\ run empty_world ps = Some w /\ step ord w (OMoveSet dst src) = Some (w', OUnit) /\
    o_recs (ob_at w' dst) = o_recs (ob_at w src) /\ l <> [] /\
    sorted_records w src k false None = Some l /\ sorted_records w' dst k false None = Some [].
Proof. exact t_C25_moved_set_refuted. Qed.
Print Assumptions C25_moved_set_refuted.

(** A set that is move-assigned to goes on listing its old records: its old indexes stay, whatever the new contents. *)
Theorem C25_move_assigned_set_refuted :
  exists ord ps w dst src w' k l r, fair ord /\ run empty_world ps = Some w /\ step ord w (OMoveAssignSet dst src) = Some (w', OUnit) /\
    o_recs (ob_at w' dst) = o_recs (ob_at w src) /\ sorted_records w' dst k false None = Some l /\ sorted_records w dst k false None = Some l /\
    r ∈ l /\ r ∉ o_recs (ob_at w' dst).
Proof. exact t_C25_move_assigned_set_refuted. Qed.
Print Assumptions C25_move_assigned_set_refuted.

(** In a copied vault unique keys are not enforced: two records with the same value of a unique key can be created. *)
Theorem C27_copy_loses_uniqueness_refuted :
  exists ps w o ob k r1 r2, run empty_world ps = Some w /\ vault_at w o ob /\ k ∈ get_unique_keys ob /\ r1 ∈ o_recs ob /\ r2 ∈ o_recs ob /\ r1 <> r2 /\
    stored w r1 k = stored w r2 k /\ is_Some (stored w r1 k).
Proof. exact t_C27_copy_loses_uniqueness_refuted. Qed.
Print Assumptions C27_copy_loses_uniqueness_refuted.

(** A copied vault falls back to the default a key was added with, dropping later UpdateKey calls. *)
Theorem C27_copy_loses_default_refuted :
  exists ord w src dst w' k v v', fair ord /\ reach true w /\ allowed true w (OCopyVault dst src) /\ step ord w (OCopyVault dst src) = Some (w', OUnit) /\
    (get_key_value (ob_at w src) k (vty v)).2 = Some v /\ (get_key_value (ob_at w' dst) k (vty v)).2 = Some v' /\ v <> v'.
Proof. exact t_C27_copy_loses_default_refuted. Qed.
Print Assumptions C27_copy_loses_default_refuted.

(** A failing SetData with several values leaves the earlier ones written. *)
Theorem C42_not_atomic_refuted :
  exists ord w f r ps w' res k, fair ord /\ reach true w /\ allowed true w (OSetMany f ps) /\ denotes w f r /\ step ord w (OSetMany f ps) = Some (w', ORes res) /\ res_ok res = false /\
    stored w' r k <> stored w r k.
Proof. exact t_C42_not_atomic_refuted. Qed.
Print Assumptions C42_not_atomic_refuted.

(** SetData with several values through a default-constructed reference is undefined behaviour. *)
Theorem C42_default_ref_refuted :
  exists ord w f ps, fair ord /\ reach true w /\ w_refs w !! f = Some (Ref None None) /\ step ord w (OSetMany f ps) = None.
Proof. exact t_C42_default_ref_refuted. Qed.
Print Assumptions C42_default_ref_refuted.

(** After moving a vault, references to its records can no longer write (the key is looked up in the emptied vault), and its sets hang on to
    the emptied vault. *)
Theorem C44_moved_vault_refuted :
  exists ps w src dst w' f r k v res w2 s, run empty_world ps = Some w /\ step id_order w (OMoveVault dst src) = Some (w', OUnit) /\
    denotes w f r /\ r ∈ o_recs (ob_at w' dst) /\ get_key_type (ob_at w' dst) k = Some (vty v) /\ valid_rec w' r /\
    step id_order w (OSetData f k v) = Some (nw w (OSetData f k v), ORes (okres Success k (Some (vty v)) (Some (vty v)))) /\
    step id_order w' (OSetData f k v) = Some (w2, ORes res) /\ res = bad WrongKey k (Some (vty v)) None /\
    o_parent (ob_at w s) = Some src /\ o_parent (ob_at w' s) = Some src /\ o_recs (ob_at w' src) = ∅.
Proof. exact t_C44_moved_vault_refuted. Qed.
Print Assumptions C44_moved_vault_refuted.

(** It also breaks the uniqueness of keys: a reference bound to the emptied vault writes a unique key of the moved one. *)
Theorem C01_moved_vault_refuted :
  exists ps w o ob k r1 r2, run empty_world ps = Some w /\ vault_at w o ob /\ k ∈ get_unique_keys ob /\ r1 ∈ o_recs ob /\ r2 ∈ o_recs ob /\ r1 <> r2 /\
    stored w r1 k = stored w r2 k /\ is_Some (stored w r1 k).
Proof. exact t_C01_moved_vault_refuted. Qed.
Print Assumptions C01_moved_vault_refuted.

Theorem C01_set_getrecord_refuted :
  exists ps w o ob k r1 r2, run empty_world ps = Some w /\ vault_at w o ob /\ k ∈ get_unique_keys ob /\ r1 ∈ o_recs ob /\ r2 ∈ o_recs ob /\ r1 <> r2 /\
    stored w r1 k = stored w r2 k /\ is_Some (stored w r1 k).
Proof. exact t_C01_set_getrecord_refuted. Qed.
Print Assumptions C01_set_getrecord_refuted.

Theorem C04_foreign_record_refuted :
  exists ps w o ob k v r res, run empty_world ps = Some w /\ vault_at w o ob /\ r ∉ o_recs ob /\ get_records id_order w o k v None = Some (res, [r]).
Proof. exact t_C04_foreign_record_refuted. Qed.
Print Assumptions C04_foreign_record_refuted.

(** A reference obtained from a set by GetSortedRecords reports success for a write that the record does not get. *)
Theorem C07_set_reference_refuted :
  exists ps w f r s k v w' res, run empty_world ps = Some w /\ denotes w f r /\ bound_to w f s /\ r ∈ o_recs (ob_at w s) /\ valid_rec w r /\
    step id_order w (OSetData f k v) = Some (w', ORes res) /\ res_ok res = true /\ stored w' r k <> Some v.
Proof. exact t_C07_set_reference_refuted. Qed.
Print Assumptions C07_set_reference_refuted.

(** And of two comparisons of one key with values of different types is undefined behaviour (the interval shortcut reads a value at the wrong type). *)
Theorem C10_mixed_types_refuted :
  exists ord w o q s, fair ord /\ reach true w /\ is_vault w o = true /\ is_set w s = true /\ step ord w (OComplex o q s) = None.
Proof. exact t_C10_mixed_types_refuted. Qed.
Print Assumptions C10_mixed_types_refuted.

(** A set keeps answering GetKeyValue with the default the key had when it was added: UpdateKey reaches the vault only. *)
Theorem C17_set_default_stale_refuted :
  exists ord w s sb o k d w' res, fair ord /\ reach true w /\ set_at w s sb /\ o_parent sb = Some o /\
    step ord w (OUpdateKey o k d) = Some (w', ORes res) /\ res_ok res = true /\
    (exists ob', vault_at w' o ob' /\ get_key_value ob' k (vty d) = (okres Success k (Some (vty d)) (Some (vty d)), Some d)) /\
    (exists sb' d', set_at w' s sb' /\ d' <> d /\ set_get_key_value w' sb' k (vty d) = Some (okres Success k (Some (vty d)) (Some (vty d)), Some d')).
Proof. exact t_C17_set_default_stale_refuted. Qed.
Print Assumptions C17_set_default_stale_refuted.
