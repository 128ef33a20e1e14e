(** Properties the code does not have: for each, a program that breaks it, checked by computation. [run_to ps] is the state a
    program reaches with unordered containers visited in identity order; [state b ps] is the same for a program in class [b]. *)
From Verif Require Export Ex_Base.
Open Scope nat_scope.

Definition run_to (ps : list op) : world := default empty_world (run empty_world (pair id_order <$> ps)).
Global Opaque run_to.
Lemma run_to_run ps : bool_decide (is_Some (run empty_world (pair id_order <$> ps))) = true -> run empty_world (pair id_order <$> ps) = Some (run_to ps).
Proof. intros H. apply bool_decide_eq_true in H as [w E]. Local Transparent run_to. unfold run_to. rewrite E. done. Qed.
Global Opaque run_to.
Ltac rx := repeat match goal with
  | |- _ /\ _ => split
  | |- run _ _ = Some (run_to _) => apply run_to_run; vmr
  | |- _ => progress ex
  | |- step _ _ _ = None => vm_compute; reflexivity
  end.
Definition age n := VInt I32 n.
Definition two_same : list op := [ONewVault 0; OAddKey 0 "age" (age 18); ONewRef 0; ONewRef 1; OCreateRecord 0 (Some 0) [("age", age 30)]; OCreateRecord 0 (Some 1) [("age", age 30)]].

(** SetData on one record makes every other record with the same old value unfindable: by equality and in sorted order, although it
    still belongs to the vault and still holds the value. *)
Lemma t_C05_sharer_lost_refuted :
  exists ord w f r x o k v vx w' res, fair ord /\ reach true w /\ allowed true w (OSetData f k v) /\ denotes w f r /\ x <> r /\
    step ord w (OSetData f k v) = Some (w', ORes res) /\ res_ok res = true /\
    (exists ob', vault_at w' o ob' /\ x ∈ o_recs ob' /\ stored w x k = Some vx /\ stored w' x k = Some vx) /\
    get_records ord w o k vx None = Some (okres Success k (Some (vty vx)) (Some (vty vx)), [r; x]) /\
    get_records ord w' o k vx None = Some (bad WrongValue k (Some (vty vx)) (Some (vty vx)), []) /\
    sorted_records w o k false None = Some [r; x] /\ sorted_records w' o k false None = Some [r].
Proof.
  set (p := OSetData 0 "age" (age 31)). set (w := state true two_same).
  exists id_order, w, 0, 0, 1, 0, "age", (age 31), (age 30), (nw w p), (res_of w p). unfold w, p. rx. exists (ob_at (nw w p) 0). unfold w, p. rx.
Qed.

(** Erasing one record removes every record with the same value from the sorted listings. *)
Lemma t_C06_sharer_lost_refuted :
  exists ord w o x k v w' res, fair ord /\ reach true w /\ step ord w (OEraseRecord o k v) = Some (w', ORes res) /\ res_ok res = true /\
    (exists ob', vault_at w' o ob' /\ x ∈ o_recs ob' /\ stored w' x k = Some v /\ filed ob' k v x) /\
    (exists r, sorted_records w o k false None = Some [r; x]) /\ sorted_records w' o k false None = Some [].
Proof.
  set (p := OEraseRecord 0 "age" (age 30)). set (w := state true two_same).
  exists id_order, w, 0, 1, "age", (age 30), (nw w p), (res_of w p). unfold w, p. rx.
  - exists (ob_at (nw w p) 0). unfold w, p. rx.
  - exists 0. rx.
Qed.

(** SetData on a unique key is refused although no record holds the new value. *)
Lemma t_C08_unique_free_value_refuted :
  exists ord w f r o ob k v w' res, fair ord /\ reach true w /\ allowed true w (OSetData f k v) /\ denotes w f r /\ bound_to w f o /\ vault_at w o ob /\
    valid_rec w r /\ get_key_type ob k = Some (vty v) /\ set_Forall (fun x => stored w x k <> Some v) (o_recs ob) /\
    step ord w (OSetData f k v) = Some (w', ORes res) /\ res = bad UniqueKeyValueAlredyInSet k (Some (vty v)) (Some (vty v)).
Proof.
  set (p := OSetData 0 "id" (age 77)). exists id_order, W, 0, 0, 0, (ob_at W 0), "id", (age 77), (nw W p), (res_of W p). unfold p. rx.
Qed.

(** GetRecords and EraseRecords called with limit 0 handle one record. *)
Lemma t_C11_getrecords_zero_refuted :
  exists ord w o k v res r, fair ord /\ reach true w /\ get_records ord w o k v (Some 0) = Some (res, [r]).
Proof. exists id_order, W, 0, "age", (age 30). eexists _, _. split; [rx|]. split; [rx|]. vm_compute. reflexivity. Qed.
Lemma t_C11_eraserecords_zero_refuted :
  exists ord w o k v w' res r, fair ord /\ reach true w /\ step ord w (OEraseRecords o k v (Some 0)) = Some (w', ORes res) /\
    valid_rec w r /\ ~ valid_rec w' r.
Proof. set (p := OEraseRecords 0 "age" (age 30) (Some 0)). exists id_order, W, 0, "age", (age 30), (nw W p), (res_of W p), 0. unfold p. rx. Qed.

(** A refused AddUniqueKey leaves an index for the key that does not exist. *)
Lemma t_C16_failed_leaves_index_refuted :
  exists ord w o k t w' res ob ob', fair ord /\ reach true w /\ vault_at w o ob /\ step ord w (OAddUniqueKey o k t) = Some (w', ORes res) /\ res_ok res = false /\
    vault_at w' o ob' /\ ~ is_Some (o_idx ob !! k) /\ is_Some (o_idx ob' !! k) /\ get_key_type ob' k = None.
Proof. set (p := OAddUniqueKey 0 "nr" (TInt I32)). exists id_order, W, 0, "nr", (TInt I32), (nw W p), (res_of W p), (ob_at W 0), (ob_at (nw W p) 0). unfold p. rx. Qed.

(** A set filled by Join does not follow updates: it still finds the record under its old value and not under the new one. *)
Lemma t_C21_joined_set_refuted :
  exists ord w f r k v old w' res s sb', fair ord /\ reach false w /\ allowed false w (OSetData f k v) /\ denotes w f r /\
    step ord w (OSetData f k v) = Some (w', ORes res) /\ res_ok res = true /\ set_at w' s sb' /\ r ∈ o_recs sb' /\
    stored w' r k = Some v /\ v <> old /\ filed sb' k old r /\ ~ filed sb' k v r.
Proof.
  set (p := OSetData 2 "age" (age 77)). set (w := state false (sc ++ [OJoin 11 10])).
  exists id_order, w, 2, 2, "age", (age 77), (age 40), (nw w p), (res_of w p), 11, (ob_at (nw w p) 11). unfold w, p. rx.
Qed.

(** A set filled by Join keeps an erased record, as a pointer to freed memory; clearing the set is then undefined behaviour. *)
Lemma t_C22_joined_set_refuted :
  exists ord w o f r w' s sb', fair ord /\ reach false w /\ allowed false w (OEraseRef o f) /\ denotes w f r /\
    step ord w (OEraseRef o f) = Some (w', OBool true) /\ set_at w' s sb' /\ r ∈ o_recs sb' /\ ~ valid_rec w' r /\
    w_recs (nw w' (OResetRef f)) !! r = None /\ step ord (nw w' (OResetRef f)) (OSetClear s) = None.
Proof.
  set (p := OEraseRef 0 2). set (w := state false (sc ++ [OJoin 11 10])).
  exists id_order, w, 0, 2, 2, (nw w p), 11, (ob_at (nw w p) 11). unfold w, p. rx.
Qed.

(** A record removed from a set comes back into the set's lookups when it is updated. *)
Lemma t_C24_comes_back_refuted :
  exists ord w f r k v w' res s sb sb', fair ord /\ reach false w /\ allowed false w (OSetData f k v) /\ denotes w f r /\
    set_at w s sb /\ r ∉ o_recs sb /\ ~ filed sb k v r /\
    step ord w (OSetData f k v) = Some (w', ORes res) /\ set_at w' s sb' /\ r ∉ o_recs sb' /\ filed sb' k v r /\
    sorted_records w' s k false None = Some [2; r].
Proof.
  set (p := OSetData 0 "age" (age 77)). set (w := state false (sc ++ [OEraseRef 10 0])).
  exists id_order, w, 0, 0, "age", (age 77), (nw w p), (res_of w p), 10, (ob_at w 10), (ob_at (nw w p) 10). unfold w, p. rx.
Qed.

(** A moved set holds the records but answers no query; the set moved from keeps answering. *)
Lemma t_C25_moved_set_refuted :
  exists ord ps w dst src w' k l, fair ord /\ run empty_world ps = Some w /\ step ord w (OMoveSet dst src) = Some (w', OUnit) /\
    o_recs (ob_at w' dst) = o_recs (ob_at w src) /\ l <> [] /\
    sorted_records w src k false None = Some l /\ sorted_records w' dst k false None = Some [].
Proof.
  set (p := OMoveSet 20 10). exists id_order, (pair id_order <$> sc), (run_to sc), 20, 10, (nw (run_to sc) p), "age", [0; 1; 2]. unfold p. rx.
Qed.

(** A set that is move-assigned to goes on listing its old records: its old indexes stay, whatever the new contents. *)
Lemma t_C25_move_assigned_set_refuted :
  exists ord ps w dst src w' k l r, fair ord /\ run empty_world ps = Some w /\ step ord w (OMoveAssignSet dst src) = Some (w', OUnit) /\
    o_recs (ob_at w' dst) = o_recs (ob_at w src) /\ sorted_records w' dst k false None = Some l /\ sorted_records w dst k false None = Some l /\
    r ∈ l /\ r ∉ o_recs (ob_at w' dst).
Proof.
  set (p := OMoveAssignSet 11 10). exists id_order, (pair id_order <$> sc), (run_to sc), 11, 10, (nw (run_to sc) p), "age", [3; 0; 1], 3. unfold p. rx.
Qed.

(** In a copied vault unique keys are not enforced: two records with the same value of a unique key can be created. *)
Lemma t_C27_copy_loses_uniqueness_refuted :
  exists ps w o ob k r1 r2, run empty_world ps = Some w /\ vault_at w o ob /\ k ∈ get_unique_keys ob /\ r1 ∈ o_recs ob /\ r2 ∈ o_recs ob /\ r1 <> r2 /\
    stored w r1 k = stored w r2 k /\ is_Some (stored w r1 k).
Proof.
  set (ps := sc_keys ++ [OCreateRecord 0 None [("id", age 1)]; OCopyVault 5 0; OCreateRecord 5 None [("id", age 1)]]).
  exists (pair id_order <$> ps), (run_to ps), 5, (ob_at (run_to ps) 5), "id", 1, 2. unfold ps. rx.
Qed.
(** A copied vault falls back to the default a key was added with, dropping later UpdateKey calls. *)
Lemma t_C27_copy_loses_default_refuted :
  exists ord w src dst w' k v v', fair ord /\ reach true w /\ allowed true w (OCopyVault dst src) /\ step ord w (OCopyVault dst src) = Some (w', OUnit) /\
    (get_key_value (ob_at w src) k (vty v)).2 = Some v /\ (get_key_value (ob_at w' dst) k (vty v)).2 = Some v' /\ v <> v'.
Proof.
  set (p := OCopyVault 5 0). set (w := state true [ONewVault 0; OAddKey 0 "age" (age 18); OUpdateKey 0 "age" (age 21)]).
  exists id_order, w, 0, 5, (nw w p), "age", (age 21), (age 18). unfold w, p. rx.
Qed.

(** A failing SetData with several values leaves the earlier ones written. *)
Lemma t_C42_not_atomic_refuted :
  exists ord w f r ps w' res k, fair ord /\ reach true w /\ allowed true w (OSetMany f ps) /\ denotes w f r /\ step ord w (OSetMany f ps) = Some (w', ORes res) /\ res_ok res = false /\
    stored w' r k <> stored w r k.
Proof.
  set (ps := [("age", age 9); ("size", age 1)]). exists id_order, W, 0, 0, ps, (nw W (OSetMany 0 ps)), (res_of W (OSetMany 0 ps)), "age". unfold ps. rx.
Qed.
(** SetData with several values through a default-constructed reference is undefined behaviour. *)
Lemma t_C42_default_ref_refuted :
  exists ord w f ps, fair ord /\ reach true w /\ w_refs w !! f = Some (Ref None None) /\ step ord w (OSetMany f ps) = None.
Proof. exists id_order, W, 9, [("age", age 9)]. rx. Qed.

(** After moving a vault, references to its records can no longer write (the key is looked up in the emptied vault), and its sets hang on to
    the emptied vault. *)
Lemma t_C44_moved_vault_refuted :
  exists ps w src dst w' f r k v res w2 s, run empty_world ps = Some w /\ step id_order w (OMoveVault dst src) = Some (w', OUnit) /\
    denotes w f r /\ r ∈ o_recs (ob_at w' dst) /\ get_key_type (ob_at w' dst) k = Some (vty v) /\ valid_rec w' r /\
    step id_order w (OSetData f k v) = Some (nw w (OSetData f k v), ORes (okres Success k (Some (vty v)) (Some (vty v)))) /\
    step id_order w' (OSetData f k v) = Some (w2, ORes res) /\ res = bad WrongKey k (Some (vty v)) None /\
    o_parent (ob_at w s) = Some src /\ o_parent (ob_at w' s) = Some src /\ o_recs (ob_at w' src) = ∅.
Proof.
  set (w := run_to sc). set (w' := nw w (OMoveVault 5 0)).
  exists (pair id_order <$> sc), w, 0, 5, w', 0, 0, "age", (age 77), (res_of w' (OSetData 0 "age" (age 77))), (nw w' (OSetData 0 "age" (age 77))), 10. unfold w', w. rx.
  rewrite step_res by vmr. f_equal.
Qed.
(** It also breaks the uniqueness of keys: a reference bound to the emptied vault writes a unique key of the moved one. *)
Lemma t_C01_moved_vault_refuted :
  exists ps w o ob k r1 r2, run empty_world ps = Some w /\ vault_at w o ob /\ k ∈ get_unique_keys ob /\ r1 ∈ o_recs ob /\ r2 ∈ o_recs ob /\ r1 <> r2 /\
    stored w r1 k = stored w r2 k /\ is_Some (stored w r1 k).
Proof.
  set (ps := sc ++ [OMoveVault 5 0; OAddKey 0 "id" (age 0); OSetData 0 "id" (age 2)]).
  exists (pair id_order <$> ps), (run_to ps), 5, (ob_at (run_to ps) 5), "id", 0, 1. unfold ps. rx.
Qed.
(** GetRecord on a set rebinds the reference it is given even when it fails; writing through it then bypasses the unique key and files the
    record of one vault in the indexes of another. *)
Definition rebound : list op :=
  [ONewVault 0; OAddKey 0 "id" (age 0); OCreateRecord 0 None [("id", age 1)]; ONewVault 1; OAddUniqueKey 1 "id" (TInt I32); ONewRef 0;
   OCreateRecord 1 (Some 0) [("id", age 1)]; OCreateRecord 1 None [("id", age 2)]; ONewSet 10; ORequest 0 RGreater "id" (age 0) (age 0) false false None None 10;
   OGetRecord 10 "no such key" (age 5) 0; OSetData 0 "id" (age 2)].
Lemma t_C01_set_getrecord_refuted :
  exists ps w o ob k r1 r2, run empty_world ps = Some w /\ vault_at w o ob /\ k ∈ get_unique_keys ob /\ r1 ∈ o_recs ob /\ r2 ∈ o_recs ob /\ r1 <> r2 /\
    stored w r1 k = stored w r2 k /\ is_Some (stored w r1 k).
Proof. exists (pair id_order <$> rebound), (run_to rebound), 1, (ob_at (run_to rebound) 1), "id", 1, 2. rx. Qed.
Lemma t_C04_foreign_record_refuted :
  exists ps w o ob k v r res, run empty_world ps = Some w /\ vault_at w o ob /\ r ∉ o_recs ob /\ get_records id_order w o k v None = Some (res, [r]).
Proof. exists (pair id_order <$> rebound), (run_to rebound), 0, (ob_at (run_to rebound) 0), "id", (age 2), 1. eexists _. rx. Qed.

(** A reference obtained from a set by GetSortedRecords reports success for a write that the record does not get. *)
Lemma t_C07_set_reference_refuted :
  exists ps w f r s k v w' res, run empty_world ps = Some w /\ denotes w f r /\ bound_to w f s /\ r ∈ o_recs (ob_at w s) /\ valid_rec w r /\
    step id_order w (OSetData f k v) = Some (w', ORes res) /\ res_ok res = true /\ stored w' r k <> Some v.
Proof.
  set (ps := sc ++ [OGetSorted 10 "age" false None [9]]). set (w := run_to ps). set (p := OSetData 9 "age" (age 77)).
  exists (pair id_order <$> ps), w, 9, 0, 10, "age", (age 77), (nw w p), (res_of w p). unfold p, w, ps. rx.
Qed.

(** And of two comparisons of one key with values of different types is undefined behaviour (the interval shortcut reads a value at the wrong type). *)
Lemma t_C10_mixed_types_refuted :
  exists ord w o q s, fair ord /\ reach true w /\ is_vault w o = true /\ is_set w s = true /\ step ord w (OComplex o q s) = None.
Proof.
  exists id_order, W, 0, (QAnd (QLeaf LGreater "age" (age 18) (fun _ _ => true)) (QLeaf LLess "age" (VInt I64 40) (fun _ _ => true))), 12. rx.
Qed.

(** A set keeps answering GetKeyValue with the default the key had when it was added: UpdateKey reaches the vault only. *)
Lemma t_C17_set_default_stale_refuted :
  exists ord w s sb o k d w' res, fair ord /\ reach true w /\ set_at w s sb /\ o_parent sb = Some o /\
    step ord w (OUpdateKey o k d) = Some (w', ORes res) /\ res_ok res = true /\
    (exists ob', vault_at w' o ob' /\ get_key_value ob' k (vty d) = (okres Success k (Some (vty d)) (Some (vty d)), Some d)) /\
    (exists sb' d', set_at w' s sb' /\ d' <> d /\ set_get_key_value w' sb' k (vty d) = Some (okres Success k (Some (vty d)) (Some (vty d)), Some d')).
Proof.
  set (p := OUpdateKey 0 "age" (age 21)).
  exists id_order, W, 10, (ob_at W 10), 0, "age", (age 21), (nw W p), (res_of W p). unfold p. rx.
  - exists (ob_at (nw W p) 0). unfold p. rx.
  - exists (ob_at (nw W p) 10), (age 18). unfold p. rx.
Qed.
