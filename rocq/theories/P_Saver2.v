(** Generated by tools/gen_p.py from T_Saver2.v: the property theorems, nothing else. *)
From Verif Require Import T_Saver2 Ex_Base Ex_Saver2 SaverEx.
Open Scope nat_scope.

(** C53: after every program the container holds exactly what the abstract store holds: the same number of elements, the same keys (with multiplicity), under each key the same values
    in the order of insertion, and GetData, GetDataAsString and IsData answer for the stored value the search picks; the DataSaver variables answer for their own contents. *)
Theorem C53_container_holds_what_was_stored :
  forall multi ps w, crun multi c_init ps = Some w -> let s := store_after multi ps in
    c_size w = length (st_nodes s) /\
    (forall k, c_is k w = bool_decide (k ∈ (st_nodes s).*1)) /\
    (forall k, Forall2 (fun n c => answers (c_d w) (true, n) c) (c_all k w) (contents_under k s)) /\
    (forall ch k t, c_get ch k t w = Some (match found ch k s with Some c => (true, typed_value t c) | None => (false, None) end)) /\
    (forall ch k, match found ch k s with Some (Some v) => c_str ch k w = Some (Some (to_string v)) | None => c_str ch k w = Some None | _ => True end) /\
    (forall ch k, is_Some (found ch k s) <-> k ∈ (st_nodes s).*1) /\
    (forall x, match st_vars s !! (false, x) with Some c => answers (c_d w) (false, x) c | None => d_vars (c_d w) !! (false, x) = None end).
Proof. exact t_C53_container_holds_what_was_stored. Qed.
Print Assumptions C53_container_holds_what_was_stored.
Example ex_C53_container_holds_what_was_stored :
  exists multi ps w,
    crun multi c_init ps = Some w /\
    c_size w = 3 /\ contents_under "a" (store_after multi ps) = [Some (VBool true); Some (VInt I32 5)] /\ found 1 "a" (store_after multi ps) = Some (Some (VInt I32 5)).
Proof. exact tex_C53_container_holds_what_was_stored. Qed.
Example ex_C53_container_holds_what_was_stored__map :
  exists multi ps w,
    crun multi c_init ps = Some w /\
    c_size w = 2 /\ contents_under "a" (store_after multi ps) = [Some (VBool true)].
Proof. exact tex_C53_container_holds_what_was_stored__map. Qed.

(** C53: the result of every operation: whether the text was read, whether the key was found. *)
Theorem C53_reports :
  forall multi ps w p w' b, crun multi c_init ps = Some w -> cstep multi w p = Some (w', b) -> b = reported (store_after multi ps) p.
Proof. exact t_C53_reports. Qed.
Print Assumptions C53_reports.
Example ex_C53_reports :
  exists multi ps w p w' b,
    crun multi c_init ps = Some w /\
    cstep multi w p = Some (w', b) /\
    saver_get (false, 1) (TInt I32) (c_d w') = Some (Some (VInt I32 5)).
Proof. exact tex_C53_reports. Qed.

(** C53: the one way into undefined behaviour is SetDataFromString on an element or variable that is empty, or with a number that overflows its parser. *)
Theorem C53_undefined_iff :
  forall multi ps w p, crun multi c_init ps = Some w -> (cstep multi w p = None <-> undefined_op (store_after multi ps) p).
Proof. exact t_C53_undefined_iff. Qed.
Print Assumptions C53_undefined_iff.
Example ex_C53_undefined_iff :
  exists multi ps w p,
    crun multi c_init ps = Some w /\
    cstep multi w p = None /\ is_Some (cstep multi w (CFromString 0 "b" [])).
Proof. exact tex_C53_undefined_iff. Qed.

(** C53: the containers own their values: each live heap cell belongs to exactly one DataSaver, which is a variable of the program or an element of the container; temporaries leave nothing behind. *)
Theorem C53_each_cell_has_one_owner :
  forall multi ps w, crun multi c_init ps = Some w ->
    (forall p, is_Some (d_cells (c_d w) !! p) <-> exists l, owns (c_d w) l p) /\ (forall p l l', owns (c_d w) l p -> owns (c_d w) l' p -> l = l') /\
    (forall n, is_Some (d_vars (c_d w) !! (true, n)) <-> n ∈ (c_nodes w).*2) /\ NoDup (c_nodes w).*2 /\
    (c_nodes w = [] -> (forall x, d_vars (c_d w) !! (false, x) = None) -> d_cells (c_d w) = ∅).
Proof. exact t_C53_each_cell_has_one_owner. Qed.
Print Assumptions C53_each_cell_has_one_owner.
Example ex_C53_each_cell_has_one_owner :
  exists multi ps w,
    crun multi c_init ps = Some w /\
    size (d_cells (c_d w)) = 4 /\ size (d_vars (c_d w)) = 4 /\ (c_nodes w).*1 = ["a"; "b"].
Proof. exact tex_C53_each_cell_has_one_owner. Qed.

(** C53: custom delete functions are called by ResetData and EraseData only, at most once per call and with the value being removed: not by Clear, by replacing a value or by destroying one. *)
Theorem C53_custom_deleters :
  forall multi ps w p w' b, crun multi c_init ps = Some w -> cstep multi w p = Some (w', b) -> let s := store_after multi ps in
    d_calls (c_d w') = d_calls (c_d w) \/
    exists f c, d_calls (c_d w') = d_calls (c_d w) ++ [(f, c)] /\
      ((exists x, p = CVar (DReset (false, x)) /\ st_vars s !! (false, x) = Some c) \/ (exists ch k, p = CErase ch k /\ found ch k s = Some c)).
Proof. exact t_C53_custom_deleters. Qed.
Print Assumptions C53_custom_deleters.
Example ex_C53_custom_deleters :
  exists multi ps w p w' b,
    crun multi c_init ps = Some w /\
    cstep multi w p = Some (w', b) /\
    d_calls (c_d w) = [] /\ d_calls (c_d w') = [(7, Some (VInt I32 5))].
Proof. exact tex_C53_custom_deleters. Qed.

(** C53: EraseData after SetData (with the same key, on the element that SetData wrote) calls the custom delete function given to SetData exactly once, with the value stored, and calls none if none was given. *)
Theorem C53_set_then_erase :
  forall multi ps w ch k v f w1 b1 w2 b2, crun multi c_init ps = Some w ->
    cstep multi w (CSet ch k v f) = Some (w1, b1) -> cstep multi w1 (CErase ch k) = Some (w2, b2) ->
    d_calls (c_d w2) = d_calls (c_d w) ++ match f with Some f => [(f, Some v)] | None => [] end.
Proof. exact t_C53_set_then_erase. Qed.
Print Assumptions C53_set_then_erase.
Example ex_C53_set_then_erase :
  exists multi ps w ch (k : string) v f w1 b1 w2 b2,
    crun multi c_init ps = Some w /\
    cstep multi w (CSet ch k v f) = Some (w1, b1) /\
    cstep multi w1 (CErase ch k) = Some (w2, b2) /\
    d_calls (c_d w2) = [(9, Some (VBool false))].
Proof. exact tex_C53_set_then_erase. Qed.

(** C53: DataHashMap and DataMap are maps: AddData keeps the value a key has, SetData replaces or adds, EraseData removes, Clear empties; Size is the number of keys and
    GetData, GetDataAsString and IsData answer for the value the key maps to. *)
Theorem C53_unique_containers_are_maps :
  forall ps w, crun false c_init ps = Some w -> let m := ms_map (map_after ps) in
    c_size w = size m /\
    (forall k, c_is k w = bool_decide (is_Some (m !! k))) /\
    (forall ch k t, c_get ch k t w = Some (match m !! k with Some c => (true, typed_value t c) | None => (false, None) end)) /\
    (forall ch k, match m !! k with Some (Some v) => c_str ch k w = Some (Some (to_string v)) | None => c_str ch k w = Some None | _ => True end) /\
    (forall k, match m !! k with Some c => exists n, c_all k w = [n] /\ answers (c_d w) (true, n) c | None => c_all k w = [] end) /\
    (forall x, match ms_vars (map_after ps) !! (false, x) with Some c => answers (c_d w) (false, x) c | None => d_vars (c_d w) !! (false, x) = None end).
Proof. exact t_C53_unique_containers_are_maps. Qed.
Print Assumptions C53_unique_containers_are_maps.
Example ex_C53_unique_containers_are_maps :
  exists ps w,
    crun false c_init ps = Some w /\
    c_size w = 2 /\ ms_map (map_after ps) !! "b" = Some (Some (VStr "xy")) /\ c_get 3 "b" TStr w = Some (true, Some (VStr "xy")).
Proof. exact tex_C53_unique_containers_are_maps. Qed.
