(** Generated by tools/gen_p.py from T_Saver.v: the property theorems, nothing else. *)
From Verif Require Import T_Saver Ex_Base Ex_Saver SaverEx.
Open Scope nat_scope.

(** C50: after every program, every DataSaver answers exactly for the value it was given last: GetData gives it back under its own type and refuses every other type,
    Str gives its text, GetDataType its type; an empty DataSaver refuses every type. *)
Theorem C50_answers_for_its_content :
  forall ps w l, drun d_init ps = Some w ->
    match contents_after ps !! l with
    | Some c => answers w l c
    | None => d_vars w !! l = None
    end.
Proof. exact t_C50_answers_for_its_content. Qed.
Print Assumptions C50_answers_for_its_content.
Example ex_C50_answers_for_its_content :
  exists ps w l,
    drun d_init ps = Some w /\
    contents_after ps !! l = Some (Some (VInt I32 5)) /\ saver_get l (TInt I32) w = Some (Some (VInt I32 5)) /\ saver_get (false, 2) TStr w = Some (Some (VStr "abc")).
Proof. exact tex_C50_answers_for_its_content. Qed.

(** C50: the one way into undefined behaviour is SetDataFromString on an empty DataSaver, or with a number that overflows its parser (C33). *)
Theorem C50_undefined_iff :
  forall ps w p, drun d_init ps = Some w ->
    (dstep w p = None <-> exists l t c, p = DFromString l t /\ contents_after ps !! l = Some c /\ (c = None \/ exists v, c = Some v /\ from_string (vty v) t = FsUB)).
Proof. exact t_C50_undefined_iff. Qed.
Print Assumptions C50_undefined_iff.
Example ex_C50_undefined_iff :
  exists ps w p,
    drun d_init ps = Some w /\
    dstep w p = None /\ is_Some (dstep w (DFromString (false, 2) [])).
Proof. exact tex_C50_undefined_iff. Qed.

(** C50: SetDataFromString reports whether the text was read. *)
Theorem C50_from_string_reports :
  forall ps w l t v w' b, drun d_init ps = Some w -> contents_after ps !! l = Some (Some v) -> dstep w (DFromString l t) = Some (w', b) ->
    b = Some (match from_string (vty v) t with FsOk _ => true | _ => false end).
Proof. exact t_C50_from_string_reports. Qed.
Print Assumptions C50_from_string_reports.
Example ex_C50_from_string_reports :
  exists ps w l t v w' b,
    drun d_init ps = Some w /\
    contents_after ps !! l = Some (Some v) /\
    dstep w (DFromString l t) = Some (w', b) /\
    saver_get l (TInt I32) w' = Some (Some (VInt I32 77)).
Proof. exact tex_C50_from_string_reports. Qed.

(** C50: the answers of a DataSaver the operation does not write to stay the same. *)
Theorem C50_others_untouched :
  forall ps w p w' b l, drun d_init ps = Some w -> dstep w p = Some (w', b) ->
    match p with
    | DNew x | DMake x _ _ | DCopy x _ | DAssign x _ | DSet x _ _ | DFromString x _ | DReset x | DDelete x => l <> x
    | DSwap x y => l <> x /\ l <> y
    end ->
    (forall t, saver_get l t w' = saver_get l t w) /\ saver_str l w' = saver_str l w.
Proof. exact t_C50_others_untouched. Qed.
Print Assumptions C50_others_untouched.
Example ex_C50_others_untouched :
  exists ps w p w' b l,
    drun d_init ps = Some w /\
    dstep w p = Some (w', b) /\
    saver_get (false, 0) TStr w' = Some (Some (VStr "abc")) /\ saver_get l (TInt I32) w' = Some (Some (VInt I32 5)).
Proof. exact tex_C50_others_untouched. Qed.

(** C51: no cell is shared, freed too early or leaked: after every program each live heap cell belongs to exactly one DataSaver, and each DataSaver that holds a value
    owns a live cell that contains it. *)
Theorem C51_each_cell_has_one_owner :
  forall ps w, drun d_init ps = Some w ->
    (forall p, is_Some (d_cells w !! p) <-> exists l, owns w l p) /\ (forall p l l', owns w l p -> owns w l' p -> l = l') /\
    (forall l v, contents_after ps !! l = Some (Some v) <-> exists p, owns w l p /\ d_cells w !! p = Some v).
Proof. exact t_C51_each_cell_has_one_owner. Qed.
Print Assumptions C51_each_cell_has_one_owner.
Example ex_C51_each_cell_has_one_owner :
  exists ps w,
    drun d_init ps = Some w /\
    size (d_cells w) = 3 /\ size (d_vars w) = 4 /\ d_next w = 9.
Proof. exact tex_C51_each_cell_has_one_owner. Qed.

(** C51: when all DataSavers are gone, so are all cells. *)
Theorem C51_nothing_leaks :
  forall ps w, drun d_init ps = Some w -> d_vars w = ∅ -> d_cells w = ∅.
Proof. exact t_C51_nothing_leaks. Qed.
Print Assumptions C51_nothing_leaks.
Example ex_C51_nothing_leaks :
  exists ps w,
    drun d_init ps = Some w /\
    d_vars w = ∅ /\
    d_next w = 9.
Proof. exact tex_C51_nothing_leaks. Qed.

(** C52: a custom delete function is called by ResetData only, at most once per call, with the value that is being reset. *)
Theorem C52_called_by_reset_only :
  forall ps w p w' b, drun d_init ps = Some w -> dstep w p = Some (w', b) ->
    d_calls w' = d_calls w \/
    exists l f c, p = DReset l /\ contents_after ps !! l = Some c /\ d_calls w' = d_calls w ++ [(f, c)].
Proof. exact t_C52_called_by_reset_only. Qed.
Print Assumptions C52_called_by_reset_only.
Example ex_C52_called_by_reset_only :
  exists ps w p w' b,
    drun d_init ps = Some w /\
    dstep w p = Some (w', b) /\
    d_calls w = [] /\ d_calls w' = [(7, Some (VInt I32 5))].
Proof. exact tex_C52_called_by_reset_only. Qed.

(** C52: ResetData after SetData with a custom delete function calls it exactly once with the value, and not again. *)
Theorem C52_set_then_reset :
  forall ps w l v f w1 b1 w2 b2, drun d_init ps = Some w -> is_Some (contents_after ps !! l) ->
    dstep w (DSet l v f) = Some (w1, b1) -> dstep w1 (DReset l) = Some (w2, b2) ->
    d_calls w2 = d_calls w ++ match f with Some f => [(f, Some v)] | None => [] end /\
    exists w3 b3, dstep w2 (DReset l) = Some (w3, b3) /\ d_calls w3 = d_calls w2.
Proof. exact t_C52_set_then_reset. Qed.
Print Assumptions C52_set_then_reset.
Example ex_C52_set_then_reset :
  exists ps w l v f w1 b1 w2 b2,
    drun d_init ps = Some w /\
    is_Some (contents_after ps !! l) /\
    dstep w (DSet l v f) = Some (w1, b1) /\
    dstep w1 (DReset l) = Some (w2, b2) /\
    d_calls w2 = [(3, Some (VBool true))].
Proof. exact tex_C52_set_then_reset. Qed.

(** C52: the class comment says the function clears the value "when an object of the class is destroyed": it is not called then (nor when the value is overwritten). *)
Theorem C52_not_called_by_destructor_refuted :
  exists ps w w' l v f, drun d_init ps = Some w /\ contents_after ps !! l = Some (Some v) /\ d_calls w = [] /\
    ps = [DMake l v (Some f)] /\ dstep w (DDelete l) = Some (w', None) /\ d_calls w' = [].
Proof. exact t_C52_not_called_by_destructor_refuted. Qed.
Print Assumptions C52_not_called_by_destructor_refuted.

(** C52: after a copy both DataSavers carry the function, and resetting both calls it twice for one value. *)
Theorem C52_called_twice_refuted :
  exists l m f v w, drun d_init [DMake l v (Some f); DCopy m l; DReset l; DReset m] = Some w /\ d_calls w = [(f, Some v); (f, Some v)].
Proof. exact t_C52_called_twice_refuted. Qed.
Print Assumptions C52_called_twice_refuted.

(** C50: a DataSaver that was assigned an empty one is empty but still reports the type of its old value, and Str of it is undefined; its custom delete function
    is later called with a null pointer. *)
Theorem C50_stale_type_refuted :
  exists ps w l t f, drun d_init ps = Some w /\ contents_after ps !! l = Some None /\ saver_type l w = Some (Some t) /\ saver_str l w = None /\
    exists w', dstep w (DReset l) = Some (w', None) /\ d_calls w' = [(f, None)].
Proof. exact t_C50_stale_type_refuted. Qed.
Print Assumptions C50_stale_type_refuted.
