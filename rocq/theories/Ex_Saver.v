(** Generated by tools/gen_ex.py from tools/examples.txt. *)
From Verif Require Import T_Saver Ex_Base SaverEx.
Open Scope nat_scope.

Lemma tex_C50_answers_for_its_content :
  exists ps w l,
    drun d_init ps = Some w /\
    contents_after ps !! l = Some (Some (VInt I32 5)) /\ saver_get l (TInt I32) w = Some (Some (VInt I32 5)) /\ saver_get (false, 2) TStr w = Some (Some (VStr "abc")).
Proof. exists (dprog), (dw (dprog)), ((false, 1)); sx. Qed.

Lemma tex_C50_undefined_iff :
  exists ps w p,
    drun d_init ps = Some w /\
    dstep w p = None /\ is_Some (dstep w (DFromString (false, 2) [])).
Proof. exists (dprog), (dw (dprog)), (DFromString (false, 3) []); sx. Qed.

Lemma tex_C50_from_string_reports :
  exists ps w l t v w' b,
    drun d_init ps = Some w /\
    contents_after ps !! l = Some (Some v) /\
    dstep w (DFromString l t) = Some (w', b) /\
    saver_get l (TInt I32) w' = Some (Some (VInt I32 77)).
Proof. exists (dprog), (dw (dprog)), ((false, 0)), (tx "77"), (VInt I32 9), (nd (dw (dprog)) (DFromString ((false, 0)) (tx "77"))), (Some true); sx. Qed.

Lemma tex_C50_others_untouched :
  exists ps w p w' b l,
    drun d_init ps = Some w /\
    dstep w p = Some (w', b) /\
    saver_get (false, 0) TStr w' = Some (Some (VStr "abc")) /\ saver_get l (TInt I32) w' = Some (Some (VInt I32 5)).
Proof. exists (dprog), (dw (dprog)), (DSwap (false, 0) (false, 2)), (nd (dw (dprog)) (DSwap (false, 0) (false, 2))), (None), ((false, 1)); sx. Qed.

Lemma tex_C51_each_cell_has_one_owner :
  exists ps w,
    drun d_init ps = Some w /\
    size (d_cells w) = 3 /\ size (d_vars w) = 4 /\ d_next w = 9.
Proof. exists (dprog), (dw (dprog)); sx. Qed.

Lemma tex_C51_nothing_leaks :
  exists ps w,
    drun d_init ps = Some w /\
    d_vars w = ∅ /\
    d_next w = 9.
Proof. exists (dprog ++ [DDelete (false, 0); DDelete (false, 1); DDelete (false, 2); DDelete (false, 3)]), (dw (dprog ++ [DDelete (false, 0); DDelete (false, 1); DDelete (false, 2); DDelete (false, 3)])); sx. Qed.

Lemma tex_C52_called_by_reset_only :
  exists ps w p w' b,
    drun d_init ps = Some w /\
    dstep w p = Some (w', b) /\
    d_calls w = [] /\ d_calls w' = [(7, Some (VInt I32 5))].
Proof. exists (dprog), (dw (dprog)), (DReset (false, 1)), (nd (dw (dprog)) (DReset (false, 1))), (None); sx. Qed.

Lemma tex_C52_set_then_reset :
  exists ps w l v f w1 b1 w2 b2,
    drun d_init ps = Some w /\
    is_Some (contents_after ps !! l) /\
    dstep w (DSet l v f) = Some (w1, b1) /\
    dstep w1 (DReset l) = Some (w2, b2) /\
    d_calls w2 = [(3, Some (VBool true))].
Proof. exists (dprog), (dw (dprog)), ((false, 0)), (VBool true), (Some 3), (nd (dw (dprog)) (DSet ((false, 0)) (VBool true) (Some 3))), (None), (nd (nd (dw (dprog)) (DSet ((false, 0)) (VBool true) (Some 3))) (DReset ((false, 0)))), (None); sx. Qed.
