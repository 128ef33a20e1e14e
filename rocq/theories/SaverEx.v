(** Concrete programs for the examples beside the theorems about DataSaver and its containers. *)
From Verif Require Export SaverSpec.
From Coq Require Import Ascii.
Open Scope string_scope.
Open Scope list_scope.
Open Scope nat_scope.
(** Four variables: a number with a custom delete function, its copy, a string read from text, an empty one; one more is gone again. *)
Definition dprog : list dop :=
  [DMake (false, 0) (VInt I32 5) (Some 7); DCopy (false, 1) (false, 0); DMake (false, 2) (VStr "") None; DFromString (false, 2) (tx "abc"); DNew (false, 3);
   DSet (false, 1) (VInt I32 9) None; DMake (false, 4) (VBool true) None; DSwap (false, 0) (false, 1); DAssign (false, 3) (false, 2); DReset (false, 3); DDelete (false, 4)].
Definition dw (ps : list dop) : dworld := default d_init (drun d_init ps).
Definition nd (w : dworld) (p : dop) : dworld := match dstep w p with Some (w', _) => w' | None => w end.
(** A container with two elements under "a" (or one, if keys are unique) and one under "b", and two variables. *)
Definition cprog : list cop :=
  [CVar (DMake (false, 0) (VInt I32 5) (Some 7)); CAdd "a" (VBool true) None; CAddSaver "a" 0; CSet 0 "b" (VStr "") (Some 8); CFromString 0 "b" (tx "xy"); CVar (DNew (false, 1)); CGetSaver 0 "b" 1;
   CAdd "c" (VBool false) None; CErase 0 "c"].
Definition cw (multi : bool) (ps : list cop) : cworld := default c_init (crun multi c_init ps).
Definition nc (multi : bool) (w : cworld) (p : cop) : cworld := match cstep multi w p with Some (w', _) => w' | None => w end.
Ltac sx := repeat match goal with |- _ /\ _ => split end; first [vm_compute; reflexivity|intros ?; vm_compute; reflexivity|eexists; vm_compute; reflexivity|vm_compute; discriminate|apply map_size_empty_inv; vm_compute; reflexivity].
