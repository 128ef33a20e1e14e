(** Generated by tools/gen_ex.py from tools/examples.txt. *)
From Verif Require Import T_Saver2 Ex_Base SaverEx.
Open Scope nat_scope.

Lemma tex_C53_container_holds_what_was_stored :
  exists multi ps w,
    crun multi c_init ps = Some w /\
    c_size w = 3 /\ contents_under "a" (store_after multi ps) = [Some (VBool true); Some (VInt I32 5)] /\ found 1 "a" (store_after multi ps) = Some (Some (VInt I32 5)).
Proof. exists (true), (cprog), (cw (true) (cprog)); sx. Qed.

Lemma tex_C53_container_holds_what_was_stored__map :
  exists multi ps w,
    crun multi c_init ps = Some w /\
    c_size w = 2 /\ contents_under "a" (store_after multi ps) = [Some (VBool true)].
Proof. exists (false), (cprog), (cw (false) (cprog)); sx. Qed.

Lemma tex_C53_reports :
  exists multi ps w p w' b,
    crun multi c_init ps = Some w /\
    cstep multi w p = Some (w', b) /\
    saver_get (false, 1) (TInt I32) (c_d w') = Some (Some (VInt I32 5)).
Proof. exists (true), (cprog), (cw (true) (cprog)), (CGetSaver 1 "a" 1), (nc (true) (cw (true) (cprog)) (CGetSaver 1 "a" 1)), (Some true); sx. Qed.

Lemma tex_C53_undefined_iff :
  exists multi ps w p,
    crun multi c_init ps = Some w /\
    cstep multi w p = None /\ is_Some (cstep multi w (CFromString 0 "b" [])).
Proof. exists (true), (cprog ++ [CVar (DReset (false, 0)); CAddSaver "e" 0]), (cw (true) (cprog ++ [CVar (DReset (false, 0)); CAddSaver "e" 0])), (CFromString 0 "e" []); sx. Qed.

Lemma tex_C53_each_cell_has_one_owner :
  exists multi ps w,
    crun multi c_init ps = Some w /\
    size (d_cells (c_d w)) = 4 /\ size (d_vars (c_d w)) = 4 /\ (c_nodes w).*1 = ["a"; "b"].
Proof. exists (false), (cprog), (cw (false) (cprog)); sx. Qed.

Lemma tex_C53_custom_deleters :
  exists multi ps w p w' b,
    crun multi c_init ps = Some w /\
    cstep multi w p = Some (w', b) /\
    d_calls (c_d w) = [] /\ d_calls (c_d w') = [(7, Some (VInt I32 5))].
Proof. exists (true), (cprog), (cw (true) (cprog)), (CErase 1 "a"), (nc (true) (cw (true) (cprog)) (CErase 1 "a")), (None); sx. Qed.

Lemma tex_C53_set_then_erase :
  exists multi ps w ch (k : string) v f w1 b1 w2 b2,
    crun multi c_init ps = Some w /\
    cstep multi w (CSet ch k v f) = Some (w1, b1) /\
    cstep multi w1 (CErase ch k) = Some (w2, b2) /\
    d_calls (c_d w2) = [(9, Some (VBool false))].
Proof. exists (true), (cprog), (cw (true) (cprog)), (1), ("a"), (VBool false), (Some 9), (nc (true) (cw (true) (cprog)) (CSet (1) ("a") (VBool false) (Some 9))), (None), (nc (true) (nc (true) (cw (true) (cprog)) (CSet (1) ("a") (VBool false) (Some 9))) (CErase (1) ("a"))), (None); sx. Qed.

Lemma tex_C53_unique_containers_are_maps :
  exists ps w,
    crun false c_init ps = Some w /\
    c_size w = 2 /\ ms_map (map_after ps) !! "b" = Some (Some (VStr "xy")) /\ c_get 3 "b" TStr w = Some (true, Some (VStr "xy")).
Proof. exists (cprog), (cw false (cprog)); sx. Qed.
