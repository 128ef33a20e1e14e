(** Generated by tools/gen_ex.py from tools/examples.txt. *)
From Verif Require Import T_Sets4 Ex_Base.
Open Scope nat_scope.

Lemma tex_C24_removal_answers :
  exists ord w q s sb p w' out,
    fair ord /\
    reach true w /\
    set_at w s sb /\
    o_parent sb = Some p /\
    erases_from s q /\
    step ord w q = Some (w', out) /\
    o_recs (ob_at w' s) <> o_recs sb /\ filed sb "age" (VInt I32 30) 0 /\ filed sb "age" (VInt I32 30) 1.
Proof. exists (id_order), (W), (OEraseRecords 10 "age" (VInt I32 30) (Some 1)), (10), (ob_at (W) (10)), (0), (nw (W) (OEraseRecords 10 "age" (VInt I32 30) (Some 1))), (out_of (W) (OEraseRecords 10 "age" (VInt I32 30) (Some 1))); ex. Qed.
