(** Generated by tools/gen_ex.py from tools/examples.txt. *)
From Verif Require Import T_Results Ex_Base.
Open Scope nat_scope.

Lemma tex_C54_flag_agrees_with_code :
  exists ord w p w' res,
    step ord w p = Some (w', ORes res) /\
    (forall f, p <> OSetMany f []) /\
    res_ok res = true.
Proof. exists (id_order), (W), (OEraseRecord 0 "age" (VInt I32 30)), (nw (W) (OEraseRecord 0 "age" (VInt I32 30))), (res_of (W) (OEraseRecord 0 "age" (VInt I32 30))); ex; try (intros; discriminate). Qed.

Lemma tex_C54_flag_agrees_with_code__failed :
  exists ord w p w' res,
    step ord w p = Some (w', ORes res) /\
    (forall f, p <> OSetMany f []) /\
    res_ok res = false.
Proof. exists (id_order), (W), (OEraseRecord 0 "age" (VBool true)), (nw (W) (OEraseRecord 0 "age" (VBool true))), (res_of (W) (OEraseRecord 0 "age" (VBool true))); ex; try (intros; discriminate). Qed.

Lemma tex_C54_wrong_key_or_type :
  exists b ord w p o (k : string) t ob pv w' res,
    fair ord /\
    reach b w /\
    allowed b w p /\
    asks p = Some (o, k, t) /\
    source_at b w o ob pv /\
    step ord w p = Some (w', ORes res) /\
    res_code res = WrongType /\ res_saved res = Some (TInt I32).
Proof. exists (true), (id_order), (W), (OGetRecord 0 "age" (VBool true) 9), (0), ("age"), (TBool), (ob_at (W) (0)), ((0)), (nw (W) (OGetRecord 0 "age" (VBool true) 9)), (res_of (W) (OGetRecord 0 "age" (VBool true) 9)); ex; left; ex. Qed.

Lemma tex_C54_wrong_key_or_type__set :
  exists b ord w p o (k : string) t ob pv w' res,
    fair ord /\
    reach b w /\
    allowed b w p /\
    asks p = Some (o, k, t) /\
    source_at b w o ob pv /\
    step ord w p = Some (w', ORes res) /\
    res_code res = WrongKey.
Proof. exists (true), (id_order), (W), (ORequest 11 REqual "nokey" (VBool true) (VBool true) false false None None 12), (11), ("nokey"), (TBool), (ob_at (W) (11)), (0), (nw (W) (ORequest 11 REqual "nokey" (VBool true) (VBool true) false false None None 12)), (res_of (W) (ORequest 11 REqual "nokey" (VBool true) (VBool true) false false None None 12)); ex; right; ex. Qed.

Lemma tex_C54_failure_changes_nothing :
  exists b ord w p w' res,
    fair ord /\
    reach b w /\
    allowed b w p /\
    step ord w p = Some (w', ORes res) /\
    res_ok res = false /\
    res_code res = WrongValue.
Proof. exists (true), (id_order), (W), (OEraseRecord 0 "age" (VInt I32 99)), (nw (W) (OEraseRecord 0 "age" (VInt I32 99))), (res_of (W) (OEraseRecord 0 "age" (VInt I32 99))); ex. Qed.

Lemma tex_C54_failure_keeps_vault_data :
  exists b ord w p w' res,
    fair ord /\
    reach b w /\
    allowed b w p /\
    step ord w p = Some (w', ORes res) /\
    res_ok res = false /\
    (forall f ps, p <> OSetMany f ps) /\
    res_code res = TryToAddUniqueKeyInNonEmptyVaultWithoutLambda.
Proof. exists (true), (id_order), (W), (OAddUniqueKey 0 "u" TBool), (nw (W) (OAddUniqueKey 0 "u" TBool)), (res_of (W) (OAddUniqueKey 0 "u" TBool)); ex; try (intros; discriminate). Qed.
