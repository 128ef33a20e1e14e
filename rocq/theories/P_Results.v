(** Generated by tools/gen_p.py from T_Results.v: the property theorems, nothing else. *)
From Verif Require Import T_Results Ex_Base Ex_Results.
Open Scope nat_scope.

(** C54: two results compare equal exactly if they are the same in every field. *)
Theorem C54_equality_is_equality :
  forall a b, res_eq a b = true <-> a = b.
Proof. exact t_C54_equality_is_equality. Qed.
Print Assumptions C54_equality_is_equality.

(** C54: every result code has a text, and no two codes have the same. *)
Theorem C54_texts_tell_codes_apart :
  forall c c', (code_text c = code_text c' <-> c = c') /\ code_text c <> EmptyString.
Proof. exact t_C54_texts_tell_codes_apart. Qed.
Print Assumptions C54_texts_tell_codes_apart.

(** C54: IsOperationSuccess and ResultCode never contradict each other: whatever the state and the operation, the flag is set exactly if the code is Success.
    The one exception is SetData with an empty parameter list (see the _refuted theorem). *)
Theorem C54_flag_agrees_with_code :
  forall ord w p w' res, step ord w p = Some (w', ORes res) -> (forall f, p <> OSetMany f []) -> (res_ok res = true <-> res_code res = Success).
Proof. exact t_C54_flag_agrees_with_code. Qed.
Print Assumptions C54_flag_agrees_with_code.
Example ex_C54_flag_agrees_with_code :
  exists ord w p w' res,
    step ord w p = Some (w', ORes res) /\
    (forall f, p <> OSetMany f []) /\
    res_ok res = true.
Proof. exact tex_C54_flag_agrees_with_code. Qed.
Example ex_C54_flag_agrees_with_code__failed :
  exists ord w p w' res,
    step ord w p = Some (w', ORes res) /\
    (forall f, p <> OSetMany f []) /\
    res_ok res = false.
Proof. exact tex_C54_flag_agrees_with_code__failed. Qed.

(** C54: SetData with an empty parameter list does nothing but answers success, with the code of an operation that was not performed. *)
Theorem C54_empty_setdata_refuted :
  exists ord w f w' res, fair ord /\ reach true w /\ allowed true w (OSetMany f []) /\ step ord w (OSetMany f []) = Some (w', ORes res) /\ res_ok res = true /\ res_code res = Idle.
Proof. exact t_C54_empty_setdata_refuted. Qed.
Print Assumptions C54_empty_setdata_refuted.

(** C54: an operation by key names in its result the key and the type it was asked for, and tells the two ways of asking wrongly apart: WrongKey exactly if the object has no such key,
    WrongType exactly if the key has another type, which is then given. *)
Theorem C54_wrong_key_or_type :
  forall b ord w p o k t ob pv w' res, fair ord -> reach b w -> allowed b w p -> asks p = Some (o, k, t) -> source_at b w o ob pv ->
    step ord w p = Some (w', ORes res) ->
    res_key res = k /\ res_req res = Some t /\
    (res_code res = WrongKey <-> get_key_type ob k = None) /\
    (res_code res = WrongType <-> exists t', get_key_type ob k = Some t' /\ t' <> t) /\
    (res_code res = WrongType -> res_saved res = get_key_type ob k).
Proof. exact t_C54_wrong_key_or_type. Qed.
Print Assumptions C54_wrong_key_or_type.
Example ex_C54_wrong_key_or_type :
  exists b ord w p o (k : string) t ob pv w' res,
    fair ord /\
    reach b w /\
    allowed b w p /\
    asks p = Some (o, k, t) /\
    source_at b w o ob pv /\
    step ord w p = Some (w', ORes res) /\
    res_code res = WrongType /\ res_saved res = Some (TInt I32).
Proof. exact tex_C54_wrong_key_or_type. Qed.
Example ex_C54_wrong_key_or_type__set :
  exists b ord w p o (k : string) t ob pv w' res,
    fair ord /\
    reach b w /\
    allowed b w p /\
    asks p = Some (o, k, t) /\
    source_at b w o ob pv /\
    step ord w p = Some (w', ORes res) /\
    res_code res = WrongKey.
Proof. exact tex_C54_wrong_key_or_type__set. Qed.

(** C54: a failed operation changes nothing at all, except for those that document otherwise or are treated below. *)
Theorem C54_failure_changes_nothing :
  forall b ord w p w' res, fair ord -> reach b w -> allowed b w p -> step ord w p = Some (w', ORes res) -> res_ok res = false ->
    match p with
    | OSetMany _ _ | ORequest _ _ _ _ _ _ _ _ _ _ | OComplex _ _ _ | OGetRecord _ _ _ _ | OCreateRecord _ _ _ | OAddUniqueKey _ _ _ | OAddUniqueKeyFn _ _ _ _ => True
    | _ => w' = w
    end.
Proof. exact t_C54_failure_changes_nothing. Qed.
Print Assumptions C54_failure_changes_nothing.
Example ex_C54_failure_changes_nothing :
  exists b ord w p w' res,
    fair ord /\
    reach b w /\
    allowed b w p /\
    step ord w p = Some (w', ORes res) /\
    res_ok res = false /\
    res_code res = WrongValue.
Proof. exact tex_C54_failure_changes_nothing. Qed.

(** C54: no failed operation touches the data of a vault: records, values, keys, key types, defaults and uniqueness stay as they were. (SetData with several parameters
    keeps what it wrote before the failing one, see C42.) *)
Theorem C54_failure_keeps_vault_data :
  forall b ord w p w' res, fair ord -> reach b w -> allowed b w p -> step ord w p = Some (w', ORes res) -> res_ok res = false ->
    (forall f ps, p <> OSetMany f ps) -> vault_data_kept w w'.
Proof. exact t_C54_failure_keeps_vault_data. Qed.
Print Assumptions C54_failure_keeps_vault_data.
Example ex_C54_failure_keeps_vault_data :
  exists b ord w p w' res,
    fair ord /\
    reach b w /\
    allowed b w p /\
    step ord w p = Some (w', ORes res) /\
    res_ok res = false /\
    (forall f ps, p <> OSetMany f ps) /\
    res_code res = TryToAddUniqueKeyInNonEmptyVaultWithoutLambda.
Proof. exact tex_C54_failure_keeps_vault_data. Qed.
