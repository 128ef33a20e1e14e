(** Generated by tools/gen_p.py from T_Getters.v: the property theorems, nothing else. *)
From Verif Require Import T_Getters Ex_Base Ex_Getters.
Open Scope nat_scope.

(** C49: the getters of a set whose vault lives: keys and unique keys are the vault's, Size counts the members; in the safe class the key types
    are the vault's too. None of them is undefined. *)
Theorem C49_set_getters :
  forall b w s sb p, reach b w -> set_at w s sb -> o_parent sb = Some p ->
    exists pb, vault_at w p pb /\
      set_get_keys w sb = Some (get_keys pb) /\ set_get_unique_keys w sb = Some (get_unique_keys pb) /\
      (forall k, set_is_key_exist w sb k = Some (bool_decide (k ∈ get_keys pb))) /\
      set_size w sb = Some (size (o_recs sb)) /\
      (b = true -> forall k, set_get_key_type w sb k = Some (get_key_type pb k)).
Proof. exact t_C49_set_getters. Qed.
Print Assumptions C49_set_getters.
Example ex_C49_set_getters :
  exists b w s sb p,
    reach b w /\
    set_at w s sb /\
    o_parent sb = Some p /\
    get_keys sb = ["id"; "age"; "name"] /\ size (o_recs sb) = 3.
Proof. exact tex_C49_set_getters. Qed.

(** C49: CheckRecord says whether the record the reference denotes is in the set. *)
Theorem C49_check_exact :
  forall b w s sb f rf, reach b w -> set_at w s sb -> w_refs w !! f = Some rf ->
    exists c, set_check w s rf = Some c /\ (c = true <-> exists r, denotes w f r /\ r ∈ o_recs sb).
Proof. exact t_C49_check_exact. Qed.
Print Assumptions C49_check_exact.
Example ex_C49_check_exact :
  exists b w s sb f rf,
    reach b w /\
    set_at w s sb /\
    w_refs w !! f = Some rf /\
    set_check w s rf = Some true.
Proof. exact tex_C49_check_exact. Qed.
Example ex_C49_check_exact__out :
  exists b w s sb f rf,
    reach b w /\
    set_at w s sb /\
    w_refs w !! f = Some rf /\
    set_check w s rf = Some false.
Proof. exact tex_C49_check_exact__out. Qed.

(** C49: GetKeyValue of a vault answers exactly for the keys that are not unique, with a value of the key's type: the value a record created now
    without this key would hold. *)
Theorem C49_getkeyvalue_exact :
  forall b w o ob k t, reach b w -> vault_at w o ob ->
    match get_key_type ob k with
    | None => get_key_value ob k t = (bad WrongKey k (Some t) None, None)
    | Some t' => if decide (t' = t) then
                   if decide (k ∈ get_unique_keys ob) then get_key_value ob k t = (bad UniqueKey k (Some t) (Some t'), None)
                   else exists d, get_key_value ob k t = (okres Success k (Some t) (Some t), Some d) /\ vty d = t /\
                     forall ps, k ∉ (fst <$> ps) -> given ob ps k = Some d
                 else get_key_value ob k t = (bad WrongType k (Some t) (Some t'), None)
    end.
Proof. exact t_C49_getkeyvalue_exact. Qed.
Print Assumptions C49_getkeyvalue_exact.
Example ex_C49_getkeyvalue_exact :
  exists b w o ob (k : string) t,
    reach b w /\
    vault_at w o ob /\
    get_key_value ob k t = (okres Success k (Some t) (Some t), Some (VInt I32 18)).
Proof. exact tex_C49_getkeyvalue_exact. Qed.

(** C49: GetKeyValue of a set (safe class) rejects what the vault's rejects, and otherwise gives a value of the key's type. *)
Theorem C49_set_getkeyvalue :
  forall w s sb p pb k t, reach true w -> set_at w s sb -> o_parent sb = Some p -> vault_at w p pb ->
    exists res got got', set_get_key_value w sb k t = Some (res, got) /\ get_key_value pb k t = (res, got') /\
      (is_Some got <-> is_Some got') /\ forall d, got = Some d -> vty d = t.
Proof. exact t_C49_set_getkeyvalue. Qed.
Print Assumptions C49_set_getkeyvalue.
Example ex_C49_set_getkeyvalue :
  exists w s sb p pb (k : string) t,
    reach true w /\
    set_at w s sb /\
    o_parent sb = Some p /\
    vault_at w p pb /\
    get_key_value pb k t = (okres Success k (Some t) (Some t), Some (VInt I32 18)).
Proof. exact tex_C49_set_getkeyvalue. Qed.

(** C49: Size goes up by one with every accepted CreateRecord and is unchanged by a rejected one. *)
Theorem C49_size_after_create :
  forall b ord w o ob f ps w' res, reach b w -> vault_at w o ob -> step ord w (OCreateRecord o f ps) = Some (w', ORes res) ->
    exists ob', vault_at w' o ob' /\ vault_size ob' = if res_ok res then S (vault_size ob) else vault_size ob.
Proof. exact t_C49_size_after_create. Qed.
Print Assumptions C49_size_after_create.
Example ex_C49_size_after_create :
  exists b ord w o ob f ps w' res,
    reach b w /\
    vault_at w o ob /\
    step ord w (OCreateRecord o f ps) = Some (w', ORes res) /\
    res_ok res = true.
Proof. exact tex_C49_size_after_create. Qed.
Example ex_C49_size_after_create__rejected :
  exists b ord w o ob f ps w' res,
    reach b w /\
    vault_at w o ob /\
    step ord w (OCreateRecord o f ps) = Some (w', ORes res) /\
    res_ok res = false.
Proof. exact tex_C49_size_after_create__rejected. Qed.

(** C49: erasing takes exactly the erased records off Size. *)
Theorem C49_size_after_erase :
  forall b ord w p o ob w' out, fair ord -> reach b w -> vault_at w o ob -> erases_from o p -> step ord w p = Some (w', out) ->
    exists X ob', NoDup X /\ erased_exactly o X w w' /\ vault_at w' o ob' /\ vault_size ob' + length X = vault_size ob /\
      forall r, r ∈ X <-> r ∈ o_recs ob /\ ~ valid_rec w' r.
Proof. exact t_C49_size_after_erase. Qed.
Print Assumptions C49_size_after_erase.
Example ex_C49_size_after_erase :
  exists b ord w p o ob w' out,
    fair ord /\
    reach b w /\
    vault_at w o ob /\
    erases_from o p /\
    step ord w p = Some (w', out) /\
    vault_size ob = 4 /\ vault_size (ob_at w' 0) = 2.
Proof. exact tex_C49_size_after_erase. Qed.
