(** Generated by tools/gen_p.py from T_Keys2.v: the property theorems, nothing else. *)
From Verif Require Import T_Keys2 Ex_Base Ex_Keys2.
Open Scope nat_scope.

(** C14: RemoveKey answers whether the key existed. If it did, the key is gone from the key lists, from every record and from every lookup of
    the vault, and from the sets filled from the vault; everything about the other keys, and everything else, is as before. *)
Theorem C14_removekey_exact :
  forall b ord w o ob k w' out, fair ord -> reach b w -> vault_at w o ob ->
    step ord w (ORemoveKey o k) = Some (w', out) ->
    out = OBool (bool_decide (k ∈ get_keys ob)) /\
    if decide (k ∈ get_keys ob) then
      only_key_changed o k w w' /\ (forall r, r ∈ o_recs ob -> stored w' r k = None) /\
      (exists ob', vault_at w' o ob' /\ other_keys_same k ob ob' /\ get_keys ob' = filter (fun x => x <> k) (get_keys ob) /\
         get_key_type ob' k = None /\ is_key_exist ob' k = false /\ k ∉ get_unique_keys ob' /\ filed_exactly ob' k (fun _ _ => False)) /\
      (forall s sb, set_at w s sb -> o_parent sb = Some o -> exists sb', set_at w' s sb' /\ other_keys_same k sb sb' /\ get_key_type sb' k = None)
    else w' = w.
Proof. exact t_C14_removekey_exact. Qed.
Print Assumptions C14_removekey_exact.
Example ex_C14_removekey_exact :
  exists b ord w o ob (k : string) w' out,
    fair ord /\
    reach b w /\
    vault_at w o ob /\
    step ord w (ORemoveKey o k) = Some (w', out) /\
    out = OBool true /\ size (o_recs ob) = 4.
Proof. exact tex_C14_removekey_exact. Qed.

(** C17: UpdateKey is refused without change for unknown, wrongly typed and unique keys. Otherwise only the default of the key changes: no
    record, index or set; GetKeyValue returns the new default and CreateRecord uses it when the key is not given. *)
Theorem C17_updatekey_exact :
  forall b ord w o ob k d w' out, reach b w -> vault_at w o ob -> step ord w (OUpdateKey o k d) = Some (w', out) ->
    match get_key_type ob k with
    | None => w' = w /\ out = ORes (bad WrongKey k (Some (vty d)) None)
    | Some t =>
        if decide (t = vty d) then
          if decide (k ∈ get_unique_keys ob) then w' = w /\ out = ORes (bad UniqueKey k (Some (vty d)) (Some t))
          else out = ORes (okres Success k (Some (vty d)) (Some (vty d))) /\
            exists ob', w' = set_obj o ob' w /\ vault_at w' o ob' /\ ob' = ob_tmpl (o_tmpl ob') ob /\
              get_key_value ob' k (vty d) = (okres Success k (Some (vty d)) (Some (vty d)), Some d) /\
              (forall ps, k ∉ (fst <$> ps) -> given ob' ps k = Some d) /\
              (forall ps k', k' <> k \/ k ∈ (fst <$> ps) -> given ob' ps k' = given ob ps k')
        else w' = w /\ out = ORes (bad WrongType k (Some (vty d)) (Some t))
    end.
Proof. exact t_C17_updatekey_exact. Qed.
Print Assumptions C17_updatekey_exact.
Example ex_C17_updatekey_exact :
  exists b ord w o ob (k : string) d w' out,
    reach b w /\
    vault_at w o ob /\
    step ord w (OUpdateKey o k d) = Some (w', out) /\
    out = ORes (okres Success "age" (Some (TInt I32)) (Some (TInt I32))).
Proof. exact tex_C17_updatekey_exact. Qed.

(** C17: the default stays in force until the keys of the vault are changed: a record created later without the key holds it. *)
Theorem C17_default_in_force :
  forall b ord w o ob k d w1 f ps w2 res, reach b w -> vault_at w o ob -> o_tmpl ob !! k = Some d ->
    later_if b (fun p => ~ schema_op o p /\ p <> ODelVault o) w w1 ->
    step ord w1 (OCreateRecord o f ps) = Some (w2, ORes res) -> res_ok res = true -> k ∉ (fst <$> ps) ->
    exists r ob2, vault_at w2 o ob2 /\ r ∈ o_recs ob2 /\ ~ valid_rec w1 r /\ stored w2 r k = Some d.
Proof. exact t_C17_default_in_force. Qed.
Print Assumptions C17_default_in_force.
Example ex_C17_default_in_force :
  exists b ord w o ob (k : string) d w1 f ps w2 res,
    reach b w /\
    vault_at w o ob /\
    o_tmpl ob !! k = Some d /\
    later_if b (fun p => ~ schema_op o p /\ p <> ODelVault o) w w1 /\
    step ord w1 (OCreateRecord o f ps) = Some (w2, ORes res) /\
    res_ok res = true /\
    k ∉ (fst <$> ps).
Proof. exact tex_C17_default_in_force. Qed.
