(** Generated by tools/gen_p.py from T_Records.v: the property theorems, nothing else. *)
From Verif Require Import T_Records Ex_Base Ex_Records.
Open Scope nat_scope.

(** C01: no two records of a vault hold equal values for a key listed by GetUniqueKeys(). *)
Theorem C01_unique_keys_stay_unique :
  forall b w o ob k r1 r2, reach b w -> vault_at w o ob -> k ∈ get_unique_keys ob ->
    r1 ∈ o_recs ob -> r2 ∈ o_recs ob -> r1 <> r2 ->
    exists v1 v2, stored w r1 k = Some v1 /\ stored w r2 k = Some v2 /\ v1 <> v2.
Proof. exact t_C01_unique_keys_stay_unique. Qed.
Print Assumptions C01_unique_keys_stay_unique.
Example ex_C01_unique_keys_stay_unique :
  exists b w o ob (k : string) r1 r2,
    reach b w /\
    vault_at w o ob /\
    k ∈ get_unique_keys ob /\
    r1 ∈ o_recs ob /\
    r2 ∈ o_recs ob /\
    r1 <> r2.
Proof. exact tex_C01_unique_keys_stay_unique. Qed.

(** C02: a failed CreateRecord changes neither records nor vaults, sets, indexes or references. *)
Theorem C02_failed_create_changes_nothing :
  forall b ord w o ob f ps w' res, reach b w -> vault_at w o ob ->
    step ord w (OCreateRecord o f ps) = Some (w', ORes res) -> res_ok res = false ->
    w_recs w' = w_recs w /\ w_objs w' = w_objs w /\ w_refs w' = w_refs w.
Proof. exact t_C02_failed_create_changes_nothing. Qed.
Print Assumptions C02_failed_create_changes_nothing.
Example ex_C02_failed_create_changes_nothing :
  exists b ord w o ob f ps w' res,
    reach b w /\
    vault_at w o ob /\
    step ord w (OCreateRecord o f ps) = Some (w', ORes res) /\
    res_ok res = false.
Proof. exact tex_C02_failed_create_changes_nothing. Qed.

(** C02, C03: CreateRecord succeeds exactly when every parameter fits and no unique value is taken; otherwise it names the first
    parameter that does not fit, or the first unique key (in key order) whose value is taken. *)
Theorem C02_create_succeeds_iff :
  forall b ord w o ob f ps w' res, reach b w -> vault_at w o ob ->
    step ord w (OCreateRecord o f ps) = Some (w', ORes res) ->
    (res_ok res = true <-> Forall (fits ob) ps /\ forall k, k ∈ get_unique_keys ob -> ~ taken w ob k (given ob ps k)) /\
    (res_ok res = false ->
       (exists ps1 p ps2, ps = ps1 ++ p :: ps2 /\ Forall (fits ob) ps1 /\ ~ fits ob p /\
          res = match get_key_type ob p.1 with
                | None => bad WrongKey p.1 (Some (vty p.2)) None
                | Some t => bad WrongType p.1 (Some (vty p.2)) (Some t)
                end) \/
       (Forall (fits ob) ps /\ exists ks1 k ks2, get_unique_keys ob = ks1 ++ k :: ks2 /\ taken w ob k (given ob ps k) /\
          (forall k', k' ∈ ks1 -> ~ taken w ob k' (given ob ps k')) /\
          res = bad UniqueKeyValueAlredyInSet k (get_key_type ob k) None)).
Proof. exact t_C02_create_succeeds_iff. Qed.
Print Assumptions C02_create_succeeds_iff.
Example ex_C02_create_succeeds_iff :
  exists b ord w o ob f ps w' res,
    reach b w /\
    vault_at w o ob /\
    step ord w (OCreateRecord o f ps) = Some (w', ORes res) /\
    res_ok res = true.
Proof. exact tex_C02_create_succeeds_iff. Qed.
Example ex_C02_create_succeeds_iff__type :
  exists b ord w o ob f ps w' res,
    reach b w /\
    vault_at w o ob /\
    step ord w (OCreateRecord o f ps) = Some (w', ORes res) /\
    res_ok res = false.
Proof. exact tex_C02_create_succeeds_iff__type. Qed.

(** C03: a successful CreateRecord adds exactly one record, holding the given values, filed under all its keys. *)
Theorem C03_create_stores_exactly :
  forall b ord w o ob f ps w' res, reach b w -> vault_at w o ob ->
    step ord w (OCreateRecord o f ps) = Some (w', ORes res) -> res_ok res = true ->
    exists r ob', w_recs w !! r = None /\ (forall o' ob', w_objs w !! o' = Some ob' -> r ∉ o_recs ob') /\
      vault_at w' o ob' /\ o_recs ob' = {[r]} ∪ o_recs ob /\
      (forall k, stored w' r k = given ob ps k) /\
      (forall x k, x <> r -> stored w' x k = stored w x k) /\
      get_keys ob' = get_keys ob /\ get_unique_keys ob' = get_unique_keys ob /\ o_keys ob' = o_keys ob /\ o_tmpl ob' = o_tmpl ob /\ o_sets ob' = o_sets ob /\
      (forall k v x, is_Some (get_key_type ob k) ->
         (filed ob' k v x <-> filed ob k v x \/ (x = r /\ given ob ps k = Some v)) /\
         (filed_ord ob' k v x <-> filed_ord ob k v x \/ (x = r /\ given ob ps k = Some v))) /\
      (forall x, x <> o -> w_objs w' !! x = w_objs w !! x) /\
      match f with
      | Some f => w_refs w' = <[f := Ref (Some r) (Some o)]> (w_refs w)
      | None => w_refs w' = w_refs w
      end.
Proof. exact t_C03_create_stores_exactly. Qed.
Print Assumptions C03_create_stores_exactly.
Example ex_C03_create_stores_exactly :
  exists b ord w o ob f ps w' res,
    reach b w /\
    vault_at w o ob /\
    step ord w (OCreateRecord o f ps) = Some (w', ORes res) /\
    res_ok res = true.
Proof. exact tex_C03_create_stores_exactly. Qed.
