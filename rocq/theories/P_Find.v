(** Generated by tools/gen_p.py from T_Find.v: the property theorems, nothing else. *)
From Verif Require Import T_Find Ex_Base Ex_Find FindEx.
Open Scope nat_scope.

(** C46: a unique key is indexed completely in every reachable state: every record of the vault is found under its value of the key, by
    equality and in order, whatever happened before. *)
Theorem C46_unique_keys_findable :
  forall b w o ob k, reach b w -> vault_at w o ob -> k ∈ get_unique_keys ob -> findable w ob k.
Proof. exact t_C46_unique_keys_findable. Qed.
Print Assumptions C46_unique_keys_findable.
Example ex_C46_unique_keys_findable :
  exists b w o ob (k : string),
    reach b w /\
    vault_at w o ob /\
    k ∈ get_unique_keys ob /\
    size (o_recs ob) = 4.
Proof. exact tex_C46_unique_keys_findable. Qed.

(** C46: the same holds of sets filled from the vault (safe class). *)
Theorem C46_unique_keys_findable_in_sets :
  forall w s sb o k, reach true w -> set_at w s sb -> o_parent sb = Some o -> k ∈ get_unique_keys sb -> findable w sb k.
Proof. exact t_C46_unique_keys_findable_in_sets. Qed.
Print Assumptions C46_unique_keys_findable_in_sets.
Example ex_C46_unique_keys_findable_in_sets :
  exists w s sb o (k : string),
    reach true w /\
    set_at w s sb /\
    o_parent sb = Some o /\
    k ∈ get_unique_keys sb /\
    size (o_recs sb) = 3.
Proof. exact tex_C46_unique_keys_findable_in_sets. Qed.

(** C47: one operation: a key indexed completely stays so, unless the operation ends the key or the vault, or updates or erases a record whose
    value of the key is shared by another record that stays. *)
Theorem C47_stays_findable_step :
  forall b ord w p w' out o ob k, fair ord -> reach b w -> allowed b w p -> step ord w p = Some (w', out) -> ~ ends_key o k p -> ~ disturbs w p w' o k ->
    vault_at w o ob -> is_Some (get_key_type ob k) -> findable w ob k ->
    exists ob', vault_at w' o ob' /\ is_Some (get_key_type ob' k) /\ findable w' ob' k.
Proof. exact t_C47_stays_findable_step. Qed.
Print Assumptions C47_stays_findable_step.
Example ex_C47_stays_findable_step :
  exists b ord w p w' out o ob (k : string),
    fair ord /\
    reach b w /\
    allowed b w p /\
    step ord w p = Some (w', out) /\
    ~ ends_key o k p /\
    ~ disturbs w p w' o k /\
    vault_at w o ob /\
    is_Some (get_key_type ob k) /\
    findable w ob k /\
    stored w 2 "age" <> stored w' 2 "age".
Proof. exact tex_C47_stays_findable_step. Qed.
Example ex_C47_stays_findable_step__erase :
  exists b ord w p w' out o ob (k : string),
    fair ord /\
    reach b w /\
    allowed b w p /\
    step ord w p = Some (w', out) /\
    ~ ends_key o k p /\
    ~ disturbs w p w' o k /\
    vault_at w o ob /\
    is_Some (get_key_type ob k) /\
    findable w ob k /\
    size (o_recs (ob_at w' 0)) = 2.
Proof. exact tex_C47_stays_findable_step__erase. Qed.

(** C47: whole histories: from the moment a key is indexed completely (as AddKey leaves it), every record is found under its current value as long
    as no record is updated or erased whose value of the key another record shares. *)
Theorem C47_stays_findable :
  forall b w w' o ob k, reach b w -> vault_at w o ob -> is_Some (get_key_type ob k) -> findable w ob k -> calm b o k w w' ->
    exists ob', vault_at w' o ob' /\ is_Some (get_key_type ob' k) /\ findable w' ob' k.
Proof. exact t_C47_stays_findable. Qed.
Print Assumptions C47_stays_findable.
Example ex_C47_stays_findable :
  exists b w w' o ob (k : string),
    reach b w /\
    vault_at w o ob /\
    is_Some (get_key_type ob k) /\
    findable w ob k /\
    calm b o k w w' /\
    size (o_recs (ob_at w' 0)) = 4.
Proof. exact tex_C47_stays_findable. Qed.

(** C47: AddKey of a new key starts with a complete index. *)
Theorem C47_addkey_findable :
  forall b ord w o ob k d w' out, fair ord -> reach b w -> vault_at w o ob -> get_key_type ob k = None ->
    step ord w (OAddKey o k d) = Some (w', out) ->
    exists ob', vault_at w' o ob' /\ get_key_type ob' k = Some (vty d) /\ findable w' ob' k.
Proof. exact t_C47_addkey_findable. Qed.
Print Assumptions C47_addkey_findable.
Example ex_C47_addkey_findable :
  exists b ord w o ob (k : string) d w' out,
    fair ord /\
    reach b w /\
    vault_at w o ob /\
    get_key_type ob k = None /\
    step ord w (OAddKey o k d) = Some (w', out) /\
    size (o_recs ob) = 4.
Proof. exact tex_C47_addkey_findable. Qed.

(** C47: on a completely indexed key a request returns exactly the records whose current value satisfies the comparison (and that pass the
    predicate). *)
Theorem C47_request_by_value :
  forall b ord w o ob pv rt k bv ev ib ie p s w' res, fair ord -> reach b w -> allowed b w (ORequest o rt k bv ev ib ie None p s) ->
    source_at b w o ob pv -> o <> s -> vty ev = vty bv -> get_key_type ob k = Some (vty bv) -> findable w ob k ->
    step ord w (ORequest o rt k bv ev ib ie None p s) = Some (w', ORes res) ->
    exists sb', set_at w' s sb' /\ forall r, r ∈ o_recs sb' <-> r ∈ o_recs ob /\ (exists v, stored w r k = Some v /\ sat rt bv ev ib ie v) /\ passes w p r.
Proof. exact t_C47_request_by_value. Qed.
Print Assumptions C47_request_by_value.
Example ex_C47_request_by_value :
  exists b ord w o ob pv rt (k : string) bv ev ib ie p s w' res,
    fair ord /\
    reach b w /\
    allowed b w (ORequest o rt k bv ev ib ie None p s) /\
    source_at b w o ob pv /\
    o <> s /\
    vty ev = vty bv /\
    get_key_type ob k = Some (vty bv) /\
    findable w ob k /\
    step ord w (ORequest o rt k bv ev ib ie None p s) = Some (w', ORes res) /\
    size (o_recs (ob_at w' s)) = 3.
Proof. exact tex_C47_request_by_value. Qed.

(** C47: if all keys a complex request asks about are completely indexed, it returns exactly the records whose current values satisfy it. *)
Theorem C47_complex_by_value :
  forall b ord w o ob pv q s w' res, fair ord -> reach b w -> allowed b w (OComplex o q s) -> source_at b w o ob pv -> o <> s ->
    well_keyed ob q -> (forall k, k ∈ request_keys q -> findable w ob k) ->
    step ord w (OComplex o q s) = Some (w', ORes res) ->
    exists sb', set_at w' s sb' /\ forall r, r ∈ o_recs sb' <-> r ∈ o_recs ob /\ satisfies w q r.
Proof. exact t_C47_complex_by_value. Qed.
Print Assumptions C47_complex_by_value.
Example ex_C47_complex_by_value :
  exists b ord w o ob pv q s w' res,
    fair ord /\
    reach b w /\
    allowed b w (OComplex o q s) /\
    source_at b w o ob pv /\
    o <> s /\
    well_keyed ob q /\
    (forall k, k ∈ request_keys q -> findable w ob k) /\
    step ord w (OComplex o q s) = Some (w', ORes res) /\
    size (o_recs (ob_at w' s)) = 2.
Proof. exact tex_C47_complex_by_value. Qed.

(** C47: on a completely indexed key GetRecords(key, value) lists exactly the records that hold the value, each once. *)
Theorem C47_getrecords_by_value :
  forall b ord w o ob pv k v res l, fair ord -> reach b w -> source_at b w o ob pv -> get_key_type ob k = Some (vty v) -> findable w ob k ->
    get_records ord w o k v None = Some (res, l) -> NoDup l /\ forall r, r ∈ l <-> r ∈ o_recs ob /\ stored w r k = Some v.
Proof. exact t_C47_getrecords_by_value. Qed.
Print Assumptions C47_getrecords_by_value.
Example ex_C47_getrecords_by_value :
  exists b ord w o ob pv (k : string) v res l,
    fair ord /\
    reach b w /\
    source_at b w o ob pv /\
    get_key_type ob k = Some (vty v) /\
    findable w ob k /\
    get_records ord w o k v None = Some (res, l).
Proof. exact tex_C47_getrecords_by_value. Qed.

(** C47: on a completely indexed key GetSortedRecords lists all records of the vault or set, each once, in non-decreasing order. *)
Theorem C47_sorted_all :
  forall b w o ob pv k l, reach b w -> source_at b w o ob pv -> is_Some (get_key_type ob k) -> findable w ob k -> sorted_records w o k false None = Some l ->
    l ≡ₚ elements (o_recs ob) /\
    (forall i j ri rj, i <= j -> l !! i = Some ri -> l !! j = Some rj -> exists vi vj, stored w ri k = Some vi /\ stored w rj k = Some vj /\ vle vi vj).
Proof. exact t_C47_sorted_all. Qed.
Print Assumptions C47_sorted_all.
Example ex_C47_sorted_all :
  exists b w o ob pv (k : string) l,
    reach b w /\
    source_at b w o ob pv /\
    is_Some (get_key_type ob k) /\
    findable w ob k /\
    sorted_records w o k false None = Some l.
Proof. exact tex_C47_sorted_all. Qed.
