(** Generated by tools/gen_p.py from T_Query.v: the property theorems, nothing else. *)
From Verif Require Import T_Query Ex_Base Ex_Query.
Open Scope nat_scope.

(** C09: a request without limit fills the set with exactly the records filed under a value that satisfies the comparison and that
    pass the predicate; a wrong key or type is reported and leaves the set empty. Nothing else changes. *)
Theorem C09_request_exact :
  forall b ord w o ob pv rt k bv ev ib ie p s w' res, fair ord -> reach b w -> allowed b w (ORequest o rt k bv ev ib ie None p s) ->
    source_at b w o ob pv -> o <> s -> vty ev = vty bv ->
    step ord w (ORequest o rt k bv ev ib ie None p s) = Some (w', ORes res) ->
    only_set_changed s w w' /\ exists sb', set_at w' s sb' /\ o_parent sb' = Some pv /\
    match get_key_type ob k with
    | None => res = bad WrongKey k (Some (vty bv)) None /\ o_recs sb' = ∅
    | Some t => if decide (t = vty bv)
                then res = okres Success k (Some (vty bv)) (Some (vty bv)) /\
                     forall r, r ∈ o_recs sb' <-> matching ob rt k bv ev ib ie r /\ passes w p r
                else res = bad WrongType k (Some (vty bv)) (Some t) /\ o_recs sb' = ∅
    end.
Proof. exact t_C09_request_exact. Qed.
Print Assumptions C09_request_exact.
Example ex_C09_request_exact :
  exists b ord w o ob pv rt (k : string) bv ev ib ie p s w' res,
    fair ord /\
    reach b w /\
    allowed b w (ORequest o rt k bv ev ib ie None p s) /\
    source_at b w o ob pv /\
    o <> s /\
    vty ev = vty bv /\
    step ord w (ORequest o rt k bv ev ib ie None p s) = Some (w', ORes res) /\
    res_ok res = true /\ size (o_recs (ob_at w' s)) = 3.
Proof. exact tex_C09_request_exact. Qed.
Example ex_C09_request_exact__set :
  exists b ord w o ob pv rt (k : string) bv ev ib ie p s w' res,
    fair ord /\
    reach b w /\
    allowed b w (ORequest o rt k bv ev ib ie None p s) /\
    source_at b w o ob pv /\
    o <> s /\
    vty ev = vty bv /\
    step ord w (ORequest o rt k bv ev ib ie None p s) = Some (w', ORes res) /\
    res_ok res = true /\ size (o_recs (ob_at w' s)) = 1.
Proof. exact tex_C09_request_exact__set. Qed.

(** C04, C09: every record a request (with or without limit) returns is a valid record of the source that stores a value satisfying the comparison. *)
Theorem C04_request_sound :
  forall b ord w o ob pv rt k bv ev ib ie amt p s w' res sb' r, fair ord -> reach b w -> allowed b w (ORequest o rt k bv ev ib ie amt p s) ->
    source_at b w o ob pv -> o <> s -> vty ev = vty bv ->
    step ord w (ORequest o rt k bv ev ib ie amt p s) = Some (w', ORes res) -> set_at w' s sb' -> r ∈ o_recs sb' ->
    r ∈ o_recs ob /\ valid_rec w r /\ passes w p r /\ (exists v, stored w r k = Some v /\ sat rt bv ev ib ie v) /\
    exists pb, vault_at w pv pb /\ r ∈ o_recs pb.
Proof. exact t_C04_request_sound. Qed.
Print Assumptions C04_request_sound.
Example ex_C04_request_sound :
  exists b ord w o ob pv rt (k : string) bv ev ib ie amt p s w' res sb' r,
    fair ord /\
    reach b w /\
    allowed b w (ORequest o rt k bv ev ib ie amt p s) /\
    source_at b w o ob pv /\
    o <> s /\
    vty ev = vty bv /\
    step ord w (ORequest o rt k bv ev ib ie amt p s) = Some (w', ORes res) /\
    set_at w' s sb' /\
    r ∈ o_recs sb'.
Proof. exact tex_C04_request_sound. Qed.

(** C09: an inverted interval, or an interval with equal ends one of which is excluded, returns nothing. *)
Theorem C09_empty_interval :
  forall b ord w o ob pv k bv ev ib ie amt p s w' res sb', fair ord -> reach b w -> allowed b w (ORequest o RInterval k bv ev ib ie amt p s) ->
    source_at b w o ob pv -> o <> s -> vty ev = vty bv ->
    vlt ev bv \/ (bv = ev /\ (ib = false \/ ie = false)) ->
    step ord w (ORequest o RInterval k bv ev ib ie amt p s) = Some (w', ORes res) -> set_at w' s sb' -> o_recs sb' = ∅.
Proof. exact t_C09_empty_interval. Qed.
Print Assumptions C09_empty_interval.
Example ex_C09_empty_interval :
  exists b ord w o ob pv (k : string) bv ev ib ie amt p s w' res sb',
    fair ord /\
    reach b w /\
    allowed b w (ORequest o RInterval k bv ev ib ie amt p s) /\
    source_at b w o ob pv /\
    o <> s /\
    vty ev = vty bv /\
    (vlt ev bv \/ (bv = ev /\ (ib = false \/ ie = false))) /\
    step ord w (ORequest o RInterval k bv ev ib ie amt p s) = Some (w', ORes res) /\
    set_at w' s sb'.
Proof. exact tex_C09_empty_interval. Qed.

(** C09: no request on a vault runs past the end of an index, whatever the arguments. *)
Theorem C09_no_overrun :
  forall b ord w o ob rt k bv ev ib ie amt p, fair ord -> reach b w -> vault_at w o ob -> vty ev = vty bv ->
    is_Some (request_set ord w ob rt k bv ev ib ie amt p).
Proof. exact t_C09_no_overrun. Qed.
Print Assumptions C09_no_overrun.
Example ex_C09_no_overrun :
  exists b ord w o ob bv ev,
    fair ord /\
    reach b w /\
    vault_at w o ob /\
    vty ev = vty bv.
Proof. exact tex_C09_no_overrun. Qed.

(** C11: a limited request returns a part of the unlimited answer, of at most n records; without predicate exactly min(n, matches). *)
Theorem C11_request_limit :
  forall b ord w o ob pv rt k bv ev ib ie n p s w' res sb', fair ord -> reach b w -> allowed b w (ORequest o rt k bv ev ib ie (Some n) p s) ->
    source_at b w o ob pv -> o <> s -> vty ev = vty bv -> get_key_type ob k = Some (vty bv) ->
    step ord w (ORequest o rt k bv ev ib ie (Some n) p s) = Some (w', ORes res) -> set_at w' s sb' ->
    exists all, (forall r, r ∈ (all : gset nat) <-> matching ob rt k bv ev ib ie r) /\ o_recs sb' ⊆ all /\
      size (o_recs sb') <= n /\ (p = None -> size (o_recs sb') = Nat.min n (size all)).
Proof. exact t_C11_request_limit. Qed.
Print Assumptions C11_request_limit.
Example ex_C11_request_limit :
  exists b ord w o ob pv rt (k : string) bv ev ib ie n p s w' res sb',
    fair ord /\
    reach b w /\
    allowed b w (ORequest o rt k bv ev ib ie (Some n) p s) /\
    source_at b w o ob pv /\
    o <> s /\
    vty ev = vty bv /\
    get_key_type ob k = Some (vty bv) /\
    step ord w (ORequest o rt k bv ev ib ie (Some n) p s) = Some (w', ORes res) /\
    set_at w' s sb' /\
    size (o_recs sb') = 2.
Proof. exact tex_C11_request_limit. Qed.

(** C10: a complex request succeeds exactly when every comparison names an existing key with a value of its type; then the set holds the
    records satisfying the boolean combination; otherwise an error is reported and the set is empty. *)
Theorem C10_complex_request_exact :
  forall b ord w o ob pv q s w' res, fair ord -> reach b w -> allowed b w (OComplex o q s) ->
    source_at b w o ob pv -> o <> s ->
    step ord w (OComplex o q s) = Some (w', ORes res) ->
    only_set_changed s w w' /\ exists sb', set_at w' s sb' /\ o_parent sb' = Some pv /\
    ((well_keyed ob q /\ res = okres Success "" None None /\ forall r, r ∈ o_recs sb' <-> matches w ob q r) \/
     (~ well_keyed ob q /\ res_ok res = false /\ (res_code res = WrongKey \/ res_code res = WrongType) /\ o_recs sb' = ∅)).
Proof. exact t_C10_complex_request_exact. Qed.
Print Assumptions C10_complex_request_exact.
Example ex_C10_complex_request_exact :
  exists b ord w o ob pv q s w' res,
    fair ord /\
    reach b w /\
    allowed b w (OComplex o q s) /\
    source_at b w o ob pv /\
    o <> s /\
    step ord w (OComplex o q s) = Some (w', ORes res) /\
    size (o_recs (ob_at w' s)) = 3.
Proof. exact tex_C10_complex_request_exact. Qed.

(** C04: GetRecord finds a record exactly if one is filed under the value; the record it finds is a valid record of the source holding the
    value; the reference is bound to the vault. Only the given reference changes. *)
Theorem C04_getrecord_exact :
  forall b ord w o ob pv k v f rf w' res, fair ord -> reach b w -> allowed b w (OGetRecord o k v f) -> source_at b w o ob pv ->
    w_refs w !! f = Some rf -> step ord w (OGetRecord o k v f) = Some (w', ORes res) ->
    only_refs_changed w w' /\ exists rf', w_refs w' = <[f := rf']> (w_refs w) /\
    match get_key_type ob k with
    | None => res = bad WrongKey k (Some (vty v)) None /\ f_rec rf' = f_rec rf
    | Some t => if decide (t = vty v) then
         (exists r, res = okres Success k (Some (vty v)) (Some t) /\ rf' = Ref (Some r) (Some pv) /\ filed ob k v r /\
            r ∈ o_recs ob /\ valid_rec w' r /\ stored w' r k = Some v) \/
         (res = bad WrongValue k (Some (vty v)) (Some t) /\ rf' = Ref None (Some pv) /\ forall r, ~ filed ob k v r)
       else res = bad WrongType k (Some (vty v)) (Some t) /\ f_rec rf' = f_rec rf
    end.
Proof. exact t_C04_getrecord_exact. Qed.
Print Assumptions C04_getrecord_exact.
Example ex_C04_getrecord_exact :
  exists b ord w o ob pv (k : string) v f rf w' res,
    fair ord /\
    reach b w /\
    allowed b w (OGetRecord o k v f) /\
    source_at b w o ob pv /\
    w_refs w !! f = Some rf /\
    step ord w (OGetRecord o k v f) = Some (w', ORes res) /\
    res_ok res = true.
Proof. exact tex_C04_getrecord_exact. Qed.

(** C04: GetRecords without limit lists each record filed under the value exactly once, and these are valid records of the source that
    hold the value. *)
Theorem C04_getrecords_exact :
  forall b ord w o ob pv k v res l, fair ord -> reach b w -> source_at b w o ob pv -> get_records ord w o k v None = Some (res, l) ->
    NoDup l /\
    match get_key_type ob k with
    | None => res = bad WrongKey k (Some (vty v)) None /\ l = []
    | Some t => if decide (t = vty v) then
        (forall r, r ∈ l <-> filed ob k v r) /\ (forall r, r ∈ l -> r ∈ o_recs ob /\ valid_rec w r /\ stored w r k = Some v) /\
        res = if decide (l = []) then bad WrongValue k (Some (vty v)) (Some t) else okres Success k (Some (vty v)) (Some t)
      else res = bad WrongType k (Some (vty v)) (Some t) /\ l = []
    end.
Proof. exact t_C04_getrecords_exact. Qed.
Print Assumptions C04_getrecords_exact.
Example ex_C04_getrecords_exact :
  exists b ord w o ob pv (k : string) v res l,
    fair ord /\
    reach b w /\
    source_at b w o ob pv /\
    get_records ord w o k v None = Some (res, l).
Proof. exact tex_C04_getrecords_exact. Qed.

(** C11: GetRecords with a limit n >= 1 lists min(n, matches) of them (a limit of 0 lists one: C11_getrecords_zero_refuted). *)
Theorem C11_getrecords_limit :
  forall b ord w o ob pv k v n res l, fair ord -> reach b w -> source_at b w o ob pv -> get_key_type ob k = Some (vty v) ->
    get_records ord w o k v (Some n) = Some (res, l) ->
    NoDup l /\ exists all, (forall r, r ∈ (all : gset nat) <-> filed ob k v r) /\ (forall r, r ∈ l -> r ∈ all) /\
      length l = Nat.min (Nat.max 1 n) (size all).
Proof. exact t_C11_getrecords_limit. Qed.
Print Assumptions C11_getrecords_limit.
Example ex_C11_getrecords_limit :
  exists b ord w o ob pv (k : string) v n res l,
    fair ord /\
    reach b w /\
    source_at b w o ob pv /\
    get_key_type ob k = Some (vty v) /\
    get_records ord w o k v (Some n) = Some (res, l).
Proof. exact tex_C11_getrecords_limit. Qed.

(** C12, C04: GetSortedRecords lists exactly the records filed in the ordered index, each once, in non-decreasing order of the value
    they hold; all are valid records of the source. *)
Theorem C12_sorted_order :
  forall b w o ob pv k l, reach b w -> source_at b w o ob pv -> is_Some (get_key_type ob k) -> sorted_records w o k false None = Some l ->
    NoDup l /\ (forall r, r ∈ l <-> exists v, filed_ord ob k v r) /\
    (forall r, r ∈ l -> r ∈ o_recs ob /\ valid_rec w r) /\
    (forall i j ri rj, i <= j -> l !! i = Some ri -> l !! j = Some rj ->
       exists vi vj, stored w ri k = Some vi /\ stored w rj k = Some vj /\ vle vi vj).
Proof. exact t_C12_sorted_order. Qed.
Print Assumptions C12_sorted_order.
Example ex_C12_sorted_order :
  exists b w o ob pv (k : string) l,
    reach b w /\
    source_at b w o ob pv /\
    is_Some (get_key_type ob k) /\
    sorted_records w o k false None = Some l.
Proof. exact tex_C12_sorted_order. Qed.

(** C12, C11: the reverse listing is the exact reversal; a limit n gives the first n. *)
Theorem C12_reverse_and_limit :
  forall w o k l, sorted_records w o k false None = Some l ->
    sorted_records w o k true None = Some (reverse l) /\
    forall n, sorted_records w o k false (Some n) = Some (take n l) /\ sorted_records w o k true (Some n) = Some (take n (reverse l)).
Proof. exact t_C12_reverse_and_limit. Qed.
Print Assumptions C12_reverse_and_limit.
Example ex_C12_reverse_and_limit :
  exists w o (k : string) l,
    sorted_records w o k false None = Some l.
Proof. exact tex_C12_reverse_and_limit. Qed.

(** C12: on a missing key the listing is empty. *)
Theorem C12_unknown_key_empty :
  forall b w o ob pv k rev amt, reach b w -> source_at b w o ob pv -> get_key_type ob k = None -> sorted_records w o k rev amt = Some [].
Proof. exact t_C12_unknown_key_empty. Qed.
Print Assumptions C12_unknown_key_empty.
Example ex_C12_unknown_key_empty :
  exists b w o ob pv (k : string),
    reach b w /\
    source_at b w o ob pv /\
    get_key_type ob k = None.
Proof. exact tex_C12_unknown_key_empty. Qed.

Theorem C12_sort_by :
  forall w o k rev amt f l vs, sorted_records w o k rev None = Some l -> sort_by w o k rev amt f = Some vs ->
    vs = take (length vs) l /\ (forall n, amt = Some n -> length vs <= n) /\
    (forall j r, S j < length vs -> vs !! j = Some r -> f j r = true) /\
    (length vs < length l -> amt = Some (length vs) \/ exists r, last vs = Some r /\ f (pred (length vs)) r = false).
Proof. exact t_C12_sort_by. Qed.
Print Assumptions C12_sort_by.
Example ex_C12_sort_by :
  exists w o (k : string) rev amt f l vs,
    sorted_records w o k rev None = Some l /\
    sort_by w o k rev amt f = Some vs.
Proof. exact tex_C12_sort_by. Qed.
