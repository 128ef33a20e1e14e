(** Generated by tools/gen_p.py from T_Sets2.v: the property theorems, nothing else. *)
From Verif Require Import T_Sets2 Ex_Base Ex_Sets2.
Open Scope nat_scope.

(** C24: only operations that fill the set put records into it. *)
Theorem C24_members_only_by_fill :
  forall b ord w p w' out s sb, fair ord -> reach b w -> allowed b w p -> step ord w p = Some (w', out) -> set_at w s sb ->
    p <> ODelSet s -> ~ fills s p -> exists sb', set_at w' s sb' /\ forall r, r ∈ o_recs sb' -> r ∈ o_recs sb.
Proof. exact t_C24_members_only_by_fill. Qed.
Print Assumptions C24_members_only_by_fill.
Example ex_C24_members_only_by_fill :
  exists b ord w p w' out s sb,
    fair ord /\
    reach b w /\
    allowed b w p /\
    step ord w p = Some (w', out) /\
    set_at w s sb /\
    p <> ODelSet s /\
    ~ fills s p /\
    o_recs (ob_at w' 10) <> o_recs sb.
Proof. exact tex_C24_members_only_by_fill. Qed.

(** C24: a record that is not in the set stays out of it until the set is filled again. *)
Theorem C24_removed_stays_out :
  forall b w w' s sb r, reach b w -> set_at w s sb -> r ∉ o_recs sb -> later_if b (fun p => p <> ODelSet s /\ ~ fills s p) w w' ->
    exists sb', set_at w' s sb' /\ r ∉ o_recs sb'.
Proof. exact t_C24_removed_stays_out. Qed.
Print Assumptions C24_removed_stays_out.
Example ex_C24_removed_stays_out :
  exists b w w' s sb r,
    reach b w /\
    set_at w s sb /\
    r ∉ o_recs sb /\
    later_if b (fun p => p <> ODelSet s /\ ~ fills s p) w w' /\
    o_recs (ob_at (state false sc) 10) <> o_recs sb /\ stored w 0 "age" <> stored w' 0 "age".
Proof. exact tex_C24_removed_stays_out. Qed.

(** C24: RemoveRecord by reference takes exactly that record out of the set. *)
Theorem C24_removeref_exact :
  forall b ord w s sb p f rf w' out, fair ord -> reach b w -> set_at w s sb -> o_parent sb = Some p -> w_refs w !! f = Some rf ->
    step ord w (OEraseRef s f) = Some (w', out) ->
    match f_rec rf with
    | Some r => if decide (r ∈ o_recs sb) then out = OBool true /\ only_set_changed s w w' /\
                  exists sb', set_at w' s sb' /\ o_parent sb' = Some p /\ same_schema sb sb' /\ o_recs sb' = o_recs sb ∖ {[r]}
                else out = OBool false /\ w' = w
    | None => out = OBool false /\ w' = w
    end.
Proof. exact t_C24_removeref_exact. Qed.
Print Assumptions C24_removeref_exact.
Example ex_C24_removeref_exact :
  exists b ord w s sb p f rf w' out,
    fair ord /\
    reach b w /\
    set_at w s sb /\
    o_parent sb = Some p /\
    w_refs w !! f = Some rf /\
    step ord w (OEraseRef s f) = Some (w', out) /\
    out = OBool true.
Proof. exact tex_C24_removeref_exact. Qed.

(** C24: RemoveRecord(key, value) takes one of the records found under the value out of the set. *)
Theorem C24_removerecord_exact :
  forall b ord w s sb p k v w' out, fair ord -> reach b w -> set_at w s sb -> o_parent sb = Some p ->
    step ord w (OEraseRecord s k v) = Some (w', out) ->
    exists res, out = ORes res /\
      if res_ok res then get_key_type sb k = Some (vty v) /\ res_code res = Success /\ only_set_changed s w w' /\
        exists r sb', filed sb k v r /\ set_at w' s sb' /\ o_parent sb' = Some p /\ same_schema sb sb' /\ o_recs sb' = o_recs sb ∖ {[r]}
      else w' = w /\ res = match get_key_type sb k with
                           | None => bad WrongKey k (Some (vty v)) None
                           | Some t => if decide (t = vty v) then bad WrongValue k (Some (vty v)) (Some t) else bad WrongType k (Some (vty v)) (Some t)
                           end /\ (get_key_type sb k = Some (vty v) -> forall r, ~ filed sb k v r).
Proof. exact t_C24_removerecord_exact. Qed.
Print Assumptions C24_removerecord_exact.
Example ex_C24_removerecord_exact :
  exists b ord w s sb p (k : string) v w' out,
    fair ord /\
    reach b w /\
    set_at w s sb /\
    o_parent sb = Some p /\
    step ord w (OEraseRecord s k v) = Some (w', out) /\
    out = ORes (okres Success "age" (Some (TInt I32)) (Some (TInt I32))) /\ o_recs (ob_at w' s) <> o_recs sb.
Proof. exact tex_C24_removerecord_exact. Qed.

(** C24: RemoveRecords(key, value, amount) takes the records found under the value out of the set, at most [amount] of them (but at least one). *)
Theorem C24_removerecords_exact :
  forall b ord w s sb p k v amt w' out, fair ord -> reach b w -> set_at w s sb -> o_parent sb = Some p ->
    step ord w (OEraseRecords s k v amt) = Some (w', out) ->
    exists res, out = ORes res /\
      if res_ok res then get_key_type sb k = Some (vty v) /\ res_code res = Success /\ only_set_changed s w w' /\
        exists X sb', X <> [] /\ (forall r, r ∈ X -> filed sb k v r) /\
          (match amt with None => forall r, filed sb k v r -> r ∈ X | Some n => length X <= Nat.max 1 n end) /\
          set_at w' s sb' /\ o_parent sb' = Some p /\ same_schema sb sb' /\ forall r, r ∈ o_recs sb' <-> r ∈ o_recs sb /\ r ∉ X
      else w' = w /\ res = match get_key_type sb k with
                           | None => bad WrongKey k (Some (vty v)) None
                           | Some t => if decide (t = vty v) then bad WrongValue k (Some (vty v)) (Some t) else bad WrongType k (Some (vty v)) (Some t)
                           end /\ (get_key_type sb k = Some (vty v) -> forall r, ~ filed sb k v r).
Proof. exact t_C24_removerecords_exact. Qed.
Print Assumptions C24_removerecords_exact.
Example ex_C24_removerecords_exact :
  exists b ord w s sb p (k : string) v amt w' out,
    fair ord /\
    reach b w /\
    set_at w s sb /\
    o_parent sb = Some p /\
    step ord w (OEraseRecords s k v amt) = Some (w', out) /\
    o_recs (ob_at w' s) <> o_recs sb /\ filed sb k v 0 /\ filed sb k v 1.
Proof. exact tex_C24_removerecords_exact. Qed.

(** C24: Clear empties the set, which keeps its vault and keys; nothing else changes. *)
Theorem C24_clear_exact :
  forall b ord w s sb w' out, fair ord -> reach b w -> set_at w s sb -> step ord w (OSetClear s) = Some (w', out) ->
    only_set_changed s w w' /\ exists sb', set_at w' s sb' /\ o_parent sb' = o_parent sb /\ same_schema sb sb' /\ o_recs sb' = ∅ /\ indexed w' sb'.
Proof. exact t_C24_clear_exact. Qed.
Print Assumptions C24_clear_exact.
Example ex_C24_clear_exact :
  exists b ord w s sb w' out,
    fair ord /\
    reach b w /\
    set_at w s sb /\
    step ord w (OSetClear s) = Some (w', out) /\
    size (o_recs sb) = 3.
Proof. exact tex_C24_clear_exact. Qed.

(** C24: Reset makes the set a new one; nothing else changes. *)
Theorem C24_reset_exact :
  forall b ord w s sb w' out, fair ord -> reach b w -> set_at w s sb -> step ord w (OSetReset s) = Some (w', out) ->
    only_set_changed s w w' /\ exists sb', set_at w' s sb' /\ sb' = ob_bad (o_bad sb') new_set.
Proof. exact t_C24_reset_exact. Qed.
Print Assumptions C24_reset_exact.
Example ex_C24_reset_exact :
  exists b ord w s sb w' out,
    fair ord /\
    reach b w /\
    set_at w s sb /\
    step ord w (OSetReset s) = Some (w', out) /\
    size (o_recs sb) = 3.
Proof. exact tex_C24_reset_exact. Qed.

(** C45: a set stays with its vault unless it is filled from another one, reset, or the vault ends, which leaves it without a vault. *)
Theorem C45_stays_bound :
  forall b ord w p w' out s sb, fair ord -> reach b w -> allowed b w p -> step ord w p = Some (w', out) -> set_at w s sb ->
    p <> ODelSet s -> ~ rebinds s p ->
    exists sb', set_at w' s sb' /\
      (o_parent sb' = o_parent sb \/ exists o, o_parent sb = Some o /\ ends_vault o p /\ o_parent sb' = None) /\
      ((forall o, o_parent sb = Some o -> ~ ends_vault o p) -> o_parent sb' = o_parent sb).
Proof. exact t_C45_stays_bound. Qed.
Print Assumptions C45_stays_bound.
Example ex_C45_stays_bound :
  exists b ord w p w' out s sb,
    fair ord /\
    reach b w /\
    allowed b w p /\
    step ord w p = Some (w', out) /\
    set_at w s sb /\
    p <> ODelSet s /\
    ~ rebinds s p /\
    o_parent (ob_at w' s) <> o_parent sb.
Proof. exact tex_C45_stays_bound. Qed.
Example ex_C45_stays_bound__other :
  exists b ord w p w' out s sb,
    fair ord /\
    reach b w /\
    allowed b w p /\
    step ord w p = Some (w', out) /\
    set_at w s sb /\
    p <> ODelSet s /\
    ~ rebinds s p /\
    size (o_recs sb) = 3.
Proof. exact tex_C45_stays_bound__other. Qed.
