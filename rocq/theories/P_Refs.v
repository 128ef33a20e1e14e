(** Generated by tools/gen_p.py from T_Refs.v: the property theorems, nothing else. *)
From Verif Require Import T_Refs Ex_Base Ex_Refs.
Open Scope nat_scope.

(** C18: memory is neither leaked nor freed too early: a record is allocated exactly as long as it is in a vault or a reference denotes it;
    in particular no reference dangles. Its reference counter is the number of references, and its valid flag says whether it is in a vault. *)
Theorem C18_allocated_iff_used :
  forall b w r, reach b w ->
    (is_Some (w_recs w !! r) <-> (exists o ob, vault_at w o ob /\ r ∈ o_recs ob) \/ (exists f, denotes w f r)) /\
    (valid_rec w r <-> exists o ob, vault_at w o ob /\ r ∈ o_recs ob) /\
    (forall rc, w_recs w !! r = Some rc -> r_refs rc = refs_to w r) /\
    (forall o ob o' ob', vault_at w o ob -> vault_at w o' ob' -> r ∈ o_recs ob -> r ∈ o_recs ob' -> o' = o).
Proof. exact t_C18_allocated_iff_used. Qed.
Print Assumptions C18_allocated_iff_used.
Example ex_C18_allocated_iff_used :
  exists b w r,
    reach b w /\
    is_Some (w_recs w !! r).
Proof. exact tex_C18_allocated_iff_used. Qed.

(** C18: creating, copying, moving, resetting and destroying references, and testing and comparing them, never touches freed memory. *)
Theorem C18_ref_ops_defined :
  forall b ord w p, fair ord -> reach b w -> plain_ref_op p -> is_Some (step ord w p).
Proof. exact t_C18_ref_ops_defined. Qed.
Print Assumptions C18_ref_ops_defined.
Example ex_C18_ref_ops_defined :
  exists b ord w p,
    fair ord /\
    reach b w /\
    plain_ref_op p.
Proof. exact tex_C18_ref_ops_defined. Qed.

(** C18: programs of the safe class never run into undefined behaviour: no dangling record, vault or set is ever accessed. *)
Theorem C18_safe_programs_defined :
  forall ord w p, fair ord -> reach true w -> allowed true w p -> is_Some (step ord w p).
Proof. exact t_C18_safe_programs_defined. Qed.
Print Assumptions C18_safe_programs_defined.
Example ex_C18_safe_programs_defined :
  exists ord w p,
    fair ord /\
    reach true w /\
    allowed true w p.
Proof. exact tex_C18_safe_programs_defined. Qed.

(** C20: IsValid tells whether the reference denotes a record that is still in its vault. *)
Theorem C20_isvalid_exact :
  forall b w f rf, reach b w -> w_refs w !! f = Some rf ->
    exists v, ref_valid w rf = Some v /\ (v = true <-> exists r o ob, denotes w f r /\ vault_at w o ob /\ r ∈ o_recs ob).
Proof. exact t_C20_isvalid_exact. Qed.
Print Assumptions C20_isvalid_exact.
Example ex_C20_isvalid_exact :
  exists b w f rf,
    reach b w /\
    w_refs w !! f = Some rf.
Proof. exact tex_C20_isvalid_exact. Qed.

(** C20: comparing references is defined, != is the negation of ==, and two references are equal exactly if they are both invalid or denote
    the same valid record. *)
Theorem C20_equality_meaning :
  forall b w f g rf rg, reach b w -> w_refs w !! f = Some rf -> w_refs w !! g = Some rg ->
    exists e, ref_eq w rf rg = Some e /\ ref_neq w rf rg = Some (negb e) /\
    (e = true <-> (exists r, denotes w f r /\ denotes w g r /\ valid_rec w r) \/
                  ((forall r, denotes w f r -> ~ valid_rec w r) /\ (forall r, denotes w g r -> ~ valid_rec w r))).
Proof. exact t_C20_equality_meaning. Qed.
Print Assumptions C20_equality_meaning.
Example ex_C20_equality_meaning :
  exists b w f g rf rg,
    reach b w /\
    w_refs w !! f = Some rf /\
    w_refs w !! g = Some rg.
Proof. exact tex_C20_equality_meaning. Qed.

(** C20: equality of references is reflexive, symmetric and transitive. *)
Theorem C20_equality_equivalence :
  forall b w f g h rf rg rh, reach b w -> w_refs w !! f = Some rf -> w_refs w !! g = Some rg -> w_refs w !! h = Some rh ->
    ref_eq w rf rf = Some true /\ ref_eq w rf rg = ref_eq w rg rf /\
    (ref_eq w rf rg = Some true -> ref_eq w rg rh = Some true -> ref_eq w rf rh = Some true).
Proof. exact t_C20_equality_equivalence. Qed.
Print Assumptions C20_equality_equivalence.
Example ex_C20_equality_equivalence :
  exists b w f g h rf rg rh,
    reach b w /\
    w_refs w !! f = Some rf /\
    w_refs w !! g = Some rg /\
    w_refs w !! h = Some rh.
Proof. exact tex_C20_equality_equivalence. Qed.

(** C42: SetData with several values is the sequence of single SetData calls, in order, up to and including the first one that fails. *)
Theorem C42_setmany_is_sequence :
  forall ord w f ps w' res, w_refs w !! f <> None -> step ord w (OSetMany f ps) = Some (w', ORes res) ->
    exists ps1 w1 ps2, ps = ps1 ++ ps2 /\ set_each ord f w ps1 w1 /\
    match ps2 with
    | [] => w' = w1 /\ res_ok res = true
    | (k, v) :: _ => step ord w1 (OSetData f k v) = Some (w', ORes res) /\ res_ok res = false
    end.
Proof. exact t_C42_setmany_is_sequence. Qed.
Print Assumptions C42_setmany_is_sequence.
Example ex_C42_setmany_is_sequence :
  exists ord w f ps w' res,
    w_refs w !! f <> None /\
    step ord w (OSetMany f ps) = Some (w', ORes res) /\
    res_ok res = false /\ stored w' 0 "age" <> stored w 0 "age".
Proof. exact tex_C42_setmany_is_sequence. Qed.

(** C42: if it succeeds, the record holds for each given key the last value given for it; nothing else changes. *)
Theorem C42_success_stores_all :
  forall b ord w f r o ob ps w' res, fair ord -> reach b w -> allowed b w (OSetMany f ps) ->
    denotes w f r -> bound_to w f o -> vault_at w o ob ->
    step ord w (OSetMany f ps) = Some (w', ORes res) -> res_ok res = true ->
    w_refs w' = w_refs w /\ (forall x, valid_rec w' x <-> valid_rec w x) /\
    forall x k, stored w' x k = if decide (x = r) then match last (filter (fun p : string * value => p.1 = k) ps) with Some p => Some p.2 | None => stored w r k end
                                else stored w x k.
Proof. exact t_C42_success_stores_all. Qed.
Print Assumptions C42_success_stores_all.
Example ex_C42_success_stores_all :
  exists b ord w f r o ob ps w' res,
    fair ord /\
    reach b w /\
    allowed b w (OSetMany f ps) /\
    denotes w f r /\
    bound_to w f o /\
    vault_at w o ob /\
    step ord w (OSetMany f ps) = Some (w', ORes res) /\
    res_ok res = true.
Proof. exact tex_C42_success_stores_all. Qed.
