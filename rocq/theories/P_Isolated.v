(** Generated by tools/gen_p.py from T_Isolated.v: the property theorems, nothing else. *)
From Verif Require Import T_Isolated Ex_Base Ex_Isolated.
Open Scope nat_scope.

(** C67: an operation that is not about a vault leaves every set of it alone unless it names the set: same records, same keys, same answers. *)
Theorem C67_sets_isolated :
  forall b ord w p w' out s sb, fair ord -> reach b w -> allowed b w p -> step ord w p = Some (w', out) -> set_at w s sb ->
    (forall v, o_parent sb = Some v -> ~ concerns w p v) -> ~ names_set s p -> set_same w w' s sb.
Proof. exact t_C67_sets_isolated. Qed.
Print Assumptions C67_sets_isolated.
Example ex_C67_sets_isolated :
  exists b ord w p w' out s sb,
    fair ord /\
    reach b w /\
    allowed b w p /\
    step ord w p = Some (w', out) /\
    set_at w s sb /\
    (forall v, o_parent sb = Some v -> ~ concerns w p v) /\
    ~ names_set s p /\
    size (o_recs sb) = 3 /\ o_parent sb = Some 0.
Proof. exact tex_C67_sets_isolated. Qed.
Example ex_C67_sets_isolated__request :
  exists b ord w p w' out s sb,
    fair ord /\
    reach b w /\
    allowed b w p /\
    step ord w p = Some (w', out) /\
    set_at w s sb /\
    (forall v, o_parent sb = Some v -> ~ concerns w p v) /\
    ~ names_set s p /\
    size (o_recs sb) = 3 /\ size (o_recs (ob_at w 11)) = 3 /\ size (o_recs (ob_at w' 11)) = 2.
Proof. exact tex_C67_sets_isolated__request. Qed.

(** C67: the same for any number of operations. *)
Theorem C67_sets_stay_as_they_are :
  forall b w w' s sb, reach b w -> set_at w s sb ->
    later_while b (fun w1 p => (forall v, o_parent sb = Some v -> ~ concerns w1 p v) /\ ~ names_set s p) w w' -> set_same w w' s sb.
Proof. exact t_C67_sets_stay_as_they_are. Qed.
Print Assumptions C67_sets_stay_as_they_are.
Example ex_C67_sets_stay_as_they_are :
  exists b w w' s sb,
    reach b w /\
    set_at w s sb /\
    (later_while b (fun w1 p => (forall v, o_parent sb = Some v -> ~ concerns w1 p v) /\ ~ names_set s p) w w') /\
    size (o_recs sb) = 3.
Proof. exact tex_C67_sets_stay_as_they_are. Qed.

(** C67: an operation that is not about a vault leaves its keys, records, values and all answers of its queries alone. *)
Theorem C67_vaults_isolated :
  forall b ord w p w' out v vb, fair ord -> reach b w -> allowed b w p -> step ord w p = Some (w', out) -> vault_at w v vb -> ~ concerns w p v -> vault_same w w' v vb.
Proof. exact t_C67_vaults_isolated. Qed.
Print Assumptions C67_vaults_isolated.
Example ex_C67_vaults_isolated :
  exists b ord w p w' out v vb,
    fair ord /\
    reach b w /\
    allowed b w p /\
    step ord w p = Some (w', out) /\
    vault_at w v vb /\
    ~ concerns w p v /\
    size (o_recs vb) = 4.
Proof. exact tex_C67_vaults_isolated. Qed.
