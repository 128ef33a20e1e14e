(** Specification for completeness of queries over histories (C05, C06, C46, C47): when every record of a vault is found under its own value. *)
From Verif Require Export VaultModel Spec.
Open Scope nat_scope.

(** Every record of the vault is filed under its current value of [k], by equality and in order, and nothing else is. *)
Definition findable (w : world) (ob : obj) (k : string) : Prop :=
  filed_exactly ob k (fun v r => r ∈ o_recs ob /\ stored w r k = Some v).
(** The value a record has for [k] after the assignments [ps], if it had [v0] before. *)
Fixpoint assigned (v0 : option value) (k : string) (ps : list (string * value)) : option value :=
  match ps with [] => v0 | (k', v) :: ps' => assigned (if decide (k' = k) then Some v else v0) k ps' end.
(** The operation overwrites, in record [r], a value of [k] that record [x] holds too. *)
Definition overwrites_shared (w : world) (p : op) (k : string) (r x : nat) : Prop :=
  match p with
  | OSetData f k' _ => k' = k /\ denotes w f r /\ stored w r k = stored w x k
  | OSetMany f ps => denotes w f r /\ exists ps1 v ps2, ps = ps1 ++ (k, v) :: ps2 /\ assigned (stored w r k) k ps1 = stored w x k
  | _ => False
  end.
(** The step [w] to [w'] by [p] updates or erases a record of vault [o] whose value of [k] is shared by another record, which stays. *)
Definition disturbs (w : world) (p : op) (w' : world) (o : nat) (k : string) : Prop :=
  exists ob r x, vault_at w o ob /\ r ∈ o_recs ob /\ x ∈ o_recs ob /\ r <> x /\
    (overwrites_shared w p k r x \/ (stored w r k = stored w x k /\ ~ valid_rec w' r /\ valid_rec w' x)).
(** The operation ends the vault or the key. *)
Definition ends_key (o : nat) (k : string) (p : op) : Prop :=
  match p with
  | ORemoveKey o' k' => o' = o /\ k' = k
  | ODropVault o' | ODelVault o' | OAssignVault o' _ | OMoveVault _ o' => o' = o
  | OMoveAssignVault d s => d = o \/ s = o
  | _ => False
  end.
(** [w'] is reached from [w] by allowed operations that keep vault [o] and its key [k] and never update or erase a record whose value of [k]
    another record shares. *)
Inductive calm (b : bool) (o : nat) (k : string) (w : world) : world -> Prop :=
  | calm_now : calm b o k w w
  | calm_step ord w1 p w2 out : calm b o k w w1 -> fair ord -> allowed b w1 p -> ~ ends_key o k p -> step ord w1 p = Some (w2, out) ->
      ~ disturbs w1 p w2 o k -> calm b o k w w2.

(** The record's current values satisfy the boolean combination of comparisons (and pass the predicates). *)
Fixpoint satisfies (w : world) (q : req) (r : nat) : Prop :=
  match q with
  | QLeaf l k v p => (exists u, stored w r k = Some u /\ sat (leaf_rtype l) v v false false u) /\ passes w (Some p) r
  | QAnd a b => satisfies w a r /\ satisfies w b r
  | QOr a b => satisfies w a r \/ satisfies w b r
  end.
(** The keys a request asks about. *)
Fixpoint request_keys (q : req) : list string :=
  match q with QLeaf _ k _ _ => [k] | QAnd a b | QOr a b => request_keys a ++ request_keys b end.
