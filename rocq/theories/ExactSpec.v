(** Vocabulary of T_Exact.v: exactly when something the model calls undefined happens. *)
From Verif Require Export Spec StringsSpec.
Open Scope nat_scope.

(** A request tree over a source with these keys comes to compare values of different types: the parts are tried from left to right until
    one fails; And of Greater or GreaterOrEqual with Less of the same key is looked up as one interval, whose ends must have one type. *)
Fixpoint mixes (ob : obj) (q : req) : Prop :=
  match q with
  | QLeaf _ _ _ _ => False
  | QAnd (QLeaf la ka va pa as a) (QLeaf LLess kb vb pb as b) =>
      ka = kb /\ (la = LGreater \/ la = LGreaterOrEqual) /\ get_key_type ob ka = Some (vty va) /\ vty vb <> vty va
  | QAnd a b | QOr a b => mixes ob a \/ (well_keyed ob a /\ mixes ob b)
  end.
