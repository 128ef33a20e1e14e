(** Generated by tools/gen_p.py from T_Keys.v: the property theorems, nothing else. *)
From Verif Require Import T_Keys Ex_Base Ex_Keys.
Open Scope nat_scope.

(** C13: the key list has no duplicates, lists exactly the existing keys, and all getters agree with it; unique keys are keys. *)
Theorem C13_getters_agree :
  forall b w o ob, reach b w -> vault_at w o ob ->
    NoDup (get_keys ob) /\
    (forall k, k ∈ get_keys ob <-> is_key_exist ob k = true) /\
    (forall k, k ∈ get_keys ob <-> is_Some (get_key_type ob k)) /\
    (forall k, k ∈ get_unique_keys ob -> k ∈ get_keys ob) /\
    NoDup (get_unique_keys ob).
Proof. exact t_C13_getters_agree. Qed.
Print Assumptions C13_getters_agree.
Example ex_C13_getters_agree :
  exists b w o ob,
    reach b w /\
    vault_at w o ob /\
    get_keys ob = ["id"; "age"; "name"].
Proof. exact tex_C13_getters_agree. Qed.

(** C13: in the safe class a set filled from a vault has the vault's keys, in the same order, with the same types and uniqueness. *)
Theorem C13_set_keys :
  forall w s sb o ob, reach true w -> set_at w s sb -> o_parent sb = Some o -> vault_at w o ob ->
    get_keys sb = get_keys ob /\ get_unique_keys sb = get_unique_keys ob /\
    (forall k, get_key_type sb k = get_key_type ob k) /\ (forall k, is_key_exist sb k = is_key_exist ob k).
Proof. exact t_C13_set_keys. Qed.
Print Assumptions C13_set_keys.
Example ex_C13_set_keys :
  exists w s sb o ob,
    reach true w /\
    set_at w s sb /\
    o_parent sb = Some o /\
    vault_at w o ob.
Proof. exact tex_C13_set_keys. Qed.

(** C43: every record of a vault holds, for each key of the vault and for no other, a value of the key's type; so does the template. *)
Theorem C43_types_hold :
  forall b w o ob r k, reach b w -> vault_at w o ob -> r ∈ o_recs ob ->
    vty <$> stored w r k = get_key_type ob k /\ vty <$> o_tmpl ob !! k = get_key_type ob k.
Proof. exact t_C43_types_hold. Qed.
Print Assumptions C43_types_hold.
Example ex_C43_types_hold :
  exists b w o ob r,
    reach b w /\
    vault_at w o ob /\
    r ∈ o_recs ob.
Proof. exact tex_C43_types_hold. Qed.

(** C15, C16: adding a key that already exists reports DuplicateKey with the types and changes nothing. *)
Theorem C15_duplicate_rejected :
  forall ord w o ob k d t w' out p, vault_at w o ob -> get_key_type ob k = Some t ->
    (p = OAddKey o k d \/ (p = OAddUniqueKey o k (vty d)) \/ exists g, p = OAddUniqueKeyFn o k (vty d) g) ->
    step ord w p = Some (w', out) -> w' = w /\ out = ORes (bad DuplicateKey k (Some (vty d)) (Some t)).
Proof. exact t_C15_duplicate_rejected. Qed.
Print Assumptions C15_duplicate_rejected.
Example ex_C15_duplicate_rejected :
  exists ord w o ob (k : string) d t w' out p,
    vault_at w o ob /\
    get_key_type ob k = Some t /\
    (p = OAddKey o k d \/ (p = OAddUniqueKey o k (vty d)) \/ exists g, p = OAddUniqueKeyFn o k (vty d) g) /\
    step ord w p = Some (w', out).
Proof. exact tex_C15_duplicate_rejected. Qed.

(** C15: AddKey of a new key succeeds, appends the key, gives every record of the vault the default under it, files all of them (and
    nothing else) in both indexes, and changes nothing else. *)
Theorem C15_addkey_exact :
  forall b ord w o ob k d w' out, fair ord -> reach b w -> vault_at w o ob -> get_key_type ob k = None ->
    step ord w (OAddKey o k d) = Some (w', out) ->
    out = ORes (okres Success k (Some (vty d)) None) /\ only_key_changed o k w w' /\
    (forall r, r ∈ o_recs ob -> stored w' r k = Some d) /\
    exists ob', vault_at w' o ob' /\ other_keys_same k ob ob' /\ get_keys ob' = get_keys ob ++ [k] /\ get_key_type ob' k = Some (vty d) /\
      o_tmpl ob' !! k = Some d /\ get_unique_keys ob' = get_unique_keys ob /\
      filed_exactly ob' k (fun v r => v = d /\ r ∈ o_recs ob).
Proof. exact t_C15_addkey_exact. Qed.
Print Assumptions C15_addkey_exact.
Example ex_C15_addkey_exact :
  exists b ord w o ob (k : string) d w' out,
    fair ord /\
    reach b w /\
    vault_at w o ob /\
    get_key_type ob k = None /\
    step ord w (OAddKey o k d) = Some (w', out) /\
    size (o_recs ob) = 4.
Proof. exact tex_C15_addkey_exact. Qed.

(** C15: in the safe class the sets filled from the vault get the key too, for exactly their records. *)
Theorem C15_sets_get_key :
  forall ord w o ob k d w' out s sb, fair ord -> reach true w -> vault_at w o ob -> get_key_type ob k = None ->
    step ord w (OAddKey o k d) = Some (w', out) -> set_at w s sb -> o_parent sb = Some o ->
    exists sb', set_at w' s sb' /\ other_keys_same k sb sb' /\ get_keys sb' = get_keys sb ++ [k] /\ get_key_type sb' k = Some (vty d) /\
      get_unique_keys sb' = get_unique_keys sb /\ filed_exactly sb' k (fun v r => v = d /\ r ∈ o_recs sb).
Proof. exact t_C15_sets_get_key. Qed.
Print Assumptions C15_sets_get_key.
Example ex_C15_sets_get_key :
  exists ord w o ob (k : string) d w' out s sb,
    fair ord /\
    reach true w /\
    vault_at w o ob /\
    get_key_type ob k = None /\
    step ord w (OAddKey o k d) = Some (w', out) /\
    set_at w s sb /\
    o_parent sb = Some o /\
    size (o_recs sb) = 3.
Proof. exact tex_C15_sets_get_key. Qed.

(** C16: AddUniqueKey with a generator: there is an order of the records such that the key is added exactly when the values generated in
    this order are pairwise distinct; then each record holds its generated value; otherwise the failure is reported and only a leftover
    index without a key (see C16_failed_leaves_index_refuted) may be dropped. *)
Theorem C16_generated_exact :
  forall b ord w o ob k t g w' out, fair ord -> reach b w -> allowed b w (OAddUniqueKeyFn o k t g) -> vault_at w o ob -> get_key_type ob k = None ->
    step ord w (OAddUniqueKeyFn o k t g) = Some (w', out) ->
    exists rs, rs ≡ₚ elements (o_recs ob) /\
    if decide (NoDup (generated w g t rs)) then
      out = ORes (okres Success k (Some t) None) /\ only_key_changed o k w w' /\
      (forall i r, rs !! i = Some r -> stored w' r k = generated w g t rs !! i) /\
      exists ob', vault_at w' o ob' /\ other_keys_same k ob ob' /\ get_keys ob' = get_keys ob ++ [k] /\ get_key_type ob' k = Some t /\
        (forall x, x ∈ get_unique_keys ob' <-> x = k \/ x ∈ get_unique_keys ob) /\
        filed_exactly ob' k (fun v r => r ∈ o_recs ob /\ stored w' r k = Some v)
    else out = ORes (bad UniqueKeyValueAlredyInSet k (Some t) None) /\ w' = set_obj o (ob_idx (delete k (o_idx ob)) ob) w.
Proof. exact t_C16_generated_exact. Qed.
Print Assumptions C16_generated_exact.
Example ex_C16_generated_exact :
  exists b ord w o ob (k : string) t g w' out,
    fair ord /\
    reach b w /\
    allowed b w (OAddUniqueKeyFn o k t g) /\
    vault_at w o ob /\
    get_key_type ob k = None /\
    step ord w (OAddUniqueKeyFn o k t g) = Some (w', out) /\
    size (o_recs ob) = 4 /\ out = ORes (okres Success k (Some t) None).
Proof. exact tex_C16_generated_exact. Qed.
Example ex_C16_generated_exact__clash :
  exists b ord w o ob (k : string) t g w' out,
    fair ord /\
    reach b w /\
    allowed b w (OAddUniqueKeyFn o k t g) /\
    vault_at w o ob /\
    get_key_type ob k = None /\
    step ord w (OAddUniqueKeyFn o k t g) = Some (w', out) /\
    size (o_recs ob) = 4 /\ out = ORes (bad UniqueKeyValueAlredyInSet k (Some t) None).
Proof. exact tex_C16_generated_exact__clash. Qed.

(** C16: AddUniqueKey without a generator succeeds exactly on an empty vault; otherwise it is refused, and the only trace is an empty index
    that belongs to no key. *)
Theorem C16_without_generator :
  forall b ord w o ob k t w' out, fair ord -> reach b w -> vault_at w o ob -> get_key_type ob k = None ->
    step ord w (OAddUniqueKey o k t) = Some (w', out) ->
    if decide (o_recs ob = ∅) then
      out = ORes (okres Success k (Some t) None) /\ only_key_changed o k w w' /\
      exists ob', vault_at w' o ob' /\ other_keys_same k ob ob' /\ get_keys ob' = get_keys ob ++ [k] /\ get_key_type ob' k = Some t /\
        (forall x, x ∈ get_unique_keys ob' <-> x = k \/ x ∈ get_unique_keys ob)
    else out = ORes (bad TryToAddUniqueKeyInNonEmptyVaultWithoutLambda k (Some t) None) /\
         w' = set_obj o (ob_idx (<[k := Idx false [] []]> (o_idx ob)) ob) w.
Proof. exact t_C16_without_generator. Qed.
Print Assumptions C16_without_generator.
Example ex_C16_without_generator :
  exists b ord w o ob (k : string) t w' out,
    fair ord /\
    reach b w /\
    vault_at w o ob /\
    get_key_type ob k = None /\
    step ord w (OAddUniqueKey o k t) = Some (w', out) /\
    out = ORes (okres Success k (Some t) None).
Proof. exact tex_C16_without_generator. Qed.
Example ex_C16_without_generator__records :
  exists b ord w o ob (k : string) t w' out,
    fair ord /\
    reach b w /\
    vault_at w o ob /\
    get_key_type ob k = None /\
    step ord w (OAddUniqueKey o k t) = Some (w', out) /\
    o_recs ob <> ∅.
Proof. exact tex_C16_without_generator__records. Qed.
