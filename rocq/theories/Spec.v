(** Vocabulary of the property statements: the small specification the theorems in the P_*.v files are written in.
    Only definitions; everything refers to the model of the code (VaultModel.v) alone.

    A world [w] is the whole observable state: heap of records, vaults and sets, references. [r] ranges over records
    (their identity, GetRecordUniqueId), [o] over vaults, [s] over record sets, [f] over VaultRecordRef variables. *)
From Verif Require Export VaultModel.
Open Scope nat_scope.

(** An unordered container may be visited in any order: any permutation. *)
Definition fair (ord : order) : Prop := forall l, ord l ≡ₚ l.

(** [o] is an existing vault / record set with contents [ob]. *)
Definition vault_at (w : world) (o : nat) (ob : obj) : Prop := w_objs w !! o = Some ob /\ o_static_set ob = false.
Definition set_at (w : world) (s : nat) (sb : obj) : Prop := w_objs w !! s = Some sb /\ o_static_set sb = true.

(** [r] is an allocated record that was not erased from its vault. *)
Definition valid_rec (w : world) (r : nat) : Prop := exists rc, w_recs w !! r = Some rc /\ r_valid rc = true.
(** The value a valid record holds under a key. *)
Definition stored (w : world) (r : nat) (k : string) : option value :=
  rc ← w_recs w !! r; if r_valid rc then r_data rc !! k else None.
(** The record a reference variable denotes. *)
Definition denotes (w : world) (f r : nat) : Prop := exists rf, w_refs w !! f = Some rf /\ f_rec rf = Some r.
(** The vault a reference variable works through. *)
Definition bound_to (w : world) (f o : nat) : Prop := exists rf, w_refs w !! f = Some rf /\ f_vlt rf = Some o.

(** [r] is filed under value [v] in the equality index / in the ordered index of key [k] of a vault or set.
    Equality queries read the first, comparisons and sorting the second (theorems C04, C09, C12). *)
Definition filed (ob : obj) (k : string) (v : value) (r : nat) : Prop := exists ix, o_idx ob !! k = Some ix /\ (v, r) ∈ ix_hash ix.
Definition filed_ord (ob : obj) (k : string) (v : value) (r : nat) : Prop := exists ix, o_idx ob !! k = Some ix /\ (v, r) ∈ ix_tree ix.

(** The comparison a request asks for. *)
Definition sat (rt : rtype) (b e : value) (ib ie : bool) (x : value) : Prop :=
  match rt with
  | REqual => x = b
  | RGreater => vlt b x
  | RGreaterOrEqual => vle b x
  | RLess => vlt x e
  | RLessOrEqual => vle x b
  | RInterval => (if ib then vle b x else vlt b x) /\ (if ie then vle x e else vlt x e)
  end.
Global Instance sat_dec rt b e ib ie x : Decision (sat rt b e ib ie x).
Proof. destruct rt, ib, ie; cbn; apply _. Defined.

(** Request trees whose interval shortcuts compare values of one type (line 85 of VaultRequest.hpp). *)
Fixpoint req_ok (q : req) : Prop :=
  match q with
  | QLeaf _ _ _ _ => True
  | QOr a b => req_ok a /\ req_ok b
  | QAnd a b => match shortcut a b with
                | Some (_, _, va, vb, _) => vty vb = vty va
                | None => req_ok a /\ req_ok b
                end
  end.

(** What ReadFile makes of one row: contents, whether the row is accepted, first key with a malformed value. *)
Definition row_fields (ob : obj) (load : bool) (keys user : list string) (row : list text) : option (gmap string value * bool * option string) :=
  if load then read_fields false keys row (o_tmpl ob) false
  else match user with
       | [] => read_fields true (o_order ob) row (o_tmpl ob) false
       | _ => read_fields false user row (o_tmpl ob) false
       end.

(** ** Client programs and the states they reach

    [allowed b w p] restricts what a program may do in state [w]. With [b = false] (class "wide") all operations are
    allowed except the ones listed below, and the theorems speak about executions that did not run into undefined
    behaviour. With [b = true] (class "safe") more operations are excluded, and freedom from undefined behaviour is a
    theorem. P_Refuted.v shows, for the exclusions, programs that break the properties. *)

(** Some valid record still lists the set at address [s] as dependent. *)
Definition dependent (w : world) (r s : nat) : Prop := exists rc, w_recs w !! r = Some rc /\ r_valid rc = true /\ s ∈ r_deps rc.
(** Nothing mentions address [o] any more. *)
Definition unmentioned (w : world) (o : nat) : Prop :=
  (forall r, ~ dependent w r o) /\ (forall f r, denotes w f r -> bound_to w f o -> ~ valid_rec w r).
(** No set is filled from vault [o], and no reference bound to it denotes a valid record. *)
Definition unshared (w : world) (o : nat) : Prop :=
  (forall s sb, set_at w s sb -> o_parent sb <> Some o) /\ (forall f r, denotes w f r -> bound_to w f o -> ~ valid_rec w r).
(** Every valid record that lists set [s] as dependent without being in it belongs to vault [pb]. *)
Definition leftovers_in (w : world) (s : nat) (pb : obj) : Prop :=
  forall sb r, w_objs w !! s = Some sb -> dependent w r s -> r ∉ o_recs sb -> r ∈ o_recs pb.
(** The reference is not bound to a set (GetSortedRecords of a set returns such references);
    safe: the vault it is bound to still exists. *)
Definition ref_fit (b : bool) (w : world) (rf : vref) : Prop :=
  forall r o, f_rec rf = Some r -> f_vlt rf = Some o ->
    (forall ob, w_objs w !! o = Some ob -> o_static_set ob = false) /\ (b = true -> is_Some (w_objs w !! o)).

Definition allowed (b : bool) (w : world) (p : op) : Prop :=
  match p with
  (* addresses are not reused while something still mentions the object that lived there *)
  | ONewVault o => w_objs w !! o = None -> unmentioned w o
  | ONewSet s => b = false -> w_objs w !! s = None -> forall r, ~ dependent w r s
  (* safe: a unique key with a generator is added while there are no records or no sets *)
  | OAddUniqueKeyFn o _ _ _ => b = true -> forall ob, w_objs w !! o = Some ob -> o_sets ob = ∅ \/ o_recs ob = ∅
  (* safe: no row has more fields than keys or a number out of range *)
  | OReadRows o load keys user rows =>
      b = true -> forall ob, w_objs w !! o = Some ob -> Forall (fun row => is_Some (row_fields ob load keys user row)) rows
  (* safe: records are erased from vaults, not removed from sets *)
  | OEraseRef o _ | OEraseRecord o _ _ | OEraseRecords o _ _ _ =>
      b = true -> forall ob, w_objs w !! o = Some ob -> o_static_set ob = true -> o_parent ob = None
  (* the reference passed to a set's GetRecord does not hold a valid record of another vault *)
  | OGetRecord o _ _ f => forall ob p pb r, set_at w o ob -> o_parent ob = Some p -> w_objs w !! p = Some pb ->
      denotes w f r -> valid_rec w r -> r ∈ o_recs pb
  | OSetData f _ _ => forall rf, w_refs w !! f = Some rf -> ref_fit b w rf
  (* safe: the reference is bound to an existing vault *)
  | OSetMany f _ => forall rf, w_refs w !! f = Some rf -> ref_fit b w rf /\ (b = true -> exists o, f_vlt rf = Some o /\ is_Some (w_objs w !! o))
  (* wide: a set is not redirected to another vault while records of the old one are still registered with it *)
  | ORequest o _ _ _ _ _ _ _ _ s => b = false -> forall ob sb pv pb, w_objs w !! o = Some ob -> source_vault o ob = Some pv ->
      w_objs w !! pv = Some pb -> w_objs w !! s = Some sb -> o_parent sb <> Some pv -> leftovers_in w s pb
  | OComplex o q s => (b = false -> forall ob sb pv pb, w_objs w !! o = Some ob -> source_vault o ob = Some pv ->
      w_objs w !! pv = Some pb -> w_objs w !! s = Some sb -> o_parent sb <> Some pv -> leftovers_in w s pb) /\ (b = true -> req_ok q)
  (* copies of vaults without unique keys *)
  | OCopyVault dst src => (w_objs w !! dst = None -> unmentioned w dst) /\ forall sb, w_objs w !! src = Some sb -> o_uniq sb = []
  | OAssignVault dst src => dst <> src -> forall sb, w_objs w !! src = Some sb -> o_uniq sb = []
  (* moves of vaults that no set and no reference depends on: neither follows the vault to its new address *)
  | OMoveVault dst src => (w_objs w !! dst = None -> unmentioned w dst) /\ unshared w src
  | OMoveAssignVault dst src => dst <> src -> unshared w src
  | OMoveSet _ _ | OMoveAssignSet _ _ => False
  | OJoin _ _ | OExclude _ _ | OIntersect _ _ => b = false
  | OUnion a _ res | OIntersection a _ res => b = false /\
      forall ab p pb, w_objs w !! a = Some ab -> o_parent ab = Some p -> w_objs w !! p = Some pb -> leftovers_in w res pb
  | OCopySet dst src => (b = false -> w_objs w !! dst = None -> forall r, ~ dependent w r dst) /\ forall sb, w_objs w !! src = Some sb -> o_parent sb <> None
  | OAssignSet dst src => b = false -> forall sb p pb, w_objs w !! src = Some sb -> o_parent sb = Some p -> w_objs w !! p = Some pb ->
      leftovers_in w dst pb
  | _ => True
  end.

(** States reached by allowed operations, under every iteration order of the unordered containers. *)
Inductive reach (b : bool) : world -> Prop :=
  | reach_empty : reach b empty_world
  | reach_step ord w p w' out : reach b w -> fair ord -> allowed b w p -> step ord w p = Some (w', out) -> reach b w'.

(** The value CreateRecord gives key [k]: the last parameter naming it, otherwise the key's current default. *)
Definition given (ob : obj) (ps : list (string * value)) (k : string) : option value :=
  match last (filter (fun p : string * value => p.1 = k) ps) with
  | Some p => Some p.2
  | None => o_tmpl ob !! k
  end.
(** A parameter fits the vault: the key exists and has the parameter's type. *)
Definition fits (ob : obj) (p : string * value) : Prop := get_key_type ob p.1 = Some (vty p.2).
(** Some record of the vault already holds this value under [k]. *)
Definition taken (w : world) (ob : obj) (k : string) (v : option value) : Prop := exists r, r ∈ o_recs ob /\ stored w r k = v.

(** ** Requests *)

(** The predicate of a request holds for the record ([None]: no predicate given). *)
Definition passes (w : world) (p : predicate) (r : nat) : Prop :=
  match p with None => True | Some f => exists rc, w_recs w !! r = Some rc /\ f r (r_data rc) = true end.
(** [r] is filed under a value that satisfies the comparison. *)
Definition matching (ob : obj) (rt : rtype) (k : string) (b e : value) (ib ie : bool) (r : nat) : Prop :=
  match rt with
  | REqual => filed ob k b r
  | _ => exists v, filed_ord ob k v r /\ sat rt b e ib ie v
  end.
(** Boolean combination of comparisons. *)
Fixpoint matches (w : world) (ob : obj) (q : req) (r : nat) : Prop :=
  match q with
  | QLeaf l k v p => matching ob (leaf_rtype l) k v v false false r /\ passes w (Some p) r
  | QAnd a b => matches w ob a r /\ matches w ob b r
  | QOr a b => matches w ob a r \/ matches w ob b r
  end.
(** Every comparison names an existing key with a value of its type. *)
Fixpoint well_keyed (ob : obj) (q : req) : Prop :=
  match q with
  | QLeaf _ k v _ => get_key_type ob k = Some (vty v)
  | QAnd a b | QOr a b => well_keyed ob a /\ well_keyed ob b
  end.
(** What queries may be made on: a vault [o] ([pv = o]); in the safe class also a set [o] filled from vault [pv]. *)
Definition source_at (b : bool) (w : world) (o : nat) (ob : obj) (pv : nat) : Prop :=
  (vault_at w o ob /\ pv = o) \/ (b = true /\ set_at w o ob /\ o_parent ob = Some pv).
(** Nothing but set [s] changed (and the registration of [s] with its vault and records). *)
Definition only_set_changed (s : nat) (w w' : world) : Prop :=
  w_refs w' = w_refs w /\ (forall r, valid_rec w' r <-> valid_rec w r) /\ (forall r k, stored w' r k = stored w r k) /\
  forall x xb, x <> s -> w_objs w !! x = Some xb -> exists xb', w_objs w' !! x = Some xb' /\ xb' = ob_sets (o_sets xb') xb.
(** Only references changed. *)
Definition only_refs_changed (w w' : world) : Prop :=
  w_objs w' = w_objs w /\ (forall r, valid_rec w' r <-> valid_rec w r) /\ (forall r k, stored w' r k = stored w r k).

(** ** Erasure *)

(** The operations that erase records from vault [o]. *)
Definition erases_from (o : nat) (p : op) : Prop :=
  match p with OEraseRef o' _ | OEraseRecord o' _ _ | OEraseRecords o' _ _ _ => o' = o | _ => False end.
(** The records an erasure by reference takes: the one the reference denotes, if it is in the object; an erasure by value takes, of the [l] records
    found under the value, all of them or as many as asked for, but at least one (EraseRecord asks for one). *)
Definition erasure_picks (w : world) (ob : obj) (p : op) (X : list nat) : Prop :=
  NoDup X /\
  match p with
  | OEraseRef _ f => forall r, r ∈ X <-> denotes w f r /\ r ∈ o_recs ob
  | OEraseRecord _ k v => exists l, NoDup l /\ (forall r, r ∈ l <-> get_key_type ob k = Some (vty v) /\ filed ob k v r) /\ X ⊆ l /\ length X = length l `min` 1
  | OEraseRecords _ k v amt => exists l, NoDup l /\ (forall r, r ∈ l <-> get_key_type ob k = Some (vty v) /\ filed ob k v r) /\ X ⊆ l /\
      length X = match amt with None => length l | Some n => length l `min` (n `max` 1) end
  | _ => False
  end.
(** Exactly the records [X] left vault [o]: they are no longer valid, every other record keeps its values and its validity, the vault
    keeps everything but its records and indexes, other vaults and all reference variables are untouched. *)
Definition erased_exactly (o : nat) (X : list nat) (w w' : world) : Prop :=
  w_refs w' = w_refs w /\
  (forall r, valid_rec w' r <-> valid_rec w r /\ r ∉ X) /\
  (forall r k, r ∉ X -> stored w' r k = stored w r k) /\
  (forall ob, vault_at w o ob -> exists ob', vault_at w' o ob' /\ ob' = ob_recs (o_recs ob') (ob_idx (o_idx ob') ob) /\
     forall r, r ∈ o_recs ob' <-> r ∈ o_recs ob /\ r ∉ X) /\
  (forall x xb, vault_at w x xb -> x <> o -> vault_at w' x xb).

(** ** What may change what *)

(** Everything vaults and records show is as before (only the registration of sets with vaults may differ). *)
Definition vaults_kept (w w' : world) : Prop :=
  (forall r, valid_rec w' r <-> valid_rec w r) /\ (forall r k, stored w' r k = stored w r k) /\
  (forall o ob, vault_at w o ob -> exists ob', vault_at w' o ob' /\ ob' = ob_sets (o_sets ob') ob).
(** Queries, operations on references and operations on record sets (including the Erase/Remove operations called on a set). *)
Definition set_or_ref_op (w : world) (p : op) : Prop :=
  match p with
  | ONewSet _ | ODelSet _ | ONewRef _ | ODelRef _ | OGetRecord _ _ _ _ | OGetRecords _ _ _ _ _ | OGetSorted _ _ _ _ _
  | OCopyRef _ _ | OMoveRef _ _ | OResetRef _ | ORequest _ _ _ _ _ _ _ _ _ _ | OComplex _ _ _ | OSetAdd _ _ | OSetClear _ | OSetReset _
  | OJoin _ _ | OExclude _ _ | OIntersect _ _ | OUnion _ _ _ | OIntersection _ _ _ | OCopySet _ _ | OAssignSet _ _ => True
  | OEraseRef o _ | OEraseRecord o _ _ | OEraseRecords o _ _ _ => exists sb, set_at w o sb
  | _ => False
  end.
(** The operation may write key [k] of record [r]: SetData through a reference to it, or adding/removing key [k] of its vault. *)
Definition may_write (w : world) (p : op) (r : nat) (k : string) : Prop :=
  match p with
  | OSetData f k' _ => k' = k /\ denotes w f r
  | OSetMany f ps => k ∈ (fst <$> ps) /\ denotes w f r
  | OAddKey o k' _ | OAddUniqueKey o k' _ | OAddUniqueKeyFn o k' _ _ | ORemoveKey o k' => k' = k /\ exists ob, vault_at w o ob /\ r ∈ o_recs ob
  | _ => False
  end.
(** Same keys, types, order, unique keys and defaults. *)
Definition same_schema (ob ob' : obj) : Prop := o_keys ob' = o_keys ob /\ o_order ob' = o_order ob /\ o_uniq ob' = o_uniq ob /\ o_tmpl ob' = o_tmpl ob.
(** The operation may change the keys of vault [o]. *)
Definition schema_op (o : nat) (p : op) : Prop :=
  match p with
  | OAddKey o' _ _ | OAddUniqueKey o' _ _ | OAddUniqueKeyFn o' _ _ _ | OUpdateKey o' _ _ | ORemoveKey o' _ | ODropVault o' | OAssignVault o' _ => o' = o
  | OMoveVault d s | OMoveAssignVault d s => d = o \/ s = o
  | _ => False
  end.
(** The operation may add records to vault [o]. *)
Definition adds_to (o : nat) (p : op) : Prop :=
  match p with OCreateRecord o' _ _ | OReadRows o' _ _ _ _ | OAssignVault o' _ | OMoveVault o' _ | OMoveAssignVault o' _ => o' = o | _ => False end.
(** The operation may take records out of vault [o]. *)
Definition takes_from (o : nat) (p : op) : Prop :=
  match p with
  | OEraseRef o' _ | OEraseRecord o' _ _ | OEraseRecords o' _ _ _ | ODropData o' | ODropVault o' | ODelVault o' | OAssignVault o' _ => o' = o
  | OMoveVault d s | OMoveAssignVault d s => d = o \/ s = o
  | _ => False
  end.
(** The operation moves the contents of vault [src] to vault [dst]. *)
Definition moves_vault (p : op) (dst src : nat) : Prop :=
  match p with OMoveVault d s | OMoveAssignVault d s => d = dst /\ s = src | _ => False end.
(** [w'] is reached from [w] by allowed operations. *)
Inductive later (b : bool) (w : world) : world -> Prop :=
  | later_now : later b w w
  | later_step ord w1 p w2 out : later b w w1 -> fair ord -> allowed b w1 p -> step ord w1 p = Some (w2, out) -> later b w w2.

(** ** Keys *)

(** The vault or set is as before except for key [k]. *)
Definition other_keys_same (k : string) (ob ob' : obj) : Prop :=
  o_recs ob' = o_recs ob /\ o_sets ob' = o_sets ob /\ o_parent ob' = o_parent ob /\
  forall k', k' <> k -> get_key_type ob' k' = get_key_type ob k' /\ o_tmpl ob' !! k' = o_tmpl ob !! k' /\
    (k' ∈ get_unique_keys ob' <-> k' ∈ get_unique_keys ob) /\ o_idx ob' !! k' = o_idx ob !! k'.
(** Nothing changed but key [k] in vault [o], its records and the sets filled from it. *)
Definition only_key_changed (o : nat) (k : string) (w w' : world) : Prop :=
  w_refs w' = w_refs w /\ (forall r, valid_rec w' r <-> valid_rec w r) /\
  (forall r k', k' <> k \/ (forall ob, vault_at w o ob -> r ∉ o_recs ob) -> stored w' r k' = stored w r k') /\
  (forall x, x <> o -> (forall xb, set_at w x xb -> o_parent xb <> Some o) -> w_objs w' !! x = w_objs w !! x).
(** The values a generator gives the records when they are visited in order [rs]. *)
Definition generated (w : world) (g : generator) (t : vtype) (rs : list nat) : list value :=
  imap (fun i r => vcast t (g i r (match w_recs w !! r with Some rc => r_data rc | None => ∅ end))) rs.
(** Under key [k] both indexes hold exactly the pairs [P]. *)
Definition filed_exactly (ob : obj) (k : string) (P : value -> nat -> Prop) : Prop :=
  forall v r, (filed ob k v r <-> P v r) /\ (filed_ord ob k v r <-> P v r).
(** [w'] is reached from [w] by allowed operations that all satisfy [Q]. *)
Inductive later_if (b : bool) (Q : op -> Prop) (w : world) : world -> Prop :=
  | later_if_now : later_if b Q w w
  | later_if_step ord w1 p w2 out : later_if b Q w w1 -> fair ord -> allowed b w1 p -> Q p -> step ord w1 p = Some (w2, out) -> later_if b Q w w2.

(** ** References *)

(** How many reference variables denote the record. *)
Definition refs_to (w : world) (r : nat) : nat := size (filter (fun e : nat * vref => f_rec e.2 = Some r) (w_refs w)).
(** Operations on references alone. *)
Definition plain_ref_op (p : op) : Prop :=
  match p with ONewRef _ | ODelRef _ | OCopyRef _ _ | OMoveRef _ _ | OResetRef _ => True | _ => False end.
(** The operation may assign reference variable [f]. *)
Definition assigns (f : nat) (p : op) : Prop :=
  match p with
  | ONewRef g | ODelRef g | OResetRef g | OCopyRef g _ | OGetRecord _ _ _ g => g = f
  | OCreateRecord _ g _ => g = Some f
  | OMoveRef g h => g = f \/ h = f
  | OGetRecords _ _ _ _ fs | OGetSorted _ _ _ _ fs => f ∈ fs
  | _ => False
  end.
(** A sequence of successful SetData calls through [f]. *)
Inductive set_each (ord : order) (f : nat) : world -> list (string * value) -> world -> Prop :=
  | set_none w : set_each ord f w [] w
  | set_one w k v w1 res ps w' : step ord w (OSetData f k v) = Some (w1, ORes res) -> res_ok res = true -> set_each ord f w1 ps w' ->
      set_each ord f w ((k, v) :: ps) w'.

(** ** Record sets *)

(** The answer of Join, Exclude and Intersect, called on set [s] with operand [a]. *)
Definition algebra_answer (s a : nat) (sb ab : obj) : rcode :=
  match o_parent sb, o_parent ab with
  | None, _ => ParentVaultNotValid
  | Some _, None => OtherParentVaultNotValid
  | Some p, Some p' => if decide (p = p') then (if decide (s = a) then SameVaultRecordSet else Success) else ParentVaultNotMatch
  end.
(** The answer of Union and Intersection of sets [a] and [b] into [res]. *)
Definition combination_answer (a b res : nat) (ab bb : obj) : rcode :=
  if decide (a = b \/ a = res \/ b = res) then SameVaultRecordSet
  else match o_parent ab, o_parent bb with
       | None, _ => ParentVaultNotValid
       | Some _, None => OtherParentVaultNotValid
       | Some p, Some p' => if decide (p = p') then Success else ParentVaultNotMatch
       end.
(** [s] is a set of vault [p] that holds exactly the records [X]. *)
Definition set_holds (w : world) (s : nat) (p : option nat) (X : gset nat) : Prop :=
  exists sb, set_at w s sb /\ o_parent sb = p /\ o_recs sb = X.
(** Every query on the vault or set is answered completely: under each key exactly its records are filed, by their current values. *)
Definition indexed (w : world) (ob : obj) : Prop :=
  forall k, is_Some (get_key_type ob k) -> filed_exactly ob k (fun v r => r ∈ o_recs ob /\ stored w r k = Some v).
(** The operation may put records into set [s]. *)
Definition fills (s : nat) (p : op) : Prop :=
  match p with
  | ORequest _ _ _ _ _ _ _ _ _ s' | OComplex _ _ s' | OSetAdd s' _ | OJoin s' _ | OUnion _ _ s' | OIntersection _ _ s' | OAssignSet s' _ => s' = s
  | _ => False
  end.
(** The operation may bind set [s] to another vault. *)
Definition rebinds (s : nat) (p : op) : Prop :=
  match p with
  | ORequest _ _ _ _ _ _ _ _ _ s' | OComplex _ _ s' | OUnion _ _ s' | OIntersection _ _ s' | OAssignSet s' _ | OSetReset s' => s' = s
  | _ => False
  end.
(** The operation ends the contents of vault [o]. *)
Definition ends_vault (o : nat) (p : op) : Prop :=
  match p with ODropVault o' | ODelVault o' => o' = o | OAssignVault o' a | OMoveAssignVault o' a => o' = o /\ a <> o | _ => False end.
(** The same keys in the same order, of the same types, the same ones unique. *)
Definition equal_keys (ob ob' : obj) : Prop :=
  get_keys ob' = get_keys ob /\ get_unique_keys ob' = get_unique_keys ob /\ forall k, get_key_type ob' k = get_key_type ob k.

(** ** Whole vaults *)

(** Every record of [X] was copied to a new record of [Y] with the same contents, and [Y] holds nothing else. *)
Definition copied_records (w w' : world) (X Y : gset nat) : Prop :=
  exists rs : list (nat * nat), rs.*1 ≡ₚ elements X /\ rs.*2 ≡ₚ elements Y /\
    forall r r', (r, r') ∈ rs -> w_recs w !! r' = None /\ valid_rec w' r' /\ forall k, stored w' r' k = stored w r k.
(** The operation is about vault [o]: it names it as the vault to be changed, or writes to one of its records through a reference. *)
Definition concerns (w : world) (p : op) (o : nat) : Prop :=
  schema_op o p \/ adds_to o p \/ takes_from o p \/
  exists f r ob, vault_at w o ob /\ r ∈ o_recs ob /\ denotes w f r /\ match p with OSetData f' _ _ | OSetMany f' _ => f' = f | _ => False end.
(** [w'] is reached from [w] by allowed operations, each satisfying [Q] in the state it is called in. *)
Inductive later_while (b : bool) (Q : world -> op -> Prop) (w : world) : world -> Prop :=
  | later_while_now : later_while b Q w w
  | later_while_step ord w1 p w2 out : later_while b Q w w1 -> fair ord -> allowed b w1 p -> Q w1 p -> step ord w1 p = Some (w2, out) -> later_while b Q w w2.
(** The vault is as it was: same keys, defaults, records, indexes (sets filled from it may come and go), its records valid with the same values. *)
Definition vault_same (w w' : world) (o : nat) (ob : obj) : Prop :=
  exists ob', vault_at w' o ob' /\ ob' = ob_sets (o_sets ob') ob /\ forall r, r ∈ o_recs ob -> valid_rec w' r /\ forall k, stored w' r k = stored w r k.
(** A vault without keys, records and sets, like a newly constructed one. *)
Definition bare (ob : obj) : Prop :=
  get_keys ob = [] /\ get_unique_keys ob = [] /\ (forall k, get_key_type ob k = None) /\ o_tmpl ob = ∅ /\ o_idx ob = ∅ /\ o_recs ob = ∅ /\ o_sets ob = ∅.
