(** Model of Vault, VaultRecord, VaultRecordRef, VaultRecordSet, VaultRequest and VaultParamInput.

    A [world] is the memory of one program: records on the heap, vault / record-set objects, references.
    Pointers are natural numbers; a freed record or destroyed object is absent from its map and any access
    to it is undefined behaviour. Every function returns an [option]: [None] (written [UB]) is undefined
    behaviour, [Some] is a defined result. Locks are not part of this model (see MutexModel.v). *)
From Verif Require Export MapModel StringsModel.
Open Scope nat_scope.

Notation UB := None.

(** The order in which unordered containers are iterated: one arbitrary function per operation. *)
Definition order := list nat -> list nat.

Fixpoint foldM {A B} (f : A -> B -> option A) (a : A) (l : list B) : option A :=
  match l with
  | [] => Some a
  | x :: l' => a' ← f a x; foldM f a' l'
  end.

(** ** Data *)

(** Source/VaultRecord.h 16-30 (plus [Container] of Source/DataContainer.h 32). *)
Record recd := Recd {
  r_data : gmap string value;
  r_valid : bool;             (* IsValid *)
  r_refs : nat;               (* RefCounter *)
  r_deps : gset nat           (* dependentVaultRecordSets *)
}.

(** Source/Vault.h 36-98: the members of [Vault]; [VaultRecordSet] derives from it and adds [ParentVault]
    (Source/VaultRecordSet.h 13-20). [o_keys] stands for [KeysTypes] and the five lambda maps, which always have the
    same keys; its second component is the [defaultKeyValue] captured by the lambdas. [o_idx] stands for
    [VaultHashMapStructure] and [VaultMapStructure], which are always written together. *)
Record obj := Obj {
  o_static_set : bool;            (* the C++ class of the object: true = VaultRecordSet *)
  o_isset : bool;                 (* VaultDerivedClass == VaultRecordSetDerived *)
  o_tmpl : gmap string value;     (* RecordTemplate *)
  o_idx : gmap string idx;
  o_keys : gmap string (vtype * value);
  o_order : list string;          (* KeysOrder *)
  o_uniq : list string;           (* UniqueKeys, a std::set: sorted *)
  o_recs : gset nat;              (* RecordsSet *)
  o_sets : gset nat;              (* RecordSetsSet *)
  o_parent : option nat;          (* ParentVault *)
  o_bad : list (nat * string)     (* InvalidFileRecords *)
}.

(** Source/VaultRecordRef.h: [VaultRecordPtr], [Vlt]. *)
Record vref := Ref { f_rec : option nat; f_vlt : option nat }.

Record world := World {
  w_recs : gmap nat recd;
  w_objs : gmap nat obj;
  w_refs : gmap nat vref;
  w_next : nat                    (* next fresh record address; addresses are never reused *)
}.

Definition empty_world : world := World ∅ ∅ ∅ 0.

(** A default-constructed [Vault] / [VaultRecordSet]: Source/Vault.cpp 182-187, Source/VaultRecordSet.cpp 77-83. *)
Definition new_vault : obj := Obj false false ∅ ∅ ∅ [] [] ∅ ∅ None [].
Definition new_set : obj := Obj true true ∅ ∅ ∅ [] [] ∅ ∅ None [].

(** Source/VaultOperationResult.h 21-38. *)
Inductive rcode :=
  | OtherParentVaultNotValid | SameVaultRecordSet | TryToAddUniqueKeyInNonEmptyVaultWithoutLambda
  | DuplicateKey | UniqueKey | RecordAlredyInSet | ParentVaultNotMatch | ParentVaultNotValid
  | DataRecordNotValid | WrongKey | WrongType | Idle | WrongValue | UniqueKeyValueAlredyInSet | Success.

(** Source/VaultOperationResult.h 43-58; [None] is [typeid(void)]. *)
Record opres := OpRes {
  res_ok : bool; res_code : rcode; res_key : string; res_req : option vtype; res_saved : option vtype }.

Definition res0 : opres := OpRes true Idle "" None None.
Definition okres (c : rcode) (k : string) (rq sv : option vtype) : opres := OpRes true c k rq sv.
Definition bad (c : rcode) (k : string) (rq sv : option vtype) : opres := OpRes false c k rq sv.

(** ** Field updates *)

Definition set_rec (r : nat) (rc : recd) (w : world) : world :=
  World (<[r := rc]> (w_recs w)) (w_objs w) (w_refs w) (w_next w).
Definition del_rec (r : nat) (w : world) : world :=
  World (delete r (w_recs w)) (w_objs w) (w_refs w) (w_next w).
Definition set_obj (o : nat) (ob : obj) (w : world) : world :=
  World (w_recs w) (<[o := ob]> (w_objs w)) (w_refs w) (w_next w).
Definition del_obj (o : nat) (w : world) : world :=
  World (w_recs w) (delete o (w_objs w)) (w_refs w) (w_next w).
Definition set_ref (f : nat) (rf : vref) (w : world) : world :=
  World (w_recs w) (w_objs w) (<[f := rf]> (w_refs w)) (w_next w).
Definition del_ref (f : nat) (w : world) : world :=
  World (w_recs w) (w_objs w) (delete f (w_refs w)) (w_next w).

Definition rd_data (d : gmap string value) (rc : recd) : recd := Recd d (r_valid rc) (r_refs rc) (r_deps rc).
Definition rd_valid (b : bool) (rc : recd) : recd := Recd (r_data rc) b (r_refs rc) (r_deps rc).
Definition rd_refs (n : nat) (rc : recd) : recd := Recd (r_data rc) (r_valid rc) n (r_deps rc).
Definition rd_deps (s : gset nat) (rc : recd) : recd := Recd (r_data rc) (r_valid rc) (r_refs rc) s.

Definition ob_idx (x : gmap string idx) (b : obj) : obj :=
  Obj (o_static_set b) (o_isset b) (o_tmpl b) x (o_keys b) (o_order b) (o_uniq b) (o_recs b) (o_sets b) (o_parent b) (o_bad b).
Definition ob_tmpl (x : gmap string value) (b : obj) : obj :=
  Obj (o_static_set b) (o_isset b) x (o_idx b) (o_keys b) (o_order b) (o_uniq b) (o_recs b) (o_sets b) (o_parent b) (o_bad b).
Definition ob_order (x : list string) (b : obj) : obj :=
  Obj (o_static_set b) (o_isset b) (o_tmpl b) (o_idx b) (o_keys b) x (o_uniq b) (o_recs b) (o_sets b) (o_parent b) (o_bad b).
Definition ob_uniq (x : list string) (b : obj) : obj :=
  Obj (o_static_set b) (o_isset b) (o_tmpl b) (o_idx b) (o_keys b) (o_order b) x (o_recs b) (o_sets b) (o_parent b) (o_bad b).
Definition ob_recs (x : gset nat) (b : obj) : obj :=
  Obj (o_static_set b) (o_isset b) (o_tmpl b) (o_idx b) (o_keys b) (o_order b) (o_uniq b) x (o_sets b) (o_parent b) (o_bad b).
Definition ob_sets (x : gset nat) (b : obj) : obj :=
  Obj (o_static_set b) (o_isset b) (o_tmpl b) (o_idx b) (o_keys b) (o_order b) (o_uniq b) (o_recs b) x (o_parent b) (o_bad b).
Definition ob_parent (x : option nat) (b : obj) : obj :=
  Obj (o_static_set b) (o_isset b) (o_tmpl b) (o_idx b) (o_keys b) (o_order b) (o_uniq b) (o_recs b) (o_sets b) x (o_bad b).
Definition ob_bad (x : list (nat * string)) (b : obj) : obj :=
  Obj (o_static_set b) (o_isset b) (o_tmpl b) (o_idx b) (o_keys b) (o_order b) (o_uniq b) (o_recs b) (o_sets b) (o_parent b) x.
Definition ob_isset (x : bool) (b : obj) : obj :=
  Obj (o_static_set b) x (o_tmpl b) (o_idx b) (o_keys b) (o_order b) (o_uniq b) (o_recs b) (o_sets b) (o_parent b) (o_bad b).

(** ** VaultRecord *)

(** [AddRef]: Source/VaultRecord.cpp 67-74. *)
Definition add_ref (w : world) (r : nat) : option world :=
  rc ← w_recs w !! r; Some (set_rec r (rd_refs (S (r_refs rc)) rc) w).

(** [RemoveRef]: Source/VaultRecord.cpp 76-87. A counter already 0 would wrap around; that is
    treated as a fault here and proved unreachable. *)
Definition remove_ref (w : world) (r : nat) : option world :=
  rc ← w_recs w !! r;
  match r_refs rc with
  | O => UB
  | S n => if negb (r_valid rc) && (n =? 0) then Some (del_rec r w)
           else Some (set_rec r (rd_refs n rc) w)
  end.

(** [Invalidate]: Source/VaultRecord.cpp 89-100. *)
Definition invalidate (w : world) (r : nat) : option world :=
  rc ← w_recs w !! r;
  if r_refs rc =? 0 then Some (del_rec r w) else Some (set_rec r (rd_valid false rc) w).

(** [AddToDependentSets], [EraseDependentSet]: Source/VaultRecord.cpp 124-140. *)
Definition add_dep (s : nat) (w : world) (r : nat) : option world :=
  rc ← w_recs w !! r; Some (set_rec r (rd_deps ({[s]} ∪ r_deps rc) rc) w).
Definition erase_dep (s : nat) (w : world) (r : nat) : option world :=
  rc ← w_recs w !! r; Some (set_rec r (rd_deps (r_deps rc ∖ {[s]}) rc) w).

(** [GetData] into a variable of type [t] initialised with [d]: Source/DataContainer.h 188-196,
    Source/DataSaver.h 193-209 (a value of another type is not copied). *)
Definition get_typed (data : gmap string value) (k : string) (t : vtype) (d : value) : value :=
  match data !! k with
  | Some v => if decide (vty v = t) then v else d
  | None => d
  end.

(** ** The per-key lambdas created by AddKey *)

(** VaultRecordAdders: Source/Vault.hpp 442-459. *)
Definition idx_add (v : value) (r : nat) (ix : idx) : idx * bool :=
  let '(h, b) := hash_emplace (ix_multi ix) v r (ix_hash ix) in
  if b then (Idx (ix_multi ix) h (tree_emplace (ix_multi ix) v r (ix_tree ix)), true)
  else (ix, false).
Definition adder (k : string) (td : vtype * value) (data : gmap string value) (r : nat) (ix : idx) : idx * bool :=
  idx_add (get_typed data k td.1 td.2) r ix.

(** VaultRecordErasers: Source/Vault.hpp 470-501. The hash entry is erased through its iterator (484), the tree
    entry by key value (496). *)
Definition idx_erase (v : value) (r : nat) (ix : idx) : idx :=
  Idx (ix_multi ix) (erase_entry v r (ix_hash ix))
      (if decide ((v, r) ∈ ix_tree ix) then erase_value v (ix_tree ix) else ix_tree ix).
Definition eraser (k : string) (td : vtype * value) (data : gmap string value) (r : nat) (ix : idx) : idx :=
  idx_erase (get_typed data k td.1 (vzero td.1)) r ix.

(** The index part of [SetDataToRecord]: Source/Vault.hpp 75-108. Both erasures are by key value (81, 102). *)
Definition idx_set (old new : value) (r : nat) (ix : idx) : idx :=
  let h := if decide ((old, r) ∈ ix_hash ix) then erase_value old (ix_hash ix) else ix_hash ix in
  let t := if decide ((old, r) ∈ ix_tree ix) then erase_value old (ix_tree ix) else ix_tree ix in
  Idx (ix_multi ix) (fst (hash_emplace (ix_multi ix) new r h)) (tree_emplace (ix_multi ix) new r t).

(** Running every lambda of an object, e.g. Source/Vault.hpp 315-316, 982-983; the lambdas of different keys touch
    different containers, so the iteration order does not matter. *)
Definition all_idx (f : string -> vtype * value -> idx -> idx) (ob : obj) : obj :=
  ob_idx (map_imap (fun k ix => Some (match o_keys ob !! k with Some td => f k td ix | None => ix end)) (o_idx ob)) ob.
Definition all_adders (data : gmap string value) (r : nat) : obj -> obj :=
  all_idx (fun k td ix => fst (adder k td data r ix)).
Definition all_erasers (data : gmap string value) (r : nat) : obj -> obj :=
  all_idx (fun k td ix => eraser k td data r ix).
(** VaultRecordClearers: Source/Vault.hpp 462-467. *)
Definition all_clearers : obj -> obj := all_idx (fun _ _ ix => Idx (ix_multi ix) [] []).

(** Add record [r] (already allocated) to the object's RecordsSet and indexes:
    Source/Vault.cpp 522-527, Source/VaultRecordSet.cpp 193-199. *)
Definition obj_add (data : gmap string value) (r : nat) (ob : obj) : obj :=
  all_adders data r (ob_recs ({[r]} ∪ o_recs ob) ob).

(** ** Removing records *)

(** The common tail of RemoveRecord, EraseRecord and EraseRecords: Source/Vault.cpp 23-34, Source/Vault.hpp 982-993,
    1063-1074, with [RemoveFromDependentSets] (Source/VaultRecord.cpp 113-122) calling
    [VaultRecordSet::RemoveRecord] (Source/VaultRecordSet.cpp 6-11) and hence [Vault::RemoveRecord]
    (Source/Vault.cpp 9-38) on each dependent set. The recursion can only go deeper when an object that is a
    record set has VaultDerivedClass == VaultBase; its depth is bounded by the number of objects,
    since each level removes the record from one more object. *)
Fixpoint detach (fuel : nat) (ord : order) (w : world) (o r : nat) : option world :=
  match fuel with
  | O => UB
  | S fuel =>
      ob ← w_objs w !! o;
      rc ← w_recs w !! r;
      let ob' := all_erasers (r_data rc) r ob in
      let w1 := set_obj o (ob_recs (o_recs ob ∖ {[r]}) ob') w in
      if o_isset ob then Some w1
      else
        w2 ← foldM (fun w d =>
               db ← w_objs w !! d;
               _ ← w_recs w !! r;
               if decide (r ∈ o_recs db) then detach fuel ord w d r else Some w)
             w1 (ord (elements (r_deps rc)));
        invalidate w2 r
  end.

Definition dfuel (w : world) : nat := S (S (size (w_objs w))).

(** [Vault::RemoveRecord]: Source/Vault.cpp 9-38. *)
Definition remove_record (ord : order) (w : world) (o r : nat) : option (world * bool) :=
  ob ← w_objs w !! o;
  if decide (r ∈ o_recs ob) then w' ← detach (dfuel w) ord w o r; Some (w', true)
  else Some (w, false).

(** ** SetDataToRecord: Source/Vault.hpp 12-126. The recursion is [UpdateDependentSets]
    (Source/VaultRecord.hpp 8-19). Fuel runs out only if a dependent set has
    VaultDerivedClass == VaultBase, in which case the C++ recursion never ends (stack overflow). *)
Fixpoint set_data_to_record (fuel : nat) (ord : order) (w : world) (o r : nat) (k : string) (v : value)
    : option (world * opres) :=
  match fuel with
  | O => UB
  | S fuel =>
      ob ← w_objs w !! o;
      rc ← w_recs w !! r;
      let rq := Some (vty v) in
      if negb (r_valid rc) then Some (w, bad DataRecordNotValid k rq None)
      else match o_keys ob !! k with
      | None => Some (w, bad WrongKey k rq None)
      | Some (t, _) =>
          if decide (t = vty v) then
            ix ← o_idx ob !! k;
            let old := get_typed (r_data rc) k t (vzero t) in
            if negb (ix_multi ix) && has_value old (ix_hash ix)
            then Some (w, bad UniqueKeyValueAlredyInSet k rq (Some t))
            else
              let w1 := set_obj o (ob_idx (<[k := idx_set old v r ix]> (o_idx ob)) ob) w in
              if o_isset ob then Some (w1, okres Success k rq (Some t))
              else
                w2 ← foldM (fun w d => '(w', _) ← set_data_to_record fuel ord w d r k v; Some w')
                     w1 (ord (elements (r_deps rc)));
                rc2 ← w_recs w2 !! r;
                Some (set_rec r (rd_data (<[k := v]> (r_data rc2)) rc2) w2, okres Success k rq (Some t))
          else Some (w, bad WrongType k rq (Some t))
      end
  end.

(** ** Requests *)

(** Source/VaultRequest.h (VaultRequestType without And/Or). *)
Inductive rtype := REqual | RGreater | RGreaterOrEqual | RLess | RLessOrEqual | RInterval.
Global Instance rtype_eq_dec : EqDecision rtype.
Proof. solve_decision. Defined.

(** A request predicate: [None] is [DefaultRequestPredicat] (not called, Source/Vault.hpp 179, 252); otherwise a pure
    function of the record's identity and contents, called on a temporary reference. *)
Definition predicate := option (nat -> gmap string value -> bool).
Definition keep (w : world) (p : predicate) (r : nat) : option bool :=
  match p with
  | None => Some true
  | Some f => rc ← w_recs w !! r; Some (f r (r_data rc))
  end.
Fixpoint filterM (f : nat -> option bool) (l : list nat) : option (list nat) :=
  match l with
  | [] => Some []
  | x :: l' => b ← f x; l'' ← filterM f l'; Some (if (b : bool) then x :: l'' else l'')
  end.

(** [amountOfRecords]: [None] is the default argument, the maximum of size_t. *)
Definition limit {A} (amt : option nat) (l : list A) : list A :=
  match amt with None => l | Some n => take n l end.
(** Loops that test the limit only after handling a record: Source/Vault.hpp 774-779, 1054-1076. *)
Definition limit1 {A} (amt : option nat) (l : list A) : list A :=
  match amt with None => l | Some n => take (Nat.max 1 n) l end.

(** Start and end positions of a tree request: Source/Vault.hpp 203-244. *)
Definition bounds (rt : rtype) (b e : value) (ib ie : bool) (l : entries) : nat * nat :=
  match rt with
  | RGreaterOrEqual => (lower_bound b l, length l)
  | RGreater => (upper_bound b l, length l)
  | RLess => (O, lower_bound e l)
  | RLessOrEqual => (O, upper_bound b l)
  | RInterval =>
      if vltb e b || (bool_decide (b = e) && (negb ib || negb ie)) then (length l, length l)
      else (if ib then lower_bound b l else upper_bound b l,
            if ie then upper_bound e l else lower_bound e l)
  | REqual => (O, O)
  end.

(** The records visited by a request before limit and predicate: Source/Vault.hpp 160-166, 203-249.
    The static types of [b] and [e] agree except in the interval shortcut of And (see [eval_req]), where a
    differently typed [e] is read through a pointer of the wrong type. *)
Definition candidates (ord : order) (ix : idx) (rt : rtype) (b e : value) (ib ie : bool) : option (list nat) :=
  match rt with
  | REqual => Some (ord (snd <$> equal_range b (ix_hash ix)))
  | _ => if decide (vty e = vty b) then
           let bd := bounds rt b e ib ie (ix_tree ix) in
           l ← iterate bd.1 bd.2 (ix_tree ix); Some (snd <$> (l : entries))
         else UB
  end.

(** [RequestRecordsSet]: Source/Vault.hpp 128-269. Returns the records put into the (initially empty) result set. *)
Definition request_set (ord : order) (w : world) (ob : obj) (rt : rtype) (k : string) (b e : value) (ib ie : bool)
    (amt : option nat) (p : predicate) : option (opres * list nat) :=
  let rq := Some (vty b) in
  match o_keys ob !! k with
  | None => Some (bad WrongKey k rq None, [])
  | Some (t, _) =>
      if decide (t = vty b) then
        ix ← o_idx ob !! k;
        cands ← candidates ord ix rt b e ib ie;
        l ← filterM (keep w p) (limit amt cands);
        Some (okres Success k rq rq, l)
      else Some (bad WrongType k rq (Some t), [])
  end.

(** ** AddKey *)

(** Insertion into a std::set<std::string>: Source/Vault.h (UniqueKeys), Source/Vault.hpp 439. *)
Definition strltb (a b : string) : bool := vltb (VStr a) (VStr b).
Fixpoint set_insert (k : string) (l : list string) : list string :=
  match l with
  | [] => [k]
  | x :: l' => if strltb k x then k :: l else if decide (k = x) then l else x :: set_insert k l'
  end.

(** Generator of unique values: counter, record, contents. *)
Definition generator := nat -> nat -> gmap string value -> value.

(** The checking loop over the records: Source/Vault.hpp 374-393. [Some None]: a duplicate was produced. *)
Fixpoint gen_loop (w : world) (g : generator) (t : vtype) (i : nat) (rs : list nat) (h : entries)
    : option (option entries) :=
  match rs with
  | [] => Some (Some h)
  | r :: rs' =>
      rc ← w_recs w !! r;
      let v := vcast t (g i r (r_data rc)) in
      let '(h', ok) := hash_emplace false v r h in
      if ok then gen_loop w g t (S i) rs' h' else Some None
  end.

(** [VaultRecord::SetData] / [EraseData] (Source/DataContainer.h 123-134, 255-263). *)
Definition rec_set (k : string) (w : world) (e : value * nat) : option world :=
  rc ← w_recs w !! e.2; Some (set_rec e.2 (rd_data (<[k := e.1]> (r_data rc)) rc) w).
Definition rec_erase (k : string) (w : world) (r : nat) : option world :=
  rc ← w_recs w !! r; Some (set_rec r (rd_data (delete k (r_data rc)) rc) w).

Definition build_tree (multi : bool) (h : entries) : entries :=
  foldl (fun t e => tree_emplace multi e.1 e.2 t) [] h.

(** The part of AddKey after the indexes were filled: Source/Vault.hpp 428-522. *)
Definition register_key (k : string) (d : value) (uniq : bool) (ix : idx) (ob : obj) : obj :=
  Obj (o_static_set ob) (o_isset ob) (<[k := d]> (o_tmpl ob)) (<[k := ix]> (o_idx ob))
      (<[k := (vty d, d)]> (o_keys ob))
      (if o_isset ob then o_order ob else o_order ob ++ [k])
      (if uniq then set_insert k (o_uniq ob) else o_uniq ob)
      (o_recs ob) (o_sets ob) (o_parent ob) (o_bad ob).

(** AddKey on one object, without the propagation to sets: Source/Vault.hpp 324-522. [g = None]: not unique;
    [g = Some f]: unique; [nolambda]: isUniqueKeyWithoutLambda. *)
Definition add_key_local (ord : order) (w : world) (o : nat) (k : string) (d : value) (g : option generator)
    (nolambda : bool) : option (world * opres) :=
  ob ← w_objs w !! o;
  let rq := Some (vty d) in
  match o_keys ob !! k with
  | Some (t, _) => Some (w, bad DuplicateKey k rq (Some t))
  | None =>
      let rs := ord (elements (o_recs ob)) in
      match g with
      | None =>
          let h := (fun r => (d, r)) <$> rs in
          w1 ← foldM (rec_set k) w h;
          Some (set_obj o (register_key k d false (Idx true h (build_tree true h)) ob) w1, okres Success k rq None)
      | Some f =>
          if nolambda && negb (bool_decide (rs = [])) then
            (* returns after the containers were created: Source/Vault.hpp 367-372 *)
            Some (set_obj o (ob_idx (<[k := Idx false [] []]> (o_idx ob)) ob) w,
                  bad TryToAddUniqueKeyInNonEmptyVaultWithoutLambda k rq None)
          else
            mh ← gen_loop w f (vty d) 0 rs [];
            match mh with
            | None =>
                Some (set_obj o (ob_idx (delete k (o_idx ob)) ob) w, bad UniqueKeyValueAlredyInSet k rq None)
            | Some h =>
                w1 ← (if o_isset ob then Some w else foldM (rec_set k) w h);
                Some (set_obj o (register_key k d true (Idx false h (build_tree false h)) ob) w1,
                      okres Success k rq None)
            end
      end
  end.

(** AddKey with propagation: Source/Vault.hpp 524-534. The sets' own RecordSetsSet is always empty. *)
Definition add_key (ord : order) (w : world) (o : nat) (k : string) (d : value) (g : option generator)
    (nolambda : bool) : option (world * opres) :=
  ob ← w_objs w !! o;
  '(w1, res) ← add_key_local ord w o k d g nolambda;
  if res_ok res && negb (o_isset ob) then
    w2 ← foldM (fun w s =>
           '(w', _) ← add_key_local ord w s k d g false;
           sb ← w_objs w' !! s;
           Some (set_obj s (ob_order (o_order sb ++ [k]) sb) w'))
         w1 (ord (elements (o_sets ob)));
    Some (w2, res)
  else Some (w1, res).

(** [UpdateKey]: Source/Vault.hpp 573-622. *)
Definition update_key (w : world) (o : nat) (k : string) (d : value) : option (world * opres) :=
  ob ← w_objs w !! o;
  let rq := Some (vty d) in
  match o_keys ob !! k with
  | None => Some (w, bad WrongKey k rq None)
  | Some (t, _) =>
      if decide (t = vty d) then
        if decide (k ∈ o_uniq ob) then Some (w, bad UniqueKey k rq (Some t))
        else Some (set_obj o (ob_tmpl (<[k := d]> (o_tmpl ob)) ob) w, okres Success k rq rq)
      else Some (w, bad WrongType k rq (Some t))
  end.

(** std::list erase of the first equal element: Source/Vault.cpp 390-397. *)
Fixpoint remove_first (k : string) (l : list string) : list string :=
  match l with
  | [] => []
  | x :: l' => if decide (x = k) then l' else x :: remove_first k l'
  end.

(** RemoveKey on one object: Source/Vault.cpp 383-413. *)
Definition remove_key_obj (k : string) (ob : obj) : obj :=
  Obj (o_static_set ob) (o_isset ob) (delete k (o_tmpl ob)) (delete k (o_idx ob)) (delete k (o_keys ob))
      (remove_first k (o_order ob)) (filter (fun x => x <> k) (o_uniq ob))
      (o_recs ob) (o_sets ob) (o_parent ob) (o_bad ob).

(** [RemoveKey]: Source/Vault.cpp 370-426; called on a set it stops after the first part. *)
Definition remove_key_set (w : world) (k : string) (o : nat) : option world :=
  ob ← w_objs w !! o;
  match o_keys ob !! k with
  | None => Some w
  | Some _ =>
      let w1 := set_obj o (remove_key_obj k ob) w in
      if o_isset ob then Some w1 else foldM (rec_erase k) w1 (elements (o_recs ob))
  end.
Definition remove_key (ord : order) (w : world) (o : nat) (k : string) : option (world * bool) :=
  ob ← w_objs w !! o;
  match o_keys ob !! k with
  | None => Some (w, false)
  | Some _ =>
      let w1 := set_obj o (remove_key_obj k ob) w in
      if o_isset ob then Some (w1, true)
      else
        w2 ← foldM (rec_erase k) w1 (elements (o_recs ob));
        w3 ← foldM (fun w s => remove_key_set w k s) w2 (ord (elements (o_sets ob)));
        Some (w3, true)
  end.

(** ** References *)

(** [VaultRecordRef::SetRecord]: Source/VaultRecordRef.cpp 7-20. *)
Definition set_record (w : world) (f : nat) (mr : option nat) (vlt : nat) : option world :=
  rf ← w_refs w !! f;
  w1 ← match mr with Some r => add_ref w r | None => Some w end;
  w2 ← match f_rec rf with Some r => remove_ref w1 r | None => Some w1 end;
  Some (set_ref f (Ref mr (Some vlt)) w2).

(** Copy assignment: Source/VaultRecordRef.cpp 48-71. *)
Definition copy_ref (w : world) (dst src : nat) : option world :=
  if decide (dst = src) then Some w
  else
    rd ← w_refs w !! dst;
    rs ← w_refs w !! src;
    match f_rec rs with
    | Some r =>
        w1 ← match f_rec rd with Some r' => remove_ref w r' | None => Some w end;
        w2 ← add_ref w1 r;
        Some (set_ref dst (Ref (Some r) (f_vlt rs)) w2)
    | None =>
        w1 ← match f_rec rd with Some r' => remove_ref w r' | None => Some w end;
        Some (set_ref dst (Ref None None) w1)
    end.

(** Move assignment: Source/VaultRecordRef.cpp 73-97. *)
Definition move_ref (w : world) (dst src : nat) : option world :=
  if decide (dst = src) then Some w
  else
    rd ← w_refs w !! dst;
    rs ← w_refs w !! src;
    w1 ← match f_rec rd with Some r' => remove_ref w r' | None => Some w end;
    match f_rec rs with
    | Some r => Some (set_ref src (Ref None None) (set_ref dst (Ref (Some r) (f_vlt rs)) w1))
    | None => Some (set_ref dst (Ref None None) w1)
    end.

(** [Reset]: Source/VaultRecordRef.cpp 281-290; the destructor (369-374) does the same and the object ends. *)
Definition reset_ref (w : world) (f : nat) : option world :=
  rf ← w_refs w !! f;
  w1 ← match f_rec rf with Some r => remove_ref w r | None => Some w end;
  Some (set_ref f (Ref None None) w1).

(** [IsValid]: Source/VaultRecordRef.cpp 211-220. *)
Definition ref_valid (w : world) (rf : vref) : option bool :=
  match f_rec rf with
  | None => Some false
  | Some r => rc ← w_recs w !! r; Some (r_valid rc)
  end.

(** [operator==] / [operator!=]: Source/VaultRecordRef.cpp 99-135. *)
Definition ref_eq (w : world) (a b : vref) : option bool :=
  va ← ref_valid w a;
  if (va : bool) then Some (bool_decide (f_rec a = f_rec b))
  else vb ← ref_valid w b; Some (negb vb).
Definition ref_neq (w : world) (a b : vref) : option bool :=
  va ← ref_valid w a;
  if (va : bool) then Some (negb (bool_decide (f_rec a = f_rec b)))
  else vb ← ref_valid w b; Some vb.

(** [VaultRecordRef::SetData(key, data)]: Source/VaultRecordRef.hpp 9-42. The lock taken on [Vlt] (29) makes a stale
    [Vlt] undefined behaviour even when the record is invalid. *)
Definition ref_set_data (ord : order) (w : world) (f : nat) (k : string) (v : value) : option (world * opres) :=
  rf ← w_refs w !! f;
  match f_rec rf with
  | None => Some (w, bad DataRecordNotValid k (Some (vty v)) None)
  | Some r =>
      o ← f_vlt rf;
      _ ← w_objs w !! o;
      rc ← w_recs w !! r;
      if r_valid rc then set_data_to_record (dfuel w) ord w o r k v
      else Some (w, bad DataRecordNotValid k (Some (vty v)) None)
  end.

(** [VaultRecordRef::SetData(params)]: Source/VaultRecordRef.cpp 151-167. [Vlt] is locked without a null check (157). *)
Fixpoint ref_set_many_loop (ord : order) (w : world) (f : nat) (ps : list (string * value)) (res : opres)
    : option (world * opres) :=
  match ps with
  | [] => Some (w, res)
  | (k, v) :: ps' =>
      '(w', res') ← ref_set_data ord w f k v;
      if res_ok res' then ref_set_many_loop ord w' f ps' res' else Some (w', res')
  end.
Definition ref_set_many (ord : order) (w : world) (f : nat) (ps : list (string * value)) : option (world * opres) :=
  rf ← w_refs w !! f;
  o ← f_vlt rf;
  _ ← w_objs w !! o;
  ref_set_many_loop ord w f ps res0.

(** [VaultRecordRef::GetData]: Source/VaultRecordRef.hpp 44-97; the second component is the value copied to the
    caller, if any. *)
Definition ref_get_data (w : world) (rf : vref) (k : string) (t : vtype) : option (opres * option value) :=
  match f_rec rf with
  | None => Some (bad DataRecordNotValid k (Some t) None, None)
  | Some r =>
      o ← f_vlt rf;
      ob ← w_objs w !! o;
      rc ← w_recs w !! r;
      if r_valid rc then
        match o_keys ob !! k with
        | None => Some (bad WrongKey k (Some t) None, None)
        | Some (t', _) =>
            if decide (t' = t) then
              Some (okres Success k (Some t) (Some t'),
                    match r_data rc !! k with
                    | Some v => if decide (vty v = t) then Some v else None
                    | None => None
                    end)
            else Some (bad WrongType k (Some t) (Some t'), None)
        end
      else Some (bad DataRecordNotValid k (Some t) None, None)
  end.

(** ** CreateRecord *)

(** Setting the parameters in a copy of the template: Source/Vault.cpp 451-485. [inl]: rejected. *)
Fixpoint apply_params (ob : obj) (ps : list (string * value)) (data : gmap string value) (res : opres)
    : option (opres + gmap string value * opres) :=
  match ps with
  | [] => Some (inr (data, res))
  | (k, v) :: ps' =>
      match data !! k with
      | None => Some (inl (bad WrongKey k (Some (vty v)) None))
      | Some old =>
          td ← o_keys ob !! k;
          if decide (vty old = vty v)
          then apply_params ob ps' (<[k := v]> data) (OpRes (res_ok res) (res_code res) k (Some (vty v)) (Some td.1))
          else Some (inl (bad WrongType k (Some (vty v)) (Some td.1)))
      end
  end.

(** Run one key's adder / eraser on the object: [VaultRecordAdders.find(k)->second(r)]; end() is undefined. *)
Definition run_adder (data : gmap string value) (r : nat) (ob : obj) (k : string) : option (obj * bool) :=
  td ← o_keys ob !! k; ix ← o_idx ob !! k;
  let '(ix', b) := adder k td data r ix in
  Some (ob_idx (<[k := ix']> (o_idx ob)) ob, b).
Definition run_eraser (data : gmap string value) (r : nat) (ob : obj) (k : string) : option obj :=
  td ← o_keys ob !! k; ix ← o_idx ob !! k;
  Some (ob_idx (<[k := eraser k td data r ix]> (o_idx ob)) ob).

(** Adding the unique keys one by one: Source/Vault.cpp 493-504, 146-155. Returns the object, the keys added so
    far and the failing key, if any. *)
Fixpoint add_uniques (data : gmap string value) (r : nat) (ob : obj) (ks added : list string)
    : option (obj * list string * option string) :=
  match ks with
  | [] => Some (ob, added, None)
  | k :: ks' =>
      '(ob', b) ← run_adder data r ob k;
      if (b : bool) then add_uniques data r ob' ks' (added ++ [k]) else Some (ob', added, Some k)
  end.

(** Second half of CreateRecord and of a row of ReadFile: Source/Vault.cpp 488-535, 144-176.
    [inl k]: rejected because of unique key [k]. *)
Definition insert_new (w : world) (o : nat) (data : gmap string value) : option (world * (string + nat)) :=
  ob ← w_objs w !! o;
  let r := w_next w in
  '(ob1, added, failed) ← add_uniques data r ob (o_uniq ob) [];
  match failed with
  | Some k =>
      ob2 ← foldM (run_eraser data r) ob1 added;
      Some (World (w_recs w) (<[o := ob2]> (w_objs w)) (w_refs w) (S r), inl k)
  | None =>
      Some (World (<[r := Recd data true 0 ∅]> (w_recs w)) (<[o := obj_add data r ob1]> (w_objs w)) (w_refs w) (S r),
            inr r)
  end.

(** [CreateRecord]: Source/Vault.cpp 428-539. [f = None]: the overload without a reference (428-434), whose
    temporary reference dies at once. *)
Definition create_record (w : world) (o : nat) (f : option nat) (ps : list (string * value))
    : option (world * opres) :=
  ob ← w_objs w !! o;
  pr ← apply_params ob ps (o_tmpl ob) res0;
  match pr with
  | inl res => Some (w, res)
  | inr (data, res) =>
      '(w1, q) ← insert_new w o data;
      match q with
      | inl k =>
          td ← o_keys ob !! k;
          Some (w1, bad UniqueKeyValueAlredyInSet k (Some td.1) None)
      | inr r =>
          w2 ← match f with Some f => set_record w1 f (Some r) o | None => Some w1 end;
          Some (w2, okres Success (res_key res) (res_req res) None)
      end
  end.

(** ** Reading rows *)

(** [DataContainer::SetDataFromString]: Source/DataContainer.h 164-174. [Some None]: false was returned. *)
Definition set_from_string (data : gmap string value) (k : string) (s : text) : option (option (gmap string value)) :=
  match data !! k with
  | None => Some None
  | Some v => match from_string (vty v) s with
              | FsOk v' => Some (Some (<[k := v']> data))
              | FsFail => Some None
              | FsUB => UB
              end
  end.

(** The three row loops of ReadFile: Source/Vault.cpp 74-136. Result: record data, [isCorrectRecordInFile], and the
    key reported as wrong. [strict]: running out of keys while there are fields is a dereference of end() (98-113);
    with user keys the loop stops (133), with loaded keys the loop runs over the keys (79-91). *)
Fixpoint read_fields (strict : bool) (ks : list string) (fields : list text) (data : gmap string value) (ok : bool)
    : option (gmap string value * bool * option string) :=
  match fields with
  | [] => Some (data, ok, None)
  | s :: fields' =>
      match ks with
      | [] => if strict then UB else Some (data, ok, None)
      | k :: ks' =>
          r ← set_from_string data k s;
          match r with
          | None => Some (data, false, Some k)
          | Some data' => read_fields strict ks' fields' data' true
          end
      end
  end.

(** One row: Source/Vault.cpp 66-177. [line] is lineCounter after the increment. *)
Definition read_row (w : world) (o : nat) (load : bool) (keys user : list string) (line : nat) (row : list text)
    : option world :=
  ob ← w_objs w !! o;
  '(data, ok, wrong) ←
    (if load then read_fields false keys row (o_tmpl ob) false
     else match user with
          | [] => read_fields true (o_order ob) row (o_tmpl ob) false
          | _ => read_fields false user row (o_tmpl ob) false
          end);
  let w1 := match wrong with
            | Some k => set_obj o (ob_bad (o_bad ob ++ [(if load then S line else line, k)]) ob) w
            | None => w
            end in
  if (ok : bool) then
    '(w2, q) ← insert_new w1 o data;
    match q with
    | inl k => ob2 ← w_objs w2 !! o;
               Some (set_obj o (ob_bad (o_bad ob2 ++ [(line, k)]) ob2) w2)
    | inr _ => Some w2
    end
  else Some w1.

(** The row loop: Source/Vault.cpp 64-179 (rows already parsed; the parser is in CsvModel.v). *)
Fixpoint read_rows_loop (w : world) (o : nat) (load : bool) (keys user : list string) (line : nat)
    (rows : list (list text)) : option world :=
  match rows with
  | [] => Some w
  | row :: rows' => w' ← read_row w o load keys user (S line) row; read_rows_loop w' o load keys user (S line) rows'
  end.
Definition read_rows (w : world) (o : nat) (load : bool) (keys user : list string) (rows : list (list text))
    : option world :=
  ob ← w_objs w !! o;
  read_rows_loop (set_obj o (ob_bad [] ob) w) o load keys user 0 rows.

(** ** Lookups *)

(** [Vault::GetRecord]: Source/Vault.hpp 671-726; for a record set Source/VaultRecordSet.hpp 89-112, which
    redirects the reference to the parent vault in every case. *)
Definition vault_get_record (ord : order) (w : world) (o : nat) (k : string) (v : value) (f : nat)
    : option (world * opres) :=
  ob ← w_objs w !! o;
  let rq := Some (vty v) in
  match o_keys ob !! k with
  | None => Some (w, bad WrongKey k rq None)
  | Some (t, _) =>
      if decide (t = vty v) then
        ix ← o_idx ob !! k;
        match ord (snd <$> equal_range v (ix_hash ix)) with
        | r :: _ => w' ← set_record w f (Some r) o; Some (w', okres Success k rq (Some t))
        | [] => w' ← set_record w f None o; Some (w', bad WrongValue k rq (Some t))
        end
      else Some (w, bad WrongType k rq (Some t))
  end.
Definition get_record (ord : order) (w : world) (o : nat) (k : string) (v : value) (f : nat)
    : option (world * opres) :=
  ob ← w_objs w !! o;
  if o_static_set ob then
    match o_parent ob with
    | None => Some (w, bad ParentVaultNotValid k (Some (vty v)) None)
    | Some p =>
        _ ← w_objs w !! p;
        '(w', res) ← vault_get_record ord w o k v f;
        rf ← w_refs w' !! f;
        Some (set_ref f (Ref (f_rec rf) (Some p)) w', res)
    end
  else vault_get_record ord w o k v f.

(** The records listed by [GetRecords]: Source/Vault.hpp 728-791 and Source/VaultRecordSet.hpp 114-138. *)
Definition get_records (ord : order) (w : world) (o : nat) (k : string) (v : value) (amt : option nat)
    : option (opres * list nat) :=
  ob ← w_objs w !! o;
  let rq := Some (vty v) in
  if o_static_set ob && bool_decide (o_parent ob = None) then Some (bad ParentVaultNotValid k rq None, [])
  else
  match o_keys ob !! k with
  | None => Some (bad WrongKey k rq None, [])
  | Some (t, _) =>
      if decide (t = vty v) then
        ix ← o_idx ob !! k;
        match ord (snd <$> equal_range v (ix_hash ix)) with
        | [] => Some (bad WrongValue k rq (Some t), [])
        | l => Some (okres Success k rq (Some t), limit1 amt l)
        end
      else Some (bad WrongType k rq (Some t), [])
  end.

(** [GetSortedRecords]: Source/Vault.cpp 651-675 with the sorter of Source/Vault.hpp 503-517;
    Source/VaultRecordSet.cpp 327-340. *)
Definition sorted_records (w : world) (o : nat) (k : string) (rev : bool) (amt : option nat) : option (list nat) :=
  ob ← w_objs w !! o;
  if o_static_set ob && bool_decide (o_parent ob = None) then Some []
  else
  match o_keys ob !! k with
  | None => Some []
  | Some _ => ix ← o_idx ob !! k;
              Some (limit amt ((if rev then reverse else id) (snd <$> ix_tree ix)))
  end.

(** [SortBy]: Source/Vault.cpp 677-699: the sequence of records the callback is called on; [f] is the callback's
    answer at each call. The limit is tested before the call (691). *)
Fixpoint visit_while (f : nat -> nat -> bool) (amt : option nat) (i : nat) (l : list nat) : list nat :=
  match l with
  | [] => []
  | r :: l' =>
      if match amt with Some n => n <=? i | None => false end then []
      else if f i r then r :: visit_while f amt (S i) l' else [r]
  end.
Definition sort_by (w : world) (o : nat) (k : string) (rev : bool) (amt : option nat) (f : nat -> nat -> bool)
    : option (list nat) :=
  l ← sorted_records w o k rev None; Some (visit_while f amt 0 l).

(** Assign a list of results to fresh references (the returned std::vector<VaultRecordRef>). *)
Fixpoint assign_refs (w : world) (vlt : nat) (rs : list nat) (fs : list nat) : option world :=
  match rs, fs with
  | r :: rs', f :: fs' =>
      match w_refs w !! f with
      | None => assign_refs w vlt rs' fs'
      | Some _ => w' ← set_record w f (Some r) vlt; assign_refs w' vlt rs' fs'
      end
  | _, _ => Some w
  end.

(** ** Erasing by value *)

(** [Vault::EraseRecord(key, value)]: Source/Vault.hpp 937-1005; on a set Source/VaultRecordSet.hpp 252-277. *)
Definition erase_record (ord : order) (w : world) (o : nat) (k : string) (v : value) : option (world * opres) :=
  ob ← w_objs w !! o;
  let rq := Some (vty v) in
  match o_keys ob !! k with
  | None => Some (w, bad WrongKey k rq None)
  | Some (t, _) =>
      if decide (t = vty v) then
        ix ← o_idx ob !! k;
        match ord (snd <$> equal_range v (ix_hash ix)) with
        | r :: _ => w' ← detach (dfuel w) ord w o r; Some (w', okres Success k rq (Some t))
        | [] => Some (w, bad WrongValue k rq (Some t))
        end
      else Some (w, bad WrongType k rq (Some t))
  end.

(** [Vault::EraseRecords]: Source/Vault.hpp 1007-1088; on a set Source/VaultRecordSet.hpp 279-304. The equal range is
    computed once; erasing one record removes only its own hash entry, so the saved next iterator stays valid. *)
Definition erase_records (ord : order) (w : world) (o : nat) (k : string) (v : value) (amt : option nat)
    : option (world * opres) :=
  ob ← w_objs w !! o;
  let rq := Some (vty v) in
  match o_keys ob !! k with
  | None => Some (w, bad WrongKey k rq None)
  | Some (t, _) =>
      if decide (t = vty v) then
        ix ← o_idx ob !! k;
        match ord (snd <$> equal_range v (ix_hash ix)) with
        | [] => Some (w, bad WrongValue k rq (Some t))
        | l => w' ← foldM (fun w r => detach (dfuel w) ord w o r) w (limit1 amt l);
               Some (w', okres Success k rq (Some t))
        end
      else Some (w, bad WrongType k rq (Some t))
  end.

(** ** Clearing and dropping *)

(** [VaultRecordSet::Clear]: Source/VaultRecordSet.cpp 259-276. *)
Definition set_clear (ord : order) (w : world) (s : nat) : option world :=
  ob ← w_objs w !! s;
  match o_parent ob with
  | None => Some w
  | Some _ =>
      w1 ← foldM (erase_dep s) w (ord (elements (o_recs ob)));
      Some (set_obj s (ob_recs ∅ (all_clearers ob)) w1)
  end.

(** [Vault::DropVault] after the sets were reset: Source/Vault.cpp 556-600. *)
Definition drop_core (ord : order) (w : world) (o : nat) : option world :=
  ob ← w_objs w !! o;
  w1 ← foldM invalidate w (ord (elements (o_recs ob)));
  Some (set_obj o (Obj (o_static_set ob) (o_isset ob) ∅ ∅ ∅ [] [] ∅ ∅ (o_parent ob) []) w1).

(** [VaultRecordSet::Reset]: Source/VaultRecordSet.cpp 244-257 (the set's own RecordSetsSet is empty, so DropVault
    is [drop_core]). *)
Definition set_reset (ord : order) (w : world) (s : nat) : option world :=
  ob ← w_objs w !! s;
  match o_parent ob with
  | None => Some w
  | Some p =>
      _ ← w_objs w !! p;
      w1 ← set_clear ord w s;
      w2 ← drop_core ord w1 s;
      pb ← w_objs w2 !! p;
      let w3 := set_obj p (ob_sets (o_sets pb ∖ {[s]}) pb) w2 in
      sb ← w_objs w3 !! s;
      Some (set_obj s (ob_parent None sb) w3)
  end.

(** [Vault::DropVault]: Source/Vault.cpp 541-601. *)
Definition drop_vault (ord : order) (w : world) (o : nat) : option world :=
  ob ← w_objs w !! o;
  w1 ← foldM (set_reset ord) w (ord (elements (o_sets ob)));
  drop_core ord w1 o.

(** [Vault::DropData]: Source/Vault.cpp 603-624. *)
Definition drop_data (ord : order) (w : world) (o : nat) : option world :=
  ob ← w_objs w !! o;
  w1 ← foldM (set_clear ord) w (ord (elements (o_sets ob)));
  w2 ← foldM invalidate w1 (ord (elements (o_recs ob)));
  ob2 ← w_objs w2 !! o;
  Some (set_obj o (ob_recs ∅ (all_clearers ob2)) w2).

(** ** Filling record sets *)

(** Copy the keys of [src] into object [dst]: the key copiers, Source/Vault.hpp 519-522 ([AddKey(key, defaultKeyValue)],
    not unique, a duplicate key is left alone). *)
Definition copy_keys (ord : order) (w : world) (src : obj) (dst : nat) : option world :=
  foldM (fun w e => '(w', _) ← add_key_local ord w dst e.1 e.2.2 None false; Some w') w (map_to_list (o_keys src)).

(** Prepare target set [s] for results of [src] (a vault or a set) whose vault is [p]: Source/Vault.hpp 286-307,
    886-911, Source/VaultRecordSet.hpp 28-49, 216-237. *)
Definition bind_target (ord : order) (w : world) (src : nat) (p s : nat) : option world :=
  sb ← w_objs w !! s;
  w1 ← (if decide (o_parent sb = Some p) then set_clear ord w s
        else
          w1 ← set_reset ord w s;
          sb1 ← w_objs w1 !! s;
          let w2 := set_obj s (ob_parent (Some p) sb1) w1 in
          srcb ← w_objs w2 !! src;
          w3 ← copy_keys ord w2 srcb s;
          sb3 ← w_objs w3 !! s;
          Some (set_obj s (ob_uniq (o_uniq srcb) (ob_order (o_order srcb) sb3)) w3));
  pb ← w_objs w1 !! p;
  Some (set_obj p (ob_sets ({[s]} ∪ o_sets pb) pb) w1).

(** Put one record into a set and register the set with the record: Source/Vault.hpp 312-319, 918-926,
    Source/VaultRecordSet.cpp 31-39, 193-202. *)
Definition set_take (s : nat) (w : world) (r : nat) : option world :=
  sb ← w_objs w !! s;
  rc ← w_recs w !! r;
  add_dep s (set_obj s (obj_add (r_data rc) r sb) w) r.

(** The same without registration: Source/VaultRecordSet.cpp 420-429, 668-693. *)
Definition set_take_unregistered (s : nat) (w : world) (r : nat) : option world :=
  sb ← w_objs w !! s;
  rc ← w_recs w !! r;
  Some (set_obj s (obj_add (r_data rc) r sb) w).

(** The vault behind a source object: itself, or a set's parent. *)
Definition source_vault (o : nat) (ob : obj) : option nat := if o_static_set ob then o_parent ob else Some o.

(** [RequestRecords] and the public Request* methods: Source/Vault.hpp 271-322, 793-872,
    Source/VaultRecordSet.hpp 7-64, 140-196. *)
Definition request (ord : order) (w : world) (o : nat) (rt : rtype) (k : string) (b e : value) (ib ie : bool)
    (amt : option nat) (p : predicate) (s : nat) : option (world * opres) :=
  ob ← w_objs w !! o;
  match source_vault o ob with
  | None => Some (w, bad ParentVaultNotValid k (Some (vty b)) None)
  | Some pv =>
      if o_static_set ob && bool_decide (s = o) then Some (w, bad SameVaultRecordSet k None None)
      else
        _ ← w_objs w !! pv;
        w1 ← bind_target ord w o pv s;
        ob1 ← w_objs w1 !! o;
        '(res, l) ← request_set ord w1 ob1 rt k b e ib ie amt p;
        w2 ← foldM (set_take s) w1 (ord (elements (list_to_set l : gset nat)));
        Some (w2, res)
  end.

(** Complex requests: Source/VaultRequest.hpp 9-131. *)
Inductive leaf := LEqual | LGreater | LGreaterOrEqual | LLess | LLessOrEqual.
Global Instance leaf_eq_dec : EqDecision leaf.
Proof. solve_decision. Defined.
Definition leaf_rtype (l : leaf) : rtype :=
  match l with LEqual => REqual | LGreater => RGreater | LGreaterOrEqual => RGreaterOrEqual
             | LLess => RLess | LLessOrEqual => RLessOrEqual end.
Inductive req :=
  | QLeaf (l : leaf) (k : string) (v : value) (p : nat -> gmap string value -> bool)
  | QAnd (a b : req)
  | QOr (a b : req).

(** The interval shortcut applies: Source/VaultRequest.hpp 76-78 (the second alternative of line 78 tests request1 and can
    never hold together with line 77). *)
Definition shortcut (a b : req) : option (bool * string * value * value * (nat -> gmap string value -> bool)) :=
  match a, b with
  | QLeaf la ka va pa, QLeaf LLess kb vb pb =>
      if decide (ka = kb /\ (la = LGreater \/ la = LGreaterOrEqual))
      then Some (bool_decide (la = LGreaterOrEqual), ka, va, vb, fun r d => pa r d && pb r d)
      else None
  | _, _ => None
  end.

(** [VaultRequest::Request]: Source/VaultRequest.hpp 112-131 with the lambdas of 24-36, 55-68, 73-107.
    [inl]: a thrown VaultOperationResult. *)
Fixpoint eval_req (ord : order) (w : world) (ob : obj) (q : req) : option (opres + list nat) :=
  match q with
  | QLeaf l k v p =>
      '(res, rs) ← request_set ord w ob (leaf_rtype l) k v v false false None (Some p);
      Some (if res_ok res then inr rs else inl res)
  | QOr a b =>
      ra ← eval_req ord w ob a;
      match ra with
      | inl e => Some (inl e)
      | inr la => rb ← eval_req ord w ob b;
                  match rb with inl e => Some (inl e) | inr lb => Some (inr (la ++ lb)) end
      end
  | QAnd a b =>
      match shortcut a b with
      | Some (ib, k, va, vb, p) =>
          '(res, rs) ← request_set ord w ob RInterval k va vb ib false None (Some p);
          Some (if res_ok res then inr rs else inl res)
      | None =>
          ra ← eval_req ord w ob a;
          match ra with
          | inl e => Some (inl e)
          | inr la => rb ← eval_req ord w ob b;
                      match rb with
                      | inl e => Some (inl e)
                      | inr lb => Some (inr (filter (fun r => r ∈ lb) la))
                      end
          end
      end
  end.

(** [Vault::Request] / [VaultRecordSet::Request]: Source/Vault.hpp 874-935, Source/VaultRecordSet.hpp 198-250. *)
Definition complex_request (ord : order) (w : world) (o : nat) (q : req) (s : nat) : option (world * opres) :=
  ob ← w_objs w !! o;
  match source_vault o ob with
  | None => Some (w, bad ParentVaultNotValid "" None None)
  | Some pv =>
      if o_static_set ob && bool_decide (s = o) then Some (w, bad SameVaultRecordSet "" None None)
      else
        _ ← w_objs w !! pv;
        w1 ← bind_target ord w o pv s;
        ob1 ← w_objs w1 !! o;
        rs ← eval_req ord w1 ob1 q;
        match rs with
        | inl e => w2 ← set_clear ord w1 s; Some (w2, e)
        | inr l => w2 ← foldM (set_take s) w1 (ord (elements (list_to_set l : gset nat)));
                   Some (w2, okres Success "" None None)
        end
  end.

(** [VaultRecordSet::AddRecord]: Source/VaultRecordSet.cpp 179-229. *)
Definition set_add_record (w : world) (s f : nat) : option (world * opres) :=
  sb ← w_objs w !! s;
  rf ← w_refs w !! f;
  match o_parent sb with
  | None => Some (w, bad ParentVaultNotValid "" None None)
  | Some p =>
      _ ← w_objs w !! p;
      va ← ref_valid w rf;
      match f_rec rf with
      | Some r =>
          if bool_decide (f_vlt rf = Some p) && va then
            if decide (r ∈ o_recs sb) then Some (w, bad RecordAlredyInSet "" None None)
            else w' ← set_take s w r; Some (w', okres Success "" None None)
          else Some (w, bad (if (va : bool) then ParentVaultNotMatch else DataRecordNotValid) "" None None)
      | None => Some (w, bad DataRecordNotValid "" None None)
      end
  end.

(** [CheckRecord]: Source/VaultRecordSet.cpp 231-242. *)
Definition set_check (w : world) (s : nat) (rf : vref) : option bool :=
  sb ← w_objs w !! s;
  match o_parent sb, f_rec rf with
  | Some p, Some r => _ ← w_objs w !! p; Some (bool_decide (r ∈ o_recs sb))
  | _, _ => Some false
  end.

(** [VaultRecordSet::RemoveRecord(ref)]: Source/VaultRecordSet.cpp 278-286, and [Vault::EraseRecord(ref)]:
    Source/Vault.cpp 626-637. *)
Definition erase_ref (ord : order) (w : world) (o f : nat) : option (world * bool) :=
  ob ← w_objs w !! o;
  rf ← w_refs w !! f;
  if o_static_set ob && bool_decide (o_parent ob = None) then Some (w, false)
  else match f_rec rf with
       | None => Some (w, false)
       | Some r => remove_record ord w o r
       end.

(** ** Set algebra *)

(** The common checks of Join, Exclude, Intersect: Source/VaultRecordSet.cpp 391-414, 443-466, 493-516. *)
Definition algebra_check (s a : nat) (sb ab : obj) : option rcode :=
  match o_parent sb with
  | None => Some ParentVaultNotValid
  | Some p => match o_parent ab with
              | None => Some OtherParentVaultNotValid
              | Some p' => if decide (p' = p) then if decide (s = a) then Some SameVaultRecordSet else None
                           else Some ParentVaultNotMatch
              end
  end.

(** [Join]: Source/VaultRecordSet.cpp 383-433. *)
Definition set_join (ord : order) (w : world) (s a : nat) : option (world * opres) :=
  sb ← w_objs w !! s; ab ← w_objs w !! a;
  match algebra_check s a sb ab with
  | Some c => Some (w, bad c "" None None)
  | None =>
      w' ← foldM (fun w r => sb' ← w_objs w !! s;
                   if decide (r ∈ o_recs sb') then Some w else set_take_unregistered s w r)
           w (ord (elements (o_recs ab)));
      Some (w', okres Success "" None None)
  end.

(** [Exclude]: Source/VaultRecordSet.cpp 435-483; [Intersect]: 485-533. *)
Definition set_subtract (keep_common : bool) (ord : order) (w : world) (s a : nat) : option (world * opres) :=
  sb ← w_objs w !! s; ab ← w_objs w !! a;
  match algebra_check s a sb ab with
  | Some c => Some (w, bad c "" None None)
  | None =>
      w' ← foldM (fun w r =>
             if bool_decide (r ∈ o_recs ab) then
               (if keep_common then Some w else '(w', _) ← remove_record ord w s r; Some w')
             else (if keep_common then '(w', _) ← remove_record ord w s r; Some w' else Some w))
           w (ord (elements (o_recs sb)));
      Some (w', okres Success "" None None)
  end.

(** [CopySet]: Source/VaultRecordSet.cpp 13-42. *)
Definition copy_set (ord : order) (w : world) (dst src : nat) : option world :=
  sb ← w_objs w !! src;
  match o_parent sb with
  | None => Some w
  | Some p =>
      _ ← w_objs w !! p;
      db ← w_objs w !! dst;
      let w1 := set_obj dst (ob_parent (Some p) (ob_isset true db)) w in
      w2 ← copy_keys ord w1 sb dst;
      db2 ← w_objs w2 !! dst;
      let w3 := set_obj dst (ob_bad (o_bad sb) (ob_uniq (o_uniq sb) (ob_order (o_order sb) db2))) w2 in
      pb ← w_objs w3 !! p;
      let w4 := set_obj p (ob_sets ({[dst]} ∪ o_sets pb) pb) w3 in
      foldM (set_take dst) w4 (ord (elements (o_recs sb)))
  end.

(** [MoveSet]: Source/VaultRecordSet.cpp 45-75. [src]'s keys, indexes and template stay; its RecordsSet, KeysOrder,
    UniqueKeys are left empty by std::move. *)
Definition move_set (ord : order) (w : world) (dst src : nat) : option world :=
  sb ← w_objs w !! src;
  match o_parent sb with
  | None => Some w
  | Some p =>
      _ ← w_objs w !! p;
      db ← w_objs w !! dst;
      let w0 := set_obj dst (ob_isset true db) w in
      w1 ← foldM (fun w r => w' ← erase_dep src w r; add_dep dst w' r) w0 (ord (elements (o_recs sb)));
      db1 ← w_objs w1 !! dst;
      let w2 := set_obj dst (ob_parent (Some p) db1) w1 in
      w3 ← copy_keys ord w2 sb dst;
      db3 ← w_objs w3 !! dst;
      let w4 := set_obj dst (ob_recs (o_recs sb) (ob_sets (o_sets sb) (ob_bad (o_bad sb)
                  (ob_uniq (o_uniq sb) (ob_order (o_order sb) db3))))) w3 in
      let w5 := set_obj src (ob_parent None (ob_recs ∅ (ob_sets ∅ (ob_bad [] (ob_uniq [] (ob_order [] sb)))))) w4 in
      pb ← w_objs w5 !! p;
      Some (set_obj p (ob_sets ({[dst]} ∪ (o_sets pb ∖ {[src]})) pb) w5)
  end.

(** Copy construction (Source/VaultRecordSet.cpp 86-92, base [Vault()]: VaultDerivedClass starts as VaultBase), copy
    assignment (94-106), move construction (108-114), move assignment (116-129). *)
Definition copy_construct_set (ord : order) (w : world) (dst src : nat) : option world :=
  copy_set ord (set_obj dst (ob_isset false new_set) w) dst src.
Definition copy_assign_set (ord : order) (w : world) (dst src : nat) : option world :=
  if decide (dst = src) then Some w
  else w1 ← set_reset ord w dst; copy_set ord w1 dst src.
Definition move_construct_set (ord : order) (w : world) (dst src : nat) : option world :=
  move_set ord (set_obj dst (ob_isset false new_set) w) dst src.
Definition move_assign_set (ord : order) (w : world) (dst src : nat) : option world :=
  if decide (dst = src) then Some w
  else sb ← w_objs w !! src;
       match o_parent sb with None => set_reset ord w dst | Some _ => move_set ord w dst src end.

(** [Union]: Source/VaultRecordSet.cpp 581-614. *)
Definition set_union (ord : order) (w : world) (a b res : nat) : option (world * opres) :=
  ab ← w_objs w !! a; bb ← w_objs w !! b;
  if decide (a = b \/ a = res \/ b = res) then Some (w, bad SameVaultRecordSet "" None None)
  else match o_parent ab with
  | None => Some (w, bad ParentVaultNotValid "" None None)
  | Some p => match o_parent bb with
    | None => Some (w, bad OtherParentVaultNotValid "" None None)
    | Some p' => if decide (p = p') then w1 ← copy_assign_set ord w res a; set_join ord w1 res b
                 else Some (w, bad ParentVaultNotMatch "" None None)
    end
  end.

(** [Intersection]: Source/VaultRecordSet.cpp 616-700. *)
Definition set_intersection (ord : order) (w : world) (a b res : nat) : option (world * opres) :=
  ab ← w_objs w !! a; bb ← w_objs w !! b;
  if decide (a = b \/ a = res \/ b = res) then Some (w, bad SameVaultRecordSet "" None None)
  else match o_parent ab with
  | None => Some (w, bad ParentVaultNotValid "" None None)
  | Some p => match o_parent bb with
    | None => Some (w, bad OtherParentVaultNotValid "" None None)
    | Some p' =>
      if decide (p = p') then
        w1 ← set_reset ord w res;
        rb ← w_objs w1 !! res;
        let w2 := set_obj res (ob_parent (Some p) rb) w1 in
        w3 ← copy_keys ord w2 ab res;
        rb3 ← w_objs w3 !! res;
        let w4 := set_obj res (ob_uniq (o_uniq ab) (ob_order (o_order ab) rb3)) w3 in
        pb ← w_objs w4 !! p;
        let w5 := set_obj p (ob_sets ({[res]} ∪ o_sets pb) pb) w4 in
        let '(small, big) := if size (o_recs ab) <? size (o_recs bb) then (o_recs ab, o_recs bb)
                             else (o_recs bb, o_recs ab) in
        w6 ← foldM (fun w r => if decide (r ∈ big) then set_take_unregistered res w r else Some w)
             w5 (ord (elements small));
        Some (w6, okres Success "" None None)
      else Some (w, bad ParentVaultNotMatch "" None None)
    end
  end.

(** Set [operator==]: Source/VaultRecordSet.cpp 557-567; [!=]: 569-579. *)
Definition sets_equal (a b : obj) : bool :=
  bool_decide (o_parent a = o_parent b) && bool_decide (o_recs a = o_recs b).
Definition sets_differ (a b : obj) : bool :=
  negb (bool_decide (o_parent a = o_parent b)) || negb (bool_decide (o_recs a = o_recs b)).

(** ** Copying and moving vaults *)

(** Allocate a copy of one record of the other vault: Source/Vault.cpp 207-218, 244-255;
    the copy constructor of VaultRecord copies the data only (Source/VaultRecord.cpp 12-20). *)
Definition copy_one (dst : nat) (w : world) (r : nat) : option world :=
  rc ← w_recs w !! r;
  db ← w_objs w !! dst;
  let n := w_next w in
  Some (World (<[n := Recd (r_data rc) true 0 ∅]> (w_recs w)) (<[dst := obj_add (r_data rc) n db]> (w_objs w))
              (w_refs w) (S n)).

(** The body shared by copy construction and assignment: Source/Vault.cpp 195-218, 232-255. *)
Definition copy_vault_body (ord : order) (w : world) (dst src : nat) : option world :=
  sb ← w_objs w !! src;
  db ← w_objs w !! dst;
  w1 ← copy_keys ord (set_obj dst (ob_isset false db) w) sb dst;
  db1 ← w_objs w1 !! dst;
  foldM (copy_one dst) (set_obj dst (ob_uniq (o_uniq sb) (ob_order (o_order sb) db1)) w1) (ord (elements (o_recs sb))).

(** Source/Vault.cpp 189-219 and 221-259. *)
Definition copy_construct_vault (ord : order) (w : world) (dst src : nat) : option world :=
  copy_vault_body ord (set_obj dst new_vault w) dst src.
Definition copy_assign_vault (ord : order) (w : world) (dst src : nat) : option world :=
  if decide (dst = src) then Some w
  else w1 ← drop_vault ord w dst; copy_vault_body ord w1 dst src.

(** Source/Vault.cpp 261-283 and 285-314: all members are moved; the sets' ParentVault and the references' Vlt are
    not redirected. *)
Definition move_vault_body (w : world) (dst src : nat) : option world :=
  sb ← w_objs w !! src;
  Some (set_obj src new_vault (set_obj dst sb w)).
Definition move_construct_vault (w : world) (dst src : nat) : option world := move_vault_body w dst src.
Definition move_assign_vault (ord : order) (w : world) (dst src : nat) : option world :=
  if decide (dst = src) then Some w
  else w1 ← drop_vault ord w dst; move_vault_body w1 dst src.

(** ** Simple getters *)

(** Source/Vault.cpp 316-368, 639-649; Source/Vault.hpp 624-669. *)
Definition is_key_exist (ob : obj) (k : string) : bool := bool_decide (is_Some (o_tmpl ob !! k)).
Definition get_key_type (ob : obj) (k : string) : option vtype := fst <$> o_keys ob !! k.
Definition get_keys (ob : obj) : list string := o_order ob.
Definition get_unique_keys (ob : obj) : list string := o_uniq ob.
Definition vault_size (ob : obj) : nat := size (o_recs ob).
Definition get_key_value (ob : obj) (k : string) (t : vtype) : opres * option value :=
  match o_keys ob !! k with
  | None => (bad WrongKey k (Some t) None, None)
  | Some (t', _) =>
      if decide (t' = t) then
        if decide (k ∈ o_uniq ob) then (bad UniqueKey k (Some t) (Some t'), None)
        else (okres Success k (Some t) (Some t),
              match o_tmpl ob !! k with Some v => if decide (vty v = t) then Some v else None | None => None end)
      else (bad WrongType k (Some t) (Some t'), None)
  end.

(** The getters of a record set: Source/VaultRecordSet.cpp 131-136, 152-177, 288-325. Keys come from the parent vault, the key
    type and the size from the set itself. *)
Definition set_parent_valid (sb : obj) : bool := bool_decide (is_Some (o_parent sb)).
Definition set_is_key_exist (w : world) (sb : obj) (k : string) : option bool :=
  match o_parent sb with None => Some false | Some p => pb ← w_objs w !! p; Some (is_key_exist pb k) end.
Definition set_get_keys (w : world) (sb : obj) : option (list string) :=
  match o_parent sb with None => Some [] | Some p => pb ← w_objs w !! p; Some (get_keys pb) end.
Definition set_get_unique_keys (w : world) (sb : obj) : option (list string) :=
  match o_parent sb with None => Some [] | Some p => pb ← w_objs w !! p; Some (get_unique_keys pb) end.
Definition set_get_key_type (w : world) (sb : obj) (k : string) : option (option vtype) :=
  match o_parent sb with None => Some None | Some p => _ ← w_objs w !! p; Some (get_key_type sb k) end.
(** [GetKeyValue] of a set reads the set's own keys and template: Source/VaultRecordSet.hpp 66-87. *)
Definition set_get_key_value (w : world) (sb : obj) (k : string) (t : vtype) : option (opres * option value) :=
  match o_parent sb with None => Some (bad ParentVaultNotValid k (Some t) None, None) | Some p => _ ← w_objs w !! p; Some (get_key_value sb k t) end.
Definition set_size (w : world) (sb : obj) : option nat :=
  match o_parent sb with None => Some 0 | Some p => _ ← w_objs w !! p; Some (vault_size sb) end.

(** ** Programs *)

(** The operations of a client program. Objects and references are named by the program; an operation that names
    an object that is out of scope, or has the wrong class, is not a C++ program and is skipped. *)
Inductive op :=
  | ONewVault (o : nat) | ODelVault (o : nat)
  | ONewSet (s : nat) | ODelSet (s : nat)
  | ONewRef (f : nat) | ODelRef (f : nat)
  | OAddKey (o : nat) (k : string) (d : value)
  | OAddUniqueKey (o : nat) (k : string) (t : vtype)
  | OAddUniqueKeyFn (o : nat) (k : string) (t : vtype) (g : generator)
  | OUpdateKey (o : nat) (k : string) (d : value)
  | ORemoveKey (o : nat) (k : string)
  | OCreateRecord (o : nat) (f : option nat) (ps : list (string * value))
  | OReadRows (o : nat) (load : bool) (keys user : list string) (rows : list (list text))
  | OEraseRef (o : nat) (f : nat)
  | OEraseRecord (o : nat) (k : string) (v : value)
  | OEraseRecords (o : nat) (k : string) (v : value) (amt : option nat)
  | OGetRecord (o : nat) (k : string) (v : value) (f : nat)
  | OGetRecords (o : nat) (k : string) (v : value) (amt : option nat) (fs : list nat)
  | OGetSorted (o : nat) (k : string) (rev : bool) (amt : option nat) (fs : list nat)
  | OSetData (f : nat) (k : string) (v : value)
  | OSetMany (f : nat) (ps : list (string * value))
  | OCopyRef (dst src : nat) | OMoveRef (dst src : nat) | OResetRef (f : nat)
  | ORequest (o : nat) (rt : rtype) (k : string) (b e : value) (ib ie : bool) (amt : option nat) (p : predicate) (s : nat)
  | OComplex (o : nat) (q : req) (s : nat)
  | ODropData (o : nat) | ODropVault (o : nat)
  | OCopyVault (dst src : nat) | OAssignVault (dst src : nat)
  | OMoveVault (dst src : nat) | OMoveAssignVault (dst src : nat)
  | OSetAdd (s f : nat) | OSetClear (s : nat) | OSetReset (s : nat)
  | OJoin (s a : nat) | OExclude (s a : nat) | OIntersect (s a : nat)
  | OUnion (a b res : nat) | OIntersection (a b res : nat)
  | OCopySet (dst src : nat) | OAssignSet (dst src : nat) | OMoveSet (dst src : nat) | OMoveAssignSet (dst src : nat).

Inductive out := OSkip | OUnit | ORes (r : opres) | OBool (b : bool).

Definition is_vault (w : world) (o : nat) : bool :=
  match w_objs w !! o with Some ob => negb (o_static_set ob) | None => false end.
Definition is_set (w : world) (o : nat) : bool :=
  match w_objs w !! o with Some ob => o_static_set ob | None => false end.
Definition is_obj (w : world) (o : nat) : bool := bool_decide (is_Some (w_objs w !! o)).
Definition is_ref (w : world) (f : nat) : bool := bool_decide (is_Some (w_refs w !! f)).

Definition unit_out (m : option world) : option (world * out) := w ← m; Some (w, OUnit).
Definition res_out (m : option (world * opres)) : option (world * out) := '(w, r) ← m; Some (w, ORes r).
Definition bool_out (m : option (world * bool)) : option (world * out) := '(w, b) ← m; Some (w, OBool b).
Definition guard_op (b : bool) (w : world) (m : option (world * out)) : option (world * out) :=
  if b then m else Some (w, OSkip).

(** Public erasure by value: vaults erase, sets remove (with the parent check of Source/VaultRecordSet.hpp 263-274). *)
Definition set_parent_guard (w : world) (o : nat) (k : string) (v : value) (m : option (world * opres))
    : option (world * opres) :=
  ob ← w_objs w !! o;
  if o_static_set ob && bool_decide (o_parent ob = None) then Some (w, bad ParentVaultNotValid k (Some (vty v)) None) else m.

Definition step (ord : order) (w : world) (p : op) : option (world * out) :=
  match p with
  | ONewVault o => guard_op (negb (is_obj w o)) w (Some (set_obj o new_vault w, OUnit))
  | ODelVault o => guard_op (is_vault w o) w (unit_out (w' ← drop_vault ord w o; Some (del_obj o w')))
  | ONewSet s => guard_op (negb (is_obj w s)) w (Some (set_obj s new_set w, OUnit))
  | ODelSet s => guard_op (is_set w s) w
      (unit_out (w1 ← set_reset ord w s; w2 ← drop_core ord w1 s; Some (del_obj s w2)))
  | ONewRef f => guard_op (negb (is_ref w f)) w (Some (set_ref f (Ref None None) w, OUnit))
  | ODelRef f => guard_op (is_ref w f) w (unit_out (w' ← reset_ref w f; Some (del_ref f w')))
  | OAddKey o k d => guard_op (is_vault w o) w (res_out (add_key ord w o k d None false))
  | OAddUniqueKey o k t => guard_op (is_vault w o) w
      (res_out (add_key ord w o k (vzero t) (Some (fun _ _ _ => vzero t)) true))
  | OAddUniqueKeyFn o k t g => guard_op (is_vault w o) w (res_out (add_key ord w o k (vzero t) (Some g) false))
  | OUpdateKey o k d => guard_op (is_vault w o) w (res_out (update_key w o k d))
  | ORemoveKey o k => guard_op (is_vault w o) w (bool_out (remove_key ord w o k))
  | OCreateRecord o f ps => guard_op (is_vault w o && match f with Some f => is_ref w f | None => true end) w
      (res_out (create_record w o f ps))
  | OReadRows o load keys user rows => guard_op (is_vault w o) w (unit_out (read_rows w o load keys user rows))
  | OEraseRef o f => guard_op (is_obj w o && is_ref w f) w (bool_out (erase_ref ord w o f))
  | OEraseRecord o k v => guard_op (is_obj w o) w (res_out (set_parent_guard w o k v (erase_record ord w o k v)))
  | OEraseRecords o k v amt => guard_op (is_obj w o) w
      (res_out (set_parent_guard w o k v (erase_records ord w o k v amt)))
  | OGetRecord o k v f => guard_op (is_obj w o && is_ref w f) w (res_out (get_record ord w o k v f))
  | OGetRecords o k v amt fs => guard_op (is_obj w o) w
      (res_out (ob ← w_objs w !! o;
                '(res, l) ← get_records ord w o k v amt;
                w' ← assign_refs w (default o (source_vault o ob)) l fs;
                Some (w', res)))
  | OGetSorted o k rev amt fs => guard_op (is_obj w o) w
      (unit_out (l ← sorted_records w o k rev amt; assign_refs w o l fs))
  | OSetData f k v => guard_op (is_ref w f) w (res_out (ref_set_data ord w f k v))
  | OSetMany f ps => guard_op (is_ref w f) w (res_out (ref_set_many ord w f ps))
  | OCopyRef dst src => guard_op (is_ref w dst && is_ref w src) w (unit_out (copy_ref w dst src))
  | OMoveRef dst src => guard_op (is_ref w dst && is_ref w src) w (unit_out (move_ref w dst src))
  | OResetRef f => guard_op (is_ref w f) w (unit_out (reset_ref w f))
  | ORequest o rt k b e ib ie amt p s => guard_op (is_obj w o && is_set w s) w
      (res_out (request ord w o rt k b (vcast (vty b) e) ib ie amt p s))
  | OComplex o q s => guard_op (is_obj w o && is_set w s) w (res_out (complex_request ord w o q s))
  | ODropData o => guard_op (is_vault w o) w (unit_out (drop_data ord w o))
  | ODropVault o => guard_op (is_vault w o) w (unit_out (drop_vault ord w o))
  | OCopyVault dst src => guard_op (negb (is_obj w dst) && is_vault w src) w (unit_out (copy_construct_vault ord w dst src))
  | OAssignVault dst src => guard_op (is_vault w dst && is_vault w src) w (unit_out (copy_assign_vault ord w dst src))
  | OMoveVault dst src => guard_op (negb (is_obj w dst) && is_vault w src) w (unit_out (move_construct_vault w dst src))
  | OMoveAssignVault dst src => guard_op (is_vault w dst && is_vault w src) w (unit_out (move_assign_vault ord w dst src))
  | OSetAdd s f => guard_op (is_set w s && is_ref w f) w (res_out (set_add_record w s f))
  | OSetClear s => guard_op (is_set w s) w (unit_out (set_clear ord w s))
  | OSetReset s => guard_op (is_set w s) w (unit_out (set_reset ord w s))
  | OJoin s a => guard_op (is_set w s && is_set w a) w (res_out (set_join ord w s a))
  | OExclude s a => guard_op (is_set w s && is_set w a) w (res_out (set_subtract false ord w s a))
  | OIntersect s a => guard_op (is_set w s && is_set w a) w (res_out (set_subtract true ord w s a))
  | OUnion a b res => guard_op (is_set w a && is_set w b && is_set w res) w (res_out (set_union ord w a b res))
  | OIntersection a b res => guard_op (is_set w a && is_set w b && is_set w res) w (res_out (set_intersection ord w a b res))
  | OCopySet dst src => guard_op (negb (is_obj w dst) && is_set w src) w (unit_out (copy_construct_set ord w dst src))
  | OAssignSet dst src => guard_op (is_set w dst && is_set w src) w (unit_out (copy_assign_set ord w dst src))
  | OMoveSet dst src => guard_op (negb (is_obj w dst) && is_set w src) w (unit_out (move_construct_set ord w dst src))
  | OMoveAssignSet dst src => guard_op (is_set w dst && is_set w src) w (unit_out (move_assign_set ord w dst src))
  end.

(** A program: operations, each with the iteration order its unordered containers happen to have. *)
Fixpoint run (w : world) (ps : list (order * op)) : option world :=
  match ps with
  | [] => Some w
  | (ord, p) :: ps' => '(w', _) ← step ord w p; run w' ps'
  end.
