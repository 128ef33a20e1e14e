(** Model of Source/Map.h: the hash index ([UnorderedMap]) and the tree index ([Map]) of one key,
    each either a multi container or a unique container. Entries are (key value, record address). *)
From Verif Require Export Values.

Definition entries := list (value * nat).

(** One key's pair of containers ([VaultHashMapStructure] / [VaultMapStructure] entry):
    Source/Vault.hpp 347-361; [ix_multi] is [IsMultiMap], Source/Map.h 302-305. *)
Record idx := Idx { ix_multi : bool; ix_hash : entries; ix_tree : entries }.

(** [EqualRange]: Source/Map.h 341-353. For the hash container the order within the range is
    unspecified; users of this function apply the operation's order oracle. *)
Definition equal_range (v : value) (l : entries) : entries := filter (fun e => e.1 = v) l.

(** Is the key value present ([EqualRange(v).first != End()], [Find(v) != End()]):
    Source/Map.h 341-374. *)
Definition has_value (v : value) (l : entries) : bool := bool_decide (Exists (fun e => e.1 = v) l).

(** [UnorderedMap::Emplace]: Source/Map.h 320-332; the boolean is false iff a unique container already
    holds the key value. *)
Definition hash_emplace (multi : bool) (v : value) (r : nat) (l : entries) : entries * bool :=
  if multi then (l ++ [(v, r)], true)
  else if has_value v l then (l, false) else (l ++ [(v, r)], true).

(** Insertion of std::multimap at the upper bound of the equal range (C++11 23.4.5 / [associative.reqmts]). *)
Fixpoint tree_insert (v : value) (r : nat) (l : entries) : entries :=
  match l with
  | [] => [(v, r)]
  | (v', r') :: l' => if vltb v v' then (v, r) :: l else (v', r') :: tree_insert v r l'
  end.

(** [Map::Emplace]: Source/Map.h 320-332. *)
Definition tree_emplace (multi : bool) (v : value) (r : nat) (l : entries) : entries :=
  if multi then tree_insert v r l
  else if has_value v l then l else tree_insert v r l.

(** [Erase(const KeyType&)]: Source/Map.h 383-392, removes every entry with this key value. *)
Definition erase_value (v : value) (l : entries) : entries := filter (fun e => e.1 <> v) l.

(** Erase one entry through its iterator: Source/Map.h 401-413. *)
Fixpoint erase_entry (v : value) (r : nat) (l : entries) : entries :=
  match l with
  | [] => []
  | e :: l' => if decide (e = (v, r)) then l' else e :: erase_entry v r l'
  end.

(** [LowerBound] / [UpperBound] as positions: Source/Map.h 464-484. *)
Fixpoint lower_bound (v : value) (l : entries) : nat :=
  match l with
  | [] => O
  | e :: l' => if vltb e.1 v then S (lower_bound v l') else O
  end.
Fixpoint upper_bound (v : value) (l : entries) : nat :=
  match l with
  | [] => O
  | e :: l' => if vltb v e.1 then O else S (upper_bound v l')
  end.

(** The elements visited by [for (it = start; it != end; ++it)]. If the end position lies before the
    start position the loop runs past End(): undefined behaviour, [None]. *)
Definition iterate (s e : nat) (l : entries) : option entries :=
  if decide (s <= e)%nat then Some (take (e - s) (drop s l)) else None.
