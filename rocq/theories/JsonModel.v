(** Model of the output of records and vaults as JSON and as lists of texts. *)
From Coq Require Import Ascii.
From Verif Require Export CsvModel VaultModel.
Open Scope nat_scope.

(** [DataSaver::Str]: Source/DataSaver.cpp 87-90. [None]: a DataSaver without data; its ToStringFunc is a null pointer (DataSaver.h 36). *)
Definition saver_text (v : option value) : option text := match v with Some v => Some (to_string v) | None => UB end.
(** [IsQuotedJsonType]: Source/Strings/ToJson.cpp 5-21. *)
Definition quoted_json (t : vtype) : bool := match t with TInt _ | TBool => false | _ => true end.
(** [ToJson(DataSaver)]: Source/Strings/ToJson.cpp 23-34. *)
Definition json_value (v : option value) : option text :=
  s ← saver_text v; t ← vty <$> v; Some (if quoted_json t then [quote] ++ s ++ [quote] else s).
(** The fields of a record: Source/Vault.cpp 735-750 (there [ind] is the tab twice) and Source/VaultRecordRef.cpp 309-323 ([ind] is the
    tab). [counter] is keyCounter, [total] the number of keys. *)
Fixpoint json_fields (fmt : bool) (ind : text) (total : nat) (ks : list string) (counter : nat) (data : gmap string value) : option text :=
  match ks with
  | [] => Some []
  | k :: ks' =>
      v ← json_value (data !! k);
      rest ← json_fields fmt ind total ks' (S counter) data;
      Some ((if fmt then [LF] ++ ind else []) ++ [quote] ++ tx k ++ tx """:" ++ (if fmt then tx " " else []) ++ v ++
            (if decide (S counter = total) then [] else [comma]) ++ rest)
  end.
(** std::string tab(tabSize, ' '). *)
Definition tab_of (n : nat) : text := repeat " "%char n.
(** [Vault::ToJson]: Source/Vault.cpp 701-768. [addr r]: what the stream prints for the address of record [r]. *)
Fixpoint json_records (w : world) (ob : obj) (fmt : bool) (tab : nat) (use_template : bool) (template : text) (addr : nat -> text)
    (arr : bool) (rs : list nat) (counter : nat) : option text :=
  match rs with
  | [] => Some []
  | r :: rs' =>
      rc ← w_recs w !! r;
      fields ← json_fields fmt (tab_of tab ++ tab_of tab) (length (o_order ob)) (o_order ob) 0 (r_data rc);
      rest ← json_records w ob fmt tab use_template template addr arr rs' (S counter);
      Some ((if fmt then [LF] ++ tab_of tab else []) ++
            (if arr then [] else [quote] ++ (if use_template then template ++ dec (Z.of_nat counter) else addr r) ++ tx """:") ++
            (if fmt && negb arr then tx " {" else tx "{") ++
            fields ++ (if fmt then [LF] ++ tab_of tab else []) ++ tx "}" ++
            (if decide (S counter = size (o_recs ob)) then [] else [comma]) ++ rest)
  end.
Definition vault_json (ord : order) (w : world) (o : nat) (fmt : bool) (tab : nat) (use_template : bool) (template : text)
    (addr : nat -> text) (arr : bool) : option text :=
  ob ← w_objs w !! o;
  body ← json_records w ob fmt tab use_template template addr arr (ord (elements (o_recs ob))) 0;
  Some ((if arr then tx "[" else tx "{") ++ body ++ (if fmt then [LF] else []) ++ (if arr then tx "]" else tx "}")).
(** [VaultRecordSet::ToJson]: Source/VaultRecordSet.cpp 342-354. *)
Definition set_json (ord : order) (w : world) (o : nat) (fmt : bool) (tab : nat) (use_template : bool) (template : text)
    (addr : nat -> text) (arr : bool) : option text :=
  ob ← w_objs w !! o;
  match o_parent ob with
  | None => Some (tx "{}")
  | Some _ => vault_json ord w o fmt tab use_template template addr arr
  end.
(** [VaultRecordRef::ToJson]: Source/VaultRecordRef.cpp 292-335. The vault is only used if the record is valid. *)
Definition ref_json (w : world) (f : nat) (fmt : bool) (tab : nat) : option text :=
  rf ← w_refs w !! f;
  body ← match f_rec rf with
         | None => Some []
         | Some r => rc ← w_recs w !! r;
                     if r_valid rc then
                       o ← f_vlt rf; ob ← w_objs w !! o;
                       json_fields fmt (tab_of tab) (length (o_order ob)) (o_order ob) 0 (r_data rc)
                     else Some []
         end;
  Some (tx "{" ++ body ++ (if fmt then [LF] else []) ++ tx "}").

(** The keys and texts of one record. *)
Definition record_strings (ob : obj) (data : gmap string value) : option (list (string * text)) :=
  mapM (fun k => s ← saver_text (data !! k); Some (k, s)) (o_order ob).
(** [Vault::ToStrings]: Source/Vault.cpp 770-795. *)
Definition vault_strings (ord : order) (w : world) (o : nat) : option (list (list (string * text))) :=
  ob ← w_objs w !! o;
  mapM (fun r => rc ← w_recs w !! r; record_strings ob (r_data rc)) (ord (elements (o_recs ob))).
(** [VaultRecordSet::ToStrings]: Source/VaultRecordSet.cpp 356-367. *)
Definition set_strings (ord : order) (w : world) (o : nat) : option (list (list (string * text))) :=
  ob ← w_objs w !! o;
  match o_parent ob with None => Some [] | Some _ => vault_strings ord w o end.
(** [VaultRecordRef::ToStrings]: Source/VaultRecordRef.cpp 337-367. *)
Definition ref_strings (w : world) (f : nat) : option (list (string * text)) :=
  rf ← w_refs w !! f;
  match f_rec rf with
  | None => Some []
  | Some r => rc ← w_recs w !! r;
              if r_valid rc then o ← f_vlt rf; ob ← w_objs w !! o; record_strings ob (r_data rc) else Some []
  end.
