(** Model of Vault::SaveToFile and Vault::ReadFile on the content of files. *)
From Verif Require Export CsvModel VaultModel.
From Coq Require Import Ascii.
Open Scope nat_scope.

(** [DataContainer::GetDataAsString] into an empty string: Source/DataContainer.h 226-234. *)
Definition data_text (data : gmap string value) (k : string) : text :=
  match data !! k with Some v => to_string v | None => [] end.

(** The fields of one record: Source/Vault.cpp 994-1005, 1014-1025. [counter] is a std::size_t that is compared with 1 before it is
    decremented; the loop ends before it could wrap around. *)
Fixpoint save_fields (ks : list string) (counter : Z) (sep : text) (data : gmap string value) : text :=
  match ks with
  | [] => []
  | k :: ks' => format_csv (data_text data k) ++ (if decide (counter = 1%Z) then [] else sep ++ save_fields ks' (counter - 1) sep data)
  end.
(** The names of the keys: Source/Vault.cpp 970-975, 979-984. The first key is read before it is checked that there is one; the names
    are written as they are. *)
Definition save_names (names : list string) (sep : text) (nonempty : bool) : option text :=
  match names with
  | [] => UB
  | k :: ks => Some (tx k ++ concat ((fun k' => sep ++ tx k') <$> ks) ++ (if nonempty then [CR; LF] else []))
  end.
(** [SaveToFile]: Source/Vault.cpp 946-1032, when the file can be opened. The result is what is in the file afterwards. *)
Definition save_file (ord : order) (w : world) (o : nat) (keys : list string) (sep : text) (save_key : bool) : option text :=
  ob ← w_objs w !! o;
  names ← (if save_key then save_names (match keys with [] => o_order ob | _ => keys end) sep (negb (bool_decide (o_order ob = []))) else Some []);
  body ← foldM (fun acc r =>
           rc ← w_recs w !! r;
           Some (acc ++ save_fields (match keys with [] => o_order ob | _ => keys end)
                          (match keys with [] => Z.of_nat (size (r_data rc)) | _ => Z.of_nat (length keys) end) sep (r_data rc) ++ [CR; LF]))
         [] (ord (elements (o_recs ob)));
  Some (names ++ body).

(** [ReadFile]: Source/Vault.cpp 40-180 and the two public forms 1034-1046. [content = None]: the file cannot be opened (53). [handler]
    is the function of the second form, applied to the keys and the fields of every row (76-77; it is only called if keys are loaded).
    The rows are those the parser delivers (62, 65). *)
Definition read_file (w : world) (o : nat) (sep : ascii) (load : bool) (user : list string)
    (handler : list string -> list text -> list text) (content : option text) : option (world * bool) :=
  match content with
  | None => ob ← w_objs w !! o; Some (set_obj o (ob_bad [] ob) w, false)
  | Some f =>
      let rows := parse_file sep f in
      let keys := if load then match rows with [] => [] | row :: _ => st <$> row end else [] in
      let rows := if load then handler keys <$> tail rows else rows in
      w' ← read_rows w o load keys user rows; Some (w', true)
  end.
(** [GetErrorsInLastReadedFile]: Source/Vault.cpp 1048-1053. *)
Definition get_errors (ob : obj) : list (nat * string) := o_bad ob.
