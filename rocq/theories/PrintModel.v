(** Model of printing vaults, sets, records and lists of references as text (what is written to std::cout). *)
From Coq Require Import Ascii.
From Verif Require Export JsonModel.
Open Scope nat_scope.

(** [DataContainer::GetDataAsString]: Source/DataContainer.h 226-234: what is left in [str], which held [s]. *)
Definition as_string (data : gmap string value) (k : string) (s : text) : text := match data !! k with Some v => to_string v | None => s end.
(** [VaultRecordRef::GetDataAsString]: Source/VaultRecordRef.cpp 169-209: what is left in [str], which held [s]. *)
Definition ref_as_string (w : world) (rf : vref) (k : string) (s : text) : option text :=
  match f_rec rf with
  | None => Some s
  | Some r =>
      o ← f_vlt rf;
      ob ← w_objs w !! o;
      rc ← w_recs w !! r;
      if r_valid rc then match o_keys ob !! k with None => Some s | Some _ => Some (as_string (r_data rc) k s) end else Some s
  end.
(** [record->GetDataAsString] on a record of the vault: Source/Vault.cpp 851. *)
Definition record_as_string (w : world) (r : nat) (k : string) (s : text) : option text :=
  rc ← w_recs w !! r; Some (as_string (r_data rc) k s).

Section Table.
Context {A : Type} (get : A -> string -> text -> option text).
(** The widest text of a column: Source/Vault.cpp 849-853, Source/Strings/PrintAsTable.h 52-56. The variable dataString ([s]) is declared
    outside of the loops (844, 48) and keeps its text when GetDataAsString finds nothing. *)
Fixpoint column_width (k : string) (rs : list A) (m : nat) (s : text) : option (nat * text) :=
  match rs with
  | [] => Some (m, s)
  | r :: rs' => s' ← get r k s; column_width k rs' (if m <? length s' then length s' else m) s'
  end.
(** Source/Vault.cpp 834-855, Source/Strings/PrintAsTable.h 41-57: one width for each key, starting from the length of the key. *)
Fixpoint column_widths (ks : list string) (rs : list A) (s : text) : option (list nat * text) :=
  match ks with
  | [] => Some ([], s)
  | k :: ks' =>
      '(m, s1) ← column_width k rs (length (tx k)) s;
      '(ms, s2) ← column_widths ks' rs s1;
      Some (m :: ms, s2)
  end.
(** Splitters: Source/Vault.cpp 858-867, 882-891, 921-930 and 933-940; Source/Strings/PrintAsTable.h 60-67, 79-86, 112-119, 122-129. *)
Definition splitter (corner dash : ascii) (ms : list nat) : text := corner :: concat ((fun m => dash :: repeat dash m ++ [dash; corner]) <$> ms).
(** One cell: Source/Vault.cpp 874-876, 907-909; Source/Strings/PrintAsTable.h 73-75, 97-99. *)
Definition cell (t : text) (m : nat) : text := tx " " ++ t ++ repeat " "%char (m - length t) ++ tx " |".
(** The header: Source/Vault.cpp 870-879, Source/Strings/PrintAsTable.h 70-76. *)
Definition header (ks : list string) (ms : list nat) : text := tx "|" ++ concat (zip_with (fun k m => cell (tx k) m) ks ms).
(** The cells of one row: Source/Vault.cpp 904-911, Source/Strings/PrintAsTable.h 94-100. *)
Fixpoint row_cells (r : A) (ks : list string) (ms : list nat) (s : text) : option (text * text) :=
  match ks, ms with
  | k :: ks', m :: ms' =>
      s1 ← get r k s;
      '(rest, s2) ← row_cells r ks' ms' s1;
      Some (cell s1 m ++ rest, s2)
  | _, _ => Some ([], s)
  end.
(** The rows: Source/Vault.cpp 900-917, Source/Strings/PrintAsTable.h 91-109. [ident]: the text of the unique id, if it is printed. *)
Fixpoint table_rows (ident : option (A -> text)) (rs : list A) (ks : list string) (ms : list nat) (s : text) : option text :=
  match rs with
  | [] => Some []
  | r :: rs' =>
      '(cells, s1) ← row_cells r ks ms s;
      rest ← table_rows ident rs' ks ms s1;
      Some (tx "|" ++ cells ++ match ident with Some f => tx " " ++ f r | None => [] end ++ [LF] ++ rest)
  end.
End Table.
(** The line below the table: Source/Vault.cpp 919-941, Source/Strings/PrintAsTable.h 111-130. *)
Definition closing (amt : option nat) (total : nat) (ms : list nat) : text :=
  if match amt with None => true | Some n => total <=? n end then splitter "+" "-" ms else splitter "$" "~" ms.
Definition counted (total : nat) : text := tx " (" ++ dec (Z.of_nat total) ++ tx " records)" ++ [LF].

(** [Vault::Print]: Source/Vault.cpp 797-944. [amt = None] is the default amount -1. front() of an empty list (897) is undefined. *)
Definition vault_print (ord : order) (w : world) (o : nat) (ids : bool) (amt : option nat) (primary : string) (rev : bool) (keys : list string)
    (addr : nat -> text) : option text :=
  ob ← w_objs w !! o;
  let total := size (o_recs ob) in
  if decide (o_idx ob = ∅) then
    Some ((if o_isset ob then tx "VaultRecordSet does not contain keys!" else tx "Vault does not contain keys!") ++ [LF] ++ counted total)
  else
    let ks := match keys with [] => o_order ob | _ => keys end in
    '(ms, s) ← column_widths (record_as_string w) ks (ord (elements (o_recs ob))) [];
    key ← if decide (primary = ""%string) then head ks else Some primary;
    rs ← sort_by w o key rev amt (fun _ _ => true);
    rows ← table_rows (fun r => ref_as_string w (Ref (Some r) (Some o))) (if ids then Some addr else None) rs ks ms s;
    Some (splitter "+" "-" ms ++ [LF] ++ header ks ms ++ [LF] ++ splitter "+" "-" ms ++ [LF] ++ rows ++ closing amt total ms ++ [LF] ++ counted total).
(** [VaultRecordSet::Print]: Source/VaultRecordSet.cpp 369-380. *)
Definition set_print (ord : order) (w : world) (o : nat) (ids : bool) (amt : option nat) (primary : string) (rev : bool) (keys : list string)
    (addr : nat -> text) : option text :=
  ob ← w_objs w !! o;
  match o_parent ob with
  | None => Some (tx "The parent Vault is not valid!" ++ [LF])
  | Some _ => vault_print ord w o ids amt primary rev keys addr
  end.

(** [VaultRecordRef::GetKeys]: Source/VaultRecordRef.cpp 232-247. *)
Definition ref_keys (w : world) (rf : vref) : option (list string) :=
  match f_rec rf with
  | None => Some []
  | Some r => rc ← w_recs w !! r; if r_valid rc then o ← f_vlt rf; ob ← w_objs w !! o; Some (o_order ob) else Some []
  end.
(** [VaultRecordRef::GetRecordUniqueId]: Source/VaultRecordRef.cpp 137-149, [IsValid] 211-220. *)
Definition ref_ident (w : world) (addr : nat -> text) (rf : vref) : text :=
  match f_rec rf with
  | Some r => match w_recs w !! r with Some rc => if r_valid rc then addr r else tx "null" | None => tx "null" end
  | None => tx "null"
  end.
(** [PrintAsTable]: Source/Strings/PrintAsTable.h 27-136. The loop over the rows stops when the number of rows reaches the amount (107);
    an amount of 0 is never reached. *)
Definition print_as_table (w : world) (rfs : list vref) (ids : bool) (amt : option nat) (keys : list string) (addr : nat -> text) : option text :=
  match rfs with
  | [] => Some (tx "The keys could not be retrieved because the container is empty" ++ [LF] ++ counted 0)
  | rf :: _ =>
      ks ← match keys with [] => ref_keys w rf | _ => Some keys end;
      '(ms, s) ← column_widths (ref_as_string w) ks rfs [];
      rows ← table_rows (ref_as_string w) (if ids then Some (ref_ident w addr) else None)
               (match amt with None | Some 0 => rfs | Some n => take n rfs end) ks ms s;
      Some (splitter "+" "-" ms ++ [LF] ++ header ks ms ++ [LF] ++ splitter "+" "-" ms ++ [LF] ++ rows ++ closing amt (length rfs) ms ++ [LF] ++ counted (length rfs))
  end.

(** [VaultRecordRef::PrintRecord]: Source/VaultRecordRef.cpp 249-279. [ko]: the order in which the unordered map VaultHashMapStructure lists
    its keys. [Str] of a DataSaver that was not filled is undefined (see [saver_text]). *)
Definition print_record (ko : list string -> list string) (w : world) (rf : vref) (addr : nat -> text) : option text :=
  let sorry := tx "VaultRecordRef not valid!" ++ [LF] in
  match f_rec rf with
  | None => Some sorry
  | Some r =>
      rc ← w_recs w !! r;
      if r_valid rc then
        o ← f_vlt rf; ob ← w_objs w !! o;
        ls ← mapM (fun k => s ← saver_text (r_data rc !! k); Some (["009"%char] ++ tx k ++ tx " = " ++ s ++ [LF])) (ko (elements (dom (o_idx ob))));
        Some (tx "Vault record " ++ addr r ++ tx ":" ++ [LF] ++ concat ls)
      else Some sorry
  end.
