(** VaultOperationResult: Source/VaultOperationResult.cpp. *)
From Coq Require Import String.
From Verif Require Export VaultModel.
Open Scope nat_scope.
Open Scope string_scope.

(** ResultCodeString: Source/VaultOperationResult.cpp 21-77. *)
Definition code_text (c : rcode) : string :=
  match c with
  | OtherParentVaultNotValid => "The parent Vault of another VaultRecordSet is not valid."
  | SameVaultRecordSet => "The operation is performed on the same VaultRecordSet object."
  | TryToAddUniqueKeyInNonEmptyVaultWithoutLambda => "You can not add unique key without lambda in non-empty vault"
  | DuplicateKey => "This key is alredy in vault"
  | UniqueKey => "The key is unique and you can not update it default value."
  | RecordAlredyInSet => "The record is already in VaultRecordSet."
  | ParentVaultNotMatch => "The parent Vaults don't match."
  | ParentVaultNotValid => "Parent Vault is not valid."
  | DataRecordNotValid => "The record referenced by VaultRecordRef is not valid."
  | WrongKey => "The requested key was not found."
  | WrongType => "The mismatch between the types of the requested key and the saved one."
  | Idle => "Idle state. The operation was not performed."
  | WrongValue => "A record with this key value was not found."
  | UniqueKeyValueAlredyInSet => "Unique key value alredy in set."
  | Success => "The operation was completed successfully."
  end.
(** The numeric value of the enumerators, by which C++ compares them: Source/VaultOperationResult.h 21-38. *)
Definition code_number (c : rcode) : nat :=
  match c with
  | OtherParentVaultNotValid => 0 | SameVaultRecordSet => 1 | TryToAddUniqueKeyInNonEmptyVaultWithoutLambda => 2 | DuplicateKey => 3 | UniqueKey => 4 | RecordAlredyInSet => 5
  | ParentVaultNotMatch => 6 | ParentVaultNotValid => 7 | DataRecordNotValid => 8 | WrongKey => 9 | WrongType => 10 | Idle => 11 | WrongValue => 12 | UniqueKeyValueAlredyInSet => 13 | Success => 14
  end.
(** operator==: Source/VaultOperationResult.cpp 86-93. *)
Definition res_eq (a b : opres) : bool :=
  Bool.eqb (res_ok a) (res_ok b) && (code_number (res_code a) =? code_number (res_code b))%nat && String.eqb (res_key a) (res_key b) &&
  bool_decide (res_req a = res_req b) && bool_decide (res_saved a = res_saved b).
(** Print: Source/VaultOperationResult.cpp 79-84; [nm] is type_info::name. *)
Definition res_print (nm : option vtype -> string) (r : opres) : string :=
  (if res_ok r then "Success! " else "Failed! ") ++ code_text (res_code r) ++ " Key: " ++ res_key r ++ " Saved type: " ++ nm (res_saved r) ++ " Requested type: " ++ nm (res_req r) ++ String (Ascii.ascii_of_nat 10) "".

(** Vocabulary of C54. The key, the type and the object an operation asks about. *)
Definition asks (p : op) : option (nat * string * vtype) :=
  match p with
  | OUpdateKey o k v | OEraseRecord o k v | OEraseRecords o k v _ | OGetRecord o k v _ | OGetRecords o k v _ _ => Some (o, k, vty v)
  | ORequest o _ k v _ _ _ _ _ s => if decide (s = o) then None else Some (o, k, vty v)
  | _ => None
  end.
(** Every vault keeps its records, its keys with their order, types, defaults and uniqueness, and every record its values and validity. *)
Definition vault_data_kept (w w' : world) : Prop :=
  (forall r, (exists rc, w_recs w' !! r = Some rc /\ r_valid rc = true) <-> (exists rc, w_recs w !! r = Some rc /\ r_valid rc = true)) /\
  (forall r k, (rc ← w_recs w' !! r; if r_valid rc then r_data rc !! k else None) = (rc ← w_recs w !! r; if r_valid rc then r_data rc !! k else None)) /\
  (forall o ob, w_objs w !! o = Some ob -> o_static_set ob = false -> exists ob', w_objs w' !! o = Some ob' /\ o_static_set ob' = false /\
     o_recs ob' = o_recs ob /\ o_keys ob' = o_keys ob /\ o_order ob' = o_order ob /\ o_uniq ob' = o_uniq ob /\ o_tmpl ob' = o_tmpl ob).
