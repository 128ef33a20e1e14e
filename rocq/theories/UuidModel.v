(** Model of Source/Uuid/Uuid.cpp. *)
From Verif Require Export StringsModel.
From Coq Require Import Ascii.
Open Scope Z_scope.

(** hex_chars[d]: Source/Uuid/Uuid.cpp 7. *)
Definition hex_char (d : Z) : ascii := nth (Z.to_nat d) (tx "0123456789abcdef") "000"%char.
(** The loop of [ToHex], for i = n - 1, ..., 0: Source/Uuid/Uuid.cpp 10-15. *)
Fixpoint to_hex_loop (n : nat) (digit : Z) (res : text) : text :=
  match n with
  | O => res
  | S i => to_hex_loop i (Z.shiftr digit 4) (<[i := hex_char (Z.land digit 15)]> res)
  end.
(** [ToHex]: Source/Uuid/Uuid.cpp 5-18. [digit] is a std::uint64_t. *)
Definition to_hex (digit : Z) : text := to_hex_loop 16 digit (repeat "0"%char 16).
(** std::string::substr for positions inside the string. *)
Definition substr (s : text) (pos n : nat) : text := take n (drop pos s).
(** [Uuid]: Source/Uuid/Uuid.cpp 20-52; [x] and [y] are the two random numbers. *)
Definition uuid (x y : Z) : text :=
  let a := to_hex x in
  let b := to_hex (Z.lor (Z.shiftr y 2) (Z.shiftl 1 63)) in
  substr a 0 8 ++ tx "-" ++ substr a 8 4 ++ tx "-4" ++ substr a 13 3 ++ tx "-" ++ substr b 0 4 ++ tx "-" ++ substr b 4 12.
(** [GenTmpFileName] (not on Windows): Source/Uuid/Uuid.cpp 54-61. *)
Definition tmp_file_name (prefix : text) (x y : Z) : text :=
  match prefix with [] => tx "/tmp/" ++ uuid x y | _ => tx "/tmp/" ++ prefix ++ uuid x y end.
