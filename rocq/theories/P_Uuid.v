(** Generated by tools/gen_p.py from T_Uuid.v: the property theorems, nothing else. *)
From Verif Require Import T_Uuid Ex_Base Ex_Uuid.
Open Scope Z_scope.

(** Whatever the random numbers are, the text is a version 4 UUID. *)
Theorem C38_version_4 :
  forall x y, random64 x -> random64 y -> uuid4 (uuid x y).
Proof. exact t_C38_version_4. Qed.
Print Assumptions C38_version_4.
Example ex_C38_version_4 :
  exists x y,
    random64 x /\
    random64 y /\
    uuid x y = tx "01234567-89ab-4def-bfff-ffffffffffff".
Proof. exact tex_C38_version_4. Qed.

(** Nothing else of the random numbers is lost than the four bits of the version and the two of the variant: 122 random bits. *)
Theorem C38_randomness :
  forall x y x' y', random64 x -> random64 y -> random64 x' -> random64 y' ->
    (uuid x y = uuid x' y' <-> x / 2 ^ 16 = x' / 2 ^ 16 /\ x mod 2 ^ 12 = x' mod 2 ^ 12 /\ y / 4 = y' / 4).
Proof. exact t_C38_randomness. Qed.
Print Assumptions C38_randomness.
Example ex_C38_randomness :
  exists x y x' y',
    random64 x /\
    random64 y /\
    random64 x' /\
    random64 y' /\
    uuid x y = uuid x' y'.
Proof. exact tex_C38_randomness. Qed.

(** Every version 4 UUID can come out. *)
Theorem C38_every_uuid :
  forall t, uuid4 t -> exists x y, random64 x /\ random64 y /\ uuid x y = t.
Proof. exact t_C38_every_uuid. Qed.
Print Assumptions C38_every_uuid.
Example ex_C38_every_uuid :
  exists t,
    uuid4 t /\
    t = tx "01234567-89ab-4def-8000-000000000001".
Proof. exact tex_C38_every_uuid. Qed.

(** The name of a temporary file: the directory, the prefix and a UUID. *)
Theorem C38_tmp_file_name :
  forall prefix x y, random64 x -> random64 y -> exists t, uuid4 t /\ tmp_file_name prefix x y = tx "/tmp/" ++ prefix ++ t.
Proof. exact t_C38_tmp_file_name. Qed.
Print Assumptions C38_tmp_file_name.
Example ex_C38_tmp_file_name :
  exists prefix x y,
    random64 x /\
    random64 y /\
    tmp_file_name prefix x y = tx "/tmp/mv01234567-89ab-4def-8000-000000000001".
Proof. exact tex_C38_tmp_file_name. Qed.
