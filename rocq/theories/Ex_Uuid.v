(** Generated by tools/gen_ex.py from tools/examples.txt. *)
From Verif Require Import T_Uuid Ex_Base.
Open Scope Z_scope.

Lemma tex_C38_version_4 :
  exists x y,
    random64 x /\
    random64 y /\
    uuid x y = tx "01234567-89ab-4def-bfff-ffffffffffff".
Proof. exists (81985529216486895), (18446744073709551615); repeat split; vm_compute; first [reflexivity|discriminate]. Qed.

Lemma tex_C38_randomness :
  exists x y x' y',
    random64 x /\
    random64 y /\
    random64 x' /\
    random64 y' /\
    uuid x y = uuid x' y'.
Proof. exists (81985529216486895), (7), (81985529216490991), (4); repeat split; vm_compute; first [reflexivity|discriminate]. Qed.

Lemma tex_C38_every_uuid :
  exists t,
    uuid4 t /\
    t = tx "01234567-89ab-4def-8000-000000000001".
Proof. exists (uuid 81985529216486895 7); split; [apply t_C38_version_4; split; vm_compute; first [reflexivity|discriminate]|vm_compute; reflexivity]. Qed.

Lemma tex_C38_tmp_file_name :
  exists prefix x y,
    random64 x /\
    random64 y /\
    tmp_file_name prefix x y = tx "/tmp/mv01234567-89ab-4def-8000-000000000001".
Proof. exists (tx "mv"), (81985529216486895), (7); repeat split; vm_compute; first [reflexivity|discriminate]. Qed.
