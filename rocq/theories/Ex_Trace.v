(** Generated by tools/gen_ex.py from tools/examples.txt. *)
From Verif Require Import T_Trace Ex_Base.
Open Scope nat_scope.

Lemma tex_C66_names_the_function_called :
  exists support below e tr on,
    2 <= below /\
    harmless_at support (length tr) on e /\
    head tr = Some "SortBy".
Proof. exists (true), (4), (ECall "CreateRecord" [ECall "GetKeyType" [EFail (OpRes false Idle "age" None None) WrongKey]; EFormat false; EFail (OpRes false Idle "id" None None) WrongType]), (["SortBy"]), (true); repeat split; cbn; intros; try lia; try discriminate. Qed.

Lemma tex_C66_undefined_iff :
  exists support below nm e tr on out,
    2 <= below /\
    happen support below nm e (TState tr on out) = None.
Proof. exists (true), (4), (fun _ => "i"), (EPrint), ([]), (true), (""); repeat split; cbn; intros; try lia; try discriminate. Qed.
