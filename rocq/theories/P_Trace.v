(** Generated by tools/gen_p.py from T_Trace.v: the property theorems, nothing else. *)
From Verif Require Import T_Trace Ex_Base Ex_Trace.
Open Scope nat_scope.
Open Scope string_scope.

(** Whatever functions a thread calls, nested in whatever way, with errors and changes of the format anywhere: when the outermost call returns, the
    trace is what it was before, and what was printed is one message for each error reported while the format was Compact, each followed by the
    name of the outermost function in progress, the one the user called. *)
Theorem C66_names_the_function_called :
  forall support below nm e tr on out, 2 <= below -> harmless_at support (length tr) on e ->
    happen support below nm e (TState tr on out) = Some (TState tr (format_after on e) (out +:+ printed support nm (head tr) on e)).
Proof. exact t_C66_names_the_function_called. Qed.
Print Assumptions C66_names_the_function_called.
Example ex_C66_names_the_function_called :
  exists support below e tr on,
    2 <= below /\
    harmless_at support (length tr) on e /\
    head tr = Some "SortBy".
Proof. exact tex_C66_names_the_function_called. Qed.

(** The trace is used beyond its bounds exactly if it is printed while no function is in progress (which only a direct call of PrintBackTrace
    does) or with more than 1020 functions inside each other. *)
Theorem C66_undefined_iff :
  forall support below nm e tr on out, 2 <= below -> happen support below nm e (TState tr on out) = None <-> ~ harmless_at support (length tr) on e.
Proof. exact t_C66_undefined_iff. Qed.
Print Assumptions C66_undefined_iff.
Example ex_C66_undefined_iff :
  exists support below nm e tr on out,
    2 <= below /\
    happen support below nm e (TState tr on out) = None.
Proof. exact tex_C66_undefined_iff. Qed.
