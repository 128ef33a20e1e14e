(** Vocabulary of C66: what the debug messages should say. *)
From Coq Require Import String.
From Verif Require Export TraceModel.
Open Scope nat_scope.
Open Scope string_scope.

(** The message for one error, and the line that names the function [who]. *)
Definition message (nm : option vtype -> string) (r : opres) (c : rcode) : string :=
  "Internal error! " ++ code_text c ++ newline ++ tab ++ "Requested key: " ++ esc "[31m" ++ res_key r ++ esc "[0m. Requested type: " ++ esc "[31m" ++ nm (res_req r)
  ++ esc "[0m. SavedType: " ++ esc "[31m" ++ nm (res_saved r) ++ esc "[0m." ++ newline.
Definition from_line (support : bool) (who : string) : string :=
  tab ++ esc "[33m" ++ who ++ esc "[0m from " ++ if support then "" else no_file ++ newline.
(** The format in force after the events. *)
Fixpoint format_after (on : bool) (e : event) : bool :=
  match e with
  | ECall _ body => (fix go l on := match l with [] => on | e :: l => go l (format_after on e) end) body on
  | EFormat on' => on'
  | _ => on
  end.
(** What is printed. [who]: the outermost function in progress; a call made while none is in progress is the outermost one. *)
Fixpoint printed (support : bool) (nm : option vtype -> string) (who : option string) (on : bool) (e : event) : string :=
  match e with
  | ECall f body => (fix go l on := match l with [] => "" | e :: l => printed support nm (Some (default f who)) on e ++ go l (format_after on e) end) body on
  | EFail r c => if on then message nm r c ++ from_line support (default "SetOpResult" who) else ""
  | EPrint => if on then match who with Some f => from_line support f | None => "" end else ""
  | EFormat _ => ""
  end.
(** Nothing goes wrong with [depth] functions in progress: the trace is not printed when it is empty, nor, if the build has backtrace(), from
    more functions inside each other than the array of return addresses has room for. *)
Fixpoint harmless_at (support : bool) (depth : nat) (on : bool) (e : event) : Prop :=
  match e with
  | ECall _ body => (fix go l on := match l with [] => True | e :: l => harmless_at support (S depth) on e /\ go l (format_after on e) end) body on
  | EFail _ _ => on = true -> support = true -> depth <= 1020
  | EPrint => on = true -> 1 <= depth /\ (support = true -> depth <= 1021)
  | EFormat _ => True
  end.
