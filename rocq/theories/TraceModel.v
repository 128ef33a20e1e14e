(** The debug trace: Source/BackTrace/BackTrace.cpp, and VaultOperationResult::SetOpResult, which prints it. One thread ([Trace] is thread_local).

    Not modelled: what the programs started by system() print (the file and line), and that the name of the program given to them is read from
    a buffer readlink does not terminate. *)
From Coq Require Import String.
From Verif Require Export ResultModel.
Open Scope nat_scope.
Open Scope string_scope.

(** What a thread does, as far as the trace is concerned: functions whose body starts with DBG_LOG_ENTER() (BackTrace.h 24-28; a debug build),
    calls of SetOpResult, of PrintBackTrace from outside, and of SetBackTraceFormat ([true]: Compact, [false]: None). *)
Inductive event :=
  | ECall (f : string) (body : list event)
  | EFail (r : opres) (c : rcode)
  | EPrint
  | EFormat (on : bool).
(** [Trace], [TraceFormat], what has been printed. *)
Record tstate := TState { d_trace : list string; d_on : bool; d_out : string }.

Definition esc (code : string) : string := String (Ascii.ascii_of_nat 27) code.
Definition tab : string := String (Ascii.ascii_of_nat 9) "".
Definition newline : string := String (Ascii.ascii_of_nat 10) "".
Definition say (x : string) (s : tstate) : tstate := TState (d_trace s) (d_on s) (d_out s ++ x).
(** TraceLogger::TraceLogger: BackTrace.cpp 82-85. *)
Definition enter (f : string) (s : tstate) : tstate := TState (d_trace s ++ [f])%list (d_on s) (d_out s).
(** TraceLogger::~TraceLogger: BackTrace.cpp 87-90. back() of an empty vector is undefined. *)
Definition leave (f : string) (s : tstate) : option tstate :=
  match last (d_trace s) with
  | None => None
  | Some g => Some (TState (if String.eqb f g then removelast (d_trace s) else d_trace s) (d_on s) (d_out s))
  end.
(** BackTrace.h 22. *)
Definition trace_max : nat := 1024.
(** What is printed after the name when the call stack is not available: BackTrace.cpp 76. *)
Definition no_file : string :=
  "(File name and file line not available on this machine! If you are on linux try to download libexecinfo and reconfigure project. See Checkers/BackTrace)".
(** PrintBackTrace: BackTrace.cpp 17-78. [support]: the build has backtrace(). [below] is the number of frames of the call stack below the first
    traced function (main and what called it); every traced function has a frame and PrintBackTrace has one: array[i] is defined if i is
    less than their number and less than TRACE_MAX. front() of an empty vector is undefined. *)
Definition print_trace (support : bool) (below : nat) (s : tstate) : option tstate :=
  if d_on s then
    match d_trace s with
    | [] => None
    | front :: _ =>
        if support then
          let i := length (d_trace s) + 2 in
          let pushed := (d_trace s ++ [front])%list in      (* line 30; the loop runs once, lines 33-65 *)
          if (i <? Nat.min trace_max (1 + length (d_trace s) + below))%nat then
            match last pushed with
            | Some back => Some (TState (removelast pushed) (d_on s) (d_out s ++ tab ++ esc "[33m" ++ back ++ esc "[0m from "))
            | None => Some (say tab s)
            end
          else None
        else Some (say (tab ++ esc "[33m" ++ front ++ esc "[0m from " ++ no_file ++ newline) s)
    end
  else Some s.
(** SetOpResult: Source/VaultOperationResult.cpp 5-19; [nm] is type_info::name. It calls ResultCodeString (line 15), which is traced too. *)
Definition set_op_result (support : bool) (below : nat) (nm : option vtype -> string) (r : opres) (c : rcode) (s : tstate) : option tstate :=
  let s := enter "SetOpResult" s in
  s ← (if d_on s then
         s ← leave "ResultCodeString" (enter "ResultCodeString" s);
         let s := say ("Internal error! " ++ code_text c ++ newline ++ tab ++ "Requested key: " ++ esc "[31m" ++ res_key r ++ esc "[0m. Requested type: " ++ esc "[31m" ++ nm (res_req r)
                       ++ esc "[0m. SavedType: " ++ esc "[31m" ++ nm (res_saved r) ++ esc "[0m." ++ newline) s in
         print_trace support below s
       else Some s);
  leave "SetOpResult" s.
(** One after the other. *)
Definition in_turn {A} (f : A -> tstate -> option tstate) : list A -> tstate -> option tstate :=
  fix go l s := match l with [] => Some s | x :: l => match f x s with Some s' => go l s' | None => None end end.
Fixpoint happen (support : bool) (below : nat) (nm : option vtype -> string) (e : event) (s : tstate) : option tstate :=
  match e with
  | ECall f body => match in_turn (happen support below nm) body (enter f s) with Some s' => leave f s' | None => None end
  | EFail r c => set_op_result support below nm r c s
  | EPrint => print_trace support below s
  (* BackTrace.cpp 10-13 *)
  | EFormat on => Some (TState (d_trace s) on (d_out s))
  end.
