(** What it means that threads working at the same time cannot be told from threads taking turns (C58). *)
From Verif Require Export ConcModel.
Open Scope nat_scope.

(** A sequential history: calls made one after the other, each alone and properly, with their answers. *)
Inductive sequential (b : bool) (V : nat) : world -> list (ccall * reply) -> world -> Prop :=
  | seq_nil w : sequential b V w [] w
  | seq_snoc w hist w1 c r w2 : sequential b V w hist w1 -> proper b V w1 c -> perform V w1 c = Some (w2, r) -> sequential b V w (hist ++ [(c, r)]) w2.

Definition who (e : event) : nat := match e with ECall t _ | EEff t _ _ | ERet t _ _ => t end.
Definition thread_events (t : nat) (L : list event) : list event := filter (fun e => who e = t) L.
(** The events of one thread: call, effect, return, call, ... with matching arguments and answers; the last call may be unfinished. *)
Fixpoint regular (l : list event) : Prop :=
  match l with
  | [] => True
  | ECall _ c :: l1 =>
      match l1 with
      | [] => True
      | EEff _ c1 r1 :: l2 =>
          c1 = c /\ match l2 with [] => True | ERet _ c2 r2 :: l3 => c2 = c /\ r2 = r1 /\ regular l3 | _ => False end
      | _ => False
      end
  | _ => False
  end.
(** The effects in their order, and what is left without them. *)
Definition effects (L : list event) : list (ccall * reply) := omap (fun e => match e with EEff _ c r => Some (c, r) | _ => None end) L.
Definition is_effect (e : event) : bool := match e with EEff _ _ _ => true | _ => false end.
Definition observed (L : list event) : list event := filter (fun e => is_effect e = false) L.

(** [L] explains the log: leaving out the effects it is the log; each call takes effect once, between its beginning and its return, with the answer
    it returns; and the effects in their order are a sequential history from [w0] to [w]. *)
Definition explains (b : bool) (V : nat) (w0 : world) (log : list event) (L : list event) (w : world) : Prop :=
  observed L = log /\ (forall t, regular (thread_events t L)) /\ sequential b V w0 (effects L) w.
