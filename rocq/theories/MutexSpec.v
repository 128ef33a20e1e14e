(** Vocabulary of the theorems about the mutexes (C39-C41). *)
From Verif Require Export MutexModel.
Open Scope nat_scope.

(** Without new calls of lock: steps inside calls, and unlocks. *)
Definition finishing (a : mact) : Prop :=
  match a with MGo _ | MCall _ CReadUnlock | MCall _ CWriteUnlock => True | _ => False end.
(** Threads using a recursive mutex go on without new calls of lock. *)
Definition rfinishing (a : ract) : Prop := match a with RLock _ _ => False | _ => True end.
(** No thread has, or is on the way to, any lock. *)
Definition all_free (s : rstate) : Prop :=
  (forall t th, s_threads s !! t = Some th -> t_stack th = [] /\ t_todo th = []) /\ (forall t p, m_pcs (s_base s) !! t = Some p -> p = Out).
