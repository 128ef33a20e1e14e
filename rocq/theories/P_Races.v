(** Generated by tools/gen_p.py from T_Races.v: the property theorems, nothing else. *)
From Verif Require Import T_Races Ex_Base Ex_Races LockEx RaceEx.
Open Scope nat_scope.

(** Any number of threads, each making any calls: some interleaving has a data race exactly when two threads make calls that can come across
    the same record set, the vault's list of record sets or the list of file errors, one of them writing it, neither keeping the other out (see
    [uses] and [can_race]: what each call reads and writes under which lock). *)
Theorem C57_race_exactly_partial :
  forall cs, (exists l s, crun (c_init (program <$> cs)) l = Some s /\ race s) <-> racy cs.
Proof. exact t_C57_race_exactly_partial. Qed.
Print Assumptions C57_race_exactly_partial.
Example ex_C57_race_exactly_partial :
  ~ racy safe_sets /\ racy unsafe_sets.
Proof. exact tex_C57_race_exactly_partial. Qed.

(** Every such pair of calls, in any two threads of any program, really races in some interleaving, whatever calls come before and after. *)
Theorem C57_every_clash_races_partial :
  forall cs t u c d, t <> u -> calls cs t c -> calls cs u d -> can_race c d -> exists l s, crun (c_init (program <$> cs)) l = Some s /\ race s.
Proof. exact t_C57_every_clash_races_partial. Qed.
Print Assumptions C57_every_clash_races_partial.
Example ex_C57_every_clash_races_partial :
  exists cs t u c d,
    t <> u /\
    calls cs t c /\
    calls cs u d /\
    can_race c d /\
    length unsafe_sets = 2.
Proof. exact tex_C57_every_clash_races_partial. Qed.

(** Threads that only use the vault and its records, no record sets and not GetErrorsInLastReadedFile, never race. *)
Theorem C57_without_sets_partial :
  forall cs l s, (forall t c, calls cs t c -> on_vault_or_record c) -> crun (c_init (program <$> cs)) l = Some s -> ~ race s.
Proof. exact t_C57_without_sets_partial. Qed.
Print Assumptions C57_without_sets_partial.
Example ex_C57_without_sets_partial :
  exists cs l s,
    (forall t c, calls cs t c -> on_vault_or_record c) /\
    crun (c_init (program <$> cs)) l = Some s /\
    length (c_todo s) = 3.
Proof. exact tex_C57_without_sets_partial. Qed.

(** Any two threads that fill record sets, by requests or by Intersection, race, whichever sets these are. *)
Theorem C57_two_requests_partial :
  forall cs t u c d, t <> u -> calls cs t c -> calls cs u d -> fills_set c -> fills_set d -> exists l s, crun (c_init (program <$> cs)) l = Some s /\ race s.
Proof. exact t_C57_two_requests_partial. Qed.
Print Assumptions C57_two_requests_partial.
Example ex_C57_two_requests_partial :
  exists cs t u c d,
    t <> u /\
    calls cs t c /\
    calls cs u d /\
    fills_set c /\
    fills_set d /\
    length two_fill = 2.
Proof. exact tex_C57_two_requests_partial. Qed.
