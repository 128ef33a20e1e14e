(** Generated by tools/gen_p.py from T_Lock.v: the property theorems, nothing else. *)
From Verif Require Import T_Lock Ex_Base Ex_Lock LockEx.
Open Scope nat_scope.

(** Any number of threads call any functions, except ToJson, ToStrings and PrintRecord of a record reference, in any order and any
    interleaving: whatever state they reach, all of them can still return from all their calls. *)
Theorem C56_can_always_finish_partial :
  forall cs l s, (forall t cl c, cs !! t = Some cl -> c ∈ cl -> ~ dumps c) -> crun (c_init (program <$> cs)) l = Some s ->
    exists l' s', crun s l' = Some s' /\ finished s'.
Proof. exact t_C56_can_always_finish_partial. Qed.
Print Assumptions C56_can_always_finish_partial.
Example ex_C56_can_always_finish_partial :
  exists cs l s,
    (forall t cl c, cs !! t = Some cl -> c ∈ cl -> ~ dumps c) /\
    crun (c_init (program <$> cs)) l = Some s /\
    length (c_todo s) = 2.
Proof. exact tex_C56_can_always_finish_partial. Qed.

(** ... so they never block each other for good. *)
Theorem C56_no_deadlock_partial :
  forall cs l s, (forall t cl c, cs !! t = Some cl -> c ∈ cl -> ~ dumps c) -> crun (c_init (program <$> cs)) l = Some s -> ~ deadlock s.
Proof. exact t_C56_no_deadlock_partial. Qed.
Print Assumptions C56_no_deadlock_partial.
Example ex_C56_no_deadlock_partial :
  exists cs l s,
    (forall t cl c, cs !! t = Some cl -> c ∈ cl -> ~ dumps c) /\
    crun (c_init (program <$> cs)) l = Some s /\
    length (c_todo s) = 2.
Proof. exact tex_C56_no_deadlock_partial. Qed.

(** Printing a record (or ToJson, ToStrings) in one thread and setting one of its values in another: each holds the lock the other needs. *)
Theorem C56_dump_and_set_refuted :
  exists l s, crun (c_init (program <$> [[KRefDump 0]; [KRefSet 0 [[]]]])) l = Some s /\ deadlock s.
Proof. exact t_C56_dump_and_set_refuted. Qed.
Print Assumptions C56_dump_and_set_refuted.

(** The same with EraseRecord. *)
Theorem C56_dump_and_erase_refuted :
  exists l s, crun (c_init (program <$> [[KRefDump 0]; [KErase [(0, [])]]])) l = Some s /\ deadlock s.
Proof. exact t_C56_dump_and_erase_refuted. Qed.
Print Assumptions C56_dump_and_erase_refuted.

(** Three threads: one prints a record, one reads it, one writes anything at all (here UpdateKey, which touches no record): the writer waits for
    the reader, the reader for the printing thread, the printing thread for the writer. *)
Theorem C56_dump_read_and_write_refuted :
  exists l s, crun (c_init (program <$> [[KRefDump 0]; [KRefGet 0]; [KUpdateKey]])) l = Some s /\ deadlock s.
Proof. exact t_C56_dump_read_and_write_refuted. Qed.
Print Assumptions C56_dump_read_and_write_refuted.

(** Exactly which programs are safe: all threads can always return from all their calls, whatever the interleaving, unless one thread prints a
    record (or calls ToJson or ToStrings on it), another makes a call that takes the mutex of the same record inside the lock of the vault, and
    that call writes or some third thread writes. *)
Theorem C56_finish_exactly_partial :
  forall cs, (forall l s, crun (c_init (program <$> cs)) l = Some s -> exists l' s', crun s l' = Some s' /\ finished s') <-> ~ standoff cs.
Proof. exact t_C56_finish_exactly_partial. Qed.
Print Assumptions C56_finish_exactly_partial.
Example ex_C56_finish_exactly_partial :
  exists cs,
    ~ standoff cs /\ length cs = 3.
Proof. exact tex_C56_finish_exactly_partial. Qed.

(** ... and in every program with such a standoff some interleaving leads to a state from which the printing thread never gets on, whatever
    the others do. *)
Theorem C56_standoff_partial :
  forall cs, standoff cs -> exists l s t r, calls cs t (KRefDump r) /\ crun (c_init (program <$> cs)) l = Some s /\
    forall l' s', crun s l' = Some s' -> busy s' t /\ cstep s' t = None.
Proof. exact t_C56_standoff_partial. Qed.
Print Assumptions C56_standoff_partial.
Example ex_C56_standoff_partial :
  exists cs,
    standoff cs /\
    length cs = 3.
Proof. exact tex_C56_standoff_partial. Qed.

(** Without a standoff nobody blocks anybody for good, also when records are printed. *)
Theorem C56_no_deadlock_with_dumps_partial :
  forall cs l s, ~ standoff cs -> crun (c_init (program <$> cs)) l = Some s -> ~ deadlock s.
Proof. exact t_C56_no_deadlock_with_dumps_partial. Qed.
Print Assumptions C56_no_deadlock_with_dumps_partial.
Example ex_C56_no_deadlock_with_dumps_partial :
  exists cs l s,
    ~ standoff cs /\
    crun (c_init (program <$> cs)) l = Some s /\
    length (c_todo s) = 3.
Proof. exact tex_C56_no_deadlock_with_dumps_partial. Qed.

(** As long as no thread writes, everything may be called at the same time. *)
Theorem C56_only_readers_partial :
  forall cs l s, (forall t c, calls cs t c -> ~ writes c) -> crun (c_init (program <$> cs)) l = Some s -> exists l' s', crun s l' = Some s' /\ finished s'.
Proof. exact t_C56_only_readers_partial. Qed.
Print Assumptions C56_only_readers_partial.
Example ex_C56_only_readers_partial :
  exists cs l s,
    (forall t c, calls cs t c -> ~ writes c) /\
    crun (c_init (program <$> cs)) l = Some s /\
    length (c_todo s) = 3.
Proof. exact tex_C56_only_readers_partial. Qed.

(** Any number of threads, any interleaving: as long as the calls keep to some rules (see [clean]: each record set is used by one thread only,
    only one thread fills sets by requests or intersections, Clear and == are called only on sets no other thread's calls come across, the list of file errors
    is read only by the thread that reads files), no two threads ever access the same data at the same time with one of them writing. *)
Theorem C57_no_race_partial :
  forall R cs l s, (forall t cl c, cs !! t = Some cl -> c ∈ cl -> clean R t c) -> crun (c_init (program <$> cs)) l = Some s -> ~ race s.
Proof. exact t_C57_no_race_partial. Qed.
Print Assumptions C57_no_race_partial.
Example ex_C57_no_race_partial :
  exists R cs l s,
    (forall t cl c, cs !! t = Some cl -> c ∈ cl -> clean R t c) /\
    crun (c_init (program <$> cs)) l = Some s /\
    length (c_todo s) = 2.
Proof. exact tex_C57_no_race_partial. Qed.

(** Two requests on the same vault at the same time, each into its own set: both register their set with the vault under the shared lock. *)
Theorem C57_requests_refuted :
  exists l s, crun (c_init (program <$> [[KRequest 0 [] []]; [KRequest 1 [] []]])) l = Some s /\ race s.
Proof. exact t_C57_requests_refuted. Qed.
Print Assumptions C57_requests_refuted.

(** Two calls of Intersection on sets of the same vault at the same time, with six different sets: as for requests. *)
Theorem C57_intersections_refuted :
  exists l s, crun (c_init (program <$> [[KSetIntersect 0 1 2 []]; [KSetIntersect 3 4 5 []]])) l = Some s /\ race s.
Proof. exact t_C57_intersections_refuted. Qed.
Print Assumptions C57_intersections_refuted.

(** A request while another thread reads the set it fills. *)
Theorem C57_request_and_read_refuted :
  exists l s, crun (c_init (program <$> [[KRequest 0 [] []]; [KSetGet 0 []]])) l = Some s /\ race s.
Proof. exact t_C57_request_and_read_refuted. Qed.
Print Assumptions C57_request_and_read_refuted.

(** Clear of a record set in one thread, EraseRecord of one of its records in another. *)
Theorem C57_clear_and_erase_refuted :
  exists l s, crun (c_init (program <$> [[KSetClear 0 [0]]; [KErase [(0, [0])]]])) l = Some s /\ race s.
Proof. exact t_C57_clear_and_erase_refuted. Qed.
Print Assumptions C57_clear_and_erase_refuted.

(** == of record sets while a record of one of them is erased. *)
Theorem C57_compare_and_erase_refuted :
  exists l s, crun (c_init (program <$> [[KErase [(0, [0])]]; [KSetSame 0 1]])) l = Some s /\ race s.
Proof. exact t_C57_compare_and_erase_refuted. Qed.
Print Assumptions C57_compare_and_erase_refuted.

(** Reading the list of file errors while another thread reads a file. *)
Theorem C57_errors_refuted :
  exists l s, crun (c_init (program <$> [[KReadFile [0]]; [KErrors]])) l = Some s /\ race s.
Proof. exact t_C57_errors_refuted. Qed.
Print Assumptions C57_errors_refuted.

(** Using a record set while another thread drops the vault. *)
Theorem C57_drop_refuted :
  exists l s, crun (c_init (program <$> [[KDropVault [] [(0, [])]]; [KSetGet 0 []]])) l = Some s /\ race s.
Proof. exact t_C57_drop_refuted. Qed.
Print Assumptions C57_drop_refuted.
