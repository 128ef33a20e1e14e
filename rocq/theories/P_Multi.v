(** Generated by tools/gen_p.py from T_Multi.v: the property theorems, nothing else. *)
From Verif Require Import T_Multi Ex_Base Ex_Multi MultiEx.
Open Scope nat_scope.

(** Any number of threads, any number of vaults, any calls (except ToJson, ToStrings and PrintRecord of a record reference), nested in each
    other's callbacks in any way, any interleaving: whatever state they reach, all of them can still return from all their calls, and then
    every lock is free. *)
Theorem C63_can_always_finish :
  forall cs l s, (forall t cl c, cs !! t = Some cl -> c ∈ cl -> ~ v_dumps c) -> vrun (v_init (vprogram <$> cs)) l = Some s ->
    exists l' s', vrun s l' = Some s' /\ v_finished s' /\ v_all_free s'.
Proof. exact t_C63_can_always_finish. Qed.
Print Assumptions C63_can_always_finish.
Example ex_C63_can_always_finish :
  exists cs l s,
    (forall t cl c, cs !! t = Some cl -> c ∈ cl -> ~ v_dumps c) /\
    vrun (v_init (vprogram <$> cs)) l = Some s /\
    length (v_acts s) = 2.
Proof. exact tex_C63_can_always_finish. Qed.

(** ... so they never block each other for good. *)
Theorem C63_no_deadlock :
  forall cs l s, (forall t cl c, cs !! t = Some cl -> c ∈ cl -> ~ v_dumps c) -> vrun (v_init (vprogram <$> cs)) l = Some s -> ~ v_deadlock s.
Proof. exact t_C63_no_deadlock. Qed.
Print Assumptions C63_no_deadlock.
Example ex_C63_no_deadlock :
  exists cs l s,
    (forall t cl c, cs !! t = Some cl -> c ∈ cl -> ~ v_dumps c) /\
    vrun (v_init (vprogram <$> cs)) l = Some s /\
    length (v_acts s) = 2.
Proof. exact tex_C63_no_deadlock. Qed.

(** Threads have some vaults to themselves, share others, and share others still that none of them changes. As long as a shared vault that is
    changed is used only outside calls on other vaults (by the calls of C57, by the copy constructor as the source, or by SortBy and
    AddUniqueKey whose callbacks may use it again, and any vaults of the thread or vaults nobody changes): no two threads ever access the same
    data at the same time with one of them writing. *)
Theorem C64_no_race_partial :
  forall use R cs l s, (forall t cl c, cs !! t = Some cl -> c ∈ cl -> apart use R t [] c) -> vrun (v_init (vprogram <$> cs)) l = Some s -> ~ v_race s.
Proof. exact t_C64_no_race_partial. Qed.
Print Assumptions C64_no_race_partial.
Example ex_C64_no_race_partial :
  exists use R cs l s,
    (forall t cl c, cs !! t = Some cl -> c ∈ cl -> apart use R t [] c) /\
    vrun (v_init (vprogram <$> cs)) l = Some s /\
    length (v_acts s) = 2.
Proof. exact tex_C64_no_race_partial. Qed.

(** Vault 1 is copied by assignment to a vault only this thread uses, while another thread changes vault 1: the assignment first locks the vault it
    assigns to and then takes no lock on vault 1. *)
Theorem C64_assign_refuted :
  exists l s, vrun (v_init (vprogram <$> [[VAssign 0 1 [] [] 0 []]; [VOn 1 KUpdateKey]])) l = Some s /\ v_race s.
Proof. exact t_C64_assign_refuted. Qed.
Print Assumptions C64_assign_refuted.

(** The callback of SortBy on vault 0 reads vault 1, which another thread changes. *)
Theorem C64_callback_reads_refuted :
  exists l s, vrun (v_init (vprogram <$> [[VSortBy 0 [(0, [VOn 1 KGet])]]; [VOn 1 KUpdateKey]])) l = Some s /\ v_race s.
Proof. exact t_C64_callback_reads_refuted. Qed.
Print Assumptions C64_callback_reads_refuted.

(** The callback of SortBy on vault 0 changes vault 1, which another thread is reading: the callback unlocks vault 1 for reading without having
    locked it, and gets the lock for writing beside the reader. *)
Theorem C64_callback_writes_refuted :
  exists l s, vrun (v_init (vprogram <$> [[VSortBy 0 [(0, [VOn 1 KUpdateKey])]]; [VOn 1 KGet]])) l = Some s /\ v_race s.
Proof. exact t_C64_callback_writes_refuted. Qed.
Print Assumptions C64_callback_writes_refuted.

(** The generator function of AddUniqueKey on vault 0 reads vault 1, which another thread changes. *)
Theorem C64_generator_reads_refuted :
  exists l s, vrun (v_init (vprogram <$> [[VGenerate 0 [(0, [VOn 1 KGet])] []]; [VOn 1 KUpdateKey]])) l = Some s /\ v_race s.
Proof. exact t_C64_generator_reads_refuted. Qed.
Print Assumptions C64_generator_reads_refuted.

(** A vault is moved from while another thread reads it: it is emptied under a lock for reading. *)
Theorem C64_move_refuted :
  exists l s, vrun (v_init (vprogram <$> [[VMove 1 0]; [VOn 0 KGet]])) l = Some s /\ v_race s.
Proof. exact t_C64_move_refuted. Qed.
Print Assumptions C64_move_refuted.

(** Whatever calls the threads made on whatever vaults, nested in whatever way: when all of them have returned, nobody holds the lock of any
    vault or record and every thread's counters are 0. *)
Theorem C65_all_locks_free_in_the_end :
  forall cs l s, vrun (v_init (vprogram <$> cs)) l = Some s -> v_finished s -> v_all_free s.
Proof. exact t_C65_all_locks_free_in_the_end. Qed.
Print Assumptions C65_all_locks_free_in_the_end.
Example ex_C65_all_locks_free_in_the_end :
  exists cs l s,
    vrun (v_init (vprogram <$> cs)) l = Some s /\
    v_finished s /\
    length (v_threads s) = 2.
Proof. exact tex_C65_all_locks_free_in_the_end. Qed.
