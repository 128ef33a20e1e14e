(** C56, C57: threads calling the API of one vault, its records, references and record sets. *)
From Verif Require Export LockModel LockSpec DumpSpec.
From Verif Require Import LockProofs LockDumps5.
Open Scope nat_scope.

Lemma programs_inv vf acc cs : (forall t c cl, cs !! t = Some cl -> c ∈ cl -> good vf (acc t) [] None (skeleton c)) -> CInv vf acc (c_init (program <$> cs)).
Proof.
  intros H. apply c_init_inv. intros t p Hp. rewrite list_lookup_fmap in Hp. apply fmap_Some in Hp as (cl & Hcl & ->). apply program_ok, Forall_forall. intros c Hc. by eapply H.
Qed.
(** Any number of threads call any functions, except ToJson, ToStrings and PrintRecord of a record reference, in any order and any
    interleaving: whatever state they reach, all of them can still return from all their calls. *)
Lemma t_C56_can_always_finish_partial :
  forall cs l s, (forall t cl c, cs !! t = Some cl -> c ∈ cl -> ~ dumps c) -> crun (c_init (program <$> cs)) l = Some s ->
    exists l' s', crun s l' = Some s' /\ finished s'.
Proof.
  intros cs l s H E. apply (can_finish (fun _ => any)). eapply crun_inv; [|exact E]. apply programs_inv. intros t c cl H1 H2. apply skeleton_any. by eapply H.
Qed.
(** ... so they never block each other for good. *)
Lemma t_C56_no_deadlock_partial :
  forall cs l s, (forall t cl c, cs !! t = Some cl -> c ∈ cl -> ~ dumps c) -> crun (c_init (program <$> cs)) l = Some s -> ~ deadlock s.
Proof.
  intros cs l s H E. apply (no_deadlock (fun _ => any)). eapply crun_inv; [|exact E]. apply programs_inv. intros t c cl H1 H2. apply skeleton_any. by eapply H.
Qed.
(** Printing a record (or ToJson, ToStrings) in one thread and setting one of its values in another: each holds the lock the other needs. *)
Lemma t_C56_dump_and_set_refuted :
  exists l s, crun (c_init (program <$> [[KRefDump 0]; [KRefSet 0 [[]]]])) l = Some s /\ deadlock s.
Proof.
  exists [0; 0; 0; 0; 1; 1; 1; 1; 1; 1; 1; 0; 0]. eexists. split; [vm_compute; reflexivity|]. split.
  - exists 0. eexists. split; [reflexivity|]. by left.
  - intros [|[|t]]; [vm_compute; reflexivity..|]. unfold cstep. cbn [c_lock s_threads]. done.
Qed.
(** The same with EraseRecord. *)
Lemma t_C56_dump_and_erase_refuted :
  exists l s, crun (c_init (program <$> [[KRefDump 0]; [KErase [(0, [])]]])) l = Some s /\ deadlock s.
Proof.
  exists ([0; 0; 0; 0] ++ replicate 12 1 ++ [0; 0]). eexists. split; [vm_compute; reflexivity|]. split.
  - exists 0. eexists. split; [reflexivity|]. by left.
  - intros [|[|t]]; [vm_compute; reflexivity..|]. unfold cstep. cbn [c_lock s_threads]. done.
Qed.

(** Three threads: one prints a record, one reads it, one writes anything at all (here UpdateKey, which touches no record): the writer waits for
    the reader, the reader for the printing thread, the printing thread for the writer. *)
Lemma t_C56_dump_read_and_write_refuted :
  exists l s, crun (c_init (program <$> [[KRefDump 0]; [KRefGet 0]; [KUpdateKey]])) l = Some s /\ deadlock s.
Proof.
  exists ([1; 1; 1; 1; 1; 1; 1] ++ [0; 0; 0; 0] ++ [2; 2; 2; 2; 2; 2] ++ [0; 0]). eexists. split; [vm_compute; reflexivity|]. split.
  - exists 0. eexists. split; [reflexivity|]. by left.
  - intros [|[|[|t]]]; [vm_compute; reflexivity..|]. unfold cstep. cbn [c_lock s_threads]. done.
Qed.
(** Exactly which programs are safe: all threads can always return from all their calls, whatever the interleaving, unless one thread prints a
    record (or calls ToJson or ToStrings on it), another makes a call that takes the mutex of the same record inside the lock of the vault, and
    that call writes or some third thread writes. *)
Lemma t_C56_finish_exactly_partial :
  forall cs, (forall l s, crun (c_init (program <$> cs)) l = Some s -> exists l' s', crun s l' = Some s' /\ finished s') <-> ~ standoff cs.
Proof. exact can_finish_iff. Qed.
(** ... and in every program with such a standoff some interleaving leads to a state from which the printing thread never gets on, whatever
    the others do. *)
Lemma t_C56_standoff_partial :
  forall cs, standoff cs -> exists l s t r, calls cs t (KRefDump r) /\ crun (c_init (program <$> cs)) l = Some s /\
    forall l' s', crun s l' = Some s' -> busy s' t /\ cstep s' t = None.
Proof. exact standoff_never. Qed.
(** Without a standoff nobody blocks anybody for good, also when records are printed. *)
Lemma t_C56_no_deadlock_with_dumps_partial :
  forall cs l s, ~ standoff cs -> crun (c_init (program <$> cs)) l = Some s -> ~ deadlock s.
Proof.
  intros cs l s H E [[t Hb] Hstuck]. destruct (proj2 (can_finish_iff cs) H l s E) as (l' & s' & E' & Hf). destruct l' as [|u l']; cbn in E'; [|by rewrite Hstuck in E'].
  injection E' as <-. by apply (Hf t).
Qed.
(** As long as no thread writes, everything may be called at the same time. *)
Lemma t_C56_only_readers_partial :
  forall cs l s, (forall t c, calls cs t c -> ~ writes c) -> crun (c_init (program <$> cs)) l = Some s -> exists l' s', crun s l' = Some s' /\ finished s'.
Proof.
  intros cs l s H. apply can_finish_iff. intros (t & u & r & c & _ & _ & Hu & _ & [Hw|(v & w & _ & _ & Hv & Hw)]); [by apply (H u c)|by apply (H v w)].
Qed.

(** Any number of threads, any interleaving: as long as the calls keep to some rules (see [clean]: each record set is used by one thread only,
    only one thread fills sets by requests or intersections, Clear and == are called only on sets no other thread's calls come across, the list of file errors
    is read only by the thread that reads files), no two threads ever access the same data at the same time with one of them writing. *)
Lemma t_C57_no_race_partial :
  forall R cs l s, (forall t cl c, cs !! t = Some cl -> c ∈ cl -> clean R t c) -> crun (c_init (program <$> cs)) l = Some s -> ~ race s.
Proof.
  intros R cs l s H E. apply (no_race R). eapply crun_inv; [|exact E]. apply programs_inv. intros t c cl H1 H2. apply skeleton_clean. by eapply H.
Qed.
(** Two requests on the same vault at the same time, each into its own set: both register their set with the vault under the shared lock. *)
Lemma t_C57_requests_refuted :
  exists l s, crun (c_init (program <$> [[KRequest 0 [] []]; [KRequest 1 [] []]])) l = Some s /\ race s.
Proof.
  exists (replicate 7 0 ++ replicate 7 1). eexists. split; [vm_compute; reflexivity|]. exists 0, 1, LSets, (AWrite LSets). split; [done|]. split; [|split; [|by right]]; (split; [vm_compute; reflexivity|eexists; reflexivity]).
Qed.
(** Two calls of Intersection on sets of the same vault at the same time, with six different sets: as for requests. *)
Lemma t_C57_intersections_refuted :
  exists l s, crun (c_init (program <$> [[KSetIntersect 0 1 2 []]; [KSetIntersect 3 4 5 []]])) l = Some s /\ race s.
Proof.
  exists (replicate 13 0 ++ replicate 13 1). eexists. split; [vm_compute; reflexivity|].
  exists 0, 1, LSets, (AWrite LSets). split; [done|]. split; [split; [vm_compute; reflexivity|eexists; vm_compute; reflexivity]|]. split; [split; [vm_compute; reflexivity|eexists; vm_compute; reflexivity]|by right].
Qed.
(** A request while another thread reads the set it fills. *)
Lemma t_C57_request_and_read_refuted :
  exists l s, crun (c_init (program <$> [[KRequest 0 [] []]; [KSetGet 0 []]])) l = Some s /\ race s.
Proof.
  exists (replicate 11 0 ++ replicate 8 1). eexists. split; [vm_compute; reflexivity|]. exists 0, 1, (LSet 0), (ARead (LSet 0)). split; [done|]. split; [|split; [|by left]]; (split; [vm_compute; reflexivity|eexists; reflexivity]).
Qed.
(** Clear of a record set in one thread, EraseRecord of one of its records in another. *)
Lemma t_C57_clear_and_erase_refuted :
  exists l s, crun (c_init (program <$> [[KSetClear 0 [0]]; [KErase [(0, [0])]]])) l = Some s /\ race s.
Proof.
  exists (replicate 6 0 ++ replicate 14 1). eexists. split; [vm_compute; reflexivity|]. exists 0, 1, (LSet 0), (ARead (LSet 0)). split; [done|]. split; [|split; [|by left]]; (split; [vm_compute; reflexivity|eexists; reflexivity]).
Qed.
(** == of record sets while a record of one of them is erased. *)
Lemma t_C57_compare_and_erase_refuted :
  exists l s, crun (c_init (program <$> [[KErase [(0, [0])]]; [KSetSame 0 1]])) l = Some s /\ race s.
Proof.
  exists (replicate 16 0 ++ replicate 2 1). eexists. split; [vm_compute; reflexivity|]. exists 0, 1, (LSet 0), (ARead (LSet 0)). split; [done|]. split; [|split; [|by left]]; (split; [vm_compute; reflexivity|eexists; reflexivity]).
Qed.
(** Reading the list of file errors while another thread reads a file. *)
Lemma t_C57_errors_refuted :
  exists l s, crun (c_init (program <$> [[KReadFile [0]]; [KErrors]])) l = Some s /\ race s.
Proof.
  exists (replicate 6 0). eexists. split; [vm_compute; reflexivity|]. exists 0, 1, LErrors, (ARead LErrors). split; [done|]. split; [|split; [|by left]]; (split; [vm_compute; reflexivity|eexists; reflexivity]).
Qed.
(** Using a record set while another thread drops the vault. *)
Lemma t_C57_drop_refuted :
  exists l s, crun (c_init (program <$> [[KDropVault [] [(0, [])]]; [KSetGet 0 []]])) l = Some s /\ race s.
Proof.
  exists (replicate 14 0). eexists. split; [vm_compute; reflexivity|]. exists 0, 1, (LParent 0), (ARead (LParent 0)). split; [done|]. split; [|split; [|by left]]; (split; [vm_compute; reflexivity|eexists; reflexivity]).
Qed.
