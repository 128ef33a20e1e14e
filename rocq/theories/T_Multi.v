(** C63-C65: threads that use any number of vaults, copy and assign vaults, and call functions of vaults from callbacks. *)
From Verif Require Export MultiModel MultiSpec.
From Verif Require Import MutexProofs MutexProofs2 MutexProofs3 LockProofs MultiProofs6 MultiProofs8.
Open Scope nat_scope.

Lemma vprograms_inv vf acc cs : (forall t c cl, cs !! t = Some cl -> c ∈ cl -> vgood vf (acc t) [] (vskeleton c)) -> VInv vf acc (v_init (vprogram <$> cs)).
Proof.
  intros H. apply v_init_inv. intros t p Hp. rewrite list_lookup_fmap in Hp. apply fmap_Some in Hp as (cl & Hcl & ->). apply vprogram_ok, Forall_forall. intros c Hc. by eapply H.
Qed.
(** Any number of threads, any number of vaults, any calls (except ToJson, ToStrings and PrintRecord of a record reference), nested in each
    other's callbacks in any way, any interleaving: whatever state they reach, all of them can still return from all their calls, and then
    every lock is free. *)
Lemma t_C63_can_always_finish :
  forall cs l s, (forall t cl c, cs !! t = Some cl -> c ∈ cl -> ~ v_dumps c) -> vrun (v_init (vprogram <$> cs)) l = Some s ->
    exists l' s', vrun s l' = Some s' /\ v_finished s' /\ v_all_free s'.
Proof.
  intros cs l s H E. assert (VInv true (fun _ => vany) s) as HI.
  { eapply vrun_inv; [|exact E]. apply vprograms_inv. intros t c cl H1 H2. apply vskeleton_any. by eapply H. }
  destruct (can_finish _ s HI) as (l' & s' & E' & Hf). exists l', s'. split; [done|]. split; [done|]. eapply all_free; [|done]. by eapply vrun_inv.
Qed.
(** ... so they never block each other for good. *)
Lemma t_C63_no_deadlock :
  forall cs l s, (forall t cl c, cs !! t = Some cl -> c ∈ cl -> ~ v_dumps c) -> vrun (v_init (vprogram <$> cs)) l = Some s -> ~ v_deadlock s.
Proof.
  intros cs l s H E. apply (no_deadlock (fun _ => vany)). eapply vrun_inv; [|exact E]. apply vprograms_inv. intros t c cl H1 H2. apply vskeleton_any. by eapply H.
Qed.

(** Threads have some vaults to themselves, share others, and share others still that none of them changes. As long as a shared vault that is
    changed is used only outside calls on other vaults (by the calls of C57, by the copy constructor as the source, or by SortBy and
    AddUniqueKey whose callbacks may use it again, and any vaults of the thread or vaults nobody changes): no two threads ever access the same
    data at the same time with one of them writing. *)
Lemma t_C64_no_race_partial :
  forall use R cs l s, (forall t cl c, cs !! t = Some cl -> c ∈ cl -> apart use R t [] c) -> vrun (v_init (vprogram <$> cs)) l = Some s -> ~ v_race s.
Proof.
  intros use R cs l s H E.
  assert (VInv false (racc use R) (v_init (vprogram <$> cs))) as HI by (apply vprograms_inv; intros t c cl H1 H2; apply vskeleton_apart; by eapply H).
  destruct (init_all use (vprogram <$> cs)) as [HS HQ]. destruct (vrun_all use R l _ _ HI HS HQ E) as (HI' & HS' & HQ'). by apply (vno_race use R).
Qed.
Ltac race_at t u v x a := exists t, u, v, x, a; split; [done|]; split; [|split; [|first [by left|by right]]]; (eexists _, _; split; [reflexivity|]; split; [split; reflexivity|reflexivity]).
(** Vault 1 is copied by assignment to a vault only this thread uses, while another thread changes vault 1: the assignment first locks the vault it
    assigns to and then takes no lock on vault 1. *)
Lemma t_C64_assign_refuted :
  exists l s, vrun (v_init (vprogram <$> [[VAssign 0 1 [] [] 0 []]; [VOn 1 KUpdateKey]])) l = Some s /\ v_race s.
Proof.
  exists (replicate 22 0 ++ replicate 7 1). eexists. split; [vm_compute; reflexivity|]. race_at 1 0 1 LVault (ARead LVault).
Qed.
(** The callback of SortBy on vault 0 reads vault 1, which another thread changes. *)
Lemma t_C64_callback_reads_refuted :
  exists l s, vrun (v_init (vprogram <$> [[VSortBy 0 [(0, [VOn 1 KGet])]]; [VOn 1 KUpdateKey]])) l = Some s /\ v_race s.
Proof.
  exists (replicate 15 0 ++ replicate 7 1). eexists. split; [vm_compute; reflexivity|]. race_at 1 0 1 LVault (ARead LVault).
Qed.
(** The callback of SortBy on vault 0 changes vault 1, which another thread is reading: the callback unlocks vault 1 for reading without having
    locked it, and gets the lock for writing beside the reader. *)
Lemma t_C64_callback_writes_refuted :
  exists l s, vrun (v_init (vprogram <$> [[VSortBy 0 [(0, [VOn 1 KUpdateKey])]]; [VOn 1 KGet]])) l = Some s /\ v_race s.
Proof.
  exists (replicate 7 1 ++ replicate 27 0). eexists. split; [vm_compute; reflexivity|]. race_at 0 1 1 LVault (ARead LVault).
Qed.
(** The generator function of AddUniqueKey on vault 0 reads vault 1, which another thread changes. *)
Lemma t_C64_generator_reads_refuted :
  exists l s, vrun (v_init (vprogram <$> [[VGenerate 0 [(0, [VOn 1 KGet])] []]; [VOn 1 KUpdateKey]])) l = Some s /\ v_race s.
Proof.
  exists (replicate 15 0 ++ replicate 7 1). eexists. split; [vm_compute; reflexivity|]. race_at 1 0 1 LVault (ARead LVault).
Qed.
(** A vault is moved from while another thread reads it: it is emptied under a lock for reading. *)
Lemma t_C64_move_refuted :
  exists l s, vrun (v_init (vprogram <$> [[VMove 1 0]; [VOn 0 KGet]])) l = Some s /\ v_race s.
Proof.
  exists (replicate 9 0 ++ replicate 7 1). eexists. split; [vm_compute; reflexivity|]. race_at 0 1 0 LVault (ARead LVault).
Qed.

(** Whatever calls the threads made on whatever vaults, nested in whatever way: when all of them have returned, nobody holds the lock of any
    vault or record and every thread's counters are 0. *)
Lemma t_C65_all_locks_free_in_the_end :
  forall cs l s, vrun (v_init (vprogram <$> cs)) l = Some s -> v_finished s -> v_all_free s.
Proof.
  intros cs l s E Hf. set (ru := fun t : nat => Rules (fun _ => t) (fun _ => false) t None).
  eapply (all_free false (fun t => racc (fun _ => Mine t) (fun _ => ru t) t)); [|done]. eapply vrun_inv; [|exact E]. apply vprograms_inv. intros t c cl H1 H2. apply vskeleton_apart.
  generalize (fst <$> ([] : list (nat * rkind))). clear. induction c as [v c|a b n rs|a b o ss n rs|a b|a b o ss|v rs IH|v rs ss IH] using vcall_rect'; intros inside; cbn [apart].
  - split; [by left|done].
  - split; [by left|done].
  - split; [done|by left].
  - done.
  - done.
  - split; [by left|]. apply apart_inside. eapply Forall_impl; [exact IH|]. intros e He. eapply Forall_impl; [exact He|]. intros c Hc. apply Hc.
  - split; [by left|]. split; [done|]. split; [done|]. apply apart_inside. eapply Forall_impl; [exact IH|]. intros e He. eapply Forall_impl; [exact He|]. intros c Hc. apply Hc.
Qed.
