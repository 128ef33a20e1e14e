(** C57, exactly: which programs have a data race. *)
From Verif Require Export LockModel LockSpec DumpSpec RaceSpec.
From Verif Require Import LockProofs LockRaces3.
Open Scope nat_scope.

(** Any number of threads, each making any calls: some interleaving has a data race exactly when two threads make calls that can come across
    the same record set, the vault's list of record sets or the list of file errors, one of them writing it, neither keeping the other out (see
    [uses] and [can_race]: what each call reads and writes under which lock). *)
Lemma t_C57_race_exactly_partial :
  forall cs, (exists l s, crun (c_init (program <$> cs)) l = Some s /\ race s) <-> racy cs.
Proof. exact race_iff. Qed.
(** Every such pair of calls, in any two threads of any program, really races in some interleaving, whatever calls come before and after. *)
Lemma t_C57_every_clash_races_partial :
  forall cs t u c d, t <> u -> calls cs t c -> calls cs u d -> can_race c d -> exists l s, crun (c_init (program <$> cs)) l = Some s /\ race s.
Proof. intros cs t u c d Hne Hc Hd H. apply race_iff. by exists t, u, c, d. Qed.
(** Threads that only use the vault and its records, no record sets and not GetErrorsInLastReadedFile, never race. *)
Lemma t_C57_without_sets_partial :
  forall cs l s, (forall t c, calls cs t c -> on_vault_or_record c) -> crun (c_init (program <$> cs)) l = Some s -> ~ race s.
Proof.
  intros cs l s H E Hr. assert (racy cs) as (t & u & c & d & Hne & Hc & Hd & x & w & g & w' & g' & Hx & Hy & Hw & Hex) by (apply race_iff; eauto).
  assert (forall c, on_vault_or_record c -> forall x w g, (x, w, g) ∈ uses c -> g = GWrite) as Hg.
  { clear. intros c Hc x w g. destruct c; try (by destruct Hc); cbn [uses]; unfold rd, wt; intros Hx; set_unfold in Hx;
      repeat match type of Hx with _ \/ _ => destruct Hx as [Hx|Hx] end; repeat match type of Hx with exists _, _ => destruct Hx as [? Hx] | _ /\ _ => destruct Hx as [Hx ?] end; try done; by injection Hx. }
  pose proof (Hg c (H t c Hc) x w g Hx) as ->. pose proof (Hg d (H u d Hd) x w' g' Hy) as ->. apply Hex. left. split; [done|discriminate].
Qed.
(** Any two threads that fill record sets, by requests or by Intersection, race, whichever sets these are. *)
Lemma t_C57_two_requests_partial :
  forall cs t u c d, t <> u -> calls cs t c -> calls cs u d -> fills_set c -> fills_set d -> exists l s, crun (c_init (program <$> cs)) l = Some s /\ race s.
Proof.
  intros cs t u c d Hne Hc Hd Fc Fd. apply race_iff. exists t, u, c, d. split; [done|]. split; [done|]. split; [done|].
  exists LSets, true, GRead, true, GRead. assert (forall c, fills_set c -> (LSets, true, GRead) ∈ uses c) as Hf by (clear; intros c H; destruct c; try (by destruct H); cbn [uses]; unfold rd, wt; set_solver).
  split; [by apply Hf|]. split; [by apply Hf|]. split; [by left|]. by intros [[? _]|[? _]].
Qed.
