(** Generated by tools/gen_p.py from T_Life.v: the property theorems, nothing else. *)
From Verif Require Import T_Life Ex_Base Ex_Life LifeEx.
Open Scope nat_scope.

(** Whatever the threads do with their references and the vault, and however their steps are interleaved: no step ever touches the record after it was
    freed, it is never freed twice, and its counter never falls below zero. *)
Theorem C59_no_use_after_free :
  forall n l, life_run (life_init n) l <> Crash.
Proof. exact t_C59_no_use_after_free. Qed.
Print Assumptions C59_no_use_after_free.
Example ex_C59_no_use_after_free :
  lf_freed (life_to 2 end_sched) = true.
Proof. exact tex_C59_no_use_after_free. Qed.

(** As long as the vault holds the record or any thread holds a reference to it, its memory is not freed. *)
Theorem C59_alive_while_used :
  forall n l s, life_run (life_init n) l = Next s ->
    (lf_listed s = true \/ exists t th, lf_threads s !! t = Some th /\ 0 < lt_refs th) -> lf_freed s = false.
Proof. exact t_C59_alive_while_used. Qed.
Print Assumptions C59_alive_while_used.
Example ex_C59_alive_while_used :
  exists n l s,
    life_run (life_init n) l = Next s /\
    (lf_listed s = true \/ exists t th, lf_threads s !! t = Some th /\ 0 < lt_refs th) /\
    lf_count s = 1.
Proof. exact tex_C59_alive_while_used. Qed.

(** Whenever no thread is inside a call, the memory is freed exactly if the vault has let go of the record and no thread holds a reference to it:
    nothing is freed too early and nothing leaks. The record then is valid exactly if the vault holds it. *)
Theorem C59_freed_iff_unused :
  forall n l s, life_run (life_init n) l = Next s -> (forall t th, lf_threads s !! t = Some th -> lt_pc th = LIdle) ->
    (lf_freed s = true <-> lf_listed s = false /\ forall t th, lf_threads s !! t = Some th -> lt_refs th = 0) /\ lf_valid s = lf_listed s.
Proof. exact t_C59_freed_iff_unused. Qed.
Print Assumptions C59_freed_iff_unused.
Example ex_C59_freed_iff_unused :
  exists n l s,
    life_run (life_init n) l = Next s /\
    (forall t th, lf_threads s !! t = Some th -> lt_pc th = LIdle) /\
    lf_freed s = true.
Proof. exact tex_C59_freed_iff_unused. Qed.

(** The threads never block each other for good on the record: from every state they can all complete their calls. *)
Theorem C59_can_always_finish :
  forall n l s, life_run (life_init n) l = Next s ->
    exists l' s', (forall a, a ∈ l' -> exists t, a = AStep t) /\ life_run s l' = Next s' /\ forall t th, lf_threads s' !! t = Some th -> lt_pc th = LIdle.
Proof. exact t_C59_can_always_finish. Qed.
Print Assumptions C59_can_always_finish.
Example ex_C59_can_always_finish :
  exists n l s,
    life_run (life_init n) l = Next s /\
    lt_pc <$> lf_threads s = [LFree KDrop true; LFree KInv false].
Proof. exact tex_C59_can_always_finish. Qed.
