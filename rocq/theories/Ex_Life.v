(** Generated by tools/gen_ex.py from tools/examples.txt. *)
From Verif Require Import T_Life Ex_Base LifeEx.
Open Scope nat_scope.

Lemma tex_C59_no_use_after_free :
  lf_freed (life_to 2 end_sched) = true.
Proof. fx. Qed.

Lemma tex_C59_alive_while_used :
  exists n l s,
    life_run (life_init n) l = Next s /\
    (lf_listed s = true \/ exists t th, lf_threads s !! t = Some th /\ 0 < lt_refs th) /\
    lf_count s = 1.
Proof. exists (2), (get_sched), (life_to 2 get_sched); fx. Qed.

Lemma tex_C59_freed_iff_unused :
  exists n l s,
    life_run (life_init n) l = Next s /\
    (forall t th, lf_threads s !! t = Some th -> lt_pc th = LIdle) /\
    lf_freed s = true.
Proof. exists (2), (end_sched), (life_to 2 end_sched); fx. Qed.

Lemma tex_C59_can_always_finish :
  exists n l s,
    life_run (life_init n) l = Next s /\
    lt_pc <$> lf_threads s = [LFree KDrop true; LFree KInv false].
Proof. exists (2), (race_sched), (life_to 2 race_sched); fx. Qed.
