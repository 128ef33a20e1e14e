(** Generated by tools/gen_ex.py from tools/examples.txt. *)
From Verif Require Import T_Races Ex_Base LockEx RaceEx.
Open Scope nat_scope.

Lemma tex_C57_race_exactly_partial :
  ~ racy safe_sets /\ racy unsafe_sets.
Proof. split; [apply safe_sets_safe|apply unsafe_sets_racy]. Qed.

Lemma tex_C57_every_clash_races_partial :
  exists cs t u c d,
    t <> u /\
    calls cs t c /\
    calls cs u d /\
    can_race c d /\
    length unsafe_sets = 2.
Proof. exists (unsafe_sets), (0), (1), (KSetAdd 0 3), (KSetGet 0 [1]); split; [done|]; split; [eapply calls_in; [reflexivity|set_solver]|]; split; [eapply calls_in; [reflexivity|set_solver]|]; split; [exists (LSet 0), true, GRead, false, GRead; cbn; unfold rd, wt; split; [set_solver|]; split; [set_solver|]; split; [by left|]; by intros [[? _]|[? _]]|reflexivity]. Qed.

Lemma tex_C57_without_sets_partial :
  exists cs l s,
    (forall t c, calls cs t c -> on_vault_or_record c) /\
    crun (c_init (program <$> cs)) l = Some s /\
    length (c_todo s) = 3.
Proof. exists (no_sets), (replicate 9 0 ++ replicate 2 1), (default (c_init []) (crun (c_init (program <$> (no_sets))) (replicate 9 0 ++ replicate 2 1))); split; [apply no_sets_no|split; vm_compute; reflexivity]. Qed.

Lemma tex_C57_two_requests_partial :
  exists cs t u c d,
    t <> u /\
    calls cs t c /\
    calls cs u d /\
    fills_set c /\
    fills_set d /\
    length two_fill = 2.
Proof. exists (two_fill), (0), (1), (KRequest 0 [] [1]), (KSetIntersect 1 2 3 []); split; [done|]; split; [eapply calls_in; [reflexivity|set_solver]|]; split; [eapply calls_in; [reflexivity|set_solver]|]; repeat split. Qed.
