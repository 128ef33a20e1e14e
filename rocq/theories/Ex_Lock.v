(** Generated by tools/gen_ex.py from tools/examples.txt. *)
From Verif Require Import T_Lock Ex_Base LockEx.
Open Scope nat_scope.

Lemma tex_C56_can_always_finish_partial :
  exists cs l s,
    (forall t cl c, cs !! t = Some cl -> c ∈ cl -> ~ dumps c) /\
    crun (c_init (program <$> cs)) l = Some s /\
    length (c_todo s) = 2.
Proof. exists ([[KRefGet 0; KErase [(0, [3])]]; [KRefSet 0 [[3]]; KGetRecords [0; 1] [2]]]), (replicate 9 0 ++ replicate 5 1), (default (c_init []) (crun (c_init (program <$> ([[KRefGet 0; KErase [(0, [3])]]; [KRefSet 0 [[3]]; KGetRecords [0; 1] [2]]]))) (replicate 9 0 ++ replicate 5 1))); lx. Qed.

Lemma tex_C56_no_deadlock_partial :
  exists cs l s,
    (forall t cl c, cs !! t = Some cl -> c ∈ cl -> ~ dumps c) /\
    crun (c_init (program <$> cs)) l = Some s /\
    length (c_todo s) = 2.
Proof. exists ([[KRefGet 0; KErase [(0, [3])]]; [KRefSet 0 [[3]]; KGetRecords [0; 1] [2]]]), (replicate 9 0 ++ replicate 2 1), (default (c_init []) (crun (c_init (program <$> ([[KRefGet 0; KErase [(0, [3])]]; [KRefSet 0 [[3]]; KGetRecords [0; 1] [2]]]))) (replicate 9 0 ++ replicate 2 1))); lx. Qed.

Lemma tex_C56_finish_exactly_partial :
  exists cs,
    ~ standoff cs /\ length cs = 3.
Proof. exists (quiet_dumps); split; [apply quiet_dumps_quiet|reflexivity]. Qed.

Lemma tex_C56_standoff_partial :
  exists cs,
    standoff cs /\
    length cs = 3.
Proof. exists (loud_dumps); split; [apply loud_dumps_loud|reflexivity]. Qed.

Lemma tex_C56_no_deadlock_with_dumps_partial :
  exists cs l s,
    ~ standoff cs /\
    crun (c_init (program <$> cs)) l = Some s /\
    length (c_todo s) = 3.
Proof. exists (quiet_dumps), (replicate 5 0 ++ replicate 9 1 ++ [0]), (default (c_init []) (crun (c_init (program <$> (quiet_dumps))) (replicate 5 0 ++ replicate 9 1 ++ [0]))); split; [apply quiet_dumps_quiet|split; vm_compute; reflexivity]. Qed.

Lemma tex_C56_only_readers_partial :
  exists cs l s,
    (forall t c, calls cs t c -> ~ writes c) /\
    crun (c_init (program <$> cs)) l = Some s /\
    length (c_todo s) = 3.
Proof. exists (reading_dumps), (replicate 5 0 ++ replicate 9 1 ++ [0]), (default (c_init []) (crun (c_init (program <$> (reading_dumps))) (replicate 5 0 ++ replicate 9 1 ++ [0]))); split; [apply reading_dumps_read|split; vm_compute; reflexivity]. Qed.

Lemma tex_C57_no_race_partial :
  exists R cs l s,
    (forall t cl c, cs !! t = Some cl -> c ∈ cl -> clean R t c) /\
    crun (c_init (program <$> cs)) l = Some s /\
    length (c_todo s) = 2.
Proof. exists (each), ([[KRequest 0 [] [0; 1]; KSetIntersect 20 0 10 [1]; KSetClear 0 [0; 1]; KRefGet 0; KErase [(0, [10; 11])]; KSetAdd 10 1]; [KRefSet 0 [[1; 10]]; KSetSame 1 1; KGetRecords [0; 1] [2]; KReadFile [5; 6]; KErrors; KSetGet 11 []]]), (replicate 9 0 ++ replicate 2 1), (default (c_init []) (crun (c_init (program <$> ([[KRequest 0 [] [0; 1]; KSetIntersect 20 0 10 [1]; KSetClear 0 [0; 1]; KRefGet 0; KErase [(0, [10; 11])]; KSetAdd 10 1]; [KRefSet 0 [[1; 10]]; KSetSame 1 1; KGetRecords [0; 1] [2]; KReadFile [5; 6]; KErrors; KSetGet 11 []]]))) (replicate 9 0 ++ replicate 2 1))); lx. Qed.
