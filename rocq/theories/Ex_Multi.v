(** Generated by tools/gen_ex.py from tools/examples.txt. *)
From Verif Require Import T_Multi Ex_Base MultiEx.
Open Scope nat_scope.

Lemma tex_C63_can_always_finish :
  exists cs l s,
    (forall t cl c, cs !! t = Some cl -> c ∈ cl -> ~ v_dumps c) /\
    vrun (v_init (vprogram <$> cs)) l = Some s /\
    length (v_acts s) = 2.
Proof. exists ([[VAssign 0 1 [2] [] 1 [0]; VSortBy 0 [(0, [VOn 1 (KErase [(0, [3])])])]]; [VAssign 1 0 [] [] 2 [4]; VGenerate 1 [(0, [VOn 0 (KRefSet 0 [[]])])] []]]), (replicate 30 0 ++ replicate 15 1), (default (v_init []) (vrun (v_init (vprogram <$> ([[VAssign 0 1 [2] [] 1 [0]; VSortBy 0 [(0, [VOn 1 (KErase [(0, [3])])])]]; [VAssign 1 0 [] [] 2 [4]; VGenerate 1 [(0, [VOn 0 (KRefSet 0 [[]])])] []]]))) (replicate 30 0 ++ replicate 15 1))); vx. Qed.

Lemma tex_C63_no_deadlock :
  exists cs l s,
    (forall t cl c, cs !! t = Some cl -> c ∈ cl -> ~ v_dumps c) /\
    vrun (v_init (vprogram <$> cs)) l = Some s /\
    length (v_acts s) = 2.
Proof. exists ([[VAssign 0 1 [2] [] 1 [0]; VSortBy 0 [(0, [VOn 1 (KErase [(0, [3])])])]]; [VAssign 1 0 [] [] 2 [4]; VMove 2 1]]), (replicate 30 0 ++ replicate 15 1), (default (v_init []) (vrun (v_init (vprogram <$> ([[VAssign 0 1 [2] [] 1 [0]; VSortBy 0 [(0, [VOn 1 (KErase [(0, [3])])])]]; [VAssign 1 0 [] [] 2 [4]; VMove 2 1]]))) (replicate 30 0 ++ replicate 15 1))); vx. Qed.

Lemma tex_C64_no_race_partial :
  exists use R cs l s,
    (forall t cl c, cs !! t = Some cl -> c ∈ cl -> apart use R t [] c) /\
    vrun (v_init (vprogram <$> cs)) l = Some s /\
    length (v_acts s) = 2.
Proof. exists (mine), (fun _ => each), ([[VCopy 1 0 2 [0; 1]; VAssign 1 9 [] [] 1 [7]; VSortBy 0 [(0, [VOn 0 (KRefSet 0 [[0; 10]]); VOn 9 (KRequest 0 [] [3]); VOn 1 (KErase [(0, [])])])]]; [VOn 0 (KErase [(0, [1])]); VGenerate 0 [(1, [VOn 2 (KCreate 0 None true); VOn 9 KGet])] [11]; VOn 0 KErrors; VOn 2 (KDropVault [0] [])]]), (replicate 12 0 ++ replicate 2 1), (default (v_init []) (vrun (v_init (vprogram <$> ([[VCopy 1 0 2 [0; 1]; VAssign 1 9 [] [] 1 [7]; VSortBy 0 [(0, [VOn 0 (KRefSet 0 [[0; 10]]); VOn 9 (KRequest 0 [] [3]); VOn 1 (KErase [(0, [])])])]]; [VOn 0 (KErase [(0, [1])]); VGenerate 0 [(1, [VOn 2 (KCreate 0 None true); VOn 9 KGet])] [11]; VOn 0 KErrors; VOn 2 (KDropVault [0] [])]]))) (replicate 12 0 ++ replicate 2 1))); vx. Qed.

Lemma tex_C65_all_locks_free_in_the_end :
  exists cs l s,
    vrun (v_init (vprogram <$> cs)) l = Some s /\
    v_finished s /\
    length (v_threads s) = 2.
Proof. exists ([[VAssign 0 1 [2] [] 1 [0]]; [VSortBy 1 [(0, [VOn 0 (KRefDump 0)])]]]), (replicate 64 0 ++ replicate 34 1), (default (v_init []) (vrun (v_init (vprogram <$> ([[VAssign 0 1 [2] [] 1 [0]]; [VSortBy 1 [(0, [VOn 0 (KRefDump 0)])]]]))) (replicate 64 0 ++ replicate 34 1))); vx. Qed.
