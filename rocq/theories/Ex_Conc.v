(** Generated by tools/gen_ex.py from tools/examples.txt. *)
From Verif Require Import T_Conc Ex_Base ConcEx.
Open Scope nat_scope.

Lemma tex_C58_linearizable :
  exists b V own n w0 s,
    reach b w0 /\
    lruns b V own (l_init n w0) s /\
    length (l_log s) = 6 /\ l_phase s = [Outside; Outside; Outside] /\ l_log s !! 0 = Some (ECall 0 (COp id_order (OSetData 0 "age" (VInt I32 31)))).
Proof. exists (true), (0), (own3), (3), (W), (sto true 0 own3 3 W sched); cx. Qed.

Lemma tex_C58_answers_stable :
  exists b V own t c w1 w2 w1' r,
    reach b w1 /\
    reach b w2 /\
    same_for own t w1 w2 /\
    mode V c = Some KRead /\
    (forall f, f ∈ refs_of c -> own f = t) /\
    proper b V w1 c /\
    perform V w1 c = Some (w1', r) /\
    f_rec (rf_at w1 1) = Some 1 /\ f_rec (rf_at w2 1) = Some 0.
Proof. exists (true), (0), (own3), (2), (CAsk (AGetData 2 "age" (TInt I32))), (W), (nw W (OGetRecord 0 "age" (VInt I32 30) 1)), (W), (RpData (okres Success "age" (Some (TInt I32)) (Some (TInt I32)), Some (VInt I32 40))); cx. Qed.
