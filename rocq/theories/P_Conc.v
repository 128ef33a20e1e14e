(** Generated by tools/gen_p.py from T_Conc.v: the property theorems, nothing else. *)
From Verif Require Import T_Conc Ex_Base Ex_Conc ConcEx.
Open Scope nat_scope.

(** Any number of threads, any interleaving of the steps of locking, reading, writing in pieces, and unlocking: the calls and their answers
    are those of a sequential history in which each call takes effect once, at a moment between its beginning and its return; and when no
    thread is inside a call, the memory is what that history leaves. *)
Theorem C58_linearizable :
  forall b V own n w0 s, reach b w0 -> lruns b V own (l_init n w0) s ->
    exists L w, explains b V w0 (l_log s) L w /\ ((forall t ph, l_phase s !! t = Some ph -> ph = Outside) -> l_mem s = w).
Proof. exact t_C58_linearizable. Qed.
Print Assumptions C58_linearizable.
Example ex_C58_linearizable :
  exists b V own n w0 s,
    reach b w0 /\
    lruns b V own (l_init n w0) s /\
    length (l_log s) = 6 /\ l_phase s = [Outside; Outside; Outside] /\ l_log s !! 0 = Some (ECall 0 (COp id_order (OSetData 0 "age" (VInt I32 31)))).
Proof. exact tex_C58_linearizable. Qed.

(** The answer of a reading call, and what it puts into its reference variables, do not depend on what other threads do to theirs at the same
    time: in two states of the memory that are the same to the thread it is the same. *)
Theorem C58_answers_stable :
  forall b V own t c w1 w2 w1' r, reach b w1 -> reach b w2 -> same_for own t w1 w2 -> mode V c = Some KRead -> (forall f, f ∈ refs_of c -> own f = t) ->
    proper b V w1 c -> perform V w1 c = Some (w1', r) ->
    exists w2', perform V w2 c = Some (w2', r) /\ forall f, own f = t -> w_refs w2' !! f = w_refs w1' !! f.
Proof. exact t_C58_answers_stable. Qed.
Print Assumptions C58_answers_stable.
Example ex_C58_answers_stable :
  exists b V own t c w1 w2 w1' r,
    reach b w1 /\
    reach b w2 /\
    same_for own t w1 w2 /\
    mode V c = Some KRead /\
    (forall f, f ∈ refs_of c -> own f = t) /\
    proper b V w1 c /\
    perform V w1 c = Some (w1', r) /\
    f_rec (rf_at w1 1) = Some 1 /\ f_rec (rf_at w2 1) = Some 0.
Proof. exact tex_C58_answers_stable. Qed.
