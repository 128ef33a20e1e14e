(** Programs for the examples of T_Races.v. *)
From Verif Require Import LockModel LockSpec DumpSpec RaceSpec LockEx.
Open Scope nat_scope.
Definition clashb (c d : capi) : bool :=
  existsb (fun e : used => existsb (fun f : used => bool_decide (e.1.1 = f.1.1) && (e.1.2 || f.1.2) &&
    negb ((bool_decide (e.2 = GWrite) && negb (bool_decide (f.2 = GNone))) || (bool_decide (f.2 = GWrite) && negb (bool_decide (e.2 = GNone))))) (uses d)) (uses c).
Lemma can_raceb_true c d : can_race c d -> clashb c d = true.
Proof.
  intros (x & w & g & w' & g' & Hx & Hy & Hw & Hex). apply existsb_exists. exists (x, w, g). split; [by apply elem_of_list_In|].
  apply existsb_exists. exists (x, w', g'). split; [by apply elem_of_list_In|]. cbn. rewrite bool_decide_true by done.
  assert (w || w' = true) as -> by (destruct Hw as [-> | ->]; [done|apply orb_true_r]). cbn.
  apply negb_true_iff, orb_false_iff. split; apply andb_false_iff.
  - destruct (decide (g = GWrite)) as [->|]; [right|left; by apply bool_decide_false]. apply negb_false_iff, bool_decide_true. destruct (decide (g' = GNone)); [done|]. exfalso. apply Hex. by left.
  - destruct (decide (g' = GWrite)) as [->|]; [right|left; by apply bool_decide_false]. apply negb_false_iff, bool_decide_true. destruct (decide (g = GNone)); [done|]. exfalso. apply Hex. by right.
Qed.
(** Two threads that read the same record set, one of them erasing one of its records, the other changing a value of another; a third that keeps its own sets. *)
Definition safe_sets : list (list capi) :=
  [[KSetGet 0 [1]; KSetRecords 0 [1; 2] []; KErase [(1, [0; 7])]; KGet]; [KSetGet 0 []; KSetKeys 0; KRefSet 2 [[0]]; KReadFile [5]];
   [KRequest 7 [] [1; 2]; KSetAdd 7 3; KSetGet 7 [1]; KSetCopy 8 7 [1]; KSetReset 8 []]].
Lemma safe_sets_safe : ~ racy safe_sets.
Proof.
  intros (t & u & c & d & Hne & Hc & Hd & H). apply can_raceb_true in H. apply calls_at in Hc, Hd.
  destruct t as [|[|[|t]]]; cbn in Hc; lstep Hc; subst c; try discriminate H;
  destruct u as [|[|[|u]]]; cbn in Hd; lstep Hd; subst d; try done; vm_compute in H; discriminate H.
Qed.
Definition unsafe_sets : list (list capi) := [[KGet; KSetAdd 0 3; KGet]; [KReadFile [1]; KSetGet 0 [1]; KErrors]].
Lemma unsafe_sets_racy : racy unsafe_sets.
Proof.
  exists 0, 1, (KSetAdd 0 3), (KSetGet 0 [1]). split; [done|]. split; [eexists; split; [reflexivity|]; right; left|]. split; [eexists; split; [reflexivity|]; right; left|].
  exists (LSet 0), true, GRead, false, GRead. cbn. unfold rd, wt. split; [set_solver|]. split; [set_solver|]. split; [by left|]. by intros [[? _]|[? _]].
Qed.
Definition no_sets : list (list capi) := [[KErase [(0, [3])]; KGet; KRefGet 1]; [KRefSet 1 [[3]]; KCreate 5 None true; KReadFile [7]]; [KDropVault [1] [(3, [])]; KAddKey [1] []; KSortBy [1]]].
Lemma no_sets_no t c : calls no_sets t c -> on_vault_or_record c.
Proof. intros H. apply calls_at in H. destruct t as [|[|[|t]]]; cbn in H; lstep H; subst c; exact I. Qed.
Definition two_fill : list (list capi) := [[KSetReset 4 []; KRequest 0 [] [1]]; [KGet; KSetIntersect 1 2 3 []]].
Lemma calls_in cs t cl c : cs !! t = Some cl -> c ∈ cl -> calls cs t c.
Proof. intros. by exists cl. Qed.
