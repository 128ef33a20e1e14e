(** C66: the debug trace. *)
From Coq Require Import String.
From Verif Require Export TraceModel TraceSpec.
Open Scope nat_scope.
Open Scope string_scope.

Section Event_ind.
Context (P : event -> Prop) (Hc : forall f body, Forall P body -> P (ECall f body)) (Hf : forall r c, P (EFail r c)) (Hp : P EPrint) (Hs : forall on, P (EFormat on)).
Fixpoint event_ind' (e : event) : P e :=
  match e with
  | ECall f body => Hc f body ((fix go l := match l as l return Forall P l with [] => Forall_nil_2 P | e :: l => Forall_cons_2 P e l (event_ind' e) (go l) end) body)
  | EFail r c => Hf r c | EPrint => Hp | EFormat on => Hs on
  end.
End Event_ind.

Lemma app_assoc_s (a b c : string) : (a ++ b) ++ c = a ++ (b ++ c).
Proof. induction a as [|x a IH]; [done|]. exact (f_equal (String x) IH). Qed.
Lemma app_nil_s (a : string) : a ++ "" = a.
Proof. induction a as [|x a IH]; [done|]. exact (f_equal (String x) IH). Qed.
Lemma leave_enter f tr on out : leave f (TState (tr ++ [f])%list on out) = Some (TState tr on out).
Proof. unfold leave. cbn [d_trace d_on d_out]. rewrite last_snoc, String.eqb_refl, removelast_last. done. Qed.

Section Trace.
Context (support : bool) (below : nat) (nm : option vtype -> string) (Hb : 2 <= below).
(** The functions in progress, outermost first, and the outermost one. *)
Lemma print_ok tr on out who : who = head tr -> (on = true -> 1 <= length tr /\ (support = true -> length tr <= 1021)) ->
  print_trace support below (TState tr on out) = Some (TState tr on (out ++ if on then match who with Some f => from_line support f | None => "" end else "")).
Proof.
  intros -> H. unfold print_trace. cbn [d_trace d_on d_out]. destruct on; [|by rewrite app_nil_s]. destruct (H eq_refl) as [H1 H2]. destruct tr as [|front tr]; [cbn in H1; lia|]. cbn [head].
  unfold from_line. destruct support.
  - specialize (H2 eq_refl). replace (_ <? _)%nat with true by (symmetry; apply Nat.ltb_lt; unfold trace_max; cbn [length] in *; lia). rewrite last_snoc, removelast_last. by rewrite app_nil_s.
  - unfold say. cbn [d_trace d_on d_out]. done.
Qed.
Lemma print_ub tr on out : print_trace support below (TState tr on out) = None <-> on = true /\ (tr = [] \/ (support = true /\ 1022 <= length tr)).
Proof.
  unfold print_trace. cbn [d_trace d_on d_out]. destruct on; [|split; [done|by intros [? _]]]. destruct tr as [|front tr]; [split; auto|]. destruct support.
  - case_match eqn:E.
    + apply Nat.ltb_lt in E. rewrite last_snoc. split; [done|]. intros [_ [?|[_ ?]]]; [done|]. unfold trace_max in E. lia.
    + apply Nat.ltb_ge in E. split; [|done]. intros _. split; [done|]. right. split; [done|]. unfold trace_max in E. cbn [length] in *. lia.
  - split; [done|]. intros [_ [?|[? _]]]; done.
Qed.
Lemma head_snoc (tr : list string) f : head (tr ++ [f])%list = Some (default f (head tr)).
Proof. by destruct tr. Qed.
Lemma happen_ok e : forall tr on out, harmless_at support (length tr) on e ->
  happen support below nm e (TState tr on out) = Some (TState tr (format_after on e) (out ++ printed support nm (head tr) on e)).
Proof.
  induction e as [f body IH|r c| |on'] using event_ind'; intros tr on out H; cbn [happen printed format_after harmless_at] in *.
  - unfold enter. cbn [d_trace d_on d_out].
    assert (in_turn (happen support below nm) body (TState (tr ++ [f])%list on out) =
      Some (TState (tr ++ [f])%list ((fix go l on := match l with [] => on | e :: l => go l (format_after on e) end) body on)
        (out ++ (fix go l on := match l with [] => "" | e :: l => printed support nm (Some (default f (head tr))) on e ++ go l (format_after on e) end) body on))) as ->; [|apply leave_enter].
    revert on out H. induction body as [|e body IHb]; intros on out H; [by rewrite app_nil_s|]. destruct H as [H1 H2]. inversion IH as [|? ? IH1 IH2]; subst. cbn [in_turn].
    rewrite IH1 by (rewrite app_length; cbn [length]; by replace (length tr + 1) with (S (length tr)) by lia). rewrite head_snoc. rewrite (IHb IH2) by done. by rewrite app_assoc_s.
  - unfold set_op_result, enter. cbn [d_trace d_on d_out]. destruct on.
    + rewrite leave_enter. cbn [mbind option_bind]. unfold say. cbn [d_trace d_on d_out].
      rewrite (print_ok _ _ _ (Some (default "SetOpResult" (head tr)))); [|by rewrite head_snoc|intros _; rewrite app_length; cbn [length]; split; [lia|]; intros Hs; specialize (H eq_refl Hs); lia].
      cbn [mbind option_bind]. rewrite leave_enter. unfold message. by rewrite !app_assoc_s.
    + cbn [mbind option_bind]. rewrite leave_enter. by rewrite app_nil_s.
  - by apply print_ok.
  - by rewrite app_nil_s.
Qed.
Lemma happen_ub e : forall tr on out, ~ harmless_at support (length tr) on e -> happen support below nm e (TState tr on out) = None.
Proof.
  induction e as [f body IH|r c| |on'] using event_ind'; intros tr on out H; cbn [happen printed format_after harmless_at] in *.
  - unfold enter. cbn [d_trace d_on d_out].
    assert (in_turn (happen support below nm) body (TState (tr ++ [f])%list on out) = None) as ->; [|done].
    revert on out H. induction body as [|e body IHb]; intros on out H; [by destruct H|]. inversion IH as [|? ? IH1 IH2]; subst. cbn [in_turn].
    assert (length (tr ++ [f])%list = S (length tr)) as El by (rewrite app_length; cbn; lia).
    assert (harmless_at support (S (length tr)) on e \/ ~ harmless_at support (S (length tr)) on e) as [H1|H1].
    { clear. generalize (S (length tr)) as d. revert on. induction e as [f body IH|r c| |on'] using event_ind'; intros on d; cbn [harmless_at].
      - revert on. induction body as [|e body IHb]; intros on; [by left|]. inversion IH as [|? ? IH1 IH2]; subst. specialize (IHb IH2 (format_after on e)). specialize (IH1 on (S d)). tauto.
      - destruct on, support; try (left; done). destruct (decide (d <= 1020)); [left; auto|right; intros X; specialize (X eq_refl eq_refl); lia].
      - destruct on; [|by left]. destruct (decide (1 <= d)); [|right; intros X; destruct (X eq_refl); lia]. destruct support; [|left; done].
        destruct (decide (d <= 1021)); [left; auto|right; intros X; destruct (X eq_refl) as [_ Y]; specialize (Y eq_refl); lia].
      - by left. }
    + rewrite happen_ok by (by rewrite El). apply IHb; [done|]. tauto.
    + rewrite IH1 by (by rewrite El). done.
  - assert (on = true /\ support = true /\ 1021 <= length tr) as (-> & Hs & Hl).
    { destruct on; [|exfalso; apply H; done]. destruct support; [|exfalso; apply H; done]. split; [done|]. split; [done|]. destruct (decide (length tr <= 1020)); [exfalso; apply H; auto|lia]. }
    unfold set_op_result, enter. cbn [d_trace d_on d_out]. rewrite leave_enter. cbn [mbind option_bind]. unfold say. cbn [d_trace d_on d_out].
    match goal with |- context [print_trace ?a ?b ?c] => assert (print_trace a b c = None) as -> end; [|done].
    apply print_ub. split; [done|]. right. split; [done|]. rewrite app_length. cbn [length]. lia.
  - apply print_ub. destruct on; [|exfalso; by apply H]. split; [done|]. destruct tr as [|x tr]; [by left|]. right. destruct support; [|exfalso; apply H; intros _; cbn; split; [lia|done]].
    split; [done|]. destruct (decide (length (x :: tr) <= 1021)); [exfalso; apply H; intros _; cbn in *; split; [lia|done]|lia].
  - by destruct H.
Qed.
End Trace.

(** Whatever functions a thread calls, nested in whatever way, with errors and changes of the format anywhere: when the outermost call returns, the
    trace is what it was before, and what was printed is one message for each error reported while the format was Compact, each followed by the
    name of the outermost function in progress, the one the user called. *)
Lemma t_C66_names_the_function_called :
  forall support below nm e tr on out, 2 <= below -> harmless_at support (length tr) on e ->
    happen support below nm e (TState tr on out) = Some (TState tr (format_after on e) (out +:+ printed support nm (head tr) on e)).
Proof. intros. by apply happen_ok. Qed.
(** The trace is used beyond its bounds exactly if it is printed while no function is in progress (which only a direct call of PrintBackTrace
    does) or with more than 1020 functions inside each other. *)
Lemma t_C66_undefined_iff :
  forall support below nm e tr on out, 2 <= below -> happen support below nm e (TState tr on out) = None <-> ~ harmless_at support (length tr) on e.
Proof.
  intros support below nm e tr on out Hb. split; [|by apply happen_ub]. intros E H. rewrite happen_ok in E by done. done.
Qed.
