(** Executable schedules for the examples of T_Conc.v. *)
From Verif Require Import Runs T_Base Ex_Base ConcModel ConcProofs.
Open Scope nat_scope.

Inductive sact := SCall (t : nat) (c : ccall) | SLock (t : nat) | SBegin (t : nat) | SLook (t : nat) | SScribble (t : nat) (w : world) | SFinish (t : nat) | SReturn (t : nat).
Definition fair_call (c : ccall) : Prop := match c with COp ord _ => fair ord | CAsk _ => True end.
Definition properb (b : bool) (V : nat) (w : world) (c : ccall) : bool :=
  is_vault w V && match through c with Some f => bool_decide (bound_to w f V) | None => true end &&
  match c with COp _ p => allowedb b w p | CAsk _ => true end.
Lemma properb_ok b V w c : fair_call c -> properb b V w c = true -> proper b V w c.
Proof.
  intros Hf H. unfold properb in H. apply andb_true_iff in H as [H H3]. apply andb_true_iff in H as [H1 H2]. split; [eexists; by apply at_vault|]. split.
  - intros f Ht. rewrite Ht in H2. by apply bool_decide_eq_true in H2.
  - destruct c; [|done]. split; [done|]. by apply allowedb_ok.
Qed.
Definition sstep (b : bool) (V : nat) (own : nat -> nat) (s : lstate) (a : sact) : option lstate :=
  let '(LState l w ph log) := s in
  match a with
  | SCall t c =>
      match ph !! t, mode V c with
      | Some Outside, Some k => if forallb (fun f => own f =? t) (refs_of c) then l' ← rstep l (RLock t k); Some (LState l' w (<[t := Entering c]> ph) (log ++ [ECall t c])) else None
      | _, _ => None
      end
  | SLock t => l' ← (match rstep l (RGo t) with Some l' => Some l' | None => rstep l (RNext t) end); Some (LState l' w ph log)
  | SBegin t => match ph !! t with Some (Entering c) => if at_rest l t then Some (LState l w (<[t := Inside c w w []]> ph) log) else None | _ => None end
  | SLook t => match ph !! t with Some (Inside c w0 kept ps) => Some (LState l w (<[t := Inside c w0 kept ((kept, w) :: ps)]> ph) log) | _ => None end
  | SScribble t w1 =>
      match ph !! t with
      | Some (Inside c w0 kept ps) => match mode V c with Some KWrite => Some (LState l w1 (<[t := Inside c w0 w1 ((kept, w) :: ps)]> ph) log) | _ => None end
      | _ => None
      end
  | SFinish t =>
      match ph !! t, s_threads l !! t with
      | Some (Inside c w0 kept ps), Some th =>
          match t_stack th with
          | [k] =>
              let base := match mode V c with Some KWrite => w0 | _ => w end in
              if properb b V base c then
                l' ← rstep l (RUnlock t); '(w', r) ← perform V base c; Some (LState l' w' (<[t := Leaving c r]> ph) log)
              else None
          | _ => None
          end
      | _, _ => None
      end
  | SReturn t => match ph !! t with Some (Leaving c r) => if at_rest l t then Some (LState l w (<[t := Outside]> ph) (log ++ [ERet t c r])) else None | _ => None end
  end.
Fixpoint srun b V own s (l : list sact) : option lstate := match l with [] => Some s | a :: l => s' ← sstep b V own s a; srun b V own s' l end.
Definition call_of (ph : phase) : option ccall := match ph with Outside => None | Entering c | Inside c _ _ _ | Leaving c _ => Some c end.
Definition fair_state (s : lstate) : Prop := forall t ph c, l_phase s !! t = Some ph -> call_of ph = Some c -> fair_call c.
Definition fair_act (a : sact) : Prop := match a with SCall _ c => fair_call c | _ => True end.
Lemma fair_insert s t c ph l w log : fair_state s -> fair_call c -> (call_of ph = Some c \/ call_of ph = None) -> fair_state (LState l w (<[t := ph]> (l_phase s)) log).
Proof.
  intros H Hc Hp u ph' c' Hu E. cbn in Hu. destruct (decide (u = t)) as [->|].
  - destruct (decide (t < length (l_phase s))); [|rewrite list_insert_ge in Hu by lia; by eapply H]. rewrite list_lookup_insert in Hu by lia. injection Hu as <-. destruct Hp; congruence.
  - rewrite list_lookup_insert_ne in Hu by done. by eapply H.
Qed.
Lemma sstep_ok b V own s a s' : fair_state s -> fair_act a -> sstep b V own s a = Some s' -> lstep b V own s s' /\ fair_state s'.
Proof.
  destruct s as [l w ph log]. intros HF Ha E. destruct a as [t c|t|t|t|t w1|t|t]; cbn [sstep] in E.
  - destruct (ph !! t) as [[]|] eqn:Ep; try done. destruct (mode V c) as [k|] eqn:Em; [|done]. destruct (forallb _ _) eqn:Eo; [|done].
    destruct (rstep l (RLock t k)) as [l'|] eqn:El; [|done]. injection E as <-. split; [|by eapply (fair_insert (LState l w ph log)); eauto].
    eapply ls_call; eauto. intros f Hf. rewrite forallb_forall in Eo. apply Nat.eqb_eq. apply Eo. by apply elem_of_list_In.
  - destruct (rstep l (RGo t)) as [l'|] eqn:El; [injection E as <-; split; [eapply ls_lock; [by right|done]|done]|].
    destruct (rstep l (RNext t)) as [l'|] eqn:El'; [injection E as <-; split; [eapply ls_lock; [by left|done]|done]|done].
  - destruct (ph !! t) as [[]|] eqn:Ep; try done. destruct (at_rest l t) eqn:Er; [|done]. injection E as <-. split; [by eapply ls_begin|]. eapply (fair_insert (LState l w ph log)); [done| |by left]. by eapply HF.
  - destruct (ph !! t) as [[]|] eqn:Ep; try done. injection E as <-. split; [by eapply ls_look|]. eapply (fair_insert (LState l w ph log)); [done| |by left]. by eapply HF.
  - destruct (ph !! t) as [[| |c w0 kept ps|]|] eqn:Ep; try done. destruct (mode V c) as [[]|] eqn:Em; try done. injection E as <-. split; [by eapply ls_write|]. eapply (fair_insert (LState l w ph log)); [done| |by left]. by eapply HF.
  - destruct (ph !! t) as [[| |c w0 kept ps|]|] eqn:Ep; try done. destruct (s_threads l !! t) as [th|] eqn:Et; [|done]. destruct (t_stack th) as [|k [|]] eqn:Es; try done.
    destruct (properb b V _ c) eqn:Epr; [|done]. destruct (rstep l (RUnlock t)) as [l'|] eqn:El; [|done]. cbn [mbind option_bind] in E.
    destruct (perform V _ c) as [[w' r]|] eqn:Ef; [|done]. cbn [mbind option_bind] in E. injection E as <-.
    assert (fair_call c) as Hc by (by eapply HF). split; [|eapply (fair_insert (LState l w ph log)); [done|done|by left]].
    eapply ls_finish; eauto. intros _. split; [by apply properb_ok|done].
  - destruct (ph !! t) as [[]|] eqn:Ep; try done. destruct (at_rest l t) eqn:Er; [|done]. injection E as <-. split; [by eapply ls_return|]. eapply (fair_insert (LState l w ph log)); [done| |by right]. by eapply HF.
Qed.
Lemma srun_ok b V own acts : forall s s0 s', lruns b V own s0 s -> fair_state s -> Forall fair_act acts -> srun b V own s acts = Some s' -> lruns b V own s0 s'.
Proof.
  induction acts as [|a acts IH]; cbn [srun]; intros s s0 s' H HF HA E; [by injection E as <-|].
  destruct (sstep b V own s a) as [s1|] eqn:E1; [|done]. cbn [mbind option_bind] in E. inversion HA as [|? ? Ha Hacts]; subst.
  destruct (sstep_ok b V own s a s1 HF Ha E1) as [H1 HF1]. eapply (IH s1); eauto. by eapply lruns_step.
Qed.
(** The state a schedule leads to. *)
Definition sto b V own n w acts : lstate := default (l_init n w) (srun b V own (l_init n w) acts).
Lemma sto_ok b V own n w acts : Forall fair_act acts -> bool_decide (is_Some (srun b V own (l_init n w) acts)) = true -> lruns b V own (l_init n w) (sto b V own n w acts).
Proof.
  intros HA H. apply bool_decide_eq_true in H as [s E]. unfold sto. rewrite E. cbn. eapply srun_ok; [constructor| |done|done].
  intros t ph c Ht Hc. cbn in Ht. apply lookup_replicate in Ht as [-> _]. done.
Qed.
Global Opaque sto.
(** A write overlapping with two reads; thread t owns the references t, t+3, ... *)
Definition own3 (f : nat) : nat := f mod 3.
Definition sched : list sact :=
  [SCall 0 (COp id_order (OSetData 0 "age" (VInt I32 31))); SCall 1 (CAsk (AGetData 1 "age" (TInt I32))); SCall 2 (COp id_order (OGetRecord 0 "age" (VInt I32 31) 2))] ++
  replicate 5 (SLock 0) ++ [SBegin 0; SScribble 0 empty_world; SFinish 0] ++ replicate 2 (SLock 0) ++ [SReturn 0] ++
  replicate 6 (SLock 1) ++ [SBegin 1] ++ replicate 6 (SLock 2) ++ [SBegin 2; SFinish 2; SLook 1; SFinish 1] ++
  replicate 5 (SLock 1) ++ [SReturn 1] ++ replicate 6 (SLock 2) ++ [SReturn 2].
Lemma sched_fair : Forall fair_act sched.
Proof.
  unfold sched. cbn [app replicate]. repeat (constructor; [first [exact I|apply id_order_fair]|]). constructor.
Qed.
(** Reading into a reference variable of another thread. *)
Lemma same_for_get own t w V k v g : reach true w -> properb true V w (COp id_order (OGetRecord V k v g)) && bool_decide (is_Some (step id_order w (OGetRecord V k v g))) = true ->
  own g <> t -> same_for own t w (nw w (OGetRecord V k v g)).
Proof.
  intros HR H Hg. apply andb_true_iff in H as [H1 H2].
  destruct (read_step true V w (COp id_order (OGetRecord V k v g)) (nw w (OGetRecord V k v g)) (RpOp (out_of w (OGetRecord V k v g))) HR) as [Ha Hb].
  - apply properb_ok; [apply id_order_fair|done].
  - cbn. unfold on_vault. by rewrite decide_True.
  - cbn [perform]. by rewrite (step_out _ _ H2).
  - split; [done|]. intros f Hf. apply Hb. cbn [refs_of]. rewrite elem_of_list_singleton. congruence.
Qed.
Lemma ask_perform V w a r : reply_to V w a = Some r -> perform V w (CAsk a) = Some (w, r).
Proof. intros H. cbn [perform]. by rewrite H. Qed.
Ltac cx :=
  lazymatch goal with
  | |- _ /\ _ => split; [cx|cx]
  | |- lruns _ _ _ _ _ => apply sto_ok; [exact sched_fair|vm_compute; reflexivity]
  | |- reach _ _ => reach_tac
  | |- perform _ _ _ = _ => apply ask_perform; vm_compute; reflexivity
  | |- same_for _ _ _ _ => apply same_for_get; [reach_tac|vm_compute; reflexivity|vm_compute; discriminate]
  | |- proper _ _ _ _ => apply properb_ok; [exact I|vm_compute; reflexivity]
  | |- forall f, f ∈ _ -> _ => let f := fresh "f" in let H := fresh "H" in intros f H; apply elem_of_list_singleton in H as ->; vm_compute; reflexivity
  | |- _ => first [vm_compute; reflexivity|ex]
  end.
