(** Decision procedures for the concrete cases beside the theorems about printed tables. *)
From Verif Require Export JsonEx PrintSpec.
Open Scope nat_scope.

Definition entries_okb (w : world) (X : gset nat) (k : string) (l : entries) : bool :=
  bool_decide (Forall (fun e : value * nat => e.2 ∈ X /\ stored w e.2 k = Some e.1) l) &&
  forallb (fun r => match stored w r k with Some v => bool_decide ((v, r) ∈ l) | None => true end) (elements X).
Lemma entries_okb_ok w X k l : entries_okb w X k l = true -> forall v r, (v, r) ∈ l <-> r ∈ X /\ stored w r k = Some v.
Proof.
  intros H v r. apply andb_true_iff in H as [H1 H2]. apply bool_decide_eq_true in H1. rewrite forallb_forall in H2. rewrite Forall_forall in H1. split; [intros Hin; by apply (H1 (v, r))|].
  intros [Hr Hs]. specialize (H2 r). rewrite <- elem_of_list_In, elem_of_elements in H2. specialize (H2 Hr). rewrite Hs in H2. by apply bool_decide_eq_true in H2.
Qed.
Definition indexedb (w : world) (ob : obj) : bool :=
  forallb (fun k => match o_idx ob !! k with Some ix => entries_okb w (o_recs ob) k (ix_hash ix) && entries_okb w (o_recs ob) k (ix_tree ix) | None => false end) (elements (dom (o_keys ob))).
Lemma indexedb_ok w ob : indexedb w ob = true -> indexed w ob.
Proof.
  intros H k [t Hk] v r. unfold indexedb in H. rewrite forallb_forall in H. unfold get_key_type in Hk. destruct (o_keys ob !! k) as [td|] eqn:E; [|done]. specialize (H k). rewrite <- elem_of_list_In, elem_of_elements, elem_of_dom in H. specialize (H ltac:(eauto)).
  unfold filed, filed_ord. destruct (o_idx ob !! k) as [ix|]; [|done]. apply andb_true_iff in H as [H1 H2]. split.
  - rewrite <- (entries_okb_ok _ _ _ _ H1). split; [intros (ix' & [= <-] & ?); done|eauto].
  - rewrite <- (entries_okb_ok _ _ _ _ H2). split; [intros (ix' & [= <-] & ?); done|eauto].
Qed.
Lemma refs_of (o : nat) (ob : obj) (rfs : list vref) :
  forallb (fun rf => bool_decide (f_vlt rf = Some o) && match f_rec rf with Some r => bool_decide (r ∈ o_recs ob) | None => false end) rfs = true ->
  forall rf, rf ∈ rfs -> f_vlt rf = Some o /\ exists r, f_rec rf = Some r /\ r ∈ o_recs ob.
Proof. intros H rf Hin. rewrite forallb_forall in H. apply elem_of_list_In, H, andb_true_iff in Hin as [E F]. apply bool_decide_eq_true in E. split; [done|]. destruct (f_rec rf); [apply bool_decide_eq_true in F; eauto|done]. Qed.
Lemma idx_keys (ob : obj) : bool_decide (map_Forall (fun k _ => is_Some (get_key_type ob k)) (o_idx ob)) = true -> forall k, is_Some (o_idx ob !! k) -> is_Some (get_key_type ob k).
Proof. intros H k [ix E]. apply bool_decide_eq_true in H. by apply (H k ix). Qed.
Ltac px := repeat match goal with
  | |- _ /\ _ => split
  | |- forall k, k ∈ ?l -> is_Some (get_key_type ?ob k) => apply (all_keys_b l (fun k => is_Some (get_key_type ob k))); vmr
  | |- forall rf, rf ∈ ?l -> f_vlt rf = _ /\ @?P rf => apply refs_of; vmr
  | |- forall k, is_Some (o_idx _ !! k) -> is_Some (get_key_type _ k) => apply idx_keys; vmr
  | |- forall l, l ≡ₚ l => reflexivity
  | |- indexed _ _ => apply indexedb_ok; vmr
  | |- (if decide _ then _ else _) = Some _ => vmr
  | |- sorted_records _ _ _ _ _ = Some _ => vmr
  | |- _ :: _ <> [] => let H := fresh in intros H; discriminate H
  | |- Some _ <> Some _ => let H := fresh in intros H; discriminate H
  | |- _ => progress ex
  end.
