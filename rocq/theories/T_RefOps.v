(** Lemmas for C48: reference variables. *)
From Verif Require Export T_Refs.
Open Scope nat_scope.

Lemma only_refs_kept w w' : ref_only w w' -> only_refs_changed w w'.
Proof.
  intros [O1 O2 O3 O4 O5]. split; [done|]. split.
  - intros r. rewrite !valid_rec_live. by rewrite O2.
  - intros r k. rewrite !stored_val_of. by rewrite O2.
Qed.

(** C48: a new reference variable denotes nothing; everything else is as before. *)
Lemma t_C48_new_exact :
  forall ord w f w' out, w_refs w !! f = None -> step ord w (ONewRef f) = Some (w', out) ->
    only_refs_changed w w' /\ is_Some (w_refs w' !! f) /\ (forall r, ~ denotes w' f r) /\ forall g, g <> f -> w_refs w' !! g = w_refs w !! g.
Proof.
  intros ord w f w' out Hf H. cbn [step] in H. unfold guard_op, is_ref in H. rewrite Hf in H. cbn in H. injection H as <- <-.
  split; [done|]. cbn. rewrite lookup_insert. split; [eauto|]. split.
  - intros r (rf & H1 & H2). cbn in H1. rewrite lookup_insert in H1. injection H1 as <-. done.
  - intros g Hg. by rewrite lookup_insert_ne.
Qed.
(** C48: destroying a reference variable ends it; everything else is as before. *)
Lemma t_C48_delete_exact :
  forall b ord w f w' out, reach b w -> is_Some (w_refs w !! f) -> step ord w (ODelRef f) = Some (w', out) ->
    only_refs_changed w w' /\ w_refs w' !! f = None /\ forall g, g <> f -> w_refs w' !! g = w_refs w !! g.
Proof.
  intros b ord w f w' out HR [rf Hf] H. pose proof (reach_inv _ _ HR) as HI. cbn [step] in H. unfold guard_op, is_ref in H. rewrite Hf in H.
  rewrite bool_decide_true in H by eauto. apply unit_inv in H as [H _].
  destruct (reset_ref_spec w f rf) as (w1 & E & Hro & Hr); [apply HI|done|]. rewrite E in H. cbn [mbind option_bind] in H. injection H as <-.
  apply only_refs_kept in Hro as (H1 & H2 & H3). split; [exact (conj H1 (conj H2 H3))|]. cbn. rewrite Hr. split; [apply lookup_delete|].
  intros g Hg. by rewrite lookup_delete_ne, lookup_insert_ne.
Qed.
(** C48: Reset makes the variable denote nothing; everything else is as before. *)
Lemma t_C48_reset_exact :
  forall b ord w f w' out, reach b w -> is_Some (w_refs w !! f) -> step ord w (OResetRef f) = Some (w', out) ->
    only_refs_changed w w' /\ is_Some (w_refs w' !! f) /\ (forall r, ~ denotes w' f r) /\ forall g, g <> f -> w_refs w' !! g = w_refs w !! g.
Proof.
  intros b ord w f w' out HR [rf Hf] H. pose proof (reach_inv _ _ HR) as HI. cbn [step] in H. unfold guard_op, is_ref in H. rewrite Hf in H.
  rewrite bool_decide_true in H by eauto. apply unit_inv in H as [H _].
  destruct (reset_ref_spec w f rf) as (w1 & E & Hro & Hr); [apply HI|done|]. rewrite (same_fst1 _ _ _ E H) in *.
  split; [by apply only_refs_kept|]. rewrite Hr, lookup_insert. split; [eauto|]. split.
  - intros r (rf' & H1 & H2). rewrite Hr, lookup_insert in H1. injection H1 as <-. done.
  - intros g Hg. by rewrite lookup_insert_ne.
Qed.
(** C48: copying makes the target denote what the source denotes, through the same vault; the source and everything else are as before. *)
Lemma t_C48_copy_exact :
  forall b ord w dst src w' out, reach b w -> is_Some (w_refs w !! dst) -> is_Some (w_refs w !! src) -> step ord w (OCopyRef dst src) = Some (w', out) ->
    only_refs_changed w w' /\ is_Some (w_refs w' !! dst) /\
    (forall r, denotes w' dst r <-> denotes w src r) /\
    (forall r o, denotes w src r -> (bound_to w' dst o <-> bound_to w src o)) /\
    forall g, g <> dst -> w_refs w' !! g = w_refs w !! g.
Proof.
  intros b ord w dst src w' out HR [rd Hd] [rs Hs] H. pose proof (reach_inv _ _ HR) as HI. cbn [step] in H. unfold guard_op, is_ref in H. rewrite Hd, Hs in H.
  rewrite !bool_decide_true in H by eauto. apply unit_inv in H as [H _]. destruct (decide (dst = src)) as [->|Hne].
  - unfold copy_ref in H. rewrite decide_True in H by done. injection H as <-. split; [done|]. split; [eauto|]. done.
  - destruct (copy_ref_spec w dst src rd rs) as (w1 & E & Hro & Hr); try done; [apply HI|]. rewrite (same_fst1 _ _ _ E H) in *.
    split; [by apply only_refs_kept|]. unfold denotes, bound_to. rewrite Hr, lookup_insert, Hs. split; [eauto|]. split; [|split].
    + intros r. split; intros (rf & [= <-] & H2).
      * exists rs. split; [done|]. by destruct (f_rec rs).
      * eexists. split; [done|]. by rewrite H2.
    + intros r o (rf & [= <-] & H2). rewrite H2. split; intros (rf & [= <-] & H3); eauto.
    + intros g Hg. by rewrite lookup_insert_ne.
Qed.
(** C48: moving makes the target denote what the source denoted and leaves the source (if it is another variable) empty; everything else is as before. *)
Lemma t_C48_move_exact :
  forall b ord w dst src w' out, reach b w -> is_Some (w_refs w !! dst) -> is_Some (w_refs w !! src) -> step ord w (OMoveRef dst src) = Some (w', out) ->
    only_refs_changed w w' /\ is_Some (w_refs w' !! dst) /\ is_Some (w_refs w' !! src) /\
    (forall r, denotes w' dst r <-> denotes w src r) /\
    (forall r o, denotes w src r -> (bound_to w' dst o <-> bound_to w src o)) /\
    (dst <> src -> forall r, ~ denotes w' src r) /\
    forall g, g <> dst -> g <> src -> w_refs w' !! g = w_refs w !! g.
Proof.
  intros b ord w dst src w' out HR [rd Hd] [rs Hs] H. pose proof (reach_inv _ _ HR) as HI. cbn [step] in H. unfold guard_op, is_ref in H. rewrite Hd, Hs in H.
  rewrite !bool_decide_true in H by eauto. apply unit_inv in H as [H _]. destruct (decide (dst = src)) as [->|Hne].
  - unfold move_ref in H. rewrite decide_True in H by done. injection H as <-. split; [done|]. split; [eauto|]. split; [eauto|]. done.
  - destruct (move_ref_spec w dst src rd rs) as (w1 & E & Hro & Hr); try done; [apply HI|]. rewrite (same_fst1 _ _ _ E H) in *.
    split; [by apply only_refs_kept|]. unfold denotes, bound_to. rewrite Hr.
    destruct (f_rec rs) as [r0|] eqn:Er.
    + rewrite lookup_insert, lookup_insert_ne, lookup_insert, Hs by done. split; [eauto|]. split; [eauto|]. split; [|split; [|split]].
      * intros r. split; intros (rf & [= <-] & H2); eexists; (split; [done|]); cbn in *; congruence.
      * intros r o _. split; intros (rf & [= <-] & H3); eauto.
      * intros _ r (rf & [= <-] & H2). done.
      * intros g H1 H2. by rewrite !lookup_insert_ne.
    + rewrite lookup_insert, lookup_insert_ne, Hs by done. split; [eauto|]. split; [eauto|]. split; [|split; [|split]].
      * intros r. split; intros (rf & [= <-] & H2); [done|congruence].
      * intros r o (rf & [= <-] & H2). congruence.
      * intros _ r (rf & [= <-] & H2). congruence.
      * intros g H1 H2. by rewrite !lookup_insert_ne.
Qed.

Lemma assign_refs_take rs : forall fs w vlt, assign_refs w vlt rs fs = assign_refs w vlt rs (take (length rs) fs).
Proof.
  induction rs as [|r rs IH]; intros [|f fs] w vlt; try done. cbn [length take assign_refs]. destruct (w_refs w !! f); [|apply IH].
  destruct (set_record w f (Some r) vlt) as [w1|]; [|done]. cbn [mbind option_bind]. apply IH.
Qed.
Lemma take_notin {A} (fs : list A) i n f : NoDup fs -> fs !! i = Some f -> n <= i -> f ∉ take n fs.
Proof.
  intros Hn Hi Hle Hin. apply elem_of_list_lookup in Hin as (j & Hj). apply lookup_take_Some in Hj as [Hj Hlt].
  pose proof (NoDup_lookup _ _ _ _ Hn Hi Hj). lia.
Qed.
Lemma assigned b w vlt l fs w' :
  Inv b w -> (forall r ob, r ∈ l -> w_objs w !! vlt = Some ob -> o_static_set ob = false -> is_Some (live w !! r) -> r ∈ o_recs ob) ->
  assign_refs w vlt l fs = Some w' ->
  only_refs_changed w w' /\
  (forall f, f ∉ fs -> w_refs w' !! f = w_refs w !! f) /\
  (NoDup fs -> forall i f r, fs !! i = Some f -> l !! i = Some r -> is_Some (w_refs w !! f) -> denotes w' f r /\ bound_to w' f vlt) /\
  (NoDup fs -> forall i f, fs !! i = Some f -> length l <= i -> w_refs w' !! f = w_refs w !! f).
Proof.
  intros HI Hin E. destruct (assign_refs_ok b vlt l fs w HI Hin) as (w1 & E1 & _ & Hro & H1 & _ & H3); [left; eauto|]. rewrite (same_fst1 _ _ _ E1 E) in *.
  split; [by apply only_refs_kept|]. split; [done|]. split.
  - intros Hn i f r Hf Hr Hs. specialize (H3 Hn i f r Hf Hr Hs). split; eexists; done.
  - intros Hn i f Hf Hle. rewrite assign_refs_take in E1.
    destruct (assign_refs_ok b vlt l (take (length l) fs) w HI Hin) as (w2 & E2 & _ & _ & H4 & _); [left; eauto|].
    rewrite (same_fst1 _ _ _ E2 E1) in *. apply H4. by eapply take_notin.
Qed.
(** C48: GetRecords stores the records it lists in the given reference variables, in order and bound to the vault (for a set: its parent vault),
    and changes nothing else. *)
Lemma t_C48_getrecords_refs :
  forall b ord w o ob pv k v amt fs w' out, fair ord -> reach b w -> (vault_at w o ob /\ pv = o) \/ (set_at w o ob /\ o_parent ob = Some pv) ->
    step ord w (OGetRecords o k v amt fs) = Some (w', out) ->
    exists res l, get_records ord w o k v amt = Some (res, l) /\ out = ORes res /\ only_refs_changed w w' /\
      (forall f, f ∉ fs -> w_refs w' !! f = w_refs w !! f) /\
      (NoDup fs -> forall i f r, fs !! i = Some f -> l !! i = Some r -> is_Some (w_refs w !! f) -> denotes w' f r /\ bound_to w' f pv) /\
      (NoDup fs -> forall i f, fs !! i = Some f -> length l <= i -> w_refs w' !! f = w_refs w !! f).
Proof.
  intros b ord w o ob pv k v amt fs w' out Hf HR HS H. pose proof (reach_inv _ _ HR) as HI.
  assert (Ho : w_objs w !! o = Some ob) by (destruct HS as [[[H1 _] _]|[[H1 _] _]]; exact H1).
  assert (Hsv : source_vault o ob = Some pv) by (unfold source_vault; destruct HS as [[[_ H1] ->]|[[_ H1] H2]]; by rewrite H1).
  cbn [step] in H. unfold guard_op, is_obj in H. rewrite Ho in H. rewrite bool_decide_true in H by eauto. apply res_inv in H as (res & H & ->).
  cbn [mbind option_bind] in H. rewrite Hsv in H. change (default o (Some pv)) with pv in H. destruct (get_records ord w o k v amt) as [[res' l]|] eqn:E; [|done]. cbn [mbind option_bind] in H.
  destruct (assign_refs w pv l fs) as [w1|] eqn:E1; [|done]. cbn [mbind option_bind] in H. injection H as -> ->. exists res, l. split; [done|]. split; [done|].
  eapply assigned; [done| |done]. intros r sb Hr Hsb Hsst Hlr.
  destruct (get_records_spec ord w o ob k v amt) as (res'' & l' & E' & Hl & Hp); [done|done|left; eauto|]. rewrite E in E'. injection E' as <- <-.
  destruct (Hl _ Hr) as [Hfd Hk]. assert (Hne : l <> []) by (intros ->; by apply elem_of_nil in Hr).
  specialize (Hp Hne). destruct (index_lists b w o ob k r l HI Ho) as (_ & H2 & _); [eauto|done|done|]. by eapply H2.
Qed.
(** C48: GetSortedRecords stores the records it lists in the given reference variables, in order, and changes nothing else. The references are bound
    to the object asked (for a set: to the set itself, see C07_set_reference_refuted). *)
Lemma t_C48_getsorted_refs :
  forall b ord w o k rev amt fs w' out, fair ord -> reach b w -> is_Some (w_objs w !! o) ->
    step ord w (OGetSorted o k rev amt fs) = Some (w', out) ->
    exists l, sorted_records w o k rev amt = Some l /\ only_refs_changed w w' /\
      (forall f, f ∉ fs -> w_refs w' !! f = w_refs w !! f) /\
      (NoDup fs -> forall i f r, fs !! i = Some f -> l !! i = Some r -> is_Some (w_refs w !! f) -> denotes w' f r /\ bound_to w' f o) /\
      (NoDup fs -> forall i f, fs !! i = Some f -> length l <= i -> w_refs w' !! f = w_refs w !! f).
Proof.
  intros b ord w o k rev amt fs w' out Hf HR [ob Ho] H. pose proof (reach_inv _ _ HR) as HI.
  cbn [step] in H. unfold guard_op, is_obj in H. rewrite Ho in H. rewrite bool_decide_true in H by eauto. apply unit_inv in H as [H _].
  destruct (sorted_records w o k rev amt) as [l|] eqn:E; [|done]. cbn [mbind option_bind] in H. exists l. split; [done|].
  eapply assigned; [done| |done]. intros r sb Hr Hsb Hsst Hlr. assert (sb = ob) as -> by congruence.
  destruct (sorted_records_spec w o ob k rev amt) as (l' & E' & Hl & Hp); [done|left; eauto|]. rewrite E in E'. injection E' as <-.
  destruct (Hl _ Hr) as [Hfd Hk]. destruct (index_lists b w o ob k r l HI Ho) as (_ & H2 & _); [eauto|done|congruence|]. eapply (H2 o); [|done|done|done]. unfold source_vault. by rewrite Hsst.
Qed.

(** ** Everything else leaves the reference variables alone *)
Ltac kfin := idtac.
Ltac kgo :=
  repeat match goal with
  | H : None = Some _ |- _ => discriminate H
  | H : Some _ = Some _ |- _ => apply (inj Some) in H; first [subst | apply pair_equal_spec in H as [? ?]; subst]
  | H : (_, _) = (_, _) |- _ => apply pair_equal_spec in H as [? ?]; subst
  | H : (_ ≫= _) = Some _ |- _ => let x := fresh "x" in let E := fresh "E" in apply bind_Some in H as (x & E & H)
  | H : (match ?c with _ => _ end) = Some _ |- _ => destruct c eqn:?
  end.
Ltac keeps := kgo; kfin; cbn in *; congruence.
Definition K {A} (F : world -> A -> option world) : Prop := forall w a w', F w a = Some w' -> w_refs w' = w_refs w.
Lemma foldM_K {A} (F : world -> A -> option world) l : K F -> forall w w', foldM F w l = Some w' -> w_refs w' = w_refs w.
Proof. intros HF w w' H. apply (foldM_keeps (fun w1 => w_refs w1 = w_refs w) F l) in H; [done| |done]. intros a x a' Ha E. rewrite <- Ha. by eapply HF. Qed.
Ltac kfold H := apply foldM_K in H; [|intros ? ? ? ?].

Lemma invalidate_refs : K invalidate.
Proof. intros w r w' H. unfold invalidate in H. keeps. Qed.
Lemma erase_dep_refs s : K (erase_dep s).
Proof. intros w r w' H. unfold erase_dep in H. keeps. Qed.
Lemma add_dep_refs s : K (add_dep s).
Proof. intros w r w' H. unfold add_dep in H. keeps. Qed.
Lemma rec_set_refs k : K (rec_set k).
Proof. intros w r w' H. unfold rec_set in H. keeps. Qed.
Lemma rec_erase_refs k : K (rec_erase k).
Proof. intros w r w' H. unfold rec_erase in H. keeps. Qed.
Lemma detach_refs fuel ord : forall w o r w', detach fuel ord w o r = Some w' -> w_refs w' = w_refs w.
Proof.
  induction fuel as [|fuel IH]; intros w o r w' H; [done|]. cbn [detach] in H. kgo; [done|].
  apply invalidate_refs in H. apply foldM_K in E1; [cbn in E1; congruence|]. intros w1 d w2 E2. kgo; [by eapply IH|done].
Qed.
Lemma remove_record_refs ord w o r w' b : remove_record ord w o r = Some (w', b) -> w_refs w' = w_refs w.
Proof. intros H. unfold remove_record in H. kgo; [by eapply detach_refs|done]. Qed.
Lemma set_clear_refs ord : K (set_clear ord).
Proof. intros w s w' H. unfold set_clear in H. kgo; [|done]. apply foldM_K in E0; [done|apply erase_dep_refs]. Qed.
Lemma drop_core_refs ord : K (drop_core ord).
Proof. intros w s w' H. unfold drop_core in H. kgo. apply foldM_K in E0; [done|apply invalidate_refs]. Qed.
Ltac kfin ::= repeat match goal with
  | H : set_clear _ _ _ = Some _ |- _ => apply set_clear_refs in H
  | H : drop_core _ _ _ = Some _ |- _ => apply drop_core_refs in H
  | H : remove_record _ _ _ _ = Some _ |- _ => apply remove_record_refs in H
  | H : detach _ _ _ _ _ = Some _ |- _ => apply detach_refs in H
  end.
Lemma set_reset_refs ord : K (set_reset ord).
Proof. intros w s w' H. unfold set_reset in H. keeps. Qed.
Lemma drop_vault_refs ord : K (drop_vault ord).
Proof. intros w s w' H. unfold drop_vault in H. kgo. kfin. apply foldM_K in E0; [congruence|apply set_reset_refs]. Qed.
Lemma drop_data_refs ord : K (drop_data ord).
Proof. intros w s w' H. unfold drop_data in H. kgo. apply foldM_K in E0; [|apply set_clear_refs]. apply foldM_K in E1; [|apply invalidate_refs]. cbn. congruence. Qed.
Lemma add_key_local_refs ord w o k d g nl w' res : add_key_local ord w o k d g nl = Some (w', res) -> w_refs w' = w_refs w.
Proof.
  intros H. unfold add_key_local in H. kgo; cbn; try done.
  all: match goal with E : foldM (rec_set _) _ _ = Some _ |- _ => apply foldM_K in E; [done|apply rec_set_refs] end.
Qed.
Lemma add_key_refs ord w o k d g nl w' res : add_key ord w o k d g nl = Some (w', res) -> w_refs w' = w_refs w.
Proof.
  intros H. unfold add_key in H. kgo; apply add_key_local_refs in E0; [|done]. apply foldM_K in E1; [congruence|].
  intros w1 s w2 E2. kgo. match goal with E : add_key_local _ _ _ _ _ _ _ = Some _ |- _ => apply add_key_local_refs in E; done end.
Qed.
Lemma copy_keys_refs ord w src dst w' : copy_keys ord w src dst = Some w' -> w_refs w' = w_refs w.
Proof. intros H. unfold copy_keys in H. apply foldM_K in H; [done|]. intros w1 e w2 E. kgo. match goal with E : add_key_local _ _ _ _ _ _ _ = Some _ |- _ => apply add_key_local_refs in E; done end. Qed.
Lemma remove_key_refs ord w o k w' b : remove_key ord w o k = Some (w', b) -> w_refs w' = w_refs w.
Proof.
  intros H. unfold remove_key in H. kgo; try done. apply foldM_K in E0; [|apply rec_erase_refs]. apply foldM_K in E1; [cbn in *; congruence|].
  intros w1 s w2 E2. unfold remove_key_set in E2. kgo; try done. apply foldM_K in E2; [done|apply rec_erase_refs].
Qed.
Lemma insert_new_refs w o data w' q : insert_new w o data = Some (w', q) -> w_refs w' = w_refs w.
Proof. intros H. unfold insert_new in H. kgo; done. Qed.
Lemma read_row_refs w o load keys user line row w' : read_row w o load keys user line row = Some w' -> w_refs w' = w_refs w.
Proof.
  intros H. unfold read_row in H. cbv zeta in H. apply bind_Some in H as (ob & Ho & H). apply bind_Some in H as ([[data ok] wrong] & _ & H).
  destruct ok; [|injection H as <-; by destruct wrong]. apply bind_Some in H as ([w2 q] & E & H). apply insert_new_refs in E.
  assert (w_refs w2 = w_refs w) by (rewrite E; by destruct wrong). kgo; done.
Qed.
Lemma read_rows_loop_refs rows : forall w o load keys user line w', read_rows_loop w o load keys user line rows = Some w' -> w_refs w' = w_refs w.
Proof.
  induction rows as [|row rows IH]; intros w o load keys user line w' H; cbn in H; [by injection H as <-|]. kgo. apply read_row_refs in E. apply IH in H. congruence.
Qed.
Lemma read_rows_refs w o load keys user rows w' : read_rows w o load keys user rows = Some w' -> w_refs w' = w_refs w.
Proof. intros H. unfold read_rows in H. kgo. by apply read_rows_loop_refs in H. Qed.
Lemma ref_set_many_loop_refs ord f ps : forall w res w' res', ref_set_many_loop ord w f ps res = Some (w', res') -> w_refs w' = w_refs w.
Proof.
  induction ps as [|[k v] ps IH]; intros w res w' res' H; cbn in H; [by kgo|]. kgo; apply ref_set_data_refs in E; [|done]. apply IH in H. congruence.
Qed.
Lemma erase_record_refs ord w o k v w' res : erase_record ord w o k v = Some (w', res) -> w_refs w' = w_refs w.
Proof. intros H. unfold erase_record in H. keeps. Qed.
Lemma erase_records_refs ord w o k v amt w' res : erase_records ord w o k v amt = Some (w', res) -> w_refs w' = w_refs w.
Proof. intros H. unfold erase_records in H. kgo; try done. apply foldM_K in E1; [done|]. intros w1 r w2 E2. by eapply detach_refs. Qed.
Lemma set_take_refs s : K (set_take s).
Proof. intros w r w' H. unfold set_take in H. kgo. apply add_dep_refs in H. done. Qed.
Lemma set_take_un_refs s : K (set_take_unregistered s).
Proof. intros w r w' H. unfold set_take_unregistered in H. kgo. done. Qed.
Ltac kfin ::= repeat match goal with
  | H : set_clear _ _ _ = Some _ |- _ => apply set_clear_refs in H
  | H : drop_core _ _ _ = Some _ |- _ => apply drop_core_refs in H
  | H : remove_record _ _ _ _ = Some _ |- _ => apply remove_record_refs in H
  | H : detach _ _ _ _ _ = Some _ |- _ => apply detach_refs in H
  | H : set_reset _ _ _ = Some _ |- _ => apply set_reset_refs in H
  | H : drop_vault _ _ _ = Some _ |- _ => apply drop_vault_refs in H
  | H : drop_data _ _ _ = Some _ |- _ => apply drop_data_refs in H
  | H : copy_keys _ _ _ _ = Some _ |- _ => apply copy_keys_refs in H
  | H : add_key _ _ _ _ _ _ _ = Some _ |- _ => apply add_key_refs in H
  | H : remove_key _ _ _ _ = Some _ |- _ => apply remove_key_refs in H
  | H : read_rows _ _ _ _ _ _ = Some _ |- _ => apply read_rows_refs in H
  | H : erase_record _ _ _ _ _ = Some _ |- _ => apply erase_record_refs in H
  | H : erase_records _ _ _ _ _ _ = Some _ |- _ => apply erase_records_refs in H
  | H : ref_set_data _ _ _ _ _ = Some _ |- _ => apply ref_set_data_refs in H
  | H : ref_set_many_loop _ _ _ _ _ = Some _ |- _ => apply ref_set_many_loop_refs in H
  | H : set_take _ _ _ = Some _ |- _ => apply set_take_refs in H
  | H : foldM (set_take _) _ _ = Some _ |- _ => apply foldM_K in H; [|apply set_take_refs]
  end.
Lemma bind_target_refs ord w src p s w' : bind_target ord w src p s = Some w' -> w_refs w' = w_refs w.
Proof. intros H. unfold bind_target in H. keeps. Qed.
Lemma request_refs ord w o rt k b e ib ie amt p s w' res : request ord w o rt k b e ib ie amt p s = Some (w', res) -> w_refs w' = w_refs w.
Proof.
  intros H. unfold request in H. kgo; try done. match goal with E : bind_target _ _ _ _ _ = Some _ |- _ => apply bind_target_refs in E end. kfin. congruence.
Qed.
Lemma complex_refs ord w o q s w' res : complex_request ord w o q s = Some (w', res) -> w_refs w' = w_refs w.
Proof.
  intros H. unfold complex_request in H. kgo; try done; match goal with E : bind_target _ _ _ _ _ = Some _ |- _ => apply bind_target_refs in E end; kfin; congruence.
Qed.
Lemma set_add_refs w s f w' res : set_add_record w s f = Some (w', res) -> w_refs w' = w_refs w.
Proof. intros H. unfold set_add_record in H. kgo; try done; kfin; congruence. Qed.
Lemma erase_ref_refs ord w o f w' b : erase_ref ord w o f = Some (w', b) -> w_refs w' = w_refs w.
Proof. intros H. unfold erase_ref in H. kgo; try done; kfin; congruence. Qed.
Lemma set_join_refs ord w s a w' res : set_join ord w s a = Some (w', res) -> w_refs w' = w_refs w.
Proof. intros H. unfold set_join in H. kgo; try done. apply foldM_K in E1; [done|]. intros w1 r w2 E2. kgo; [done|]. by apply set_take_un_refs in E2. Qed.
Lemma set_subtract_refs kc ord w s a w' res : set_subtract kc ord w s a = Some (w', res) -> w_refs w' = w_refs w.
Proof. intros H. unfold set_subtract in H. kgo; try done. apply foldM_K in E1; [done|]. intros w1 r w2 E2. kgo; try done; kfin; done. Qed.
Lemma copy_set_refs ord w dst src w' : copy_set ord w dst src = Some w' -> w_refs w' = w_refs w.
Proof. intros H. unfold copy_set in H. kgo; try done; kfin; cbn in *; congruence. Qed.
Lemma move_set_refs ord w dst src w' : move_set ord w dst src = Some w' -> w_refs w' = w_refs w.
Proof.
  intros H. unfold move_set in H. kgo; try done. apply foldM_K in E2; [kfin; cbn in *; congruence|].
  intros w1 r w2 E9. kgo. match goal with E : erase_dep _ _ _ = Some _ |- _ => apply erase_dep_refs in E; apply add_dep_refs in E9; congruence end.
Qed.
Lemma copy_assign_set_refs ord w dst src w' : copy_assign_set ord w dst src = Some w' -> w_refs w' = w_refs w.
Proof. intros H. unfold copy_assign_set in H. kgo; try done. apply copy_set_refs in H. kfin. congruence. Qed.
Lemma set_union_refs ord w a b r w' res : set_union ord w a b r = Some (w', res) -> w_refs w' = w_refs w.
Proof. intros H. unfold set_union in H. kgo; try done. apply set_join_refs in H. match goal with E : copy_assign_set _ _ _ _ = Some _ |- _ => apply copy_assign_set_refs in E end. congruence. Qed.
Lemma set_intersection_refs ord w a b r w' res : set_intersection ord w a b r = Some (w', res) -> w_refs w' = w_refs w.
Proof.
  intros H. unfold set_intersection in H. kgo; try done; kfin.
  all: match goal with E : foldM _ _ _ = Some _ |- _ => apply foldM_K in E; [cbn in *; congruence|]; intros w1 r1 w2 E9; kgo; [|done]; by apply set_take_un_refs in E9 end.
Qed.
Lemma copy_vault_body_refs ord w dst src w' : copy_vault_body ord w dst src = Some w' -> w_refs w' = w_refs w.
Proof.
  intros H. unfold copy_vault_body in H. kgo; kfin. apply foldM_K in H; [cbn in *; congruence|]. intros w1 r w2 E9. unfold copy_one in E9. kgo. done.
Qed.

Lemma add_ref_refs : K add_ref.
Proof. intros w r w' H. unfold add_ref in H. keeps. Qed.
Lemma remove_ref_refs : K remove_ref.
Proof. intros w r w' H. unfold remove_ref in H. keeps. Qed.
Lemma set_record_other w f mr vlt w' g : set_record w f mr vlt = Some w' -> g <> f -> w_refs w' !! g = w_refs w !! g.
Proof.
  intros H Hg. unfold set_record in H. kgo; cbn; rewrite lookup_insert_ne by done; f_equal; repeat match goal with
    | E : add_ref _ _ = Some _ |- _ => apply add_ref_refs in E | E : remove_ref _ _ = Some _ |- _ => apply remove_ref_refs in E end; congruence.
Qed.
Lemma vault_get_record_other ord w o k v f w' res g : vault_get_record ord w o k v f = Some (w', res) -> g <> f -> w_refs w' !! g = w_refs w !! g.
Proof. intros H Hg. unfold vault_get_record in H. kgo; try done; by eapply set_record_other. Qed.
Lemma get_record_other ord w o k v f w' res g : get_record ord w o k v f = Some (w', res) -> g <> f -> w_refs w' !! g = w_refs w !! g.
Proof.
  intros H Hg. unfold get_record in H. kgo; try done; [|by eapply vault_get_record_other]. cbn. rewrite lookup_insert_ne by done. by eapply vault_get_record_other.
Qed.
Lemma assign_refs_other vlt rs : forall fs w w' g, assign_refs w vlt rs fs = Some w' -> g ∉ fs -> w_refs w' !! g = w_refs w !! g.
Proof.
  induction rs as [|r rs IH]; intros [|f fs] w w' g H Hg; cbn in H; try by kgo. apply not_elem_of_cons in Hg as [Hne Hg]. destruct (w_refs w !! f); [|by eapply IH].
  kgo. rewrite (IH _ _ _ _ H Hg). by eapply set_record_other.
Qed.
Lemma copy_ref_other w dst src w' g : copy_ref w dst src = Some w' -> g <> dst -> w_refs w' !! g = w_refs w !! g.
Proof.
  intros H Hg. unfold copy_ref in H. kgo; try done; cbn; rewrite lookup_insert_ne by done; f_equal; repeat match goal with
    | E : add_ref _ _ = Some _ |- _ => apply add_ref_refs in E | E : remove_ref _ _ = Some _ |- _ => apply remove_ref_refs in E end; congruence.
Qed.
Lemma move_ref_other w dst src w' g : move_ref w dst src = Some w' -> g <> dst -> g <> src -> w_refs w' !! g = w_refs w !! g.
Proof.
  intros H Hg Hg2. unfold move_ref in H. kgo; try done; cbn; rewrite ?lookup_insert_ne by done; f_equal; repeat match goal with
    | E : add_ref _ _ = Some _ |- _ => apply add_ref_refs in E | E : remove_ref _ _ = Some _ |- _ => apply remove_ref_refs in E end; congruence.
Qed.
Lemma reset_ref_other w f w' g : reset_ref w f = Some w' -> g <> f -> w_refs w' !! g = w_refs w !! g.
Proof.
  intros H Hg. unfold reset_ref in H. kgo; try done; cbn; rewrite ?lookup_insert_ne by done; f_equal; repeat match goal with
    | E : add_ref _ _ = Some _ |- _ => apply add_ref_refs in E | E : remove_ref _ _ = Some _ |- _ => apply remove_ref_refs in E end; congruence.
Qed.
(** C48: a reference variable changes only by an operation that is given it to be assigned: no operation on vaults, records or sets, including
    erasing, dropping, copying and moving them, redirects or empties a reference variable. *)
Lemma t_C48_changed_only_by_name :
  forall ord w p w' out f, step ord w p = Some (w', out) -> ~ assigns f p -> w_refs w' !! f = w_refs w !! f.
Proof.
  intros ord w p w' out f H Hn.
  destruct p; cbn [step] in H; apply guard_inv in H as [(_ & -> & _)|[_ H]]; try done;
    first [apply res_inv in H as (? & H & _)|apply bool_inv in H as (? & H & _)|apply unit_inv in H as [H _]|idtac]; cbn [assigns] in Hn.
  all: try (kgo; kfin; cbn in *; congruence).
  - kgo. cbn. by rewrite lookup_insert_ne.
  - kgo. cbn. rewrite lookup_delete_ne by done. by eapply reset_ref_other.
  - f_equal. unfold update_key in H. kgo; done.
  - unfold create_record in H. kgo; try done;
      repeat match goal with E : insert_new _ _ _ = Some _ |- _ => apply insert_new_refs in E end; try congruence.
    rewrite (set_record_other _ _ _ _ _ f ltac:(eassumption)) by congruence. congruence.
  - f_equal. by eapply erase_ref_refs.
  - f_equal. unfold set_parent_guard in H. kgo; [done|]. by eapply erase_record_refs.
  - f_equal. unfold set_parent_guard in H. kgo; [done|]. by eapply erase_records_refs.
  - by eapply get_record_other.
  - kgo. by eapply assign_refs_other.
  - kgo. by eapply assign_refs_other.
  - f_equal. unfold ref_set_many in H. kgo. by eapply ref_set_many_loop_refs.
  - by eapply copy_ref_other.
  - eapply move_ref_other; [done|intros ->; apply Hn; by left|intros ->; apply Hn; by right].
  - by eapply reset_ref_other.
  - f_equal. by eapply request_refs.
  - f_equal. by eapply complex_refs.
  - f_equal. unfold copy_construct_vault in H. apply copy_vault_body_refs in H. done.
  - f_equal. unfold copy_assign_vault in H. kgo; [done|]. apply copy_vault_body_refs in H. kfin. congruence.
  - f_equal. unfold move_construct_vault, move_vault_body in H. kgo. done.
  - f_equal. unfold move_assign_vault, move_vault_body in H. kgo; [done|]. kfin. cbn. congruence.
  - f_equal. by eapply set_add_refs.
  - f_equal. by eapply set_join_refs.
  - f_equal. by eapply set_subtract_refs.
  - f_equal. by eapply set_subtract_refs.
  - f_equal. by eapply set_union_refs.
  - f_equal. by eapply set_intersection_refs.
  - f_equal. unfold copy_construct_set in H. apply copy_set_refs in H. done.
  - f_equal. by eapply copy_assign_set_refs.
  - f_equal. unfold move_construct_set in H. apply move_set_refs in H. done.
  - f_equal. unfold move_assign_set in H. kgo; try done; [by eapply move_set_refs|by eapply set_reset_refs].
Qed.
