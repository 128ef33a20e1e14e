(** Proofs of C06, C11 (EraseRecords), C19 (erasure), C22 and the refutation-free part of erasure. *)
From Verif Require Export T_Query.
Open Scope nat_scope.

Lemma erased_spec b o X w w' : reach b w -> erased o (list_to_set X) w w' -> erased_exactly o X w w'.
Proof.
  intros HR He. assert (HX : forall r, r ∈ (list_to_set X : gset nat) <-> r ∈ X) by (intros r; apply elem_of_list_to_set).
  assert (HL : forall r, live w' !! r = if decide (r ∈ X) then None else live w !! r).
  { intros r. rewrite (er_live _ _ _ _ He). destruct (decide (r ∈ X)) as [H|H]; [by rewrite decide_True by by apply HX|by rewrite decide_False by by rewrite HX]. }
  split; [apply (er_refs _ _ _ _ He)|]. split; [|split; [|split]].
  - intros r. rewrite !valid_rec_live, HL. destruct (decide (r ∈ X)); [|tauto]. split; [by intros [? ?]|by intros [_ ?]].
  - intros r k Hr. rewrite !stored_val_of. unfold val_of. rewrite HL. by rewrite decide_False.
  - intros ob [Ho Hs]. destruct (er_o _ _ _ _ He _ Ho) as (ob' & Ho' & Hsh & Hrec). exists ob'. split.
    { split; [done|]. rewrite Hsh. done. }
    split; [exact Hsh|]. intros r. rewrite Hrec, elem_of_difference, HX. done.
  - intros x xb [Hx Hs] Hne. pose proof (er_objs _ _ _ _ He x Hne) as H. rewrite Hx in H. destruct (w_objs w' !! x) as [xb'|] eqn:E; [|done].
    destruct H as (_ & H & _). split; [|done]. rewrite E. f_equal. apply H. intros (sb & E1 & E2 & _). congruence.
Qed.

(** What an erasing operation on a vault does. *)
Lemma erase_step b ord w p o ob w' out :
  fair ord -> reach b w -> vault_at w o ob -> erases_from o p -> step ord w p = Some (w', out) ->
  w' = w \/ exists X, X <> [] /\ NoDup X /\ (forall r, r ∈ X -> r ∈ o_recs ob) /\ erased o (list_to_set X) w w'.
Proof.
  intros Hf HR [Ho Hs] Hp H. pose proof (reach_inv _ _ HR) as HI.
  assert (HD : forall {A} (m : option A) x, m = Some x -> Def b m) by (intros A m x E _; eauto).
  destruct p; cbn in Hp; try done; subst; cbn [step] in H; unfold guard_op, is_obj in H; rewrite (bool_decide_true (is_Some (w_objs w !! o))) in H by eauto; cbn [andb] in H.
  - destruct (is_ref w f) eqn:Ef; [|injection H as <- <-; by left]. apply is_ref_true in Ef as [rf Hrf].
    unfold erase_ref, bool_out in H. rewrite Ho, Hrf in H. cbn [mbind option_bind] in H. rewrite Hs in H. cbn [andb] in H.
    destruct (f_rec rf) as [r|]; [|injection H as <- <-; by left].
    destruct (remove_record ord w o r) as [[w1 bb]|] eqn:E; [|done]. cbn in H. injection H as <- <-.
    destruct (remove_record_ok b ord w o ob r) as (w2 & E2 & _ & H2); try done; [by eapply HD|]. rewrite E in E2. injection E2 as -> ->.
    destruct (decide (r ∈ o_recs ob)) as [Hin|]; [|by left]. right. exists [r]. split; [done|]. split; [apply NoDup_singleton|].
    split; [by intros r' ->%elem_of_list_singleton|]. by rewrite list_to_set_singleton_L || (replace (list_to_set [r] : gset nat) with ({[r]} : gset nat) by set_solver).
  - unfold set_parent_guard, res_out in H. rewrite Ho in H. cbn [mbind option_bind] in H. rewrite Hs in H. cbn [andb] in H.
    destruct (erase_record ord w o k v) as [[w1 res]|] eqn:E; [|done]. cbn in H. injection H as <- <-.
    destruct (erase_record_ok b ord w o ob k v) as (w2 & res2 & E2 & _ & [(-> & _)|(_ & r & _ & _ & Hin & He)]); try done; [by eapply HD|rewrite E in E2; injection E2 as -> ->; by left|].
    rewrite E in E2. injection E2 as -> ->. right. exists [r]. split; [done|]. split; [apply NoDup_singleton|].
    split; [by intros r' ->%elem_of_list_singleton|]. by replace (list_to_set [r] : gset nat) with ({[r]} : gset nat) by set_solver.
  - unfold set_parent_guard, res_out in H. rewrite Ho in H. cbn [mbind option_bind] in H. rewrite Hs in H. cbn [andb] in H.
    destruct (erase_records ord w o k v amt) as [[w1 res]|] eqn:E; [|done]. cbn in H. injection H as <- <-.
    destruct (erase_records_ok b ord w o ob k v amt) as (w2 & res2 & E2 & _ & [(-> & _)|(_ & ix & l & _ & _ & Hn0 & Hnd & Hin & He)]); try done; [by eapply HD|rewrite E in E2; injection E2 as -> ->; by left|].
    rewrite E in E2. injection E2 as -> ->. right. exists l. split; [done|]. split; [done|]. split; [|done]. intros r Hr. by apply Hin.
Qed.

(** C06: erasing changes nothing, or exactly the erased records leave the vault; the equality index keeps every remaining record. *)
Lemma t_C06_others_found_by_equality :
  forall b ord w p o ob w' out, fair ord -> reach b w -> vault_at w o ob -> erases_from o p -> step ord w p = Some (w', out) ->
    exists X ob', NoDup X /\ (forall r, r ∈ X -> r ∈ o_recs ob) /\ erased_exactly o X w w' /\ vault_at w' o ob' /\
      forall k v r, is_Some (get_key_type ob k) -> (filed ob' k v r <-> filed ob k v r /\ r ∉ X).
Proof.
  intros b ord w p o ob w' out Hf HR HV Hp H. destruct (erase_step _ _ _ _ _ _ _ _ Hf HR HV Hp H) as [->|(X & Hx0 & Hnd & Hin & He)].
  - exists [], ob. split; [constructor|]. split; [by intros r Hr%elem_of_nil|]. split; [|split; [done|]].
    + split; [done|]. split; [intros r; split; [intros ?; split; [done|]; apply not_elem_of_nil|by intros [? _]]|]. split; [done|]. split; [|done].
      intros ob1 H1. exists ob1. split; [done|]. split; [by destruct ob1|]. intros r. split; [intros ?; split; [done|]; apply not_elem_of_nil|by intros [? _]].
    + intros k v r _. split; [intros ?; split; [done|]; apply not_elem_of_nil|by intros [? _]].
  - pose proof (erased_spec _ _ _ _ _ HR He) as HE. destruct HE as (E1 & E2 & E3 & E4 & E5). destruct (E4 _ HV) as (ob' & HV' & Hsh & Hrec).
    exists X, ob'. split; [done|]. split; [done|]. split; [done|]. split; [done|]. intros k v r Hk.
    destruct HV as [Ho _], HV' as [Ho' _]. destruct (er_idx _ _ _ _ He _ _ Ho Ho' k v r) as [E _].
    { unfold get_key_type in Hk. by apply fmap_is_Some in Hk. } rewrite E, elem_of_list_to_set. done.
Qed.
(** C06: exactly what an erasure does to the ordered index: all records filed under a value of an erased record leave it. *)
Lemma t_C06_erase_effect_on_ordered_index :
  forall b ord w p o ob w' out, fair ord -> reach b w -> vault_at w o ob -> erases_from o p -> step ord w p = Some (w', out) ->
    exists X ob', NoDup X /\ (forall r, r ∈ X -> r ∈ o_recs ob) /\ erased_exactly o X w w' /\ vault_at w' o ob' /\
      forall k v r, is_Some (get_key_type ob k) -> (filed_ord ob' k v r <-> filed_ord ob k v r /\ forall x, x ∈ X -> ~ filed_ord ob k v x).
Proof.
  intros b ord w p o ob w' out Hf HR HV Hp H. destruct (erase_step _ _ _ _ _ _ _ _ Hf HR HV Hp H) as [->|(X & Hx0 & Hnd & Hin & He)].
  - exists [], ob. split; [constructor|]. split; [by intros r Hr%elem_of_nil|]. split; [|split; [done|]].
    + split; [done|]. split; [intros r; split; [intros ?; split; [done|]; apply not_elem_of_nil|by intros [? _]]|]. split; [done|]. split; [|done].
      intros ob1 H1. exists ob1. split; [done|]. split; [by destruct ob1|]. intros r. split; [intros ?; split; [done|]; apply not_elem_of_nil|by intros [? _]].
    + intros k v r _. split; [intros ?; split; [done|]; by intros x Hx%elem_of_nil|by intros [? _]].
  - pose proof (erased_spec _ _ _ _ _ HR He) as HE. destruct HE as (E1 & E2 & E3 & E4 & E5). destruct (E4 _ HV) as (ob' & HV' & Hsh & Hrec).
    exists X, ob'. split; [done|]. split; [done|]. split; [done|]. split; [done|]. intros k v r Hk.
    destruct HV as [Ho _], HV' as [Ho' _]. destruct (er_idx _ _ _ _ He _ _ Ho Ho' k v r) as [_ E].
    { unfold get_key_type in Hk. by apply fmap_is_Some in Hk. } rewrite E. setoid_rewrite elem_of_list_to_set. done.
Qed.
(** C06 (restricted): a remaining record that shares its value with no record that left stays in the ordered index. *)
Lemma t_C06_others_found_in_order_partial :
  forall b ord w p o ob w' out k v x, fair ord -> reach b w -> vault_at w o ob -> erases_from o p -> step ord w p = Some (w', out) ->
    is_Some (get_key_type ob k) -> filed_ord ob k v x ->
    (forall y, valid_rec w y -> ~ valid_rec w' y -> stored w y k <> stored w x k) ->
    exists ob', vault_at w' o ob' /\ filed_ord ob' k v x /\ stored w' x k = Some v.
Proof.
  intros b ord w p o ob w' out k v x Hf HR HV Hp H Hk Hx Hy.
  destruct (t_C06_erase_effect_on_ordered_index _ _ _ _ _ _ _ _ Hf HR HV Hp H) as (X & ob' & Hnd & Hin & (_ & Hval & Hst & _) & HV' & Hfo).
  assert (Hkk : is_Some (o_keys ob !! k)). { unfold get_key_type in Hk. by apply fmap_is_Some in Hk. }
  destruct (filed_sound b w HR o ob k v x HV Hkk (or_intror Hx)) as [Hxo Sx].
  assert (HX : forall y, y ∈ X -> stored w y k <> stored w x k).
  { intros y HyX. apply Hy; [by eapply (vault_valid b w HR); [done|auto]|]. rewrite Hval. by intros [_ ?]. }
  exists ob'. split; [done|]. split.
  - apply Hfo; [done|]. split; [done|]. intros y HyX Hyf. destruct (filed_sound b w HR o ob k v y HV Hkk (or_intror Hyf)) as [_ Sy]. apply (HX _ HyX). congruence.
  - rewrite Hst; [done|]. intros HxX. by apply (HX _ HxX).
Qed.

(** C06: the answer of EraseRecord(key, value): refused without change exactly when the key or type is wrong or no record is found
    under the value; otherwise one of the found records is erased. *)
Lemma t_C06_eraserecord_exact :
  forall b ord w o ob k v w' res, fair ord -> reach b w -> vault_at w o ob -> step ord w (OEraseRecord o k v) = Some (w', ORes res) ->
    if res_ok res then get_key_type ob k = Some (vty v) /\ exists r, filed ob k v r /\ r ∈ o_recs ob /\ stored w r k = Some v /\ erased_exactly o [r] w w'
    else w' = w /\ res = match get_key_type ob k with
                         | None => bad WrongKey k (Some (vty v)) None
                         | Some t => if decide (t = vty v) then bad WrongValue k (Some (vty v)) (Some t) else bad WrongType k (Some (vty v)) (Some t)
                         end /\ (get_key_type ob k = Some (vty v) -> forall r, ~ filed ob k v r).
Proof.
  intros b ord w o ob k v w' res Hf HR HV H. pose proof HV as [Ho Hs]. pose proof (reach_inv _ _ HR) as HI.
  cbn [step] in H. unfold guard_op, is_obj in H. rewrite (bool_decide_true (is_Some (w_objs w !! o))) in H by eauto.
  unfold set_parent_guard, res_out in H. rewrite Ho in H. cbn [mbind option_bind] in H. rewrite Hs in H. cbn [andb] in H.
  destruct (erase_record ord w o k v) as [[w1 res1]|] eqn:E; [|done]. cbn in H. injection H as <- <-.
  destruct (erase_record_ok b ord w o ob k v) as (w2 & res2 & E2 & _ & Hcase); try done; [by intros _; rewrite E; eauto|].
  rewrite E in E2. apply (inj Some) in E2. injection E2 as <- <-. unfold get_key_type.
  destruct Hcase as [(-> & Hok & Hre)|(Hok & r & Hfi & Hval & Hin & He)]; rewrite Hok.
  - split; [done|]. destruct Hre as [[Ek ->]|[(t & d & Ek & Hne & ->)|(t & d & Ek & -> & Hno & ->)]]; rewrite Ek; cbn.
    + done.
    + rewrite decide_False by done. split; [done|]. congruence.
    + rewrite decide_True by done. done.
  - assert (Hl : erase_record ord w o k v = Some (w1, res1)) by done. unfold erase_record in Hl. rewrite Ho in Hl. cbn [mbind option_bind] in Hl.
    destruct (o_keys ob !! k) as [[t d]|] eqn:Ek; [|injection Hl as <- <-; done]. destruct (decide (t = vty v)) as [->|]; [|injection Hl as <- <-; done].
    split; [done|]. exists r. split; [done|]. split; [done|]. split; [by rewrite stored_val_of|]. apply (erased_spec b); [done|].
    by replace (list_to_set [r] : gset nat) with ({[r]} : gset nat) by set_solver.
Qed.

(** C11: EraseRecords with a limit erases min(limit, matches) records, at least one; without a limit all of them. *)
Lemma t_C11_eraserecords_limit :
  forall b ord w o ob k v amt w' res, fair ord -> reach b w -> vault_at w o ob -> step ord w (OEraseRecords o k v amt) = Some (w', ORes res) ->
    if res_ok res then exists found X, NoDup found /\ (forall r, r ∈ found <-> filed ob k v r) /\ X `sublist_of` found /\ X <> [] /\
      length X = match amt with None => length found | Some n => length found `min` (n `max` 1) end /\ erased_exactly o X w w'
    else w' = w /\ res = match get_key_type ob k with
                         | None => bad WrongKey k (Some (vty v)) None
                         | Some t => if decide (t = vty v) then bad WrongValue k (Some (vty v)) (Some t) else bad WrongType k (Some (vty v)) (Some t)
                         end /\ (get_key_type ob k = Some (vty v) -> forall r, ~ filed ob k v r).
Proof.
  intros b ord w o ob k v amt w' res Hf HR HV H. pose proof HV as [Ho Hs]. pose proof (reach_inv _ _ HR) as HI.
  cbn [step] in H. unfold guard_op, is_obj in H. rewrite (bool_decide_true (is_Some (w_objs w !! o))) in H by eauto.
  unfold set_parent_guard, res_out in H. rewrite Ho in H. cbn [mbind option_bind] in H. rewrite Hs in H. cbn [andb] in H.
  destruct (erase_records ord w o k v amt) as [[w1 res1]|] eqn:E; [|done]. cbn in H. injection H as <- <-.
  destruct (erase_records_ok b ord w o ob k v amt) as (w2 & res2 & E2 & _ & Hcase); try done; [by intros _; rewrite E; eauto|].
  rewrite E in E2. apply (inj Some) in E2. injection E2 as <- <-. unfold get_key_type.
  destruct Hcase as [(-> & Hok & Hre)|(Hok & ix & l & Hix & Hl & Hne & Hnd & Hin & He)]; rewrite Hok.
  - split; [done|]. destruct Hre as [[Ek ->]|[(t & d & Ek & Hne & ->)|(t & d & Ek & -> & Hno & ->)]]; rewrite Ek; cbn.
    + done.
    + rewrite decide_False by done. split; [done|]. congruence.
    + rewrite decide_True by done. done.
  - assert (Hx : is_Some (o_keys ob !! k)).
    { unfold erase_records in E. rewrite Ho in E. cbn [mbind option_bind] in E. destruct (o_keys ob !! k); [eauto|]. injection E as <- <-. done. }
    destruct Hx as [td Ek]. pose proof (vault_hash_nodup _ _ _ _ _ (vault_vok b w HR _ _ HV) Ek Hix) as Hnh.
    exists (ord (snd <$> equal_range v (ix_hash ix))), l. split; [apply fair_NoDup; [done|]; by apply NoDup_equal_range_snd|]. split; [|split; [|split; [done|split]]].
    + intros r. rewrite fair_elem by done. rewrite elem_equal_range_snd. split; [intros ?; by exists ix|]. intros (ix' & E' & ?). congruence.
    + rewrite Hl. destruct amt as [n|]; [apply sublist_take|done].
    + rewrite Hl. destruct amt as [n|]; [|done]. cbn [limit1]. rewrite take_length. lia.
    + by apply (erased_spec b).
Qed.

(** C06, C19: EraseRecord(reference) erases the record the reference denotes, if it is a record of this vault. *)
Lemma t_C06_eraseref_exact :
  forall b ord w o ob f rf w' done_, fair ord -> reach b w -> vault_at w o ob -> w_refs w !! f = Some rf ->
    step ord w (OEraseRef o f) = Some (w', OBool done_) ->
    match f_rec rf with
    | Some r => if decide (r ∈ o_recs ob) then done_ = true /\ erased_exactly o [r] w w' else done_ = false /\ w' = w
    | None => done_ = false /\ w' = w
    end.
Proof.
  intros b ord w o ob f rf w' dn Hf HR HV Hrf H. pose proof HV as [Ho Hs]. pose proof (reach_inv _ _ HR) as HI.
  cbn [step] in H. unfold guard_op, is_obj, is_ref in H. rewrite (bool_decide_true (is_Some (w_objs w !! o))) in H by eauto. rewrite (bool_decide_true (is_Some (w_refs w !! f))) in H by eauto. cbn [andb] in H.
  unfold erase_ref, bool_out in H. rewrite Ho, Hrf in H. cbn [mbind option_bind] in H. rewrite Hs in H. cbn [andb] in H.
  destruct (f_rec rf) as [r|]; [|by injection H as <- <-].
  destruct (remove_record ord w o r) as [[w1 bb]|] eqn:E; [|done]. cbn in H. injection H as <- <-.
  destruct (remove_record_ok b ord w o ob r) as (w2 & E2 & _ & H2); try done; [by intros _; rewrite E; eauto|]. rewrite E in E2. apply (inj Some) in E2. injection E2 as -> ->.
  destruct (decide (r ∈ o_recs ob)) as [Hin|Hni]; [rewrite bool_decide_true by done|by rewrite bool_decide_false by done]. split; [done|].
  apply (erased_spec b); [done|]. by replace (list_to_set [r] : gset nat) with ({[r]} : gset nat) by set_solver.
Qed.

(** C22: in the safe class a set loses exactly the erased records, in its contents and in every lookup. *)
Lemma t_C22_sets_follow_erasure :
  forall ord w p o ob w' out s sb, fair ord -> reach true w -> vault_at w o ob -> erases_from o p -> step ord w p = Some (w', out) ->
    set_at w s sb ->
    exists sb', set_at w' s sb' /\ sb' = ob_recs (o_recs sb') (ob_idx (o_idx sb') sb) /\ (forall r, r ∈ o_recs sb' <-> r ∈ o_recs sb /\ valid_rec w' r) /\
      (forall k v r, is_Some (get_key_type sb' k) -> filed sb' k v r \/ filed_ord sb' k v r -> r ∈ o_recs sb' /\ stored w' r k = Some v).
Proof.
  intros ord w p o ob w' out s sb Hf HR HV Hp H [Hs Hst]. pose proof (reach_inv _ _ HR) as HI.
  assert (HA : allowed true w p).
  { destruct HV as [Ho Hos]. destruct p; cbn in Hp; try done; subst; cbn [allowed]; intros _ ob0 E Hx; congruence. }
  assert (HR' : reach true w') by (by eapply reach_step). pose proof (reach_inv _ _ HR') as HI'.
  assert (HC : forall sb', set_at w' s sb' -> forall k v r, is_Some (get_key_type sb' k) -> filed sb' k v r \/ filed_ord sb' k v r -> r ∈ o_recs sb' /\ stored w' r k = Some v).
  { intros sb' HS' k v r Hk Hfi. destruct (o_parent sb') as [q|] eqn:Eq.
    - destruct (source_filed true w' s sb' q k v r HR' (or_intror (conj eq_refl (conj HS' Eq))) Hk Hfi) as (? & ? & _). done.
    - destruct HS' as [Hs' Hst']. destruct (so_none _ _ _ _ _ _ (vi_set _ _ _ _ (inv_obj _ _ HI') _ _ Hs' Hst') Eq) as (_ & E & _).
      destruct Hfi as [(ix & E' & _)|(ix & E' & _)]; rewrite E in E'; by rewrite lookup_empty in E'. }
  assert (Hlv : forall r, r ∈ o_recs sb -> exists l, live w !! r = Some l /\ s ∈ l.2).
  { intros r Hr. pose proof (vi_set _ _ _ _ (inv_obj _ _ HI) _ _ Hs Hst) as HS. destruct (o_parent sb) as [q|] eqn:Eq.
    - destruct (so_some _ _ _ _ _ _ HS _ Eq) as (pb & Hpb & Hps & _ & Hpar). pose proof (sp_strict _ _ _ _ _ Hpar eq_refl) as HSt.
      destruct (v_recs _ _ (vi_vault _ _ _ _ (inv_obj _ _ HI) _ _ Hpb Hps) r) as (l & Hl & _); [by apply (st_recs _ _ _ _ HSt)|].
      exists l. split; [done|]. by apply (st_deps _ _ _ _ HSt r).
    - destruct (so_none _ _ _ _ _ _ HS Eq) as (_ & _ & _ & _ & _ & E). rewrite E in Hr. by apply not_elem_of_empty in Hr. }
  destruct (erase_step _ _ _ _ _ _ _ _ Hf HR HV Hp H) as [->|(X & Hx0 & Hnd & Hin & He)].
  - exists sb. split; [done|]. split; [by destruct sb|]. split; [|by apply HC]. intros r. split; [|by intros [? _]]. intros Hr. split; [done|].
    apply valid_rec_live. destruct (Hlv r Hr) as (l & -> & _). eauto.
  - assert (Hso : s <> o) by (intros ->; destruct HV; congruence). pose proof (er_objs _ _ _ _ He s Hso) as Hob. rewrite Hs in Hob.
    destruct (w_objs w' !! s) as [sb'|] eqn:Es'; [|done]. destruct Hob as (Hsh & _ & Hrec).
    assert (HS' : set_at w' s sb'). { split; [done|]. by rewrite Hsh. }
    exists sb'. split; [done|]. split; [exact Hsh|]. split; [|by apply HC].
    intros r. rewrite Hrec, valid_rec_live, (er_live _ _ _ _ He). split.
    + intros [Hr Hn]. split; [done|]. destruct (Hlv r Hr) as (l & Hl & Hd). rewrite decide_False; [by rewrite Hl; eauto|]. intros Hx. apply Hn. eauto.
    + intros [Hr Hv]. split; [done|]. intros [Hx _]. rewrite decide_True in Hv by done. by destruct Hv.
Qed.

(** C22: in the safe class a set only ever holds valid records of its vault, and every lookup in it gives such records. *)
Lemma t_C22_sets_hold_valid_records :
  forall w s sb r, reach true w -> set_at w s sb -> r ∈ o_recs sb ->
    valid_rec w r /\ exists o ob, o_parent sb = Some o /\ vault_at w o ob /\ r ∈ o_recs ob.
Proof.
  intros w s sb r HR [Hs Hst] Hr. pose proof (reach_inv _ _ HR) as HI. pose proof (vi_set _ _ _ _ (inv_obj _ _ HI) _ _ Hs Hst) as HS.
  destruct (o_parent sb) as [q|] eqn:Eq.
  - destruct (source_parent true w s sb q HR (or_intror (conj eq_refl (conj (conj Hs Hst) Eq)))) as (pb & HV & Hsub).
    split; [by eapply (vault_valid true w HR); [done|auto]|]. exists q, pb. auto.
  - destruct (so_none _ _ _ _ _ _ HS Eq) as (_ & _ & _ & _ & _ & E). rewrite E in Hr. by apply not_elem_of_empty in Hr.
Qed.
