(** Lemmas for C49: getters answer for the current state. *)
From Verif Require Export T_Copy.
Open Scope nat_scope.

(** C49: the getters of a set whose vault lives: keys and unique keys are the vault's, Size counts the members; in the safe class the key types
    are the vault's too. None of them is undefined. *)
Lemma t_C49_set_getters :
  forall b w s sb p, reach b w -> set_at w s sb -> o_parent sb = Some p ->
    exists pb, vault_at w p pb /\
      set_get_keys w sb = Some (get_keys pb) /\ set_get_unique_keys w sb = Some (get_unique_keys pb) /\
      (forall k, set_is_key_exist w sb k = Some (bool_decide (k ∈ get_keys pb))) /\
      set_size w sb = Some (size (o_recs sb)) /\
      (b = true -> forall k, set_get_key_type w sb k = Some (get_key_type pb k)).
Proof.
  intros b w s sb p HR [Hs Hst] Hp. pose proof (reach_inv _ _ HR) as HI.
  destruct (Inv_set_facts _ _ _ _ _ HI Hs Hst Hp) as (pb & Hpb & Hps & _ & _ & Hpar). exists pb. split; [done|].
  assert (HV : vault_at w p pb) by done.
  unfold set_get_keys, set_get_unique_keys, set_size. rewrite Hp, Hpb. cbn [mbind option_bind]. split; [done|]. split; [done|]. split; [|split; [done|]].
  - intros k. unfold set_is_key_exist. rewrite Hp, Hpb. cbn [mbind option_bind]. f_equal.
    destruct (t_C13_getters_agree _ _ _ _ HR HV) as (_ & H & _). specialize (H k). destruct (is_key_exist pb k).
    + symmetry. apply bool_decide_eq_true. by apply H.
    + symmetry. apply bool_decide_eq_false. intros Hk. by apply H in Hk.
  - intros -> k. unfold set_get_key_type. rewrite Hp, Hpb. cbn [mbind option_bind]. f_equal.
    destruct (t_C13_set_keys w s sb p pb HR (conj Hs Hst) Hp HV) as (_ & _ & H & _). apply H.
Qed.
(** C49: CheckRecord says whether the record the reference denotes is in the set. *)
Lemma t_C49_check_exact :
  forall b w s sb f rf, reach b w -> set_at w s sb -> w_refs w !! f = Some rf ->
    exists c, set_check w s rf = Some c /\ (c = true <-> exists r, denotes w f r /\ r ∈ o_recs sb).
Proof.
  intros b w s sb f rf HR [Hs Hst] Hf. pose proof (reach_inv _ _ HR) as HI. unfold set_check. rewrite Hs. cbn [mbind option_bind].
  assert (D : forall r, denotes w f r <-> f_rec rf = Some r). { intros r. split; [intros (? & ? & ?); congruence|]. intros ?. by exists rf. }
  destruct (o_parent sb) as [p|] eqn:Hp.
  - destruct (Inv_set_facts _ _ _ _ _ HI Hs Hst Hp) as (pb & Hpb & _). rewrite Hpb. cbn [mbind option_bind]. destruct (f_rec rf) as [r|] eqn:Hr.
    + eexists. split; [done|]. rewrite bool_decide_eq_true. split; [intros ?; exists r; by rewrite D|]. intros (r' & Hr' & ?). apply D in Hr'. congruence.
    + exists false. split; [done|]. split; [done|]. intros (r & Hr' & _). by apply D in Hr'.
  - exists false. split; [done|]. split; [done|]. intros (r & _ & Hr).
    destruct (so_none _ _ _ _ _ _ (vi_set _ _ _ _ (inv_obj _ _ HI) _ _ Hs Hst) Hp) as (_ & _ & _ & _ & _ & E). rewrite E in Hr. by apply not_elem_of_empty in Hr.
Qed.
(** C49: GetKeyValue of a vault answers exactly for the keys that are not unique, with a value of the key's type: the value a record created now
    without this key would hold. *)
Lemma t_C49_getkeyvalue_exact :
  forall b w o ob k t, reach b w -> vault_at w o ob ->
    match get_key_type ob k with
    | None => get_key_value ob k t = (bad WrongKey k (Some t) None, None)
    | Some t' => if decide (t' = t) then
                   if decide (k ∈ get_unique_keys ob) then get_key_value ob k t = (bad UniqueKey k (Some t) (Some t'), None)
                   else exists d, get_key_value ob k t = (okres Success k (Some t) (Some t), Some d) /\ vty d = t /\
                     forall ps, k ∉ (fst <$> ps) -> given ob ps k = Some d
                 else get_key_value ob k t = (bad WrongType k (Some t) (Some t'), None)
    end.
Proof.
  intros b w o ob k t HR HV. pose proof (vault_keys b w HR _ _ HV) as HK. unfold get_key_value, get_key_type. destruct (o_keys ob !! k) as [[t' d0]|] eqn:Ek; cbn; [|done].
  destruct (decide (t' = t)) as [->|]; [|done]. unfold get_unique_keys. destruct (decide (k ∈ o_uniq ob)); [done|].
  pose proof (k_tmpl _ HK k) as Ht. rewrite Ek in Ht. destruct (o_tmpl ob !! k) as [d|] eqn:Ed; [|done]. exists d. cbn in Ht.
  rewrite decide_True by done. split; [done|]. split; [done|]. intros ps Hps. unfold given.
  assert (filter (fun p : string * value => p.1 = k) ps = []) as ->; [|done].
  clear - Hps. induction ps as [|[k' v] ps IH]; [done|]. cbn in Hps. apply not_elem_of_cons in Hps as [H1 H2]. rewrite filter_cons_False by (cbn; congruence). by apply IH.
Qed.
(** C49: GetKeyValue of a set (safe class) rejects what the vault's rejects, and otherwise gives a value of the key's type. *)
Lemma t_C49_set_getkeyvalue :
  forall w s sb p pb k t, reach true w -> set_at w s sb -> o_parent sb = Some p -> vault_at w p pb ->
    exists res got got', set_get_key_value w sb k t = Some (res, got) /\ get_key_value pb k t = (res, got') /\
      (is_Some got <-> is_Some got') /\ forall d, got = Some d -> vty d = t.
Proof.
  intros w s sb p pb k t HR [Hs Hst] Hp HV. pose proof (reach_inv _ _ HR) as HI. destruct (Inv_set_facts _ _ _ _ _ HI Hs Hst Hp) as (pb' & Hpb & _ & _ & _ & Hpar).
  assert (pb' = pb) as -> by (destruct HV; congruence). pose proof (sp_strict _ _ _ _ _ Hpar eq_refl) as HS.
  destruct (t_C13_set_keys w s sb p pb HR (conj Hs Hst) Hp HV) as (_ & Hu & Hk & _). unfold set_get_key_value. rewrite Hp, Hpb. cbn [mbind option_bind].
  pose proof (k_tmpl _ (vault_keys _ _ HR _ _ HV) k) as Ht. pose proof (st_tmpl _ _ _ _ HS k) as Ht'.
  specialize (Hk k). unfold get_key_type, get_unique_keys in *. unfold get_key_value. rewrite <- Hu.
  destruct (o_keys sb !! k) as [[t1 d1]|], (o_keys pb !! k) as [[t2 d2]|]; cbn in Hk; try done.
  2:{ do 3 eexists. split; [done|]. split; [done|]. split; done. }
  injection Hk as <-. destruct (decide (t1 = t)) as [->|].
  2:{ do 3 eexists. split; [done|]. split; [done|]. split; done. }
  destruct (decide (k ∈ o_uniq sb)).
  { do 3 eexists. split; [done|]. split; [done|]. split; done. }
  destruct (o_tmpl sb !! k) as [v1|], (o_tmpl pb !! k) as [v2|]; try done. cbn in Ht, Ht'. rewrite !decide_True by congruence.
  do 3 eexists. split; [done|]. split; [done|]. split; [split; eauto|]. intros d [= <-]. done.
Qed.
(** C49: Size goes up by one with every accepted CreateRecord and is unchanged by a rejected one. *)
Lemma t_C49_size_after_create :
  forall b ord w o ob f ps w' res, reach b w -> vault_at w o ob -> step ord w (OCreateRecord o f ps) = Some (w', ORes res) ->
    exists ob', vault_at w' o ob' /\ vault_size ob' = if res_ok res then S (vault_size ob) else vault_size ob.
Proof.
  intros b ord w o ob f ps w' res HR HV H. destruct (res_ok res) eqn:E.
  - destruct (t_C03_create_stores_exactly _ _ _ _ _ _ _ _ _ HR HV H E) as (r & ob' & _ & Hr & HV' & Hrec & _). exists ob'. split; [done|].
    unfold vault_size. rewrite Hrec. rewrite size_union, size_singleton; [done|]. pose proof (Hr o ob (proj1 HV)). clear - H0. set_solver.
  - pose proof (t_C02_failed_create_changes_nothing _ _ _ _ _ _ _ _ _ HR HV H E) as (_ & Hn & _).
    exists ob. split; [|done]. split; [by rewrite Hn; apply HV|apply HV].
Qed.
Lemma size_minus (A B : gset nat) (X : list nat) : NoDup X -> (forall r, r ∈ X -> r ∈ A) -> (forall r, r ∈ B <-> r ∈ A /\ r ∉ X) -> size B + length X = size A.
Proof.
  intros Hn Hs HB. assert (A = B ∪ list_to_set X) as ->.
  { apply set_eq. intros r. rewrite elem_of_union, elem_of_list_to_set, HB. destruct (decide (r ∈ X)); naive_solver. }
  rewrite size_union; [by rewrite size_list_to_set|]. intros r Hr. rewrite elem_of_list_to_set, HB in *. naive_solver.
Qed.
(** C49: erasing takes exactly the erased records off Size. *)
Lemma t_C49_size_after_erase :
  forall b ord w p o ob w' out, fair ord -> reach b w -> vault_at w o ob -> erases_from o p -> step ord w p = Some (w', out) ->
    exists X ob', NoDup X /\ erased_exactly o X w w' /\ vault_at w' o ob' /\ vault_size ob' + length X = vault_size ob /\
      forall r, r ∈ X <-> r ∈ o_recs ob /\ ~ valid_rec w' r.
Proof.
  intros b ord w p o ob w' out Hf HR HV He H. destruct (t_C06_others_found_by_equality _ _ _ _ _ _ _ _ Hf HR HV He H) as (X & ob' & Hn & HX & HE & HV' & _).
  exists X, ob'. split; [done|]. split; [done|]. split; [done|]. destruct HE as (_ & E2 & _ & E4 & _). destruct (E4 _ HV) as (ob2 & HV2 & _ & E5).
  assert (ob2 = ob') as -> by (destruct HV', HV2; congruence). split; [by apply size_minus|].
  intros r. split.
  - intros Hr. split; [by apply HX|]. intros Hv. by apply E2 in Hv as [_ ?].
  - intros [Hr Hnv]. destruct (decide (r ∈ X)) as [|Hx]; [done|]. destruct Hnv. apply E2. split; [|done]. by eapply (vault_valid b w HR).
Qed.
