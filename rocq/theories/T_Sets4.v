(** Lemmas for C24: what removal from a set does to the set's own answers. *)
From Verif Require Export T_Sets3.
Open Scope nat_scope.

(** The indexes of a set, without the dependency lists of its records. *)
Definition set_idx (L : gmap nat lrec) (sb : obj) : Prop :=
  (forall k td r, o_keys sb !! k = Some td -> r ∈ o_recs sb -> exists l, L !! r = Some l /\ val_of L k r = Some (get_typed l.1 k td.1 (vzero td.1))) /\
  (forall k td, o_keys sb !! k = Some td -> exists ix, o_idx sb !! k = Some ix /\ good (o_recs sb) (val_of L k) ix).
Lemma strict_set_idx L s sb pb : vault_ok L pb -> strict L s sb pb -> set_idx L sb.
Proof.
  intros Hv [S1 S2 S3 S4 S5 S6 S7 S8]. split.
  - intros k td r Hk Hr. destruct (v_recs _ _ Hv _ (S6 _ Hr)) as (l & Hl & Ht). exists l. split; [done|].
    assert (exists td', o_keys pb !! k = Some td' /\ td'.1 = td.1) as (td' & Hk' & Etd).
    { pose proof (f_equal (fun m => m !! k) S1) as E. cbn in E. rewrite !lookup_fmap, Hk in E. cbn in E.
      destruct (o_keys pb !! k) as [td'|]; [|done]. cbn in E. injection E as E. eauto. }
    rewrite <- Etd. by eapply val_of_typed.
  - intros k td Hk. destruct (S8 _ _ Hk) as (ix & Hix & G & _). eauto.
Qed.
Lemma set_idx_drop L sb r l : set_idx L sb -> r ∈ o_recs sb -> L !! r = Some l -> set_idx L (drop_rec l.1 r sb).
Proof.
  intros [H1 H2] Hr Hl. split.
  - intros k td x Hk Hx. apply (H1 k td x Hk). cbn in Hx. by apply elem_of_difference in Hx as [? _].
  - intros k td Hk. change (o_keys sb !! k = Some td) in Hk. destruct (H2 _ _ Hk) as (ix & Hix & G). rewrite lookup_drop_rec, Hix. cbn. rewrite Hk. eexists. split; [done|].
    unfold eraser. apply good_erase; [done|]. intros _. destruct (H1 k td r Hk Hr) as (l' & Hl' & Hval). congruence.
Qed.
Lemma filed_drop_set L sb r l k v x :
  set_idx L sb -> r ∈ o_recs sb -> L !! r = Some l -> is_Some (o_keys sb !! k) ->
  (filed (drop_rec l.1 r sb) k v x <-> filed sb k v x /\ x <> r) /\ (filed_ord (drop_rec l.1 r sb) k v x <-> filed_ord sb k v x /\ ~ filed_ord sb k v r).
Proof.
  intros [V1 V2] Hr Hl [td Hk]. destruct (V2 _ _ Hk) as (ix & Hix & G). destruct (V1 k td r Hk Hr) as (l' & Hl' & Hval). assert (l' = l) as -> by congruence.
  set (v0 := get_typed l.1 k td.1 (vzero td.1)) in *.
  assert (Hix' : o_idx (drop_rec l.1 r sb) !! k = Some (idx_erase v0 r ix)). { rewrite lookup_drop_rec, Hix. cbn. by rewrite Hk. }
  unfold filed, filed_ord. rewrite Hix', Hix. split.
  - split.
    + intros (ix1 & [= <-] & Hin). cbn in Hin. apply elem_erase_entry in Hin as [Hne Hin]; [|apply G]. split; [by eauto|]. intros ->.
      apply (g_hash _ _ _ G) in Hin as [_ Hin']. congruence.
    + intros [(ix1 & [= <-] & Hin) Hne]. eexists. split; [done|]. cbn. apply elem_erase_entry; [apply G|]. split; [congruence|done].
  - split.
    + intros (ix1 & [= <-] & Hin). cbn in Hin. destruct (decide ((v0, r) ∈ ix_tree ix)) as [Hi|Hi].
      * apply elem_erase_value in Hin as [Hne Hin]. split; [by eauto|]. intros (ix1 & [= <-] & Hr1). apply (g_tree _ _ _ G) in Hr1 as [_ Hr1].
        cbn in Hne. congruence.
      * split; [by eauto|]. intros (ix1 & [= <-] & Hr1). pose proof (g_tree _ _ _ G _ _ Hr1) as [_ Hr2]. congruence.
    + intros [(ix1 & [= <-] & Hin) Hne]. eexists. split; [done|]. cbn. destruct (decide ((v0, r) ∈ ix_tree ix)) as [Hi|Hi]; [|done].
      apply elem_erase_value. split; [|done]. cbn. intros ->. apply Hne. eauto.
Qed.

(** What is left of a set of which [X] was removed. *)
Definition left_of (X : list nat) (sb sb' : obj) : Prop :=
  o_parent sb' = o_parent sb /\ same_schema sb sb' /\ (forall r, r ∈ o_recs sb' <-> r ∈ o_recs sb /\ r ∉ X) /\
  forall k v r, is_Some (get_key_type sb k) ->
    (filed sb' k v r <-> filed sb k v r /\ r ∉ X) /\ (filed_ord sb' k v r <-> filed_ord sb k v r /\ forall x, x ∈ X -> ~ filed_ord sb k v x).
Lemma left_of_nil sb : left_of [] sb sb.
Proof.
  split; [done|]. split; [done|]. split; [intros r; split; [intros ?; split; [done|]; apply not_elem_of_nil|by intros [? _]]|].
  intros k v r _. split; (split; [intros ?; split; [done|]|by intros [? _]]); [apply not_elem_of_nil|by intros x Hx%elem_of_nil].
Qed.
Lemma detach_set_exact ord s p l w sb w' :
  Inv false w -> set_at w s sb -> o_parent sb = Some p -> set_idx (live w) sb -> (forall r, r ∈ o_recs sb -> valid_rec w r) ->
  NoDup l -> (forall r, r ∈ l -> r ∈ o_recs sb) ->
  foldM (fun w r => detach (dfuel w) ord w s r) w l = Some w' ->
  set_only s w w' /\ exists sb', set_at w' s sb' /\ left_of l sb sb'.
Proof.
  revert w sb. induction l as [|r l IH]; intros w sb HI HS Hp Hix Hval Hnd Hin H; cbn [foldM] in H.
  - injection H as <-. split; [apply set_only_refl|]. exists sb. split; [done|]. apply left_of_nil.
  - pose proof HS as [Hs Hst]. destruct (detach (dfuel w) ord w s r) as [w1|] eqn:E; [|done]. cbn [mbind option_bind] in H. unfold dfuel in E.
    destruct (detach_set_ok _ _ _ _ _ _ _ _ HI Hs Hst Hp E) as (rc & Hrc & -> & HI1).
    apply NoDup_cons in Hnd as [Hnr Hnd]. assert (Hr : r ∈ o_recs sb) by (apply Hin; by left).
    assert (Hl : live w !! r = Some (r_data rc, r_deps rc)). { destruct (Hval _ Hr) as (rc' & Hrc' & Hv). unfold live. rewrite lookup_live_of, Hrc. cbn. assert (rc' = rc) as -> by congruence. unfold live_rec. by rewrite Hv. }
    pose proof (set_idx_drop _ _ _ _ Hix Hr Hl) as Hix1. cbn [fst] in Hix1.
    assert (Hlive : live (set_obj s (drop_rec (r_data rc) r sb) w) = live w) by done.
    destruct (IH _ (drop_rec (r_data rc) r sb) HI1) as (H1 & sb' & H2 & H3); try done.
    { split; [cbn; by rewrite lookup_insert|done]. }
    { intros x Hx. cbn in Hx. apply elem_of_difference in Hx as [Hx _]. by apply Hval. }
    { intros x Hx. cbn. apply elem_of_difference. split; [apply Hin; by right|]. intros ->%elem_of_singleton. done. }
    split; [eapply set_only_trans; [apply set_only_set|done]|]. exists sb'. split; [done|]. destruct H3 as (L1 & L2 & L3 & L4).
    split; [by rewrite L1|]. split; [done|]. split.
    { intros x. rewrite L3. cbn. rewrite elem_of_difference, elem_of_singleton, elem_of_cons. clear. tauto. }
    intros k v x Hk. destruct (L4 k v x Hk) as [L5 L6]. assert (Hk' : is_Some (o_keys sb !! k)) by (unfold get_key_type in Hk; by apply fmap_is_Some in Hk).
    destruct (filed_drop_set (live w) sb r (r_data rc, r_deps rc) k v x Hix Hr Hl Hk') as [F1 F2]. cbn [fst] in F1, F2. split.
    + rewrite L5, F1, elem_of_cons. clear. tauto.
    + rewrite L6, F2. split.
      * intros [[G1 G2] G3]. split; [done|]. intros y [->|Hy]%elem_of_cons; [done|]. intros Hf. apply (G3 y Hy).
        destruct (filed_drop_set (live w) sb r (r_data rc, r_deps rc) k v y Hix Hr Hl Hk') as [_ F3]. cbn [fst] in F3. apply F3. done.
      * intros [G1 G2]. split; [split; [done|]; apply G2; by left|]. intros y Hy Hf.
        destruct (filed_drop_set (live w) sb r (r_data rc, r_deps rc) k v y Hix Hr Hl Hk') as [_ F3]. cbn [fst] in F3. apply F3 in Hf as [Hf _]. apply (G2 y); [by right|done].
Qed.

(** The sets of the safe class before the removal. *)
Lemma safe_set w s sb p : reach true w -> set_at w s sb -> o_parent sb = Some p -> set_idx (live w) sb /\ (forall r, r ∈ o_recs sb -> valid_rec w r).
Proof.
  intros HR [Hs Hst] Hp. pose proof (reach_inv _ _ HR) as HI. destruct (Inv_set_facts _ _ _ _ _ HI Hs Hst Hp) as (pb & Hpb & Hpst & _ & _ & [_ _ F]).
  specialize (F eq_refl). pose proof (vi_vault _ _ _ _ (inv_obj _ _ HI) _ _ Hpb Hpst) as Hv. split; [by eapply strict_set_idx|].
  intros r Hr. apply (st_recs _ _ _ _ F) in Hr. by eapply (vault_valid true w HR); [split|].
Qed.
Lemma set_hash_nodup w sb k td ix v : set_idx (live w) sb -> o_keys sb !! k = Some td -> o_idx sb !! k = Some ix ->
  NoDup (snd <$> equal_range v (ix_hash ix)) /\ forall r, r ∈ snd <$> equal_range v (ix_hash ix) -> r ∈ o_recs sb.
Proof.
  intros [_ V] Hk Hix. destruct (V _ _ Hk) as (ix' & Hix' & G). assert (ix' = ix) as -> by congruence. split.
  - apply NoDup_equal_range_snd, G.
  - intros r Hr. apply elem_equal_range_snd in Hr. by apply (g_hash _ _ _ G) in Hr as [? _].
Qed.
Lemma picks_none w ob p o : erases_from o p -> w_objs w !! o = Some ob ->
  (match p with OEraseRef _ f => forall r, ~ (denotes w f r /\ r ∈ o_recs ob) | OEraseRecord _ k v | OEraseRecords _ k v _ => get_key_type ob k = Some (vty v) -> forall r, ~ filed ob k v r | _ => False end) ->
  erasure_picks w ob p [].
Proof.
  intros Hp Ho H. split; [constructor|]. destruct p; cbn in Hp; try done.
  - intros r. split; [by intros ?%elem_of_nil|intros Hr; by destruct (H r)].
  - exists []. split; [constructor|]. split; [|split; [clear; set_solver|done]]. intros r. split; [by intros ?%elem_of_nil|intros [H1 H2]; by destruct (H H1 r)].
  - exists []. split; [constructor|]. split; [|split; [clear; set_solver|destruct amt; cbn; lia]]. intros r. split; [by intros ?%elem_of_nil|intros [H1 H2]; by destruct (H H1 r)].
Qed.
Lemma limit1_length {A} amt (l : list A) : length (limit1 amt l) = match amt with None => length l | Some n => length l `min` (n `max` 1) end.
Proof. destruct amt; cbn [limit1]; [|done]. rewrite take_length. lia. Qed.

(** C24: what removal takes out of a set of the safe class, and what it does to the set's answers: lookups by equality lose exactly the removed records, lookups in order
    lose every record that shares its value with a removed one. *)
Lemma t_C24_removal_answers :
  forall ord w q s sb p w' out, fair ord -> reach true w -> set_at w s sb -> o_parent sb = Some p -> erases_from s q -> step ord w q = Some (w', out) ->
    exists X sb', erasure_picks w sb q X /\ only_set_changed s w w' /\ set_at w' s sb' /\ o_parent sb' = Some p /\ same_schema sb sb' /\
      (forall r, r ∈ o_recs sb' <-> r ∈ o_recs sb /\ r ∉ X) /\
      (forall k v r, is_Some (get_key_type sb k) -> (filed sb' k v r <-> filed sb k v r /\ r ∉ X)) /\
      (forall k v r, is_Some (get_key_type sb k) -> (filed_ord sb' k v r <-> filed_ord sb k v r /\ forall x, x ∈ X -> ~ filed_ord sb k v x)).
Proof.
  intros ord w q s sb p w' out Hf HR HS Hp Hq H. pose proof (Inv_wide _ _ (reach_inv _ _ HR)) as HI. pose proof HS as [Hs Hst].
  destruct (safe_set _ _ _ _ HR HS Hp) as [Hix Hval].
  assert (Fin : forall X, erasure_picks w sb q X -> (forall r, r ∈ X -> r ∈ o_recs sb) -> foldM (fun w r => detach (dfuel w) ord w s r) w X = Some w' ->
    exists X sb', erasure_picks w sb q X /\ only_set_changed s w w' /\ set_at w' s sb' /\ o_parent sb' = Some p /\ same_schema sb sb' /\
      (forall r, r ∈ o_recs sb' <-> r ∈ o_recs sb /\ r ∉ X) /\
      (forall k v r, is_Some (get_key_type sb k) -> (filed sb' k v r <-> filed sb k v r /\ r ∉ X)) /\
      (forall k v r, is_Some (get_key_type sb k) -> (filed_ord sb' k v r <-> filed_ord sb k v r /\ forall x, x ∈ X -> ~ filed_ord sb k v x))).
  { intros X HP Hin E. destruct (detach_set_exact ord s p X w sb w') as (H1 & sb' & H2 & L1 & L2 & L3 & L4); try done; [apply HP|].
    exists X, sb'. split; [done|]. split; [by apply set_only_changed|]. split; [done|]. split; [congruence|]. split; [done|]. split; [done|]. split; intros k v r Hk; by destruct (L4 k v r Hk). }
  destruct q; cbn in Hq; try done; subst; cbn [step] in H; unfold is_obj in H; rewrite (bool_decide_true (is_Some (w_objs w !! s))) in H by eauto; cbn [andb guard_op] in H.
  - destruct (is_ref w f) eqn:Erf; cbn [guard_op] in H.
    2:{ injection H as <- <-. apply (Fin []); [|by intros r Hr%elem_of_nil|done]. eapply (picks_none w sb (OEraseRef s f) s); [done|done|]. intros r [(rf & Hrf & _) _]. unfold is_ref in Erf. rewrite Hrf in Erf. by rewrite bool_decide_true in Erf by eauto. }
    apply bool_inv in H as (bb & H & _). unfold erase_ref in H. rewrite Hs in H. cbn [mbind option_bind] in H. destruct (w_refs w !! f) as [rf|] eqn:Hrf; [|done]. cbn [mbind option_bind] in H.
    rewrite Hst, Hp in H. rewrite bool_decide_false in H by done. cbn [andb] in H. destruct (f_rec rf) as [r|] eqn:Er.
    2:{ injection H as <- <-. apply (Fin []); [|by intros r Hr%elem_of_nil|done]. eapply (picks_none w sb (OEraseRef s f) s); [done|done|]. intros r [(rf' & Hrf' & Hr') _]. congruence. }
    unfold remove_record in H. rewrite Hs in H. cbn [mbind option_bind] in H. destruct (decide (r ∈ o_recs sb)) as [Hin|Hni].
    + destruct (detach _ _ _ _ _) as [w1|] eqn:E; [|done]. cbn in H. injection H as <- <-. apply (Fin [r]).
      * split; [apply NoDup_singleton|]. intros x. rewrite elem_of_list_singleton. split; [intros ->; split; [by exists rf|done]|]. intros [(rf' & Hrf' & Hr') _]. congruence.
      * by intros x ->%elem_of_list_singleton.
      * cbn [foldM]. rewrite E. done.
    + injection H as <- <-. apply (Fin []); [|by intros x Hx%elem_of_nil|done]. eapply (picks_none w sb (OEraseRef s f) s); [done|done|]. intros x [(rf' & Hrf' & Hr') Hx]. assert (x = r) by congruence. by subst.
  - apply res_inv in H as (res & H & _). unfold set_parent_guard in H. rewrite Hs in H. cbn [mbind option_bind] in H. rewrite Hst, Hp in H. rewrite bool_decide_false in H by done. cbn [andb] in H.
    unfold erase_record in H. rewrite Hs in H. cbn [mbind option_bind] in H. destruct (o_keys sb !! k) as [[t d]|] eqn:Ek.
    2:{ injection H as <- <-. apply (Fin []); [|by intros x Hx%elem_of_nil|done]. eapply (picks_none w sb (OEraseRecord s k v) s); [done|done|]. unfold get_key_type. by rewrite Ek. }
    destruct (decide (t = vty v)) as [->|Hne].
    2:{ injection H as <- <-. apply (Fin []); [|by intros x Hx%elem_of_nil|done]. eapply (picks_none w sb (OEraseRecord s k v) s); [done|done|]. unfold get_key_type. rewrite Ek. cbn. congruence. }
    destruct (o_idx sb !! k) as [ix|] eqn:Eix; [|done]. cbn [mbind option_bind] in H. destruct (set_hash_nodup w sb k _ ix v Hix Ek Eix) as [Hnd Hsub].
    assert (Hl : forall r, r ∈ ord (snd <$> equal_range v (ix_hash ix)) <-> filed sb k v r).
    { intros r. rewrite (Hf _), elem_equal_range_snd. split; [by exists ix|]. intros (ix' & Hix' & Hr). assert (ix' = ix) as -> by congruence. done. }
    rewrite <- (Hf _) in Hnd. destruct (ord _) as [|r l] eqn:El.
    { injection H as <- <-. apply (Fin []); [|by intros x Hx%elem_of_nil|done]. eapply (picks_none w sb (OEraseRecord s k v) s); [done|done|]. intros _ r Hr. apply Hl in Hr. by apply elem_of_nil in Hr. }
    destruct (detach _ _ _ _ _) as [w1|] eqn:E; [|done]. cbn in H. injection H as <- <-. apply (Fin [r]).
    + split; [apply NoDup_singleton|]. exists (r :: l). split; [done|]. split; [|split; [clear; set_solver|cbn; lia]]. intros x. rewrite Hl. unfold get_key_type. rewrite Ek. cbn. clear. tauto.
    + intros x ->%elem_of_list_singleton. apply Hsub. rewrite <- (Hf _), El. by left.
    + cbn [foldM]. rewrite E. done.
  - apply res_inv in H as (res & H & _). unfold set_parent_guard in H. rewrite Hs in H. cbn [mbind option_bind] in H. rewrite Hst, Hp in H. rewrite bool_decide_false in H by done. cbn [andb] in H.
    unfold erase_records in H. rewrite Hs in H. cbn [mbind option_bind] in H. destruct (o_keys sb !! k) as [[t d]|] eqn:Ek.
    2:{ injection H as <- <-. apply (Fin []); [|by intros x Hx%elem_of_nil|done]. eapply (picks_none w sb (OEraseRecords s k v amt) s); [done|done|]. unfold get_key_type. by rewrite Ek. }
    destruct (decide (t = vty v)) as [->|Hne].
    2:{ injection H as <- <-. apply (Fin []); [|by intros x Hx%elem_of_nil|done]. eapply (picks_none w sb (OEraseRecords s k v amt) s); [done|done|]. unfold get_key_type. rewrite Ek. cbn. congruence. }
    destruct (o_idx sb !! k) as [ix|] eqn:Eix; [|done]. cbn [mbind option_bind] in H. destruct (set_hash_nodup w sb k _ ix v Hix Ek Eix) as [Hnd Hsub].
    assert (Hl : forall r, r ∈ ord (snd <$> equal_range v (ix_hash ix)) <-> filed sb k v r).
    { intros r. rewrite (Hf _), elem_equal_range_snd. split; [by exists ix|]. intros (ix' & Hix' & Hr). assert (ix' = ix) as -> by congruence. done. }
    rewrite <- (Hf _) in Hnd. destruct (ord _) as [|r l] eqn:El.
    { injection H as <- <-. apply (Fin []); [|by intros x Hx%elem_of_nil|done]. eapply (picks_none w sb (OEraseRecords s k v amt) s); [done|done|]. intros _ r Hr. apply Hl in Hr. by apply elem_of_nil in Hr. }
    destruct (foldM _ _ _) as [w1|] eqn:E; [|done]. cbn in H. injection H as <- <-. apply (Fin (limit1 amt (r :: l))); [| |done].
    + split; [by apply limit1_NoDup|]. exists (r :: l). split; [done|]. split; [|split; [intros x Hx; by eapply limit1_elem|apply limit1_length]]. intros x. rewrite Hl. unfold get_key_type. rewrite Ek. cbn. clear. tauto.
    + intros x Hx. apply limit1_elem in Hx. apply Hsub. rewrite <- (Hf _), El. done.
Qed.
