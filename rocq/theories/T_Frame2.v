(** The effect of every operation on vaults and records, bounded from above (C07, C13, C18, C19). *)
From Verif Require Export T_Frame T_Sort.
Open Scope nat_scope.

(** What an operation may do to one vault. *)
Definition vault_moved (p : op) (w w' : world) (o : nat) (ob : obj) : Prop :=
  exists ob', w_objs w' !! o = Some ob' /\ o_static_set ob' = false /\ (~ schema_op o p -> same_schema ob ob') /\
    (forall r, r ∈ o_recs ob' -> r ∈ o_recs ob \/ (adds_to o p /\ w_next w <= r) \/ (exists s sb, moves_vault p o s /\ vault_at w s sb /\ r ∈ o_recs sb)) /\
    (forall r, r ∈ o_recs ob -> r ∈ o_recs ob' \/ (takes_from o p /\ live w' !! r = None) \/ (exists d db, moves_vault p d o /\ vault_at w' d db /\ r ∈ o_recs db)).
Record effect (p : op) (w w' : world) : Prop := Effect {
  ef_next : w_next w <= w_next w';
  ef_live : forall r, r < w_next w -> live w' !! r = None \/ (is_Some (live w !! r) /\ forall k, ~ may_write w p r k -> val_of (live w') k r = val_of (live w) k r);
  ef_vault : forall o ob, vault_at w o ob -> p <> ODelVault o -> vault_moved p w w' o ob;
  ef_del : forall o, p = ODelVault o -> is_Some (w_objs w !! o) -> forall ob, vault_at w o ob -> w_objs w' !! o = None
}.
Lemma moved_same p w w' o ob ob' :
  w_objs w' !! o = Some ob' -> o_static_set ob = false -> o_static_set ob' = o_static_set ob -> same_schema ob ob' -> o_recs ob' = o_recs ob -> vault_moved p w w' o ob.
Proof. intros H0 Hs H1 H2 H3. exists ob'. split; [done|]. split; [congruence|]. split; [done|]. rewrite H3. split; auto. Qed.
Lemma same_schema_refl ob : same_schema ob ob.
Proof. done. Qed.
Lemma moved_id p w w' o ob : w_objs w' !! o = Some ob -> o_static_set ob = false -> vault_moved p w w' o ob.
Proof. intros H0 Hs. by eapply moved_same. Qed.
Lemma val_of_fst L L' r k : fst <$> (L' !! r : option lrec) = fst <$> (L !! r : option lrec) -> val_of L' k r = val_of L k r.
Proof. unfold val_of. intros E. destruct (L' !! r) as [[? ?]|], (L !! r) as [[? ?]|]; cbn in *; congruence. Qed.
Lemma live_fst_some (L L' : gmap nat lrec) r : fst <$> L' !! r = fst <$> L !! r -> L' !! r = None \/ (is_Some (L !! r) /\ forall k, val_of L' k r = val_of L k r).
Proof.
  intros E. destruct (L' !! r) as [l'|] eqn:E'; [right|by left]. split.
  - destruct (L !! r); [eauto|done].
  - intros k. apply val_of_fst. by rewrite E'.
Qed.
Lemma effect_refl p w : (forall o ob, p = ODelVault o -> ~ vault_at w o ob) -> effect p w w.
Proof.
  intros Hp. split; [done| | |].
  - intros r _. destruct (live_fst_some (live w) (live w) r eq_refl) as [|[? ?]]; auto.
  - intros o ob [Ho Hs] _. by apply moved_id.
  - intros o -> _ ob HV. by destruct (Hp o ob eq_refl).
Qed.
Lemma quiet_effect p w w' : quiet w w' -> (forall o, p <> ODelVault o) -> effect p w w'.
Proof.
  intros [(K1 & K2 & K3) Kn] Hp. split; [by rewrite Kn| | |].
  - intros r _. destruct (live w' !! r) as [l'|] eqn:E; [right|by left]. split; [apply valid_rec_live, K1, valid_rec_live; eauto|].
    intros k _. by rewrite <- !stored_val_of.
  - intros o ob HV _. destruct (K3 _ _ HV) as (ob' & [Ho' Hs'] & E). eapply moved_same; [done|apply HV| | |]; rewrite E; done || apply HV.
  - intros o ->. by destruct (Hp o).
Qed.

(** Records of rows read from a file, and the other vaults. *)
Record grown (o : nat) (w w' : world) : Prop := Grown {
  gr_next : w_next w <= w_next w';
  gr_live : forall r, r < w_next w -> live w' !! r = live w !! r;
  gr_objs : forall x, x <> o -> w_objs w' !! x = w_objs w !! x;
  gr_o : forall ob, w_objs w !! o = Some ob -> exists ob', w_objs w' !! o = Some ob' /\ same_keys ob ob' /\
     (forall r, r ∈ o_recs ob' -> r ∈ o_recs ob \/ w_next w <= r) /\ o_recs ob ⊆ o_recs ob'
}.
Lemma grown_refl o w : grown o w w.
Proof. split; [done|done|done|]. intros ob H. exists ob. split; [done|]. split; [done|]. split; [auto|done]. Qed.
Lemma same_keys_trans a b c : same_keys a b -> same_keys b c -> same_keys a c.
Proof. unfold same_keys. intuition congruence. Qed.
Lemma grown_trans o w1 w2 w3 : grown o w1 w2 -> grown o w2 w3 -> grown o w1 w3.
Proof.
  intros [A1 A2 A3 A4] [B1 B2 B3 B4]. split; [lia| | |].
  - intros r Hr. rewrite B2 by lia. by apply A2.
  - intros x Hx. rewrite B3 by done. by apply A3.
  - intros ob Ho. destruct (A4 _ Ho) as (ob1 & Ho1 & S1 & R1 & U1). destruct (B4 _ Ho1) as (ob2 & Ho2 & S2 & R2 & U2).
    exists ob2. split; [done|]. split; [by eapply same_keys_trans|]. split; [|set_solver]. intros r Hr. destruct (R2 r Hr) as [Hr1|]; [|right; lia]. by apply R1.
Qed.
Lemma grown_set o ob ob' w : w_objs w !! o = Some ob -> same_keys ob ob' -> o_recs ob' = o_recs ob -> grown o w (set_obj o ob' w).
Proof.
  intros Ho Hs Hr. split; [done|done| |].
  - intros x Hx. cbn. by rewrite lookup_insert_ne.
  - intros ob1 E. assert (ob1 = ob) as -> by congruence. exists ob'. cbn. rewrite lookup_insert. split; [done|]. split; [done|]. rewrite Hr. auto.
Qed.
Lemma grown_bumped o w : grown o w (bumped w).
Proof. split; [cbn; lia|done|done|]. intros ob H. exists ob. split; [done|]. split; [done|]. auto. Qed.
Lemma grown_created o ob data w : w_objs w !! o = Some ob -> grown o w (created o ob data w).
Proof.
  intros Ho. split; [cbn; lia| | |].
  - intros r Hr. rewrite live_created. rewrite decide_False by lia. done.
  - intros x Hx. cbn. by rewrite lookup_insert_ne.
  - intros ob1 E. assert (ob1 = ob) as -> by congruence. eexists. cbn. rewrite lookup_insert. split; [done|]. split; [done|].
    cbn. split; [|set_solver]. intros r Hr. apply elem_of_union in Hr as [Hr|Hr]; [right|by left]. apply elem_of_singleton in Hr. lia.
Qed.
Lemma row_effect_grown o ob load line data ok wrong w w' :
  w_objs w !! o = Some ob -> row_effect o ob load line data ok wrong w w' -> grown o w w'.
Proof.
  intros Ho. unfold row_effect. set (ob1 := add_bad _ ob). assert (G1 : grown o w (set_obj o ob1 w)) by (by eapply grown_set).
  destruct ok; [intros [(_ & ->)|(ks1 & k & ks2 & _ & _ & _ & ->)]|by intros ->].
  - eapply grown_trans; [done|]. apply grown_created. cbn. by rewrite lookup_insert.
  - eapply grown_trans; [done|]. eapply grown_trans; [apply grown_bumped|]. eapply grown_set; [cbn; by rewrite lookup_insert|done|done].
Qed.
Lemma read_rows_loop_grown b o load keys user rows : forall line w ob w',
  Inv b w -> w_objs w !! o = Some ob -> o_static_set ob = false -> read_rows_loop w o load keys user line rows = Some w' -> grown o w w'.
Proof.
  induction rows as [|row rows IH]; intros line w ob w' HI Ho Hst H; cbn [read_rows_loop] in *; [injection H as <-; apply grown_refl|].
  destruct (read_row w o load keys user (S line) row) as [w1|] eqn:E1; [|done]. cbn [mbind option_bind] in H.
  assert (is_Some (row_fields ob load keys user row)) as [[[data ok] wrong] Hrow].
  { destruct (row_fields ob load keys user row) as [|] eqn:E; [eauto|].
    exfalso. unfold read_row in E1. rewrite Ho in E1. cbn [mbind option_bind] in E1. unfold row_fields in E. rewrite E in E1. done. }
  destruct (read_row_ok b w o ob load keys user (S line) row data ok wrong) as (w2 & E2 & HI1 & _ & He); try done. assert (w2 = w1) as -> by congruence.
  pose proof (row_effect_grown _ _ _ _ _ _ _ _ _ Ho He) as G1. destruct (gr_o _ _ _ G1 _ Ho) as (ob' & Ho' & Hsk & _).
  eapply grown_trans; [done|]. eapply (IH _ w1 ob'); try done. destruct Hsk as (-> & _). done.
Qed.
Lemma grown_effect p o ob w w' : grown o w w' -> w_objs w !! o = Some ob -> adds_to o p -> (forall o, p <> ODelVault o) -> effect p w w'.
Proof.
  intros [G1 G2 G3 G4] Ho Ha Hp. split; [done| | |].
  - intros r Hr. destruct (live_fst_some (live w) (live w') r) as [|[? ?]]; auto. by rewrite G2.
  - intros x xb [Hx Hs] _. destruct (decide (x = o)) as [->|Hne]; [|apply moved_id; [by rewrite G3|done]].
    destruct (G4 _ Hx) as (ob' & Ho' & (S1 & S2 & S3 & S4 & S5 & S6 & S7 & S8) & R1 & R2). exists ob'. split; [done|]. split; [congruence|]. split; [done|]. split.
    + intros r Hr. destruct (R1 r Hr); auto.
    + auto.
  - intros x ->. by destruct (Hp x).
Qed.

(** Several values set through one reference. *)
Record written (w w' : world) (r : nat) (ks : list string) : Prop := Written {
  wr_next : w_next w' = w_next w;
  wr_live : forall x, is_Some (live w' !! x) <-> is_Some (live w !! x);
  wr_val : forall x k, ~ (x = r /\ k ∈ ks) -> val_of (live w') k x = val_of (live w) k x;
  wr_refs : w_refs w' = w_refs w;
  wr_objs : forall x xb, w_objs w !! x = Some xb -> exists xb', w_objs w' !! x = Some xb' /\ xb' = ob_idx (o_idx xb') xb
}.
Lemma written_refl w r ks : written w w r ks.
Proof. split; try done. intros x xb H. exists xb. split; [done|by destruct xb]. Qed.
Lemma written_trans w1 w2 w3 r ks1 ks2 : written w1 w2 r ks1 -> written w2 w3 r ks2 -> written w1 w3 r (ks1 ++ ks2).
Proof.
  intros [A1 A2 A3 A4 A5] [B1 B2 B3 B4 B5]. split; [congruence| | |congruence|].
  - intros x. by rewrite B2, A2.
  - intros x k Hn. rewrite B3, A3; [done| |]; intros [-> Hk]; apply Hn; (split; [done|]); apply elem_of_app; auto.
  - intros x xb H. destruct (A5 _ _ H) as (xb1 & H1 & E1). destruct (B5 _ _ H1) as (xb2 & H2 & E2). exists xb2. split; [done|]. rewrite E2 at 1. rewrite E1. done.
Qed.
Lemma written_data_set r k v o rc w : w_recs w !! r = Some rc -> written w (data_set r k v o rc w) r [k].
Proof.
  intros Hr. split; try done.
  - intros x. rewrite live_data_set by done. by rewrite fmap_is_Some.
  - intros x k' Hn. unfold val_of. rewrite live_data_set by done. destruct (live w !! x) as [l|]; [|done]. cbn. destruct (decide (x = r)) as [->|]; [|done]. cbn.
    rewrite lookup_insert_ne; [done|]. intros ->. apply Hn. split; [done|]. by apply elem_of_list_singleton.
  - intros x xb H. by apply data_set_obj.
Qed.
Lemma set_many_written b ord f ps : forall w rf res w' res',
  fair ord -> Inv b w -> w_refs w !! f = Some rf -> ref_fit b w rf -> ref_set_many_loop ord w f ps res = Some (w', res') ->
  forall r, f_rec rf = Some r -> written w w' r (fst <$> ps).
Proof.
  induction ps as [|[k v] ps IH]; intros w rf res w' res' Hf HI Hrf Hfit H r Hr; cbn [ref_set_many_loop] in *; [injection H as <- <-; apply written_refl|].
  destruct (ref_set_data ord w f k v) as [[w1 res1]|] eqn:E1; [|done]. cbn [mbind option_bind] in H.
  destruct (ref_set_data_ok b ord w f rf k v) as (w2 & res2 & E & HI' & Hc); try done; [by eapply Some_Def|]. rewrite E1 in E. apply (inj Some) in E. injection E as <- <-.
  assert (W1 : written w w1 r [k] /\ ref_fit b w1 rf /\ w_refs w1 !! f = Some rf).
  { destruct Hc as [[-> _]|(r1 & o & ob & rc & Hr1 & _ & _ & _ & _ & Hrc & _ & _ & ->)]; [split; [apply written_refl|done]|].
    assert (r1 = r) as -> by congruence. split; [by apply written_data_set|]. split; [by apply ref_fit_data_set|done]. }
  destruct W1 as (W1 & F1 & R1). cbn. change (k :: (fst <$> ps)) with ([k] ++ (fst <$> ps)). destruct (res_ok res1); [eapply written_trans; [done|]; by eapply IH|].
  injection H as <- <-. eapply written_trans; [done|]. apply written_refl.
Qed.
Lemma written_effect p w w' r ks : written w w' r ks -> (forall k, k ∈ ks -> may_write w p r k) -> (forall o, p <> ODelVault o) -> effect p w w'.
Proof.
  intros [A1 A2 A3 A4 A5] Hm Hp. split; [by rewrite A1| | |].
  - intros x _. destruct (live w' !! x) as [l|] eqn:E; [right|by left]. split; [apply A2; eauto|]. intros k Hn. apply A3. intros [-> Hk]. auto.
  - intros o ob [Ho Hs] _. destruct (A5 _ _ Ho) as (ob' & Ho' & E). eapply moved_same; [done|done| | |]; rewrite E; done.
  - intros o ->. by destruct (Hp o).
Qed.

(** Dropping. *)
Lemma gone_live (P : Prop) (Hd : Decision P) (L L' : gmap nat lrec) r : fst <$> L' !! r = (if Hd then None else fst <$> L !! r) ->
  L' !! r = None \/ (is_Some (L !! r) /\ forall k, val_of L' k r = val_of L k r).
Proof. destruct Hd; intros E; [left; by destruct (L' !! r)|]. by apply live_fst_some. Qed.

Lemma key_added_effect p o k d uniq V rs ob w w' :
  vault_at w o ob -> key_added o k d uniq V rs w w' -> schema_op o p -> (forall r, r ∈ o_recs ob -> may_write w p r k) -> (forall o, p <> ODelVault o) -> effect p w w'.
Proof.
  intros HV Hk Hso Hm Hp. pose proof HV as [Ho Hs]. split; [by rewrite (ka_next _ _ _ _ _ _ _ _ Hk)| | |].
  - intros r _. rewrite (ka_live _ _ _ _ _ _ _ _ Hk). destruct (live w !! r) as [l|] eqn:El; [right|by left]. split; [eauto|]. intros k' Hn.
    unfold val_of. rewrite (ka_live _ _ _ _ _ _ _ _ Hk), El. cbn. destruct (decide _) as [(ob1 & E & Hr)|_]; [|done]. cbn. rewrite lookup_insert_ne; [done|].
    intros ->. apply Hn, Hm. congruence.
  - intros x xb [Hx Hxs] _. destruct (decide (x = o)) as [->|Hne].
    + destruct (ka_o _ _ _ _ _ _ _ _ Hk _ Hx) as (_ & E & _). eexists. split; [done|]. split; [done|]. split; [done|]. cbn. auto.
    + apply moved_id; [|done]. rewrite (ka_objs _ _ _ _ _ _ _ _ Hk); [done|done|]. intros (sb & E & E' & _). congruence.
  - intros x ->. by destruct (Hp x).
Qed.
Lemma idx_only_effect p o ob ob' w : w_objs w !! o = Some ob -> o_static_set ob = false -> o_static_set ob' = o_static_set ob -> same_schema ob ob' \/ schema_op o p -> o_recs ob' = o_recs ob ->
  (forall o, p <> ODelVault o) -> effect p w (set_obj o ob' w).
Proof.
  intros Ho Hs H1 H2 H3 Hp. split; [done| | |].
  - intros r _. destruct (live_fst_some (live w) (live (set_obj o ob' w)) r eq_refl) as [|[? ?]]; auto.
  - intros x xb [Hx Hxs] _. destruct (decide (x = o)) as [->|Hne].
    + assert (xb = ob) as -> by congruence. exists ob'. cbn. rewrite lookup_insert. split; [done|]. split; [congruence|]. split; [tauto|]. rewrite H3. auto.
    + apply moved_id; [|done]. cbn. by rewrite lookup_insert_ne.
  - intros x ->. by destruct (Hp x).
Qed.

(** Moving. *)
Lemma live_keep p w w' r : live w' !! r = live w !! r -> live w' !! r = None \/ (is_Some (live w !! r) /\ forall k, ~ may_write w p r k -> val_of (live w') k r = val_of (live w) k r).
Proof. intros E. destruct (live_fst_some (live w) (live w') r) as [|[? ?]]; auto. by rewrite E. Qed.
Lemma move_src_moved p w w1 dst src sb : moves_vault p dst src -> dst <> src -> o_static_set sb = false -> vault_moved p w (moved_world dst src sb w1) src sb.
Proof.
  intros Hm Hne Hst. exists new_vault. split; [cbn; by rewrite lookup_insert|]. split; [done|]. split.
  - intros Hns. destruct p; try done; cbn in Hm, Hns; destruct Hm as [<- <-]; destruct Hns; by right.
  - split; [intros r Hr; by apply not_elem_of_empty in Hr|]. intros r Hr. right; right. exists dst, sb. split; [done|]. split; [|done]. split; [cbn; rewrite lookup_insert_ne by done; by rewrite lookup_insert|done].
Qed.

(** Every allowed operation has an effect within these bounds. *)
Lemma step_effect b ord w p w' out : fair ord -> reach b w -> allowed b w p -> step ord w p = Some (w', out) -> effect p w w'.
Proof.
  intros Hf HR HA H. pose proof (reach_inv _ _ HR) as HI.
  assert (HQ : set_or_ref_op w p -> effect p w w').
  { intros Hq. eapply quiet_effect; [by eapply quiet_step|]. by intros o ->. }
  assert (HE : forall o, erases_from o p -> effect p w w').
  { intros o Hp. destruct (w_objs w !! o) as [ob|] eqn:Ho.
    2:{ destruct p; cbn in Hp; try done; subst; cbn [step] in H; unfold is_obj in H; rewrite (bool_decide_false (is_Some (w_objs w !! o))) in H by (rewrite Ho; by intros [? ?]);
        cbn in H; injection H as <- <-; by apply effect_refl. }
    destruct (o_static_set ob) eqn:Hs.
    { apply HQ. destruct p; cbn in Hp; try done; subst; by exists ob. }
    assert (HV : vault_at w o ob) by done.
    assert (Hnd : forall x, p <> ODelVault x) by (intros x ->; done).
    destruct (erase_step _ _ _ _ _ _ _ _ Hf HR HV Hp H) as [->|(X & _ & _ & Hin & He)]; [by apply effect_refl; intros x xb ->; destruct (Hnd x)|].
    assert (HX : forall r, r ∈ (list_to_set X : gset nat) <-> r ∈ X) by (intros r; apply elem_of_list_to_set).
    split; [by rewrite (er_next _ _ _ _ He)| | |].
    - intros r _. rewrite (er_live _ _ _ _ He). destruct (decide (r ∈ list_to_set X)) as [|Hn]; [by left|].
      destruct (live w !! r) as [l|] eqn:El; [right|by left]. split; [eauto|]. intros k _. unfold val_of. rewrite (er_live _ _ _ _ He), decide_False by done. by rewrite El.
    - intros x xb [Hx Hxs] _. destruct (decide (x = o)) as [->|Hne].
      + destruct (er_o _ _ _ _ He _ Hx) as (ob' & Ho' & Hsh & Hrec). exists ob'. split; [done|]. split; [by rewrite Hsh|]. split; [intros _; rewrite Hsh; done|].
        rewrite Hrec. split; [intros r Hr; apply elem_of_difference in Hr as [? _]; auto|]. intros r Hr. destruct (decide (r ∈ (list_to_set X : gset nat))) as [HrX|HrX].
        * right; left. split; [by destruct p; cbn in Hp|]. rewrite (er_live _ _ _ _ He). by rewrite decide_True.
        * left. by apply elem_of_difference.
      + pose proof (er_objs _ _ _ _ He x Hne) as Hob. rewrite Hx in Hob. destruct (w_objs w' !! x) as [xb'|] eqn:E; [|done]. destruct Hob as (_ & Hob & _).
        apply moved_id; [|done]. rewrite E. f_equal. apply Hob. intros (sb & E1 & E2 & _). congruence.
    - intros x ->. done. }
  destruct p; try (by apply HQ); try (by eapply HE); clear HQ HE; cbn [step allowed] in *; try done;
    (apply guard_inv in H as [(Hg & -> & _)|[Hg H]]; [apply effect_refl; try done|guards]).
  - (* ONewVault *) injection H as <- <-. split; [done| | |done].
    + intros r _. destruct (live_fst_some (live w) (live (set_obj o new_vault w)) r eq_refl) as [|[? ?]]; auto.
    + intros x xb [Hx Hxs] _. apply moved_id; [|done]. cbn. rewrite lookup_insert_ne; [done|congruence].
  - (* ODelVault, skipped *) intros x xb [= <-] [Hx Hxs]. unfold is_vault in Hg. rewrite Hx in Hg. by rewrite Hxs in Hg.
  - (* ODelVault *) apply unit_inv in H as [H _]. destruct (drop_vault ord w o) as [w1|] eqn:E1; [|done]. cbn in H. injection H as <-.
    destruct (drop_vault_ok b ord w o x) as (w2 & E & HI' & Hd); try done; [by eapply Some_Def|]. assert (w2 = w1) as -> by congruence.
    split; [cbn; by rewrite (dr_next _ _ _ Hd)| | |].
    + intros r _. destruct (gone_live _ _ _ _ _ (dr_live _ _ _ Hd r)) as [|[? ?]]; auto.
    + intros y yb [Hy Hys] Hne. apply moved_id; [|done]. assert (y <> o) by congruence. cbn. rewrite lookup_delete_ne by done. rewrite (dr_objs _ _ _ Hd); [done|done|]. intros (sb & E1' & E2 & _). congruence.
    + intros y [= <-] _ _ _. cbn. by rewrite lookup_delete.
  - (* OAddKey *) apply res_inv in H as (res & H & _). destruct (o_keys x !! k) as [[t d0]|] eqn:Ek.
    + unfold add_key, add_key_local in H. match goal with E : w_objs w !! o = Some x |- _ => rewrite E in H end. cbn [mbind option_bind] in H. rewrite Ek in H. cbn in H. injection H as <- <-. by apply effect_refl.
    + destruct (add_key_plain_ok b ord w o x k d) as (w1 & E & _ & Hka & _); try done; [by eapply Some_Def|]. rewrite (same_fst _ _ _ _ _ E H).
      eapply key_added_effect; [done|done|done| |done]. intros r Hr. split; [done|]. by exists x.
  - (* OAddUniqueKey *) apply res_inv in H as (res & H & _). destruct (o_keys x !! k) as [[t' d0]|] eqn:Ek.
    + unfold add_key, add_key_local in H. match goal with E : w_objs w !! o = Some x |- _ => rewrite E in H end. cbn [mbind option_bind] in H. rewrite Ek in H. cbn in H. injection H as <- <-. by apply effect_refl.
    + destruct (add_key_uniq_ok b ord w o x k (vzero t) (fun _ _ _ => vzero t) true) as (w1 & res1 & E & _ & Hka); try done; [by auto|by eapply Some_Def|]. rewrite (same_fst _ _ _ _ _ E H).
      destruct (decide _); [destruct Hka as [-> _]; by eapply idx_only_effect; try done; left|]. destruct (decide _); [|destruct Hka as [-> _]; by eapply idx_only_effect; try done; left].
      destruct Hka as (_ & V & Hka & _). eapply key_added_effect; [done|done|done| |done]. intros r Hr. split; [done|]. by exists x.
  - (* OAddUniqueKeyFn *) apply res_inv in H as (res & H & _). destruct (o_keys x !! k) as [[t' d0]|] eqn:Ek.
    + unfold add_key, add_key_local in H. match goal with E : w_objs w !! o = Some x |- _ => rewrite E in H end. cbn [mbind option_bind] in H. rewrite Ek in H. cbn in H. injection H as <- <-. by apply effect_refl.
    + destruct (add_key_uniq_ok b ord w o x k (vzero t) g false) as (w1 & res1 & E & _ & Hka); try done; [by intros; right; eauto|by eapply Some_Def|]. rewrite (same_fst _ _ _ _ _ E H).
      destruct (decide _); [destruct Hka as [-> _]; by eapply idx_only_effect; try done; left|]. destruct (decide _); [|destruct Hka as [-> _]; by eapply idx_only_effect; try done; left].
      destruct Hka as (_ & V & Hka & _). eapply key_added_effect; [done|done|done| |done]. intros r Hr. split; [done|]. by exists x.
  - (* OUpdateKey *) apply res_inv in H as (res & H & _). destruct (update_key_ok b w o x k d) as (w1 & E & _ & ->); try done. rewrite (same_fst _ _ _ _ _ E H).
    destruct (res_ok _); [|by apply effect_refl]. eapply idx_only_effect; try done. by right.
  - (* ORemoveKey *) apply bool_inv in H as (res & H & _). destruct (remove_key_ok b ord w o x k) as (w1 & E & _ & ->); try done. rewrite (same_fst _ _ _ _ _ E H).
    destruct (decide _); [|by apply effect_refl]. nobj o ob Ho. split; [done| | |done].
    + intros r _. rewrite live_key_removed. destruct (live w !! r) as [l|] eqn:El; [right|by left]. split; [eauto|]. intros k' Hn. unfold val_of. rewrite live_key_removed, El. cbn.
      destruct (decide (r ∈ o_recs ob)); [|done]. cbn. rewrite lookup_delete_ne; [done|]. intros ->. apply Hn. split; [done|]. by exists ob.
    + intros y yb [Hy Hys] _. eexists. cbn. rewrite lookup_upd_on, Hy. cbn. split; [done|]. destruct (decide (y = o)) as [->|Hne].
      * rewrite decide_True by set_solver. unfold unkey, remove_key_obj. destruct (o_keys yb !! k); cbn; split; auto; split; auto; done.
      * rewrite decide_False. 2:{ intros Hin. apply elem_of_union in Hin as [Hin|Hin]; [by apply elem_of_singleton in Hin|]. destruct (vi_sets _ _ _ _ (inv_obj _ _ HI) _ _ _ Ho H1 Hin) as (sb & E1 & E2 & _). congruence. }
        split; [done|]. split; [done|]. auto.
  - (* OCreateRecord *) apply res_inv in H as (res & H & _). nobj o ob Ho. destruct (create_record_ok b w o ob f ps) as (w1 & res1 & E & _ & Hc); try done.
    { intros f0 ->. match goal with H : is_ref _ _ = true |- _ => apply is_ref_true in H as (rf & Hrf) end. eauto. }
    rewrite (same_fst _ _ _ _ _ E H). destruct Hc as [(p1 & p & p2 & _ & _ & _ & -> & _)|[(_ & k1 & k & k2 & td & _ & _ & _ & _ & -> & _)|(_ & _ & Hw & _)]].
    + by apply effect_refl.
    + eapply grown_effect; [apply grown_bumped|done|done|done].
    + destruct f as [f|]; [|subst w1; eapply grown_effect; [by apply grown_created|done|done|done]].
      destruct Hw as [Hro _]. assert (G : grown o w (created o ob (overlay ps (o_tmpl ob)) w)) by (by apply grown_created).
      eapply (grown_effect _ o ob); try done. destruct G as [G1 G2 G3 G4]. split.
      * by rewrite (ro_next _ _ Hro). * intros r Hr. rewrite (ro_live _ _ Hro). by apply G2. * intros y Hy. rewrite (ro_objs _ _ Hro). by apply G3. * intros ob1 E1. rewrite (ro_objs _ _ Hro). by apply G4.
  - (* OReadRows *) apply unit_inv in H as [H _]. nobj o ob Ho. unfold read_rows in H. rewrite Ho in H. cbn [mbind option_bind] in H.
    eapply (grown_effect _ o ob); try done. eapply grown_trans; [by apply (grown_set o ob (ob_bad [] ob))|].
    eapply (read_rows_loop_grown b _ _ _ _ _ _ _ (ob_bad [] ob)); [by apply bad_inv|cbn; by rewrite lookup_insert|done|exact H].
  - (* OSetData *) apply res_inv in H as (res & H & _). nref f rf Hrf. destruct (ref_set_data_ok b ord w f rf k v) as (w1 & res1 & E & _ & Hc); try done; [by apply HA|by eapply Some_Def|].
    rewrite (same_fst _ _ _ _ _ E H). destruct Hc as [[-> _]|(r & o & ob & rc & Hr & _ & _ & _ & _ & Hrc & _ & _ & ->)]; [by apply effect_refl|].
    eapply written_effect; [by apply written_data_set| |done]. intros k' ->%elem_of_list_singleton. split; [done|]. by exists rf.
  - (* OSetMany *) apply res_inv in H as (res & H & _). nref f rf Hrf. destruct (HA _ Hrf) as [A1 A2]. unfold ref_set_many in H. rewrite Hrf in H. cbn [mbind option_bind] in H.
    destruct (f_vlt rf) as [o|]; [|done]. cbn [mbind option_bind] in H. destruct (w_objs w !! o) as [ob|] eqn:Ho; [|done]. cbn [mbind option_bind] in H.
    destruct (f_rec rf) as [r|] eqn:Er.
    + eapply written_effect; [by eapply set_many_written| |done]. intros k' Hk. split; [done|]. by exists rf.
    + assert (w' = w) as ->; [|by apply effect_refl]. destruct ps as [|[k v] ps]; cbn [ref_set_many_loop] in H; [by injection H|].
      unfold ref_set_data in H. rewrite Hrf in H. cbn [mbind option_bind] in H. rewrite Er in H. cbn in H. by injection H.
  - (* ODropData *) apply unit_inv in H as [H _]. destruct (drop_data_ok b ord w o x) as (w1 & E & _ & Hd); try done; [by eapply Some_Def|]. rewrite (same_fst1 _ _ _ E H). nobj o ob Ho.
    split; [by rewrite (em_next _ _ _ Hd)| | |done].
    + intros r _. destruct (gone_live _ _ _ _ _ (em_live _ _ _ Hd r)) as [|[? ?]]; auto.
    + intros y yb [Hy Hys] _. destruct (decide (y = o)) as [->|Hne].
      * exists (cleared yb). split; [by apply (em_o _ _ _ Hd)|]. split; [done|]. split; [done|]. split; [intros r Hr; by apply not_elem_of_empty in Hr|]. intros r Hr. right; left. split; [done|].
        pose proof (em_live _ _ _ Hd r) as El. rewrite decide_True in El by eauto. by destruct (live w1 !! r).
      * apply moved_id; [|done]. rewrite (em_objs _ _ _ Hd); [done|done|]. intros (sb & E1 & E2 & _). congruence.
  - (* ODropVault *) apply unit_inv in H as [H _]. destruct (drop_vault_ok b ord w o x) as (w1 & E & _ & Hd); try done; [by eapply Some_Def|]. rewrite (same_fst1 _ _ _ E H). nobj o ob Ho.
    split; [by rewrite (dr_next _ _ _ Hd)| | |done].
    + intros r _. destruct (gone_live _ _ _ _ _ (dr_live _ _ _ Hd r)) as [|[? ?]]; auto.
    + intros y yb [Hy Hys] _. destruct (decide (y = o)) as [->|Hne].
      * eexists. split; [by apply (dr_o _ _ _ Hd)|]. split; [done|]. split; [intros Hn; by destruct Hn|]. cbn. split; [intros r Hr; by apply not_elem_of_empty in Hr|]. intros r Hr. right; left. split; [done|].
        pose proof (dr_live _ _ _ Hd r) as El. rewrite decide_True in El by eauto. by destruct (live w1 !! r).
      * apply moved_id; [|done]. rewrite (dr_objs _ _ _ Hd); [done|done|]. intros (sb & E1 & E2 & _). congruence.
  - (* OCopyVault *) apply unit_inv in H as [H _]. destruct HA as [A1 A2]. nobj src sb Hsb. destruct (copy_construct_vault_ok b ord w dst src sb) as (w1 & E & Hc & _); try done; [by apply unmentioned_unused; auto|].
    rewrite (same_fst1 _ _ _ E H). split; [pose proof (cp_next _ _ _ _ Hc) as Hn; cbn in Hn; lia| | |done].
    + intros r Hr. destruct (live_fst_some (live w) (live w1) r) as [|[? ?]]; auto. unfold live. rewrite !lookup_live_of. by rewrite (cp_old _ _ _ _ Hc) by done.
    + intros y yb [Hy Hys] _. apply moved_id; [|done]. rewrite (cp_objs _ _ _ _ Hc) by congruence. cbn. rewrite lookup_insert_ne by congruence. done.
  - (* OAssignVault *) apply unit_inv in H as [H _]. nobj src sb Hsb. destruct (decide (dst = src)) as [->|Hne].
    + unfold copy_assign_vault in H. rewrite decide_True in H by done. injection H as <-. by apply effect_refl.
    + nobj dst db Hdb. destruct (copy_assign_vault_ok b ord w dst src sb db) as (w1 & w2 & E & _ & Hd & _ & Hc & _); try done; [by eapply Some_Def|]. rewrite (same_fst1 _ _ _ E H).
      pose proof (cp_next _ _ _ _ Hc) as Hn. cbn in Hn. rewrite (dr_next _ _ _ Hd) in Hn.
      assert (HL : forall r, r < w_next w -> live w2 !! r = live w1 !! r). { intros r Hr. unfold live. rewrite !lookup_live_of. rewrite (cp_old _ _ _ _ Hc); [done|]. cbn. by rewrite (dr_next _ _ _ Hd). }
      split; [lia| | |done].
      * intros r Hr. rewrite HL by done. destruct (gone_live _ _ _ _ _ (dr_live _ _ _ Hd r)) as [|[? Hv]]; auto. right. split; [done|]. intros k _. rewrite <- Hv. unfold val_of. by rewrite HL.
      * intros y yb [Hy Hys] _. destruct (decide (y = dst)) as [->|Hny].
        -- destruct (cp_dst _ _ _ _ Hc _ (lookup_insert _ _ _)) as (db' & Hdb' & Hsk & _ & Hrec). exists db'. split; [done|]. split; [by destruct Hsk as (-> & _)|].
           split; [intros Hns; by destruct Hns|]. cbn in Hrec. rewrite (dr_next _ _ _ Hd) in Hrec. split.
           ++ intros r Hr. apply Hrec in Hr as [Hr|Hr]; [by apply not_elem_of_empty in Hr|]. right; left. split; [done|lia].
           ++ intros r Hr. right; left. split; [done|]. rewrite HL. { pose proof (dr_live _ _ _ Hd r) as El. rewrite decide_True in El by eauto. by destruct (live w1 !! r). }
              assert (Hlr : is_Some (live w !! r)). { destruct (v_recs _ _ (vi_vault _ _ _ _ (inv_obj _ _ HI) _ _ Hy Hys) r Hr) as (l & Hl & _). eauto. }
              apply (inv_heap _ _ HI). by apply live_is_some.
        -- apply moved_id; [|done]. rewrite (cp_objs _ _ _ _ Hc) by done. cbn. rewrite lookup_insert_ne by done. rewrite (dr_objs _ _ _ Hd); [done|done|]. intros (s1 & E1 & E2 & _). congruence.
  - (* OMoveVault *) apply unit_inv in H as [H _]. destruct HA as [A1 A2]. nobj src sb Hsb. destruct (move_construct_vault_ok b w dst src sb) as (E & _); try done; [by apply unmentioned_unused; auto|by apply unshared_lonely|].
    rewrite (same_fst1 _ _ _ E H). assert (dst <> src) by congruence. split; [done| | |done].
    + intros r _. by apply live_keep.
    + intros y yb [Hy Hys] _. assert (y <> dst) by congruence. destruct (decide (y = src)) as [->|Hny]; [|apply moved_id; [cbn; by rewrite !lookup_insert_ne|done]].
      assert (yb = sb) as -> by congruence. by apply move_src_moved.
  - (* OMoveAssignVault *) apply unit_inv in H as [H _]. nobj dst db Hdb. nobj src sb Hsb. destruct (decide (dst = src)) as [->|Hne].
    + unfold move_assign_vault in H. rewrite decide_True in H by done. injection H as <-. by apply effect_refl.
    + destruct (move_assign_vault_ok b ord w dst src db sb) as (w1 & _ & Hd & HI1 & Hs1 & E & _); try done; [by apply unshared_lonely; auto|by eapply Some_Def|]. rewrite (same_fst1 _ _ _ E H).
      split; [cbn; by rewrite (dr_next _ _ _ Hd)| | |done].
      * intros r _. change (live (moved_world dst src sb w1)) with (live w1). destruct (gone_live _ _ _ _ _ (dr_live _ _ _ Hd r)) as [|[? ?]]; auto.
      * intros y yb [Hy Hys] _. destruct (decide (y = src)) as [->|Hny]; [assert (yb = sb) as -> by congruence; by apply move_src_moved|]. destruct (decide (y = dst)) as [->|Hnd].
        -- exists sb. split; [cbn; rewrite lookup_insert_ne by done; by rewrite lookup_insert|]. split; [done|]. split; [intros Hns; destruct Hns; by left|]. split.
           ++ intros r Hr. right; right. by exists src, sb.
           ++ intros r Hr. right; left. split; [by left|]. change (live (moved_world dst src sb w1)) with (live w1). pose proof (dr_live _ _ _ Hd r) as El. rewrite decide_True in El by eauto. by destruct (live w1 !! r).
        -- apply moved_id; [|done]. cbn. rewrite !lookup_insert_ne by done. rewrite (dr_objs _ _ _ Hd); [done|done|]. intros (s1 & E1 & E2 & _). congruence.
Qed.

Lemma later_reach b w w' : reach b w -> later b w w' -> reach b w'.
Proof. intros HR. induction 1; [done|]. by eapply reach_step. Qed.
Lemma later_next b w w' : reach b w -> later b w w' -> w_next w <= w_next w'.
Proof.
  intros HR HL. pose proof HR as HR0. revert HR0. induction HL as [|ord w1 p w2 out HL IH Hf HA H]; intros _; [done|].
  specialize (IH HR). pose proof (ef_next _ _ _ (step_effect _ _ _ _ _ _ Hf (later_reach _ _ _ HR HL) HA H)). lia.
Qed.
Lemma no_resurrection b w w' r : reach b w -> later b w w' -> r < w_next w -> ~ valid_rec w r -> ~ valid_rec w' r.
Proof.
  intros HR HL Hr Hn. induction HL as [|ord w1 p w2 out HL IH Hf HA H]; [done|].
  pose proof (later_next _ _ _ HR HL). pose proof (later_reach _ _ _ HR HL) as HR1.
  destruct (ef_live _ _ _ (step_effect _ _ _ _ _ _ Hf HR1 HA H) r) as [E|[E _]]; [lia| |].
  - rewrite valid_rec_live, E. by intros [? ?].
  - intros _. apply IH. by apply valid_rec_live.
Qed.

(** C19: once a record a reference denotes is invalid it stays invalid in every later history, and every access through any reference to it
    that is bound to an existing vault reports so and changes nothing. *)
Lemma t_C19_invalid_forever :
  forall b w f r w', reach b w -> denotes w f r -> ~ valid_rec w r -> later b w w' ->
    ~ valid_rec w' r /\
    forall f2 rf2 o ob, w_refs w' !! f2 = Some rf2 -> f_rec rf2 = Some r -> f_vlt rf2 = Some o -> vault_at w' o ob ->
      (forall k t, ref_get_data w' rf2 k t = Some (bad DataRecordNotValid k (Some t) None, None)) /\
      (forall ord k v w2 res, fair ord -> step ord w' (OSetData f2 k v) = Some (w2, ORes res) ->
         w2 = w' /\ res = bad DataRecordNotValid k (Some (vty v)) None).
Proof.
  intros b w f r w' HR (rf & Hf & Hrf) Hn HL. pose proof (reach_inv _ _ HR) as HI. pose proof (later_reach _ _ _ HR HL) as HR'.
  assert (Hr : r < w_next w). { apply (inv_heap _ _ HI). by eapply (ri_refs _ _ _ (inv_ref _ _ HI)). }
  pose proof (no_resurrection _ _ _ _ HR HL Hr Hn) as Hn'. split; [done|]. intros f2 rf2 o ob Hf2 Hr2 Ho2 HV. split.
  - intros k t. destruct (t_C07_getdata_exact b w' f2 rf2 r o ob k t HR' Hf2 Hr2 Ho2 HV) as (res & got & E & E1 & _). destruct (E1 Hn') as [-> ->]. done.
  - intros ord k v w2 res Hfo H. destruct (ri_refs _ _ _ (inv_ref _ _ (reach_inv _ _ HR')) f2 rf2 r Hf2 Hr2) as [rc Hrc].
    cbn [step] in H. unfold guard_op, is_ref in H. rewrite bool_decide_true in H by eauto. apply res_inv in H as (res' & H & [= <-]).
    unfold ref_set_data in H. rewrite Hf2 in H. cbn [mbind option_bind] in H. rewrite Hr2, Ho2 in H. cbn [mbind option_bind] in H. destruct HV as [Ho _]. rewrite Ho in H. cbn [mbind option_bind] in H.
    rewrite Hrc in H. cbn [mbind option_bind] in H. destruct (r_valid rc) eqn:Ev; [|by injection H as <- <-]. destruct Hn'. by exists rc.
Qed.

(** C07, C21: no operation other than SetData through a reference to the record, or adding or removing the key, changes a stored value. *)
Lemma t_C07_values_change_only_by_setdata :
  forall b ord w p w' out r k, fair ord -> reach b w -> allowed b w p -> step ord w p = Some (w', out) ->
    valid_rec w r -> valid_rec w' r -> ~ may_write w p r k -> stored w' r k = stored w r k.
Proof.
  intros b ord w p w' out r k Hf HR HA H Hv Hv' Hn. pose proof (step_effect _ _ _ _ _ _ Hf HR HA H) as He. rewrite !stored_val_of.
  destruct (ef_live _ _ _ He r) as [E|[_ E]]; [| |by apply E].
  - pose proof (reach_inv _ _ HR) as HI. destruct Hv as (rc & Hrc & _). apply (inv_heap _ _ HI). eauto.
  - apply valid_rec_live in Hv'. rewrite E in Hv'. by destruct Hv'.
Qed.

(** C13: only AddKey, AddUniqueKey, UpdateKey, RemoveKey, DropVault, vault assignment and moves change the keys of a vault. *)
Lemma t_C13_keys_change_only_by_key_ops :
  forall b ord w p w' out o ob, fair ord -> reach b w -> allowed b w p -> step ord w p = Some (w', out) ->
    vault_at w o ob -> ~ schema_op o p -> p <> ODelVault o -> exists ob', vault_at w' o ob' /\ same_schema ob ob'.
Proof.
  intros b ord w p w' out o ob Hf HR HA H HV Hn Hd. pose proof (step_effect _ _ _ _ _ _ Hf HR HA H) as He.
  destruct (ef_vault _ _ _ He o ob HV Hd) as (ob' & Ho' & Hs' & Hsc & _). exists ob'. split; [done|auto].
Qed.

(** C19, C03: a vault gains records only by CreateRecord, file loading or assignment (and they are new records) or by a move (and they are the
    records of the vault moved from), and loses records only by erasure, DropData, DropVault or assignment (and they become invalid) or by a move
    (and they are in the vault moved to). *)
Lemma t_C19_members_change_only_by_create_and_erase :
  forall b ord w p w' out o ob ob', fair ord -> reach b w -> allowed b w p -> step ord w p = Some (w', out) ->
    vault_at w o ob -> vault_at w' o ob' ->
    (forall r, r ∈ o_recs ob' -> r ∉ o_recs ob ->
       (adds_to o p /\ ~ valid_rec w r /\ forall f, ~ denotes w f r) \/ exists s sb, moves_vault p o s /\ vault_at w s sb /\ r ∈ o_recs sb) /\
    (forall r, r ∈ o_recs ob -> r ∉ o_recs ob' ->
       (takes_from o p /\ ~ valid_rec w' r) \/ exists d db, moves_vault p d o /\ vault_at w' d db /\ r ∈ o_recs db).
Proof.
  intros b ord w p w' out o ob ob' Hf HR HA H HV HV'. pose proof (step_effect _ _ _ _ _ _ Hf HR HA H) as He. pose proof (reach_inv _ _ HR) as HI.
  assert (Hd : p = ODelVault o \/ p <> ODelVault o). { destruct p; try (by right). destruct (decide (o0 = o)) as [->|]; [by left|right; congruence]. }
  destruct Hd as [->|Hd].
  { pose proof HV as [Ho _]. pose proof (ef_del _ _ _ He o eq_refl (mk_is_Some _ _ Ho) _ HV) as E. destruct HV' as [E' _]. congruence. }
  destruct (ef_vault _ _ _ He o ob HV Hd) as (ob1 & Ho' & Hs' & _ & H1 & H2). destruct HV' as [Ho1 _]. assert (ob1 = ob') as -> by congruence. split.
  - intros r Hr Hnr. destruct (H1 r Hr) as [?|[[Ha Hnx]|?]]; [done| |by right]. left. split; [done|]. assert (Hno : ~ is_Some (w_recs w !! r)). { intros Hx. apply (inv_heap _ _ HI) in Hx. lia. }
    split. { intros (rc & Hrc & _). apply Hno. eauto. } intros f (rf & Hf' & Hr'). apply Hno. by eapply (ri_refs _ _ _ (inv_ref _ _ HI)).
  - intros r Hr Hnr. destruct (H2 r Hr) as [?|[[Ht E]|?]]; [done| |by right]. left. split; [done|]. rewrite valid_rec_live, E. by intros [? ?].
Qed.
