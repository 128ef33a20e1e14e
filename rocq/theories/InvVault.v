(** Creation and destruction of vaults and sets, DropVault, DropData keep the invariant. *)
From Verif Require Export InvSets4.
Open Scope nat_scope.

(** ** Frame: only vault [o] and the sets filled from it are touched; records keep everything but their registrations. *)
Definition set_of (w : world) (o s : nat) : Prop :=
  exists sb, w_objs w !! s = Some sb /\ o_static_set sb = true /\ o_parent sb = Some o.
Record sets_of (o : nat) (w w' : world) : Prop := SetsOf {
  sof_refs : w_refs w' = w_refs w;
  sof_next : w_next w' = w_next w;
  sof_o : exists X, w_objs w' !! o = ob_sets X <$> w_objs w !! o;
  sof_objs : forall x, x <> o -> ~ set_of w o x -> w_objs w' !! x = w_objs w !! x;
  sof_sets : forall x, is_Some (w_objs w' !! x) <-> is_Some (w_objs w !! x);
  sof_static : forall x a a', w_objs w !! x = Some a -> w_objs w' !! x = Some a' -> o_static_set a' = o_static_set a;
  sof_recs : forall r, match w_recs w !! r, w_recs w' !! r with
    | None, None => True
    | Some a, Some a' => a' = rd_deps (r_deps a') a /\ forall y, ~ set_of w o y -> y ∈ r_deps a' <-> y ∈ r_deps a
    | _, _ => False end
}.
Lemma ob_sets_sets X Y a : ob_sets X (ob_sets Y a) = ob_sets X a.
Proof. done. Qed.
Lemma sets_of_refl o w : sets_of o w w.
Proof.
  split; try done.
  - destruct (w_objs w !! o) as [ob|]; [|by exists ∅]. exists (o_sets ob). cbn. by rewrite <- ob_sets_id.
  - intros. congruence.
  - intros r. destruct (w_recs w !! r); [|done]. split; [apply rd_deps_id|done].
Qed.
Lemma sets_of_trans o w1 w2 w3 :
  sets_of o w1 w2 -> sets_of o w2 w3 -> (forall x, set_of w2 o x -> set_of w1 o x) -> sets_of o w1 w3.
Proof.
  intros [A1 A2 [X A3] A4 A5 A6 A7] [B1 B2 [Y B3] B4 B5 B6 B7] H. split; try congruence.
  - exists Y. rewrite B3, A3. destruct (w_objs w1 !! o); done.
  - intros x Hx Hn. rewrite B4; auto.
  - intros x. rewrite B5. apply A5.
  - intros x a a' Ha Ha'. assert (is_Some (w_objs w2 !! x)) as [a2 Ha2]. { apply A5. eauto. }
    rewrite (B6 _ _ _ Ha2 Ha'). by eapply A6.
  - intros r. specialize (A7 r). specialize (B7 r).
    destruct (w_recs w1 !! r) as [a|], (w_recs w2 !! r) as [a2|], (w_recs w3 !! r) as [a3|]; try done.
    destruct A7 as [A7 A8], B7 as [B7 B8]. split.
    + rewrite B7. rewrite A7. done.
    + intros y Hy. rewrite B8 by auto. by apply A8.
Qed.
Lemma sets_of_live o w w' r : sets_of o w w' -> fst <$> live w' !! r = fst <$> live w !! r.
Proof.
  intros H. pose proof (sof_recs _ _ _ H r) as Hr. unfold live. rewrite !lookup_live_of.
  destruct (w_recs w !! r) as [a|], (w_recs w' !! r) as [a'|]; try done. destruct Hr as [E _]. cbn. rewrite E. unfold live_rec. cbn.
  by destruct (r_valid a).
Qed.

(** ** Resetting all sets of a vault *)
Lemma sets_of_reset o w s sb ob :
  s <> o -> w_objs w !! s = Some sb -> o_static_set sb = true -> o_parent sb = Some o -> w_objs w !! o = Some ob ->
  sets_of o w (reset_world s sb o ob w).
Proof.
  intros Hne Hs Hst Hp Ho. assert (Hso : set_of w o s) by (exists sb; done). split; try done.
  - exists (o_sets ob ∖ {[s]}). cbn. rewrite lookup_insert_ne by done. by rewrite lookup_insert, Ho.
  - intros x Hx Hn. cbn. rewrite lookup_insert_ne by (intros <-; done). by rewrite lookup_insert_ne.
  - intros x. cbn. rewrite !lookup_insert_is_Some'. split; [|eauto]. intros [<-|[<-|H]]; eauto.
  - intros x a a' Ha Ha'. cbn in Ha'. apply lookup_insert_Some in Ha' as [[<- <-]|[_ Ha']]; [cbn; congruence|].
    apply lookup_insert_Some in Ha' as [[<- <-]|[_ Ha']]; [cbn; congruence|]. congruence.
  - intros r. cbn. rewrite lookup_upd_on. destruct (w_recs w !! r) as [rc|]; [|done]. cbn.
    destruct (decide _); [|split; [apply rd_deps_id|done]]. split; [done|]. cbn. intros y Hy. assert (y <> s) by (intros ->; done). set_solver.
Qed.

Lemma reset_fold b ord o l w ob :
  fair ord -> Inv b w -> w_objs w !! o = Some ob -> o_static_set ob = false -> NoDup l -> (forall s, s ∈ l -> s ∈ o_sets ob) ->
  Def b (foldM (set_reset ord) w l) ->
  exists w', foldM (set_reset ord) w l = Some w' /\ Inv b w' /\ sets_of o w w' /\
    w_objs w' !! o = Some (ob_sets (o_sets ob ∖ list_to_set l) ob) /\
    (forall s, set_of w o s -> s ∈ l -> exists sb, w_objs w' !! s = Some (reset_obj sb) /\ w_objs w !! s = Some sb).
Proof.
  revert w ob. induction l as [|s l IH]; intros w ob Hf HI Ho Hst Hn Hl HD; cbn [foldM] in *.
  - exists w. split; [done|]. split; [done|]. split; [apply sets_of_refl|]. split; [|set_solver].
    rewrite Ho. f_equal. cbn. rewrite difference_empty_L. apply ob_sets_id.
  - apply NoDup_cons in Hn as [Hns Hn].
    destruct (vi_sets _ _ _ _ (inv_obj _ _ HI) _ _ s Ho Hst) as (sb & Hs & Hss & Hsp); [apply Hl; by left|].
    destruct (set_reset_ok b ord w s sb) as [Hc Hci]; try done. { by eapply Def_bind. }
    unfold reset_result in Hc, Hci. rewrite Hsp, Ho in Hc, Hci. rewrite Hc in *. cbn [mbind option_bind] in *.
    assert (Hne : s <> o) by congruence.
    pose proof (sets_of_reset o w s sb ob Hne Hs Hss Hsp Ho) as Hso.
    destruct (IH (reset_world s sb o ob w) (ob_sets (o_sets ob ∖ {[s]}) ob)) as (w' & E & HI' & Hso' & Ho' & Hr'); try done.
    + cbn. rewrite lookup_insert_ne by done. by rewrite lookup_insert.
    + intros x Hx. cbn. apply elem_of_difference. split; [apply Hl; by right|]. intros Hxs%elem_of_singleton. by subst.
    + assert (Hsub : forall x, set_of (reset_world s sb o ob w) o x -> set_of w o x /\ x <> s).
      { intros x (xb & Hx & Hxs & Hxp). cbn in Hx. apply lookup_insert_Some in Hx as [[<- <-]|[Hxne Hx]]; [done|].
        apply lookup_insert_Some in Hx as [[<- <-]|[_ Hx]]; [cbn in Hxs; congruence|]. split; [|done]. by exists xb. }
      exists w'. split; [done|]. split; [done|]. split; [|split].
      * eapply sets_of_trans; [done|done|]. intros x Hx. by apply Hsub.
      * rewrite Ho'. f_equal. cbn. unfold ob_sets. cbn. f_equal. clear. set_solver.
      * intros x Hx Hxl. destruct (decide (x = s)) as [->|Hxs].
        -- exists sb. split; [|done]. rewrite (sof_objs _ _ _ Hso'); [cbn; by rewrite lookup_insert|done|].
           intros Hc2. by apply Hsub in Hc2 as [_ ?].
        -- apply elem_of_cons in Hxl as [->|Hxl]; [done|].
           destruct (Hr' x) as (xb & Hxb & Hxb2); [|done|].
           ++ destruct Hx as (xb & Hxb & Hxst & Hxp). exists xb. split; [|done]. cbn. rewrite lookup_insert_ne by done.
              rewrite lookup_insert_ne; [done|]. intros ->. congruence.
           ++ exists xb. split; [done|]. cbn in Hxb2. rewrite lookup_insert_ne in Hxb2 by done. rewrite lookup_insert_ne in Hxb2; [done|].
              intros ->. destruct Hx as (? & ? & ? & ?). congruence.
Qed.

(** ** Dropping the records of a vault without sets *)
Definition wiped (Y : gset nat) (o : nat) (ob' : obj) (w : world) : world :=
  World (invalidate_on Y (w_recs w)) (<[o := ob']> (w_objs w)) (w_refs w) (w_next w).
Lemma live_wiped Y o ob' w x : live (wiped Y o ob' w) !! x = if decide (x ∈ Y) then None else live w !! x.
Proof. unfold live. cbn. apply live_invalidate_on. Qed.

Lemma wiped_inv b w o ob ob' :
  Inv b w -> w_objs w !! o = Some ob -> o_static_set ob = false ->
  o_static_set ob' = false -> o_sets ob' = o_sets ob -> o_recs ob' = ∅ -> vault_ok ∅ ob' ->
  (b = true -> forall s, s ∈ o_sets ob -> exists sb, w_objs w !! s = Some sb /\ o_recs sb = ∅ /\
     (fst <$> o_keys ob') = (fst <$> o_keys ob) /\ o_order ob' = o_order ob /\ o_uniq ob' = o_uniq ob) ->
  Inv b (wiped (o_recs ob) o ob' w).
Proof.
  intros HI Ho Hst Hst' Hsets Hrecs Hvok Hs. pose proof (inv_obj _ _ HI) as HV.
  split.
  - cbn. intros r [rc Hr]. rewrite lookup_invalidate_on in Hr. destruct (w_recs w !! r) eqn:E; [|done]. apply HI. eauto.
  - cbn. apply RInv_invalidate, HI.
  - change (w_next (wiped (o_recs ob) o ob' w)) with (w_next w).
    eapply (VInv_vault_change b (w_objs w) _ (live w) _ (w_next w) (w_next w) o ob ob'); try done.
    + cbn. by rewrite lookup_insert.
    + eapply vault_ok_frame; [|done]. rewrite Hrecs. intros r Hr. by apply not_elem_of_empty in Hr.
    + intros x Hx. cbn. rewrite lookup_insert_ne by done. destruct (w_objs w !! x) as [xb|] eqn:Ex; [|done].
      destruct (decide _) as [[Hxs Hxp]|]; [|done].
      pose proof (vi_set _ _ _ _ HV _ _ Ex Hxs) as Hsok. destruct (so_some _ _ _ _ _ _ Hsok _ Hxp) as (ob0 & Hob0 & _ & Hin & Hpar).
      assert (ob0 = ob) as -> by congruence.
      split; [done|]. split; [apply Hsok|]. split; [apply Hsok|]. split; [done|]. split; [apply Hsok|]. split; [apply Hsok|].
      split.
      * intros k ix e Hix He Hl. rewrite live_wiped in Hl. destruct (decide _) as [|Hn]; [by destruct Hl|]. destruct Hn. by eapply (sp_idx _ _ _ _ _ Hpar).
      * intros r Hr Hl. rewrite live_wiped in Hl. destruct (decide _) as [|Hn]; [by destruct Hl|]. destruct Hn. by eapply (sp_recs _ _ _ _ _ Hpar).
      * intros Hb. destruct (sp_strict _ _ _ _ _ Hpar Hb) as [S1 S2 S3 S4 S5 S6 S7 S8].
        destruct (Hs Hb _ Hin) as (xb0 & Hxb0 & Hxr & K1 & K2 & K3). assert (xb0 = xb) as -> by congruence.
        split; [congruence|done|done|congruence|congruence| | |].
        { rewrite Hxr. apply empty_subseteq. }
        { intros r l Hr. rewrite Hxr in Hr. by apply not_elem_of_empty in Hr. }
        intros k td Hkd. destruct (S8 _ _ Hkd) as (ix & Hix & Hok). exists ix. split; [done|]. rewrite Hxr in Hok.
        rewrite Hxr. eapply idx_ok_frame; [|done]. intros r Hr. by apply not_elem_of_empty in Hr.
    + intros r Hr _. rewrite live_wiped. by rewrite decide_False.
    + rewrite Hrecs. intros r Hr. by apply not_elem_of_empty in Hr.
    + intros r Hr. eapply Inv_live_bound; done.
    + intros r Hr _. rewrite live_wiped. by rewrite decide_True.
    + rewrite Hrecs. intros r ? ? Hr. by apply not_elem_of_empty in Hr.
  - eapply vlt_ok_frame; [apply HI|]. intros f rf x y yb' Hrf Hx Hyb' Hyst Hl. rewrite live_wiped in Hl. destruct (decide _) as [|Hni]; [by destruct Hl|].
    split; [done|]. cbn in Hyb'. apply lookup_insert_Some in Hyb' as [[<- <-]|[Hno Hyb']]; [|eauto].
    exists ob. split; [done|]. split; [done|]. intros Hxo. done.
Qed.

Lemma vault_ok_empty L ob :
  o_isset ob = false -> o_parent ob = None -> o_tmpl ob = ∅ -> o_keys ob = ∅ -> o_order ob = [] -> o_uniq ob = [] -> o_recs ob = ∅ -> vault_ok L ob.
Proof.
  intros E1 E2 E3 E4 E5 E6 E7. split; [done|done| | |].
  - split.
    + intros k. by rewrite E3, E4, !lookup_empty.
    + intros k t d. by rewrite E4, lookup_empty.
    + rewrite E5. constructor.
    + intros k. rewrite E5, E4, lookup_empty. split; [by intros ?%elem_of_nil|by intros [? ?]].
    + intros k. rewrite E6. by intros ?%elem_of_nil.
    + rewrite E6. constructor.
  - rewrite E7. intros r Hr. by apply not_elem_of_empty in Hr.
  - intros k td. by rewrite E4, lookup_empty.
Qed.

Lemma vault_recs_heap b w o ob r :
  Inv b w -> w_objs w !! o = Some ob -> o_static_set ob = false -> r ∈ o_recs ob -> is_Some (w_recs w !! r).
Proof. intros HI Ho Hst Hr. apply live_is_some. by eapply Inv_vault_live. Qed.

Global Instance own_dec w o r : Decision (exists ob, w_objs w !! o = Some ob /\ r ∈ o_recs ob).
Proof.
  destruct (w_objs w !! o) as [ob|]; [|right; by intros (? & ? & _)].
  destruct (decide (r ∈ o_recs ob)) as [H|H]; [left; eauto|right]. intros (ob' & [= <-] & ?). done.
Defined.

(** Effect of DropVault: everything of vault [o] is gone, its sets are unbound, all else is untouched. *)
Record dropped (o : nat) (w w' : world) : Prop := Dropped {
  dr_refs : w_refs w' = w_refs w;
  dr_next : w_next w' = w_next w;
  dr_o : forall ob, w_objs w !! o = Some ob ->
    w_objs w' !! o = Some (Obj (o_static_set ob) (o_isset ob) ∅ ∅ ∅ [] [] ∅ ∅ (o_parent ob) []);
  dr_sets : forall s sb, w_objs w !! s = Some sb -> o_static_set sb = true -> o_parent sb = Some o -> w_objs w' !! s = Some (reset_obj sb);
  dr_objs : forall x, x <> o -> ~ set_of w o x -> w_objs w' !! x = w_objs w !! x;
  dr_live : forall r, fst <$> live w' !! r =
    if decide (exists ob, w_objs w !! o = Some ob /\ r ∈ o_recs ob) then None else fst <$> live w !! r;
  dr_heap : forall r, is_Some (w_recs w' !! r) -> is_Some (w_recs w !! r)
}.
Lemma drop_vault_ok b ord w o ob :
  fair ord -> Inv b w -> w_objs w !! o = Some ob -> o_static_set ob = false -> Def b (drop_vault ord w o) ->
  exists w', drop_vault ord w o = Some w' /\ Inv b w' /\ dropped o w w'.
Proof.
  intros Hf HI Ho Hst HD. unfold drop_vault in *. rewrite Ho in *. cbn [mbind option_bind] in *.
  destruct (reset_fold b ord o (ord (elements (o_sets ob))) w ob) as (w1 & E1 & HI1 & Hso & Ho1 & Hs1); try done.
  { by apply fair_NoDup. } { intros s Hs. by apply fair_elem in Hs. } { by eapply Def_bind. }
  rewrite E1 in *. cbn [mbind option_bind] in *.
  rewrite list_to_set_ord, difference_diag_L in Ho1 by done.
  assert (E2 : drop_core ord w1 o = Some (wiped (o_recs ob) o (dropped_obj ob) w1)).
  { rewrite (drop_core_eq ord w1 o (ob_sets ∅ ob)); try done. cbn. intros r Hr. by eapply (vault_recs_heap b w1 o). }
  exists (wiped (o_recs ob) o (dropped_obj ob) w1). split; [done|]. split.
  - pose proof (vi_vault _ _ _ _ (inv_obj _ _ HI) _ _ Ho Hst) as Hv.
    change (o_recs ob) with (o_recs (ob_sets ∅ ob)). apply wiped_inv; try done.
    apply vault_ok_empty; try done; apply Hv.
  - split.
    + apply Hso.
    + apply Hso.
    + intros ob' Hob'. assert (ob' = ob) as -> by congruence. cbn. by rewrite lookup_insert.
    + intros s sb Hsb Hss Hsp. cbn. rewrite lookup_insert_ne by congruence.
      destruct (Hs1 s) as (sb' & H1 & H2).
      * by exists sb.
      * apply fair_elem; [done|]. destruct (so_some _ _ _ _ _ _ (vi_set _ _ _ _ (inv_obj _ _ HI) _ _ Hsb Hss) _ Hsp) as (ob' & Hob' & _ & Hin & _).
        congruence.
      * congruence.
    + intros x Hx Hn. cbn. rewrite lookup_insert_ne by done. by apply Hso.
    + intros r. rewrite live_wiped. destruct (decide (r ∈ o_recs ob)) as [Hr|Hr].
      * rewrite decide_True; [done|]. eauto.
      * rewrite decide_False; [by eapply sets_of_live|]. intros (ob' & Hob' & Hr'). congruence.
    + intros r [rc Hr]. cbn in Hr. rewrite lookup_invalidate_on in Hr. destruct (w_recs w1 !! r) as [rc1|] eqn:Er; [|done].
      pose proof (sof_recs _ _ _ Hso r) as Hx. rewrite Er in Hx. destruct (w_recs w !! r); [eauto|done].
Qed.

(** Nothing mentions address [o]. *)
Definition unused (w : world) (o : nat) : Prop :=
  w_objs w !! o = None /\
  (forall r l, live w !! r = Some l -> o ∉ l.2) /\
  (forall f rf r, w_refs w !! f = Some rf -> f_rec rf = Some r -> f_vlt rf = Some o -> live w !! r = None).

Lemma del_vault_inv b w o ob :
  Inv b w -> w_objs w !! o = Some ob -> o_static_set ob = false -> o_recs ob = ∅ -> o_sets ob = ∅ -> Inv b (del_obj o w).
Proof.
  intros HI Ho Hst Hr Hs. pose proof (inv_obj _ _ HI) as [V1 V2 V3 V4 V5 V6]. split; [apply HI|apply HI| |].
  - change (live (del_obj o w)) with (live w). split; cbn.
    + intros x xb Hx. apply lookup_delete_Some in Hx as [_ Hx]. eauto.
    + intros x xb s Hx Hxs Hin. apply lookup_delete_Some in Hx as [_ Hx]. destruct (V2 _ _ _ Hx Hxs Hin) as (sb & Hsb & Hss & Hsp).
      exists sb. split; [|done]. rewrite lookup_delete_ne; [done|]. intros ->. congruence.
    + intros s sb Hsb Hss. apply lookup_delete_Some in Hsb as [Hne Hsb]. destruct (V3 _ _ Hsb Hss) as [S1 S2 S3 S4 S5 S6]. split; try done.
      intros p Hp. destruct (S6 _ Hp) as (pb & Hpb & Hpst & Hin & Hpar). exists pb. split; [|done]. rewrite lookup_delete_ne; [done|].
      intros ->. assert (pb = ob) as -> by congruence. rewrite Hs in Hin. by apply not_elem_of_empty in Hin.
    + intros x xb y yb r Hx Hxs Hy Hys. apply lookup_delete_Some in Hx as [_ Hx]. apply lookup_delete_Some in Hy as [_ Hy]. by eapply V4.
    + intros r Hl. destruct (V5 r Hl) as (x & xb & Hx & Hxs & Hxr). exists x, xb. split; [|done]. rewrite lookup_delete_ne; [done|].
      intros ->. assert (xb = ob) as -> by congruence. rewrite Hr in Hxr. by apply not_elem_of_empty in Hxr.
    + intros r l s Hl Hsl. destruct (V6 _ _ _ Hl Hsl) as [D1 D2]. split.
      * intros sb Hsb. apply lookup_delete_Some in Hsb as [Hne Hsb]. destruct (D1 _ Hsb) as [D3 D4]. split; [done|].
        intros p Hp. destruct (D4 _ Hp) as (pb & Hpb & Hpst & Hin). exists pb. split; [|done]. rewrite lookup_delete_ne; [done|].
        intros ->. assert (pb = ob) as -> by congruence. rewrite Hr in Hin. by apply not_elem_of_empty in Hin.
      * intros Hb. destruct (D2 Hb) as (sb & Hsb & Hin). exists sb. split; [|done]. rewrite lookup_delete_ne; [done|].
        intros ->. assert (sb = ob) as -> by congruence. rewrite Hr in Hin. by apply not_elem_of_empty in Hin.
  - eapply vlt_ok_frame; [apply HI|]. intros f rf x y yb' Hrf Hx Hyb' Hyst Hl. split; [done|]. cbn in Hyb'.
    apply lookup_delete_Some in Hyb' as [_ Hyb']. eauto.
Qed.

Lemma new_vault_inv b w o : Inv b w -> unused w o -> Inv b (set_obj o new_vault w).
Proof.
  intros HI (Ho & Hd & Hrf). pose proof (inv_obj _ _ HI) as [V1 V2 V3 V4 V5 V6]. split; [apply HI|apply HI| |].
  - change (live (set_obj o new_vault w)) with (live w). split; cbn.
    + intros x xb Hx Hxs. apply lookup_insert_Some in Hx as [[<- <-]|[_ Hx]]; [|eauto]. by apply vault_ok_empty.
    + intros x xb s Hx Hxs Hin. apply lookup_insert_Some in Hx as [[<- <-]|[_ Hx]]; [by apply not_elem_of_empty in Hin|].
      destruct (V2 _ _ _ Hx Hxs Hin) as (sb & Hsb & Hss & Hsp). exists sb. split; [|done]. rewrite lookup_insert_ne; [done|]. congruence.
    + intros s sb Hsb Hss. apply lookup_insert_Some in Hsb as [[<- <-]|[Hne Hsb]]; [done|].
      destruct (V3 _ _ Hsb Hss) as [S1 S2 S3 S4 S5 S6]. split; try done.
      intros p Hp. destruct (S6 _ Hp) as (pb & Hpb & Hpst & Hin & Hpar). exists pb. split; [|done]. rewrite lookup_insert_ne; [done|]. congruence.
    + intros x xb y yb r Hx Hxs Hy Hys Hr1 Hr2. apply lookup_insert_Some in Hx as [[<- <-]|[_ Hx]]; [by apply not_elem_of_empty in Hr1|].
      apply lookup_insert_Some in Hy as [[<- <-]|[_ Hy]]; [by apply not_elem_of_empty in Hr2|]. by eapply V4.
    + intros r Hl. destruct (V5 r Hl) as (x & xb & Hx & Hxs & Hxr). exists x, xb. split; [|done]. rewrite lookup_insert_ne; [done|]. congruence.
    + intros r l s Hl Hsl. destruct (V6 _ _ _ Hl Hsl) as [D1 D2]. assert (s <> o) by (intros ->; by eapply Hd). rewrite lookup_insert_ne by done. split; [|done].
      intros sb Hsb. destruct (D1 _ Hsb) as [D3 D4]. split; [done|].
      intros p Hp. destruct (D4 _ Hp) as (pb & Hpb & Hpst & Hin). exists pb. split; [|done]. rewrite lookup_insert_ne; [done|]. congruence.
  - intros f rf r Hf Hr. destruct (inv_vlt _ _ HI _ _ _ Hf Hr) as (x & Hx & Hin). exists x. split; [done|].
    intros xb Hxb Hxs Hl. cbn in Hxb. apply lookup_insert_Some in Hxb as [[<- <-]|[_ Hxb]]; [|eauto].
    assert (E : live w !! r = None) by by eapply Hrf. change (live (set_obj o new_vault w)) with (live w) in Hl. rewrite E in Hl. by destruct Hl.
Qed.

Lemma new_set_inv b w s : Inv b w -> w_objs w !! s = None -> (forall r l, live w !! r = Some l -> s ∉ l.2) -> Inv b (set_obj s new_set w).
Proof.
  intros HI Hs Hd. pose proof (inv_obj _ _ HI) as HV. split; [apply HI|apply HI| |].
  - change (live (set_obj s new_set w)) with (live w). change (w_next (set_obj s new_set w)) with (w_next w).
    eapply (VInv_set_change b (w_objs w) _ (live w) _ _ s); [done|..].
    + intros sbx Hsbx. congruence.
    + intros sbx Hsbx. cbn in Hsbx. rewrite lookup_insert in Hsbx. injection Hsbx as <-. cbn.
      split; [done|]. split; [done|]. split; [done|]. split; [|split; [|split; [done|done]]].
      * intros k ix e Hix. by rewrite lookup_empty in Hix.
      * intros r Hr. by apply not_elem_of_empty in Hr.
    + intros x Hx. cbn. rewrite lookup_insert_ne by done. destruct (w_objs w !! x) as [xb|] eqn:Ex; [|done].
      split; [apply ob_sets_id|]. split; [done|]. split; [done|]. intros Hxs. rewrite lookup_insert. split.
      * intros Hsx. destruct (vi_sets _ _ _ _ HV _ _ _ Ex Hxs Hsx) as (sb2 & Hsb2 & _). congruence.
      * by intros (sbx & [= <-] & Hp').
    + intros r. destruct (live w !! r); done.
    + intros r l Hl Hsl. by destruct (Hd _ _ Hl).
  - eapply vlt_ok_frame; [apply HI|]. intros f rf x o ob' Hrf Hx Hob' Hst' Hl. split; [done|].
    cbn in Hob'. apply lookup_insert_Some in Hob' as [[<- <-]|[Hno Hob']]; [done|]. eauto.
Qed.

Lemma del_set_inv b w s sb : Inv b w -> w_objs w !! s = Some sb -> o_static_set sb = true -> o_parent sb = None -> Inv b (del_obj s w).
Proof.
  intros HI Hs Hst Hp. pose proof (inv_obj _ _ HI) as HV. split; [apply HI|apply HI| |].
  - change (live (del_obj s w)) with (live w). change (w_next (del_obj s w)) with (w_next w).
    eapply (VInv_set_change b (w_objs w) _ (live w) _ _ s); [done|..].
    + intros sbx Hsbx. congruence.
    + intros sbx Hsbx. cbn in Hsbx. by rewrite lookup_delete in Hsbx.
    + intros x Hx. cbn. rewrite lookup_delete_ne by done. destruct (w_objs w !! x) as [xb|] eqn:Ex; [|done].
      split; [apply ob_sets_id|]. split; [done|]. split; [done|]. intros Hxs. rewrite lookup_delete. split.
      * intros Hsx. destruct (vi_sets _ _ _ _ HV _ _ _ Ex Hxs Hsx) as (sb2 & Hsb2 & _ & ?). congruence.
      * by intros (sbx & ? & Hp').
    + intros r. destruct (live w !! r); done.
    + intros r l Hl Hsl. cbn. rewrite lookup_delete. split; [done|]. intros Hb.
      destruct (vi_deps _ _ _ _ HV _ _ _ Hl Hsl) as [_ D]. destruct (D Hb) as (sbx & Hsbx & Hin). assert (sbx = sb) as -> by congruence.
      destruct (so_none _ _ _ _ _ _ (vi_set _ _ _ _ HV _ _ Hs Hst) Hp) as (_ & _ & _ & _ & _ & E). rewrite E in Hin. by apply not_elem_of_empty in Hin.
  - eapply vlt_ok_frame; [apply HI|]. intros f rf x o ob' Hrf Hx Hob' Hst' Hl. split; [done|].
    cbn in Hob'. apply lookup_delete_Some in Hob' as [Hno Hob']. eauto.
Qed.

(** End of life of a set: Reset, then the base class destructor. *)
Lemma del_set_ok b ord w s sb :
  fair ord -> Inv b w -> w_objs w !! s = Some sb -> o_static_set sb = true ->
  Def b (w1 ← set_reset ord w s; w2 ← drop_core ord w1 s; Some (del_obj s w2)) ->
  (w1 ← set_reset ord w s; w2 ← drop_core ord w1 s; Some (del_obj s w2)) = Some (del_obj s (reset_result s sb w)) /\
  Inv b (del_obj s (reset_result s sb w)).
Proof.
  intros Hf HI Hs Hst HD. destruct (set_reset_ok b ord w s sb) as [Hc Hci]; try done. { by eapply Def_bind. }
  destruct (reset_result_obj s sb w b HI Hs Hst) as (db1 & Hdb1 & R1 & R2 & R3 & R4 & R5 & R6 & R7 & R8 & R9 & R10 & R11).
  split; [|by eapply del_set_inv]. rewrite Hc. cbn [mbind option_bind].
  rewrite (drop_core_eq ord _ s db1); [|done|done|]. 2: { rewrite R10. intros r Hr. by apply not_elem_of_empty in Hr. }
  cbn [mbind option_bind]. rewrite R10, invalidate_on_empty. f_equal. unfold del_obj. cbn. f_equal. by rewrite delete_insert_delete.
Qed.

(** ** DropData *)
Lemma sets_of_clear o w s sb :
  s <> o -> w_objs w !! s = Some sb -> o_static_set sb = true -> o_parent sb = Some o -> sets_of o w (clear_world s sb w).
Proof.
  intros Hne Hs Hst Hp. assert (Hso : set_of w o s) by (exists sb; done). split; try done.
  - destruct (w_objs w !! o) as [ob|] eqn:Ho.
    + exists (o_sets ob). cbn. rewrite lookup_insert_ne by done. rewrite Ho. f_equal. apply ob_sets_id.
    + exists ∅. cbn. by rewrite lookup_insert_ne.
  - intros x Hx Hn. cbn. rewrite lookup_insert_ne by (intros <-; done). done.
  - intros x. cbn. rewrite !lookup_insert_is_Some'. split; [|eauto]. intros [<-|H]; eauto.
  - intros x a a' Ha Ha'. cbn in Ha'. apply lookup_insert_Some in Ha' as [[<- <-]|[_ Ha']]; [cbn; congruence|]. congruence.
  - intros r. cbn. rewrite lookup_upd_on. destruct (w_recs w !! r) as [rc|]; [|done]. cbn.
    destruct (decide _); [|split; [apply rd_deps_id|done]]. split; [done|]. cbn. intros y Hy. assert (y <> s) by (intros ->; done). set_solver.
Qed.

Lemma clear_fold b ord o l w ob :
  fair ord -> Inv b w -> w_objs w !! o = Some ob -> o_static_set ob = false -> NoDup l -> (forall s, s ∈ l -> s ∈ o_sets ob) ->
  Def b (foldM (set_clear ord) w l) ->
  exists w', foldM (set_clear ord) w l = Some w' /\ Inv b w' /\ sets_of o w w' /\ w_objs w' !! o = Some ob /\
    (forall s sb, w_objs w !! s = Some sb -> w_objs w' !! s = Some (if decide (s ∈ l) then cleared sb else sb)).
Proof.
  revert w. induction l as [|s l IH]; intros w Hf HI Ho Hst Hn Hl HD; cbn [foldM] in *.
  - exists w. split; [done|]. split; [done|]. split; [apply sets_of_refl|]. split; [done|].
    intros s sb Hs. rewrite decide_False; [done|]. apply not_elem_of_nil.
  - apply NoDup_cons in Hn as [Hns Hn].
    destruct (vi_sets _ _ _ _ (inv_obj _ _ HI) _ _ s Ho Hst) as (sb & Hs & Hss & Hsp); [apply Hl; by left|].
    destruct (set_clear_ok b ord w s sb) as [Hc Hci]; try done. { by eapply Def_bind. }
    rewrite Hsp in Hc, Hci. rewrite Hc in *. cbn [mbind option_bind] in *.
    assert (Hne : s <> o) by congruence.
    pose proof (sets_of_clear o w s sb Hne Hs Hss Hsp) as Hso.
    destruct (IH (clear_world s sb w)) as (w' & E & HI' & Hso' & Ho' & Hr'); try done.
    + cbn. by rewrite lookup_insert_ne.
    + intros x Hx. apply Hl. by right.
    + assert (Hsub : forall x, set_of (clear_world s sb w) o x -> set_of w o x).
      { intros x (xb & Hx & Hxs & Hxp). cbn in Hx. apply lookup_insert_Some in Hx as [[<- <-]|[Hxne Hx]]; [by exists sb|]. by exists xb. }
      exists w'. split; [done|]. split; [done|]. split; [|split; [done|]].
      * by eapply sets_of_trans.
      * intros x xb Hx. destruct (decide (x = s)) as [->|Hxs].
        -- assert (xb = sb) as -> by congruence. rewrite (Hr' s (cleared sb)) by (cbn; by rewrite lookup_insert).
           rewrite decide_False by done. rewrite decide_True by by left. done.
        -- rewrite (Hr' x xb) by (cbn; by rewrite lookup_insert_ne). f_equal.
           repeat case_decide; try done; set_solver.
Qed.

(** Effect of DropData: the vault and its sets are emptied but keep their keys; all else is untouched. *)
Record emptied (o : nat) (w w' : world) : Prop := Emptied {
  em_refs : w_refs w' = w_refs w;
  em_next : w_next w' = w_next w;
  em_o : forall ob, w_objs w !! o = Some ob -> w_objs w' !! o = Some (cleared ob);
  em_sets : forall s sb, w_objs w !! s = Some sb -> o_static_set sb = true -> o_parent sb = Some o -> w_objs w' !! s = Some (cleared sb);
  em_objs : forall x, x <> o -> ~ set_of w o x -> w_objs w' !! x = w_objs w !! x;
  em_live : forall r, fst <$> live w' !! r =
    if decide (exists ob, w_objs w !! o = Some ob /\ r ∈ o_recs ob) then None else fst <$> live w !! r;
  em_heap : forall r, is_Some (w_recs w' !! r) -> is_Some (w_recs w !! r)
}.

Lemma cleared_vault_ok L L' ob : vault_ok L ob -> vault_ok L' (cleared ob).
Proof.
  intros [H1 H2 H3 H4 H5]. split; [done|done| | |].
  - destruct H3. by split.
  - cbn. intros r Hr. by apply not_elem_of_empty in Hr.
  - intros k td Hk. change (o_keys ob !! k = Some td) in Hk. destruct (H5 _ _ Hk) as (ix & Hix & (G1 & G2 & G3) & Hu).
    exists (Idx (ix_multi ix) [] []). split.
    + unfold cleared. change (o_idx (ob_recs ∅ (all_clearers ob))) with (o_idx (all_clearers ob)). unfold all_clearers. rewrite lookup_all_idx, Hix. cbn. by rewrite Hk.
    + split; [|done]. split; [|split; [done|]].
      * cbn. destruct (ix_multi ix); apply good_empty.
      * intros _. split; intros r Hr; cbn in Hr; by apply not_elem_of_empty in Hr.
Qed.

Lemma drop_data_ok b ord w o ob :
  fair ord -> Inv b w -> w_objs w !! o = Some ob -> o_static_set ob = false -> Def b (drop_data ord w o) ->
  exists w', drop_data ord w o = Some w' /\ Inv b w' /\ emptied o w w'.
Proof.
  intros Hf HI Ho Hst HD. unfold drop_data in *. rewrite Ho in *. cbn [mbind option_bind] in *.
  destruct (clear_fold b ord o (ord (elements (o_sets ob))) w ob) as (w1 & E1 & HI1 & Hso & Ho1 & Hs1); try done.
  { by apply fair_NoDup. } { intros s Hs. by apply fair_elem in Hs. } { by eapply Def_bind. }
  rewrite E1 in *. cbn [mbind option_bind] in *.
  rewrite foldM_invalidate in * by first [by apply fair_NoDup|intros r Hr; apply fair_elem in Hr; [|done]; by eapply (vault_recs_heap b w1 o)].
  cbn [mbind option_bind w_set_recs w_objs] in *. rewrite Ho1. cbn [mbind option_bind]. rewrite list_to_set_ord by done.
  change (Some (set_obj o (ob_recs ∅ (all_clearers ob)) (w_set_recs (invalidate_on (o_recs ob) (w_recs w1)) w1)))
    with (Some (wiped (o_recs ob) o (cleared ob) w1)).
  exists (wiped (o_recs ob) o (cleared ob) w1). split; [done|].
  assert (Hsin : forall s sb, w_objs w !! s = Some sb -> o_static_set sb = true -> o_parent sb = Some o -> w_objs w1 !! s = Some (cleared sb)).
  { intros s sb Hsb Hss Hsp. rewrite (Hs1 _ _ Hsb). rewrite decide_True; [done|]. apply fair_elem; [done|].
    destruct (so_some _ _ _ _ _ _ (vi_set _ _ _ _ (inv_obj _ _ HI) _ _ Hsb Hss) _ Hsp) as (ob' & Hob' & _ & Hin & _). congruence. }
  split.
  - pose proof (vi_vault _ _ _ _ (inv_obj _ _ HI) _ _ Ho Hst) as Hv.
    apply wiped_inv; try done; [by eapply cleared_vault_ok|].
    intros _ s Hs. destruct (vi_sets _ _ _ _ (inv_obj _ _ HI) _ _ s Ho Hst Hs) as (sb & Hsb & Hss & Hsp).
    exists (cleared sb). split; [by apply Hsin|]. done.
  - split.
    + apply Hso.
    + apply Hso.
    + intros ob' Hob'. assert (ob' = ob) as -> by congruence. cbn. by rewrite lookup_insert.
    + intros s sb Hsb Hss Hsp. cbn. rewrite lookup_insert_ne by congruence. by apply Hsin.
    + intros x Hx Hn. cbn. rewrite lookup_insert_ne by done. by apply Hso.
    + intros r. rewrite live_wiped. destruct (decide (r ∈ o_recs ob)) as [Hr|Hr].
      * rewrite decide_True; [done|]. eauto.
      * rewrite decide_False; [by eapply sets_of_live|]. intros (ob' & Hob' & Hr'). congruence.
    + intros r [rc Hr]. cbn in Hr. rewrite lookup_invalidate_on in Hr. destruct (w_recs w1 !! r) as [rc1|] eqn:Er; [|done].
      pose proof (sof_recs _ _ _ Hso r) as Hx. rewrite Er in Hx. destruct (w_recs w !! r); [eauto|done].
Qed.
