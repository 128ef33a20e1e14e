(** Reference operations keep the invariant and never touch freed memory. *)
From Verif Require Export InvRef.
Open Scope nat_scope.

(** [w'] differs from [w] in references and counters only (and possibly freed invalid records). *)
Record ref_only (w w' : world) : Prop := RefOnly {
  ro_objs : w_objs w' = w_objs w;
  ro_live : live w' = live w;
  ro_next : w_next w' = w_next w;
  ro_heap : forall x, is_Some (w_recs w' !! x) -> is_Some (w_recs w !! x);
  ro_ref : RInv (w_recs w') (w_refs w') []
}.

Lemma Inv_ref_only b w w' : Inv b w -> ref_only w w' -> vlt_ok (w_objs w) (live w) (w_refs w') -> Inv b w'.
Proof.
  intros [H1 H2 H3 H4] [E1 E2 E3 E4 E5] Hv. split.
  - intros r Hr. rewrite E3. auto.
  - done.
  - by rewrite E1, E2, E3.
  - by rewrite E1, E2.
Qed.
Lemma ref_only_trans w1 w2 w3 : ref_only w1 w2 -> ref_only w2 w3 -> ref_only w1 w3.
Proof. intros [] []. split; try congruence; auto. Qed.

Lemma vlt_ok_insert objs L refs f rf :
  vlt_ok objs L refs ->
  (forall r, f_rec rf = Some r -> exists o, f_vlt rf = Some o /\
     forall ob, objs !! o = Some ob -> o_static_set ob = false -> is_Some (L !! r) -> r ∈ o_recs ob) ->
  vlt_ok objs L (<[f := rf]> refs).
Proof.
  intros H Hn g rg r Hg Hr. apply lookup_insert_Some in Hg as [[<- <-]|[? Hg]]; [auto|eauto].
Qed.

(** Retarget reference [f] to [m1]: add first, then release the old target. *)
Lemma retarget w f rf0 rf :
  RInv (w_recs w) (w_refs w) [] -> w_refs w !! f = Some rf0 ->
  (forall r, f_rec rf = Some r -> is_Some (w_recs w !! r)) ->
  exists w', (w1 ← match f_rec rf with Some r => add_ref w r | None => Some w end;
              w2 ← match f_rec rf0 with Some r => remove_ref w1 r | None => Some w1 end;
              Some (set_ref f rf w2)) = Some w' /\
    ref_only w w' /\ w_refs w' = <[f := rf]> (w_refs w).
Proof.
  intros HR Hf Hr.
  assert (H1 : exists m1, match f_rec rf with Some r => add_ref w r | None => Some w end = Some (w_set_recs m1 w) /\
      RInv m1 (w_refs w) (opt (f_rec rf) ++ []) /\ live_of m1 = live w /\ (forall x, is_Some (m1 !! x) -> is_Some (w_recs w !! x))).
  { destruct (f_rec rf) as [r|].
    - destruct (Hr r eq_refl) as [rc Hrc]. rewrite (add_ref_eq _ _ rc) by done.
      destruct (RInv_add _ _ [] _ _ Hrc HR) as (Ha & Hb & Hc). eexists. split; [done|]. split; [done|]. split; [done|].
      intros x. apply Hc.
    - exists (w_recs w). unfold w_set_recs. rewrite world_eta. done. }
  destruct H1 as (m1 & -> & HR1 & HL1 & Hh1). cbn [mbind option_bind].
  apply (RInv_swap _ _ f rf0 rf) in HR1; [|done].
  destruct (f_rec rf0) as [r0|] eqn:E0; cbn [opt app] in HR1.
  - destruct (RInv_remove _ _ _ _ HR1) as (m2 & Hm2 & HR2 & HL2 & Hh2).
    unfold w_set_recs. rewrite Hm2. cbn. eexists. split; [done|]. split; [|done].
    split; cbn; try done; [|auto]. unfold live. cbn. by rewrite HL2.
  - cbn. eexists. split; [done|]. split; [|done]. split; cbn; done.
Qed.

(** Retarget: release first, then add. *)
Lemma retarget2 w f rf0 rf :
  RInv (w_recs w) (w_refs w) [] -> w_refs w !! f = Some rf0 ->
  (forall r, f_rec rf = Some r -> exists g rg, g <> f /\ w_refs w !! g = Some rg /\ f_rec rg = Some r) ->
  exists w', (w1 ← match f_rec rf0 with Some r => remove_ref w r | None => Some w end;
              w2 ← match f_rec rf with Some r => add_ref w1 r | None => Some w1 end;
              Some (set_ref f rf w2)) = Some w' /\
    ref_only w w' /\ w_refs w' = <[f := rf]> (w_refs w).
Proof.
  intros HR Hf Hr.
  assert (HR0 : RInv (w_recs w) (<[f := Ref None None]> (w_refs w)) (opt (f_rec rf0) ++ [])) by (apply RInv_swap; done).
  assert (H1 : exists m1, match f_rec rf0 with Some r => remove_ref w r | None => Some w end = Some (w_set_recs m1 w) /\
      RInv m1 (<[f := Ref None None]> (w_refs w)) [] /\ live_of m1 = live w /\ (forall x, is_Some (m1 !! x) -> is_Some (w_recs w !! x))).
  { destruct (f_rec rf0) as [r|].
    - destruct (RInv_remove _ _ _ _ HR0) as (m2 & Hm2 & HR2 & HL2 & Hh2). exists m2.
      rewrite <- (world_eta w) at 1. rewrite Hm2. done.
    - exists (w_recs w). unfold w_set_recs. rewrite world_eta. done. }
  destruct H1 as (m1 & -> & HR1 & HL1 & Hh1). cbn [mbind option_bind].
  destruct (f_rec rf) as [r|] eqn:E.
  - destruct (Hr r eq_refl) as (g & rg & Hg1 & Hg2 & Hg3).
    assert (is_Some (m1 !! r)) as [rc Hrc].
    { eapply (ri_refs _ _ _ HR1); [|exact Hg3]. by rewrite lookup_insert_ne. }
    rewrite (add_ref_eq _ _ rc) by done. cbn.
    destruct (RInv_add _ _ [] _ _ Hrc HR1) as (Ha & Hb & Hc).
    eexists. split; [done|]. split; [|done]. split; cbn; try done.
    + unfold live. cbn. by rewrite Hb.
    + intros x Hx. apply Hh1. by apply Hc.
    + assert (Ha2 : RInv (<[r := rd_refs (S (r_refs rc)) rc]> m1) (<[f := Ref None None]> (w_refs w)) (opt (f_rec rf) ++ [])) by by rewrite E.
      apply (RInv_swap _ _ f (Ref None None) rf []) in Ha2; [|by rewrite lookup_insert].
      by rewrite insert_insert in Ha2.
  - cbn. eexists. split; [done|]. split; [|done]. split; cbn; try done.
    assert (HR2 : RInv m1 (<[f := Ref None None]> (w_refs w)) (opt (f_rec rf) ++ [])) by by rewrite E.
    apply (RInv_swap _ _ f (Ref None None) rf []) in HR2; [|by rewrite lookup_insert].
    by rewrite insert_insert in HR2.
Qed.

Lemma set_record_spec w f rf0 mr vlt :
  RInv (w_recs w) (w_refs w) [] -> w_refs w !! f = Some rf0 ->
  (forall r, mr = Some r -> is_Some (w_recs w !! r)) ->
  exists w', set_record w f mr vlt = Some w' /\ ref_only w w' /\ w_refs w' = <[f := Ref mr (Some vlt)]> (w_refs w).
Proof.
  intros HR Hf Hr. destruct (retarget w f rf0 (Ref mr (Some vlt))) as (w' & E & H); try done.
  exists w'. split; [|done]. unfold set_record. rewrite Hf. exact E.
Qed.

Lemma copy_ref_spec w dst src rd rs :
  RInv (w_recs w) (w_refs w) [] -> w_refs w !! dst = Some rd -> w_refs w !! src = Some rs -> dst <> src ->
  exists w', copy_ref w dst src = Some w' /\ ref_only w w' /\
    w_refs w' = <[dst := match f_rec rs with Some r => Ref (Some r) (f_vlt rs) | None => Ref None None end]> (w_refs w).
Proof.
  intros HR Hd Hs Hne. unfold copy_ref. rewrite decide_False by done. rewrite Hd, Hs. cbn [mbind option_bind].
  destruct (f_rec rs) as [r|] eqn:E.
  - destruct (retarget2 w dst rd (Ref (Some r) (f_vlt rs))) as (w' & Ew & H); try done.
    + intros r' [= <-]. exists src, rs. done.
    + exists w'. split; [|done]. exact Ew.
  - destruct (retarget2 w dst rd (Ref None None)) as (w' & Ew & H); try done.
    exists w'. split; [|done]. exact Ew.
Qed.

Lemma reset_ref_spec w f rf :
  RInv (w_recs w) (w_refs w) [] -> w_refs w !! f = Some rf ->
  exists w', reset_ref w f = Some w' /\ ref_only w w' /\ w_refs w' = <[f := Ref None None]> (w_refs w).
Proof.
  intros HR Hf. destruct (retarget2 w f rf (Ref None None)) as (w' & E & H); try done.
  exists w'. split; [|done]. unfold reset_ref. rewrite Hf. exact E.
Qed.

Lemma move_ref_spec w dst src rd rs :
  RInv (w_recs w) (w_refs w) [] -> w_refs w !! dst = Some rd -> w_refs w !! src = Some rs -> dst <> src ->
  exists w', move_ref w dst src = Some w' /\ ref_only w w' /\
    w_refs w' = match f_rec rs with
                | Some r => <[src := Ref None None]> (<[dst := Ref (Some r) (f_vlt rs)]> (w_refs w))
                | None => <[dst := Ref None None]> (w_refs w) end.
Proof.
  intros HR Hd Hs Hne. unfold move_ref. rewrite decide_False by done. rewrite Hd, Hs. cbn [mbind option_bind].
  destruct (retarget2 w dst rd (Ref None None)) as (w' & Ew & Hro & Hrefs); try done.
  cbn [f_rec] in Ew. destruct (match f_rec rd with Some r' => remove_ref w r' | None => Some w end) as [w1|] eqn:E1; [|done].
  cbn in Ew. injection Ew as <-. destruct Hro as [O1 O2 O3 O4 O5]. cbn in O1, O2, O3, O4, O5, Hrefs.
  assert (Hr1 : w_refs w1 = w_refs w).
  { destruct (f_rec rd); [|congruence]. unfold remove_ref in E1. destruct (w_recs w !! _) as [rc|]; [|done]. cbn in E1.
    destruct (r_refs rc); [done|]. destruct (_ && _); by injection E1 as <-. }
  cbn. destruct (f_rec rs) as [r|] eqn:Er.
  - eexists. split; [done|]. split; [|cbn; by rewrite Hr1]. split; try done. cbn. rewrite Hr1 in *.
    assert (HR1 : RInv (w_recs w1) (<[src := Ref None None]> (<[dst := Ref None None]> (w_refs w))) (opt (f_rec rs) ++ [])).
    { apply RInv_swap; [by rewrite lookup_insert_ne|done]. }
    rewrite Er in HR1. change (opt (Some r)) with (opt (f_rec (Ref (Some r) (f_vlt rs)))) in HR1.
    apply (RInv_swap _ _ dst (Ref None None) (Ref (Some r) (f_vlt rs)) []) in HR1; [|by rewrite lookup_insert_ne, lookup_insert].
    rewrite insert_commute, insert_insert in HR1 by done. exact HR1.
  - eexists. split; [done|]. split; [done|]. cbn. by rewrite Hr1.
Qed.

Lemma new_ref_spec b w f : Inv b w -> w_refs w !! f = None -> Inv b (set_ref f (Ref None None) w).
Proof.
  intros HI Hf. eapply Inv_ref_only; [done| |].
  - split; try done. cbn. destruct (inv_ref _ _ HI) as [H1 H2 H3 H4]. split; [| |intros r rc Hr; rewrite (H3 _ _ Hr), count_insert|done].
    + intros g rg r Hg Hr. apply lookup_insert_Some in Hg as [[<- <-]|[? Hg]]; [done|eauto].
    + done.
    + cbn. f_equal. by rewrite delete_notin.
  - apply vlt_ok_insert; [apply HI|done].
Qed.
Lemma del_ref_inv b w f rf : Inv b w -> w_refs w !! f = Some rf -> f_rec rf = None -> Inv b (del_ref f w).
Proof.
  intros HI Hf Hr0. eapply Inv_ref_only; [done| |].
  - split; try done. cbn. destruct (inv_ref _ _ HI) as [H1 H2 H3 H4]. split; [|done| |done].
    + intros g rg r Hg Hr. apply lookup_delete_Some in Hg as [? Hg]. eauto.
    + intros r rc Hr. rewrite (H3 _ _ Hr). rewrite (count_delete _ f rf) by done. by rewrite decide_False by congruence.
  - intros g rg r Hg Hr. cbn in Hg. apply lookup_delete_Some in Hg as [? Hg]. by eapply (inv_vlt _ _ HI).
Qed.
