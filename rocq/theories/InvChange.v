(** Two frame lemmas for the object invariant: changing one record set, and changing one vault with its sets. *)
From Verif Require Export InvRefOps.
Open Scope nat_scope.

Lemma val_of_ext L L' k r : fst <$> L !! r = fst <$> L' !! r -> val_of L k r = val_of L' k r.
Proof. unfold val_of. destruct (L !! r), (L' !! r); cbn; intros H; try done. injection H as H. by rewrite H. Qed.

Lemma idx_ok_frame L L' recs uniq k ix :
  (forall r, r ∈ recs -> val_of L k r = val_of L' k r) -> idx_ok L recs uniq k ix -> idx_ok L' recs uniq k ix.
Proof.
  intros H (H1 & H2 & H3). split; [|split; [done|]].
  - by eapply good_ext.
  - intros Hu. destruct (H3 Hu). split; by eapply complete_ext.
Qed.
Lemma vault_ok_frame L L' ob :
  (forall r, r ∈ o_recs ob -> fst <$> L !! r = fst <$> L' !! r) -> vault_ok L ob -> vault_ok L' ob.
Proof.
  intros H [H1 H2 H3 H4 H5]. split; try done.
  - intros r Hr. destruct (H4 r Hr) as (l & Hl & Ht). specialize (H r Hr). rewrite Hl in H. cbn in H.
    destruct (L' !! r) as [l'|]; [|done]. cbn in H. injection H as H. exists l'. split; [done|]. by rewrite <- H.
  - intros k td Hk. destruct (H5 k td Hk) as (ix & Hix & Hok & Hu). exists ix. split; [done|]. split; [|done].
    eapply idx_ok_frame; [|done]. intros r Hr. apply val_of_ext. auto.
Qed.
Lemma vault_ok_sets L ob X : vault_ok L ob -> vault_ok L (ob_sets X ob).
Proof. intros [H1 H2 [] H4 H5]. by split. Qed.

Lemma strict_frame L L' s ob pb pb' :
  (forall r, r ∈ o_recs ob -> fst <$> L !! r = fst <$> L' !! r) ->
  (forall r l', r ∈ o_recs ob -> L' !! r = Some l' -> exists l, L !! r = Some l /\ (s ∈ l.2 -> s ∈ l'.2)) ->
  o_keys pb' = o_keys pb -> o_order pb' = o_order pb -> o_uniq pb' = o_uniq pb -> o_recs ob ⊆ o_recs pb' ->
  strict L s ob pb -> strict L' s ob pb'.
Proof.
  intros HL Hd E1 E2 E3 E4 [H1 H2 H3 H4 H5 H6 H7 H8]. split; try done; try congruence.
  - intros r l' Hr Hl'. destruct (Hd _ _ Hr Hl') as (l & Hl & Hs). eauto.
  - intros k td Hk. destruct (H8 k td Hk) as (ix & Hix & Hok). exists ix. split; [done|].
    eapply idx_ok_frame; [|done]. intros r Hr. apply val_of_ext. auto.
Qed.

(** ** Changing one record set [s] *)
Lemma VInv_set_change b objs objs' L L' n s :
  VInv b objs L n ->
  (forall sb, objs !! s = Some sb -> o_static_set sb = true) ->
  (forall sb', objs' !! s = Some sb' -> o_static_set sb' = true /\
     o_isset sb' = true /\ o_sets sb' = ∅ /\
     (forall k ix e, o_idx sb' !! k = Some ix -> e ∈ ix_hash ix \/ e ∈ ix_tree ix -> e.2 < n) /\
     (forall r, r ∈ o_recs sb' -> r < n) /\
     (o_parent sb' = None ->
       o_tmpl sb' = ∅ /\ o_idx sb' = ∅ /\ o_keys sb' = ∅ /\ o_order sb' = [] /\ o_uniq sb' = [] /\ o_recs sb' = ∅) /\
     (forall p, o_parent sb' = Some p -> exists pb, objs !! p = Some pb /\ o_static_set pb = false /\ set_par b L' s sb' pb)) ->
  (forall x, x <> s -> match objs !! x, objs' !! x with
     | None, None => True
     | Some ob, Some ob' =>
         ob' = ob_sets (o_sets ob') ob /\ (forall y, y <> s -> y ∈ o_sets ob' <-> y ∈ o_sets ob) /\
         (o_static_set ob = true -> o_sets ob' = o_sets ob) /\
         (o_static_set ob = false -> (s ∈ o_sets ob' <-> exists sb', objs' !! s = Some sb' /\ o_parent sb' = Some x))
     | _, _ => False end) ->
  (forall r, match L !! r, L' !! r with
     | None, None => True
     | Some l, Some l' => l'.1 = l.1 /\ forall y, y <> s -> y ∈ l'.2 <-> y ∈ l.2
     | _, _ => False end) ->
  (forall r l', L' !! r = Some l' -> s ∈ l'.2 ->
     (forall sb' p, objs' !! s = Some sb' -> o_parent sb' = Some p ->
        exists pb, objs !! p = Some pb /\ o_static_set pb = false /\ r ∈ o_recs pb) /\
     (b = true -> exists sb', objs' !! s = Some sb' /\ r ∈ o_recs sb')) ->
  VInv b objs' L' n.
Proof.
  intros HV Hs0 Hs Hx HL Hd.
  assert (HLf : forall r, fst <$> L !! r = fst <$> L' !! r).
  { intros r. specialize (HL r). destruct (L !! r), (L' !! r); try done. destruct HL as [HL _]. cbn. by rewrite HL. }
  assert (HLs : forall r, is_Some (L' !! r) <-> is_Some (L !! r)).
  { intros r. specialize (HL r). destruct (L !! r), (L' !! r); try done; split; eauto. }
  assert (Hback : forall x ob', x <> s -> objs' !! x = Some ob' -> exists ob, objs !! x = Some ob /\ ob' = ob_sets (o_sets ob') ob /\
      (forall y, y <> s -> y ∈ o_sets ob' <-> y ∈ o_sets ob) /\ (o_static_set ob = true -> ob' = ob) /\
      (o_static_set ob = false -> (s ∈ o_sets ob' <-> exists sb', objs' !! s = Some sb' /\ o_parent sb' = Some x))).
  { intros x ob' Hne Hob'. specialize (Hx x Hne). rewrite Hob' in Hx. destruct (objs !! x) as [ob|]; [|done].
    exists ob. destruct Hx as (E1 & E2 & E3 & E4). split; [done|]. split; [done|]. split; [done|]. split; [|done].
    intros Hst. rewrite E1. rewrite E3 by done. by destruct ob. }
  assert (Hfwd : forall x ob, x <> s -> objs !! x = Some ob -> exists ob', objs' !! x = Some ob' /\ ob' = ob_sets (o_sets ob') ob /\
      (forall y, y <> s -> y ∈ o_sets ob' <-> y ∈ o_sets ob) /\ (o_static_set ob = true -> ob' = ob) /\
      (o_static_set ob = false -> (s ∈ o_sets ob' <-> exists sb', objs' !! s = Some sb' /\ o_parent sb' = Some x))).
  { intros x ob Hne Hob. specialize (Hx x Hne). rewrite Hob in Hx. destruct (objs' !! x) as [ob'|]; [|done].
    exists ob'. destruct Hx as (E1 & E2 & E3 & E4). split; [done|]. split; [done|]. split; [done|]. split; [|done].
    intros Hst. rewrite E1. rewrite E3 by done. by destruct ob. }
  assert (Hvs : forall o ob, objs !! o = Some ob -> o_static_set ob = false -> o <> s).
  { intros o ob Ho Hst ->. apply Hs0 in Ho. congruence. }
  assert (Hvs' : forall o ob, objs' !! o = Some ob -> o_static_set ob = false -> o <> s).
  { intros o ob Ho Hst ->. apply Hs in Ho as [Ho _]. congruence. }
  split.
  - intros o ob' Ho Hst. destruct (Hback o ob') as (ob & Hob & E & _); [eauto|done|]. rewrite E.
    apply vault_ok_sets. eapply vault_ok_frame; [intros; apply HLf|]. eapply vi_vault; [done|exact Hob|].
    by rewrite E in Hst.
  - intros o ob' x Ho Hst Hxs. destruct (Hback o ob') as (ob & Hob & E & E1 & E2 & E3); [eauto|done|].
    assert (Hst2 : o_static_set ob = false) by by rewrite E in Hst.
    destruct (decide (x = s)) as [->|Hne].
    + apply E3 in Hxs as (sb' & Hsb' & Hp); [|done]. exists sb'. split; [done|]. split; [|done]. by apply Hs.
    + apply E1 in Hxs; [|done]. destruct (vi_sets _ _ _ _ HV _ _ _ Hob Hst2 Hxs) as (sb & Hsb & Hss & Hsp).
      destruct (Hfwd x sb Hne Hsb) as (sb' & Hsb' & _ & _ & E4 & _). rewrite E4 in Hsb' by done. eauto.
  - intros x xb' Hxb' Hst. destruct (decide (x = s)) as [->|Hne].
    + destruct (Hs _ Hxb') as (_ & S1 & S2 & S3 & S4 & S5 & S6). split; try done.
      intros p Hp. destruct (S6 p Hp) as (pb & Hpb & Hpst & Hpar).
      destruct (Hfwd p pb) as (pb' & Hpb' & E & E1 & E2 & E3); [eauto|done|].
      exists pb'. split; [done|]. split; [by rewrite E|]. split; [apply E3; eauto|].
      rewrite E. destruct Hpar as [P1 P2 P3]. split; try done.
      intros Hb. specialize (P3 Hb). destruct P3. by split.
    + destruct (Hback x xb') as (xb & Hxb & E & E1 & E2 & E3); [done|done|].
      assert (Hst2 : o_static_set xb = true) by by rewrite E in Hst. rewrite (E2 Hst2) in *.
      destruct (vi_set _ _ _ _ HV _ _ Hxb Hst2) as [B1 B2 S1 S2 S3 S4]. split; try done.
      intros p Hp. destruct (S4 p Hp) as (pb & Hpb & Hpst & Hin & Hpar).
      destruct (Hfwd p pb) as (pb' & Hpb' & F & F1 & F2 & F3); [eauto|done|].
      exists pb'. split; [done|]. split; [by rewrite F|]. split; [by apply F1|].
      rewrite F. destruct Hpar as [P1 P2 P3]. split.
      * intros k ix e Hix He Hl. apply HLs in Hl. cbn. eauto.
      * intros r Hr Hl. apply HLs in Hl. cbn. eauto.
      * intros Hb. eapply strict_frame; [intros; apply HLf| | | | | |exact (P3 Hb)]; try done.
        -- intros r l' Hr Hl'. specialize (HL r). rewrite Hl' in HL. destruct (L !! r) as [l|]; [|done].
           exists l. split; [done|]. intros Hl. apply HL; done.
        -- apply (P3 Hb).
  - intros o ob' o2 ob2' r Ho Hst Ho2 Hst2 Hr Hr2.
    destruct (Hback o ob') as (ob & Hob & E & _); [eauto|done|]. destruct (Hback o2 ob2') as (ob2 & Hob2 & E2 & _); [eauto|done|].
    rewrite E in Hst, Hr. rewrite E2 in Hst2, Hr2. cbn in *. eapply (vi_disj _ _ _ _ HV); [exact Hob|..]; eauto.
  - intros r Hr. apply HLs in Hr. destruct (vi_owned _ _ _ _ HV _ Hr) as (o & ob & Ho & Hst & Hin).
    destruct (Hfwd o ob) as (ob' & Hob' & E & _); [eauto|done|]. exists o, ob'. split; [done|]. by rewrite E.
  - intros r l' x Hl' Hxin. destruct (decide (x = s)) as [->|Hne].
    + destruct (Hd _ _ Hl' Hxin) as [D1 D2]. split; [|done]. intros sb' Hsb'. split; [by apply Hs|].
      intros p Hp. destruct (D1 _ _ Hsb' Hp) as (pb & Hpb & Hpst & Hin).
      destruct (Hfwd p pb) as (pb' & Hpb' & E & _); [eauto|done|]. exists pb'. split; [done|]. by rewrite E.
    + pose proof (HL r) as HLr. rewrite Hl' in HLr. destruct (L !! r) as [l|] eqn:El; [|done]. destruct HLr as [Hl1 Hl2].
      apply Hl2 in Hxin; [|done]. destruct (vi_deps _ _ _ _ HV _ _ _ El Hxin) as [D1 D2]. split.
      * intros xb' Hxb'. destruct (Hback x xb') as (xb & Hxb & E & E1 & E2 & E3); [done|done|].
        destruct (D1 _ Hxb) as [Dst Dp]. rewrite (E2 Dst). split; [done|]. intros p Hp.
        destruct (Dp p Hp) as (pb & Hpb & Hpst & Hin).
        destruct (Hfwd p pb) as (pb' & Hpb' & F & _); [eauto|done|]. exists pb'. split; [done|]. by rewrite F.
      * intros Hb. destruct (D2 Hb) as (xb & Hxb & Hin). destruct (Hfwd x xb) as (xb' & Hxb' & E & _); [done|done|].
        exists xb'. split; [done|]. by rewrite E.
Qed.

(** ** Changing one vault [o], its sets and its records *)
Lemma VInv_vault_change b objs objs' L L' n n' o ob ob' :
  VInv b objs L n -> n <= n' ->
  objs !! o = Some ob -> o_static_set ob = false ->
  objs' !! o = Some ob' -> o_static_set ob' = false -> o_sets ob' = o_sets ob -> vault_ok L' ob' ->
  (forall x, x <> o -> match objs !! x, objs' !! x with
     | None, None => True
     | Some xb, Some xb' =>
         if decide (o_static_set xb = true /\ o_parent xb = Some o) then
           o_static_set xb' = true /\ o_isset xb' = true /\ o_sets xb' = ∅ /\ o_parent xb' = Some o /\
           (forall k ix e, o_idx xb' !! k = Some ix -> e ∈ ix_hash ix \/ e ∈ ix_tree ix -> e.2 < n') /\
           (forall r, r ∈ o_recs xb' -> r < n') /\
           set_par b L' x xb' ob'
         else xb' = xb
     | _, _ => False end) ->
  (forall r, r ∉ o_recs ob -> r ∉ o_recs ob' -> L' !! r = L !! r) ->
  (forall r, r ∈ o_recs ob' -> r ∉ o_recs ob -> n <= r) ->
  (forall r, is_Some (L !! r) -> r < n) ->
  (forall r, r ∈ o_recs ob -> r ∉ o_recs ob' -> L' !! r = None) ->
  (forall r l' s, r ∈ o_recs ob' -> L' !! r = Some l' -> s ∈ l'.2 ->
     (forall sb, objs !! s = Some sb -> o_static_set sb = true /\ forall p, o_parent sb = Some p -> p = o) /\
     (b = true -> exists sb', objs' !! s = Some sb' /\ r ∈ o_recs sb')) ->
  VInv b objs' L' n'.
Proof.
  intros HV Hn Hob Hst Hob' Hst' Hsets Hvok Hx HL Hfresh Hbnd Hgone Hdeps.
  assert (Hrecs : forall x xb r, objs !! x = Some xb -> o_static_set xb = false -> r ∈ o_recs xb -> is_Some (L !! r) /\ r < n).
  { intros x xb r Hxb Hxs Hr. destruct (v_recs _ _ (vi_vault _ _ _ _ HV _ _ Hxb Hxs) r Hr) as (l & Hl & _). split; eauto. }
  assert (Hother : forall x xb r, objs !! x = Some xb -> o_static_set xb = false -> x <> o -> r ∈ o_recs xb ->
      r ∉ o_recs ob /\ r ∉ o_recs ob').
  { intros x xb r Hxb Hxs Hne Hr. assert (r ∉ o_recs ob).
    { intros Hr2. apply Hne. eapply (vi_disj _ _ _ _ HV); eauto. }
    split; [done|]. intros Hr2. destruct (Hrecs _ _ _ Hxb Hxs Hr). specialize (Hfresh _ Hr2 H). lia. }
  assert (Hback : forall x xb', x <> o -> objs' !! x = Some xb' -> exists xb, objs !! x = Some xb /\
     (if decide (o_static_set xb = true /\ o_parent xb = Some o) then
           o_static_set xb' = true /\ o_isset xb' = true /\ o_sets xb' = ∅ /\ o_parent xb' = Some o /\
           (forall k ix e, o_idx xb' !! k = Some ix -> e ∈ ix_hash ix \/ e ∈ ix_tree ix -> e.2 < n') /\
           (forall r, r ∈ o_recs xb' -> r < n') /\
           set_par b L' x xb' ob'
         else xb' = xb)).
  { intros x xb' Hne Hxb'. specialize (Hx x Hne). rewrite Hxb' in Hx. destruct (objs !! x) as [xb|]; [|done]. eauto. }
  assert (Hvault : forall x xb', x <> o -> objs' !! x = Some xb' -> o_static_set xb' = false -> objs !! x = Some xb').
  { intros x xb' Hne Hxb' Hxs. destruct (Hback _ _ Hne Hxb') as (xb & Hxb & H).
    destruct (decide _) as [[]|]; [|by subst]. destruct H as [H _]. congruence. }
  assert (Hvfwd : forall x xb, x <> o -> objs !! x = Some xb -> o_static_set xb = false -> objs' !! x = Some xb).
  { intros x xb Hne Hxb Hxs. specialize (Hx x Hne). rewrite Hxb in Hx. destruct (objs' !! x) as [xb'|]; [|done].
    rewrite decide_False in Hx by (intros [? _]; congruence). by subst. }
  assert (Hlive : forall r, is_Some (L' !! r) -> r ∉ o_recs ob -> r < n -> is_Some (L !! r)).
  { intros r Hr Hno Hrn. destruct (decide (r ∈ o_recs ob')) as [Hin|Hni].
    - specialize (Hfresh _ Hin Hno). lia.
    - by rewrite HL in Hr. }
  split.
  - intros x xb' Hxb' Hxs. destruct (decide (x = o)) as [->|Hne]; [congruence|].
    pose proof (Hvault _ _ Hne Hxb' Hxs) as Hxb. eapply vault_ok_frame; [|by eapply (vi_vault _ _ _ _ HV)].
    intros r Hr. destruct (Hother _ _ _ Hxb Hxs Hne Hr). by rewrite HL.
  - intros x xb' y Hxb' Hxs Hy. destruct (decide (x = o)) as [->|Hne].
    + assert (xb' = ob') as -> by congruence. rewrite Hsets in Hy.
      destruct (vi_sets _ _ _ _ HV _ _ _ Hob Hst Hy) as (sb & Hsb & Hss & Hsp).
      assert (Hyo : y <> o) by congruence. specialize (Hx y Hyo). rewrite Hsb in Hx. destruct (objs' !! y) as [sb'|]; [|done].
      rewrite decide_True in Hx by done. destruct Hx as (X1 & X2 & X3 & X4 & _). eauto.
    + pose proof (Hvault _ _ Hne Hxb' Hxs) as Hxb. destruct (vi_sets _ _ _ _ HV _ _ _ Hxb Hxs Hy) as (sb & Hsb & Hss & Hsp).
      assert (Hyo : y <> o) by congruence. specialize (Hx y Hyo). rewrite Hsb in Hx. destruct (objs' !! y) as [sb'|]; [|done].
      rewrite decide_False in Hx by (intros [_ ?]; congruence). subst. eauto.
  - intros x xb' Hxb' Hxs. assert (Hne : x <> o) by congruence.
    destruct (Hback _ _ Hne Hxb') as (xb & Hxb & H). destruct (decide (o_static_set xb = true /\ o_parent xb = Some o)) as [[Hxs0 Hxp]|Hno].
    + destruct H as (X1 & X2 & X3 & X4 & X5 & X6 & X7). split; try done; [congruence|].
      intros p Hp. assert (p = o) as -> by congruence. exists ob'. split; [done|]. split; [done|]. split; [|done].
      rewrite Hsets. destruct (so_some _ _ _ _ _ _ (vi_set _ _ _ _ HV _ _ Hxb Hxs0) o Hxp) as (pb & Hpb & _ & Hin & _).
      congruence.
    + subst xb'. destruct (vi_set _ _ _ _ HV _ _ Hxb Hxs) as [B1 B2 S1 S2 S3 S4]. split; try done.
      * intros k ix e Hix He. specialize (B1 _ _ _ Hix He). lia.
      * intros r Hr. specialize (B2 _ Hr). lia.
      * intros p Hp. assert (Hpo : p <> o) by (intros ->; apply Hno; done).
        destruct (S4 p Hp) as (pb & Hpb & Hpst & Hin & [P1 P2 P3]). exists pb.
        split; [by apply Hvfwd|]. split; [done|]. split; [done|]. split.
        -- intros k ix e Hix He Hl. destruct (decide (e.2 ∈ o_recs ob)) as [Hr|Hr].
           ++ destruct (Hrecs _ _ _ Hob Hst Hr). eauto.
           ++ apply Hlive in Hl; [eauto|done|eauto].
        -- intros r Hr Hl. destruct (decide (r ∈ o_recs ob)) as [Hr2|Hr2].
           ++ destruct (Hrecs _ _ _ Hob Hst Hr2). eauto.
           ++ apply Hlive in Hl; [eauto|done|eauto].
        -- intros Hb. specialize (P3 Hb).
           assert (HL2 : forall r, r ∈ o_recs xb -> L' !! r = L !! r).
           { intros r Hr. apply (st_recs _ _ _ _ P3) in Hr. destruct (Hother _ _ _ Hpb Hpst Hpo Hr). by apply HL. }
           eapply strict_frame; [| | | | | |exact P3]; try done.
           ++ intros r Hr. by rewrite HL2.
           ++ intros r l' Hr Hl'. rewrite HL2 in Hl' by done. eauto.
           ++ apply P3.
  - intros x xb' y yb' r Hxb' Hxs Hyb' Hys Hr1 Hr2.
    destruct (decide (x = o)) as [->|Hxo]; destruct (decide (y = o)) as [->|Hyo]; [done|..].
    + assert (xb' = ob') as -> by congruence. pose proof (Hvault _ _ Hyo Hyb' Hys) as Hyb.
      by destruct (Hother _ _ _ Hyb Hys Hyo Hr2).
    + assert (yb' = ob') as -> by congruence. pose proof (Hvault _ _ Hxo Hxb' Hxs) as Hxb.
      by destruct (Hother _ _ _ Hxb Hxs Hxo Hr1).
    + eapply (vi_disj _ _ _ _ HV); [by apply Hvault|done|by apply Hvault|..]; done.
  - intros r Hr. destruct (decide (r ∈ o_recs ob')) as [Hin|Hni]; [eauto|].
    destruct (decide (r ∈ o_recs ob)) as [Hin|Hni2].
    + rewrite (Hgone _ Hin Hni) in Hr. by destruct Hr.
    + rewrite HL in Hr by done. destruct (vi_owned _ _ _ _ HV _ Hr) as (x & xb & Hxb & Hxs & Hrx).
      exists x, xb. split; [|done]. apply Hvfwd; [|done|done]. intros ->. congruence.
  - intros r l' s Hl' Hs. destruct (decide (r ∈ o_recs ob')) as [Hin|Hni].
    + destruct (Hdeps _ _ _ Hin Hl' Hs) as [D1 D2]. split; [|done]. intros sb' Hsb'.
      destruct (decide (s = o)) as [->|Hso].
      { destruct (D1 _ Hob) as [D _]. congruence. }
      destruct (Hback _ _ Hso Hsb') as (sb & Hsb & H). destruct (D1 _ Hsb) as [Dst Dp].
      destruct (decide (o_static_set sb = true /\ o_parent sb = Some o)) as [_|Hno].
      * destruct H as (X1 & X2 & X3 & X4 & _). split; [done|]. intros p Hp. assert (p = o) as -> by congruence. eauto.
      * subst sb'. split; [done|]. intros p Hp. destruct Hno. split; [done|]. rewrite Hp. f_equal. eauto.
    + destruct (decide (r ∈ o_recs ob)) as [Hin|Hni2]; [rewrite (Hgone _ Hin Hni) in Hl'; done|].
      rewrite HL in Hl' by done. destruct (vi_deps _ _ _ _ HV _ _ _ Hl' Hs) as [D1 D2]. split.
      * intros sb' Hsb'. destruct (decide (s = o)) as [->|Hso].
        { destruct (D1 _ Hob) as [D _]. congruence. }
        destruct (Hback _ _ Hso Hsb') as (sb & Hsb & H). destruct (D1 _ Hsb) as [Dst Dp].
        destruct (decide (o_static_set sb = true /\ o_parent sb = Some o)) as [[_ Hpo]|Hno].
        -- destruct (Dp _ Hpo) as (pb & Hpb & _ & Hrp). congruence.
        -- subst sb'. split; [done|]. intros p Hp. destruct (Dp _ Hp) as (pb & Hpb & Hpst & Hrp). exists pb.
           split; [|done]. apply Hvfwd; [|done|done]. intros ->. congruence.
      * intros Hb. destruct (D2 Hb) as (sb & Hsb & Hrs). destruct (D1 _ Hsb) as [Dst Dp].
        assert (Hso : s <> o) by congruence. specialize (Hx s Hso). rewrite Hsb in Hx. destruct (objs' !! s) as [sb'|] eqn:Esb'; [|done].
        destruct (decide (o_static_set sb = true /\ o_parent sb = Some o)) as [[_ Hpo]|Hno]; [|subst; eauto].
        destruct (Dp _ Hpo) as (pb & Hpb & _ & Hrp). congruence.
Qed.
