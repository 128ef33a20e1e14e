(** SetData keeps the invariant. *)
From Verif Require Export InvErase2.
Open Scope nat_scope.

Lemma idx_ok_set L L' recs uniq k ix old v r :
  idx_ok L recs uniq k ix -> r ∈ recs -> val_of L k r = Some old -> k ∉ uniq ->
  (forall x, x ∈ recs -> val_of L' k x = upd (val_of L k) r v x) -> idx_ok L' recs uniq k (idx_set old v r ix).
Proof.
  intros (G1 & G2 & G3) Hr Hv Hu HL. split; [|split; [|done]].
  - eapply good_ext; [|by apply good_set]. intros x Hx. by rewrite HL.
  - rewrite idx_set_multi. intros Hm. by apply G2.
Qed.

Definition data_set (r : nat) (k : string) (v : value) (o : nat) (rc : recd) (w : world) : world :=
  World (<[r := rd_data (<[k := v]> (r_data rc)) rc]> (w_recs w))
        (upd_on (fun _ => set_obj_data (r_data rc) r k v) ({[o]} ∪ r_deps rc) (w_objs w)) (w_refs w) (w_next w).

Lemma live_data_set r k v o rc w x :
  w_recs w !! r = Some rc -> live (data_set r k v o rc w) !! x = (fun l => if decide (x = r) then (<[k := v]> l.1, l.2) else l) <$> live w !! x.
Proof.
  intros Hr. unfold live. rewrite !lookup_live_of. cbn. destruct (decide (x = r)) as [->|].
  - rewrite lookup_insert, Hr. cbn. unfold live_rec. cbn. by destruct (r_valid rc).
  - rewrite lookup_insert_ne by done. by destruct (w_recs w !! x) as [xc|]; [|done]; cbn; destruct (live_rec xc).
Qed.
Lemma val_of_data_set r k v o rc w x k' :
  w_recs w !! r = Some rc -> is_Some (live w !! r) ->
  val_of (live (data_set r k v o rc w)) k' x = if decide (k' = k) then upd (val_of (live w) k) r v x else val_of (live w) k' x.
Proof.
  intros Hr [l Hl]. unfold val_of, upd. rewrite live_data_set by done. destruct (decide (x = r)) as [->|].
  - rewrite Hl. cbn. destruct (decide (k' = k)) as [->|]; [by rewrite lookup_insert|by rewrite lookup_insert_ne].
  - destruct (live w !! x); cbn; by destruct (decide (k' = k)) as [->|].
Qed.

Lemma set_obj_data_shape data r k v db : set_obj_data data r k v db = ob_idx (o_idx (set_obj_data data r k v db)) db.
Proof.
  unfold set_obj_data. destruct (o_keys db !! k) as [[t d]|]; [|by destruct db]. destruct (o_idx db !! k) as [ix|]; [|by destruct db].
  destruct (decide _); [|by destruct db]. destruct (negb _ && _); [by destruct db|done].
Qed.
Lemma set_obj_data_elem data r k v db k' ix e :
  o_idx (set_obj_data data r k v db) !! k' = Some ix -> e ∈ ix_hash ix \/ e ∈ ix_tree ix ->
  e.2 = r \/ exists ix0, o_idx db !! k' = Some ix0 /\ (e ∈ ix_hash ix0 \/ e ∈ ix_tree ix0).
Proof.
  unfold set_obj_data. destruct (o_keys db !! k) as [[t d]|]; [|by eauto]. destruct (o_idx db !! k) as [ix0|] eqn:Ei; [|by eauto].
  destruct (decide _); [|by eauto]. destruct (negb _ && _); [by eauto|]. cbn. intros H He.
  apply lookup_insert_Some in H as [[<- <-]|[? H]]; [|by eauto]. apply idx_set_elem in He as [->|He]; [by left|]. eauto.
Qed.

(** Non-unique keys are the multimap ones. *)
Lemma vault_multi L ob k td ix : vault_ok L ob -> o_keys ob !! k = Some td -> o_idx ob !! k = Some ix ->
  (ix_multi ix = false <-> k ∈ o_uniq ob).
Proof.
  intros Hv Hk Hix. destruct (v_idx _ _ Hv _ _ Hk) as (ix' & Hix' & (_ & G2 & _) & Hu). assert (ix' = ix) as -> by congruence. split; auto.
Qed.

Lemma data_set_inv b w o ob r rc k v d0 ix :
  Inv b w -> w_objs w !! o = Some ob -> o_static_set ob = false -> r ∈ o_recs ob -> w_recs w !! r = Some rc ->
  o_keys ob !! k = Some (vty v, d0) -> o_idx ob !! k = Some ix -> ix_multi ix = true -> Inv b (data_set r k v o rc w).
Proof.
  intros HI Ho Hst Hr Hrc Hk Hix Hm. pose proof (inv_obj _ _ HI) as HV.
  destruct (deps_facts _ _ _ _ _ _ HI Ho Hst Hr Hrc) as (Hval & Hl & Hod & Hd & Hdb).
  pose proof (vi_vault _ _ _ _ HV _ _ Ho Hst) as Hv.
  assert (Hu : k ∉ o_uniq ob). { intros Hc. apply (vault_multi _ _ _ _ _ Hv Hk Hix) in Hc. congruence. }
  set (old := get_typed (r_data rc) k (vty v) (vzero (vty v))).
  assert (Hty : typed (o_keys ob) (r_data rc)). { destruct (v_recs _ _ Hv _ Hr) as (l & Hl' & Ht). rewrite Hl in Hl'. by injection Hl' as <-. }
  assert (Hold : val_of (live w) k r = Some old).
  { subst old. change (r_data rc) with ((r_data rc, r_deps rc).1). by apply (val_of_typed (live w) (o_keys ob) k (vty v, d0)). }
  set (ob' := ob_idx (<[k := idx_set old v r ix]> (o_idx ob)) ob).
  assert (Eob : set_obj_data (r_data rc) r k v ob = ob').
  { unfold set_obj_data. rewrite Hk, Hix. rewrite decide_True by done. by rewrite Hm. }
  assert (Hlk : forall x, w_objs (data_set r k v o rc w) !! x = (if decide (x ∈ {[o]} ∪ r_deps rc) then set_obj_data (r_data rc) r k v else id) <$> w_objs w !! x).
  { intros x. cbn. rewrite lookup_upd_on. destruct (w_objs w !! x); [|done]. cbn. by destruct (decide _). }
  assert (Ho' : w_objs (data_set r k v o rc w) !! o = Some ob').
  { rewrite Hlk, Ho. rewrite decide_True by set_solver. cbn. by rewrite Eob. }
  assert (Hlive : is_Some (live w !! r)) by (rewrite Hl; eauto).
  assert (Hsome : forall x, is_Some (live (data_set r k v o rc w) !! x) <-> is_Some (live w !! x)).
  { intros x. rewrite live_data_set by done. by rewrite fmap_is_Some. }
  split.
  - cbn. intros x Hx. apply lookup_insert_is_Some' in Hx as [<-|Hx]; [apply HI; eauto|by apply HI].
  - cbn. by eapply RInv_insert; [| | |apply HI].
  - change (w_next (data_set r k v o rc w)) with (w_next w).
    eapply (VInv_vault_change b (w_objs w) _ (live w) _ (w_next w) (w_next w) o ob ob'); try done.
    + destruct Hv as [H1 H2 H3 H4 H5]. split; [done|done| | |].
      * destruct H3. by split.
      * cbn. intros x Hx. destruct (H4 _ Hx) as (l & Hlx & Ht). rewrite live_data_set, Hlx by done. cbn. eexists. split; [done|].
        destruct (decide (x = r)) as [->|]; [|done]. cbn. intros k'. destruct (decide (k' = k)) as [->|].
        -- rewrite lookup_insert, Hk. done.
        -- rewrite lookup_insert_ne by done. apply Ht.
      * cbn. intros k' td Hk'. destruct (decide (k' = k)) as [->|Hkk].
        -- rewrite lookup_insert. eexists. split; [done|]. rewrite idx_set_multi. destruct (H5 _ _ Hk') as (ix' & Hix' & Hok & Hmu).
           assert (ix' = ix) as -> by congruence. split; [|done]. eapply (idx_ok_set (live w)); try done.
           intros x Hx. rewrite val_of_data_set by done. by rewrite decide_True.
        -- rewrite lookup_insert_ne by done. destruct (H5 _ _ Hk') as (ix' & Hix' & Hok & Hmu). exists ix'. split; [done|]. split; [|done].
           eapply idx_ok_frame; [|done]. intros x Hx. rewrite val_of_data_set by done. by rewrite decide_False.
    + intros x Hx. rewrite Hlk. destruct (w_objs w !! x) as [xb|] eqn:Ex; [|done]. cbn.
      destruct (decide (o_static_set xb = true ∧ o_parent xb = Some o)) as [[Hxs Hxp]|Hn].
      * pose proof (vi_set _ _ _ _ HV _ _ Ex Hxs) as Hsok. destruct (so_some _ _ _ _ _ _ Hsok _ Hxp) as (ob0 & Hob0 & _ & Hin & Hpar).
        assert (ob0 = ob) as -> by congruence.
        set (xb' := (if decide (x ∈ {[o]} ∪ r_deps rc) then set_obj_data (r_data rc) r k v else id) xb).
        assert (Hsh : xb' = ob_idx (o_idx xb') xb). { subst xb'. destruct (decide _); [apply set_obj_data_shape|by destruct xb]. }
        assert (Hel : forall k' ix' e, o_idx xb' !! k' = Some ix' -> e ∈ ix_hash ix' \/ e ∈ ix_tree ix' ->
           e.2 = r \/ exists ix0, o_idx xb !! k' = Some ix0 /\ (e ∈ ix_hash ix0 \/ e ∈ ix_tree ix0)).
        { subst xb'. intros k' ix' e. destruct (decide _); [apply set_obj_data_elem|by eauto]. }
        assert (Hrb : r < w_next w) by (apply HI; eauto).
        assert (Hrx : o_recs xb' = o_recs xb) by by rewrite Hsh.
        rewrite Hrx. replace (o_static_set xb') with (o_static_set xb) by by rewrite Hsh. replace (o_isset xb') with (o_isset xb) by by rewrite Hsh.
        replace (o_sets xb') with (o_sets xb) by by rewrite Hsh. replace (o_parent xb') with (o_parent xb) by by rewrite Hsh.
        split; [done|]. split; [apply Hsok|]. split; [apply Hsok|]. split; [done|]. split; [|split].
        -- intros k' ix' e Hix' He. destruct (Hel _ _ _ Hix' He) as [->|(ix0 & Hix0 & He0)]; [done|]. by eapply (so_bidx _ _ _ _ _ _ Hsok).
        -- apply Hsok.
        -- split.
           ++ intros k' ix' e Hix' He Hle. destruct (Hel _ _ _ Hix' He) as [->|(ix0 & Hix0 & He0)]; [done|].
              eapply (sp_idx _ _ _ _ _ Hpar); [done|done|]. by apply Hsome.
           ++ rewrite Hrx. intros y Hy Hly. eapply (sp_recs _ _ _ _ _ Hpar); [done|]. by apply Hsome.
           ++ intros Hb. pose proof (sp_strict _ _ _ _ _ Hpar Hb) as [S1 S2 S3 S4 S5 S6 S7 S8].
              assert (Hin2 : r ∈ o_recs xb <-> x ∈ {[o]} ∪ r_deps rc).
              { split; [intros Hrx2; apply (S7 _ _ Hrx2) in Hl; set_solver|]. intros [?%elem_of_singleton|Hxd]%elem_of_union; [done|].
                destruct (Hdb Hb _ Hxd) as (db & Hdb1 & _ & Hdr & _). congruence. }
              split.
              ** replace (o_keys xb') with (o_keys xb) by by rewrite Hsh. done.
              ** replace (o_keys xb') with (o_keys xb) by by rewrite Hsh. done.
              ** replace (o_keys xb') with (o_keys xb) by by rewrite Hsh. replace (o_tmpl xb') with (o_tmpl xb) by by rewrite Hsh. done.
              ** replace (o_order xb') with (o_order xb) by by rewrite Hsh. done.
              ** replace (o_uniq xb') with (o_uniq xb) by by rewrite Hsh. done.
              ** rewrite Hrx. done.
              ** rewrite Hrx. intros y ly Hy Hly. rewrite live_data_set in Hly by done. destruct (live w !! y) as [ly0|] eqn:Ely; [|done]. cbn in Hly.
                 injection Hly as <-. pose proof (S7 _ _ Hy Ely). by destruct (decide (y = r)).
              ** replace (o_keys xb') with (o_keys xb) by by rewrite Hsh. replace (o_uniq xb') with (o_uniq xb) by by rewrite Hsh. rewrite Hrx.
                 intros k' td Hk'. destruct (S8 _ _ Hk') as (ixs & Hixs & Hoks).
                 destruct (decide (x ∈ {[o]} ∪ r_deps rc)) as [Hxd|Hxd].
                 --- apply Hin2 in Hxd as Hrx2. assert (Hks : exists dk, o_keys xb !! k = Some (vty v, dk)).
                     { pose proof (f_equal (fun m => m !! k) S1) as E. cbn in E. rewrite !lookup_fmap, Hk in E. cbn in E.
                       destruct (o_keys xb !! k) as [[tx dx]|]; [|done]. cbn in E. injection E as ->. eauto. }
                     destruct Hks as (dk & Hks). destruct (S8 _ _ Hks) as (ixk & Hixk & Hokk).
                     assert (Hmk : ix_multi ixk = true). { destruct (ix_multi ixk) eqn:E; [done|]. destruct Hokk as (_ & G & _). rewrite S5 in G. by destruct (Hu (G E)). }
                     assert (Exb : o_idx xb' = <[k := idx_set old v r ixk]> (o_idx xb)).
                     { subst xb'. unfold set_obj_data. rewrite Hks, Hixk. rewrite decide_True by done. by rewrite Hmk. }
                     rewrite Exb. destruct (decide (k' = k)) as [->|Hkk].
                     +++ rewrite lookup_insert. eexists. split; [done|]. eapply (idx_ok_set (live w)); try done; [by rewrite S5|].
                         intros y Hy. rewrite val_of_data_set by done. by rewrite decide_True.
                     +++ rewrite lookup_insert_ne by done. exists ixs. split; [done|]. eapply idx_ok_frame; [|done]. intros y Hy.
                         rewrite val_of_data_set by done. by rewrite decide_False.
                 --- exists ixs. split; [done|]. eapply idx_ok_frame; [|done]. intros y Hy. rewrite val_of_data_set by done.
                     destruct (decide (k' = k)) as [->|]; [|done]. unfold upd. rewrite decide_False; [done|]. intros ->. by apply Hxd, Hin2.
      * destruct (decide (x ∈ {[o]} ∪ r_deps rc)) as [Hxd|]; [|done]. apply elem_of_union in Hxd as [?%elem_of_singleton|Hxd]; [done|].
        destruct (Hd _ _ Hxd Ex) as (D1 & D2 & [D3|[D3 D4]]); [by destruct Hn|].
        destruct (so_none _ _ _ _ _ _ (vi_set _ _ _ _ HV _ _ Ex D1) D3) as (_ & _ & E & _). unfold set_obj_data. rewrite E, lookup_empty. done.
    + intros x Hx _. rewrite live_data_set by done. destruct (live w !! x); [|done]. cbn. by rewrite decide_False by congruence.
    + intros x Hx. by eapply Inv_live_bound.
    + cbn. intros x lx s Hx Hlx Hs. rewrite live_data_set in Hlx by done. destruct (live w !! x) as [l0|] eqn:Elx; [|done].
      assert (Hs0 : s ∈ l0.2). { cbn in Hlx. injection Hlx as <-. by destruct (decide (x = r)). }
      destruct (vi_deps _ _ _ _ HV _ _ _ Elx Hs0) as [D1 D2]. split.
      * intros sb Hsb. destruct (D1 _ Hsb) as [D3 D4]. split; [done|]. intros p Hp. destruct (D4 _ Hp) as (pb & Hpb & Hpst & Hin). by eapply (vi_disj _ _ _ _ HV).
      * intros Hb. destruct (D2 Hb) as (sb & Hsb & Hin). rewrite lookup_upd_on, Hsb. cbn. eexists. split; [done|].
        destruct (decide (s ∈ {[o]} ∪ r_deps rc)); [rewrite set_obj_data_shape|]; exact Hin.
  - eapply vlt_ok_frame; [apply HI|]. intros f rf x y yb' Hrf Hx Hyb' Hyst Hlx. apply Hsome in Hlx.
    split; [done|]. rewrite Hlk in Hyb'. destruct (w_objs w !! y) as [yb|] eqn:Ey; [|done]. cbn in Hyb'. injection Hyb' as <-.
    exists yb. split; [done|]. destruct (decide _); [|done]. rewrite set_obj_data_shape in Hyst. rewrite set_obj_data_shape. done.
Qed.

(** What SetData through a vault answers. *)
Definition set_data_answer (ob : obj) (k : string) (v : value) : opres :=
  match o_keys ob !! k with
  | None => bad WrongKey k (Some (vty v)) None
  | Some (t, _) => if decide (t = vty v) then
                     if decide (k ∈ o_uniq ob) then bad UniqueKeyValueAlredyInSet k (Some (vty v)) (Some t)
                     else okres Success k (Some (vty v)) (Some t)
                   else bad WrongType k (Some (vty v)) (Some t)
  end.

Lemma unfold_set_data n ord w o r k v :
  set_data_to_record (S n) ord w o r k v =
     (ob ← w_objs w !! o;
      rc ← w_recs w !! r;
      let rq := Some (vty v) in
      if negb (r_valid rc) then Some (w, bad DataRecordNotValid k rq None)
      else match o_keys ob !! k with
      | None => Some (w, bad WrongKey k rq None)
      | Some (t, _) =>
          if decide (t = vty v) then
            ix ← o_idx ob !! k;
            let old := get_typed (r_data rc) k t (vzero t) in
            if negb (ix_multi ix) && has_value old (ix_hash ix)
            then Some (w, bad UniqueKeyValueAlredyInSet k rq (Some t))
            else
              let w1 := set_obj o (ob_idx (<[k := idx_set old v r ix]> (o_idx ob)) ob) w in
              if o_isset ob then Some (w1, okres Success k rq (Some t))
              else
                w2 ← foldM (fun w d => '(w', _) ← set_data_to_record n ord w d r k v; Some w')
                     w1 (ord (elements (r_deps rc)));
                rc2 ← w_recs w2 !! r;
                Some (set_rec r (rd_data (<[k := v]> (r_data rc2)) rc2) w2, okres Success k rq (Some t))
          else Some (w, bad WrongType k rq (Some t))
      end).
Proof. reflexivity. Qed.

Lemma set_data_ok b n ord w o ob r rc k v :
  fair ord -> Inv b w -> w_objs w !! o = Some ob -> o_static_set ob = false -> w_recs w !! r = Some rc -> r ∈ o_recs ob ->
  Def b (set_data_to_record (S (S n)) ord w o r k v) ->
  exists w', set_data_to_record (S (S n)) ord w o r k v = Some (w', set_data_answer ob k v) /\ Inv b w' /\
    w' = if res_ok (set_data_answer ob k v) then data_set r k v o rc w else w.
Proof.
  intros Hf HI Ho Hst Hrc Hr HD.
  destruct (deps_facts _ _ _ _ _ _ HI Ho Hst Hr Hrc) as (Hval & Hl & Hod & Hd & Hdb).
  pose proof (vi_vault _ _ _ _ (inv_obj _ _ HI) _ _ Ho Hst) as Hv.
  unfold set_data_answer. destruct (o_keys ob !! k) as [[t d0]|] eqn:Ek.
  2:{ rewrite unfold_set_data, Ho, Hrc. cbn [mbind option_bind]. rewrite Hval, Ek. eauto. }
  destruct (decide (t = vty v)) as [->|Ht].
  2:{ rewrite unfold_set_data, Ho, Hrc. cbn [mbind option_bind]. rewrite Hval, Ek. cbn [negb]. rewrite decide_False by done. eauto. }
  destruct (v_idx _ _ Hv _ _ Ek) as (ix & Hix & Hok & Hmu).
  assert (Hty : typed (o_keys ob) (r_data rc)). { destruct (v_recs _ _ Hv _ Hr) as (l & Hl' & Ht). rewrite Hl in Hl'. by injection Hl' as <-. }
  assert (Hold : val_of (live w) k r = Some (get_typed (r_data rc) k (vty v) (vzero (vty v)))).
  { change (r_data rc) with ((r_data rc, r_deps rc).1). by apply (val_of_typed (live w) (o_keys ob) k (vty v, d0)). }
  destruct (decide (k ∈ o_uniq ob)) as [Hu|Hu].
  - rewrite unfold_set_data, Ho, Hrc. cbn [mbind option_bind]. rewrite Hval, Ek. cbn [negb]. rewrite decide_True by done. rewrite Hix.
    cbn [mbind option_bind]. rewrite (Hmu Hu). destruct Hok as (_ & _ & Hc). destruct (Hc Hu) as [Hc1 _].
    assert (has_value (get_typed (r_data rc) k (vty v) (vzero (vty v))) (ix_hash ix) = true) as ->.
    { apply has_value_spec. exists r. destruct (Hc1 r Hr) as (v1 & H1 & H2). rewrite Hold in H1. by injection H1 as <-. }
    cbn. eauto.
  - assert (Hm : ix_multi ix = true). { destruct (ix_multi ix) eqn:E; [done|]. destruct Hu. by apply (vault_multi _ _ _ _ _ Hv Ek Hix). }
    assert (E : set_data_to_record (S (S n)) ord w o r k v = Some (data_set r k v o rc w, okres Success k (Some (vty v)) (Some (vty v)))).
    { eapply set_data_vault; try done; [apply Hv|by rewrite Hm|]. destruct b.
      - intros x Hx. destruct (Hdb eq_refl _ Hx) as (db & H1 & H2 & H3 & H4). exists db. split; [done|]. split; [done|].
        intros td Htd _. destruct (Hd _ _ Hx H1) as (H5 & _).
        destruct (so_some _ _ _ _ _ _ (vi_set _ _ _ _ (inv_obj _ _ HI) _ _ H1 H5) _ H4) as (pb & Hpb & _ & _ & Hpar).
        destruct (st_idx _ _ _ _ (sp_strict _ _ _ _ _ Hpar eq_refl) _ _ Htd) as (ixs & Hixs & _). eauto.
      - destruct (HD eq_refl) as [[w' res] Hw']. eapply (set_data_vault_some _ _ _ _ _ _ _ w' res ob rc); try done; [apply Hv|by rewrite Hm|].
        intros x db Hx Hxb. by apply (Hd x). }
    eexists. split; [exact E|]. split; [|done]. by eapply data_set_inv.
Qed.

(** SetData through a reference. [ref_fit]: the reference is bound to a vault, not to a set (behaviour B19);
    in the strict class that vault still exists. *)

Lemma ref_set_data_ok b ord w f rf k v :
  fair ord -> Inv b w -> w_refs w !! f = Some rf -> ref_fit b w rf -> Def b (ref_set_data ord w f k v) ->
  exists w' res, ref_set_data ord w f k v = Some (w', res) /\ Inv b w' /\
    ((w' = w /\ res_ok res = false /\
       (match f_rec rf with Some r => live w !! r = None | None => True end -> res = bad DataRecordNotValid k (Some (vty v)) None) /\
       (forall r o ob, f_rec rf = Some r -> is_Some (live w !! r) -> f_vlt rf = Some o -> w_objs w !! o = Some ob -> res = set_data_answer ob k v)) \/
     exists r o ob rc, f_rec rf = Some r /\ f_vlt rf = Some o /\ w_objs w !! o = Some ob /\ o_static_set ob = false /\ r ∈ o_recs ob /\
       w_recs w !! r = Some rc /\ res = set_data_answer ob k v /\ res_ok res = true /\ w' = data_set r k v o rc w).
Proof.
  intros Hf HI Hrf Hfit HD. unfold ref_set_data in *. rewrite Hrf in *. cbn [mbind option_bind] in *.
  destruct (f_rec rf) as [r|] eqn:Er; [|eexists _, _; split; [done|]; split; [done|]; left; by naive_solver].
  destruct (inv_vlt _ _ HI _ _ _ Hrf Er) as (o & Hvo & Hown). rewrite Hvo in *. cbn [mbind option_bind] in *.
  destruct (Hfit _ _ Er Hvo) as [F1 F2].
  assert (is_Some (w_objs w !! o)) as [ob Ho].
  { destruct b; [auto|]. destruct (HD eq_refl) as [z Hz]. destruct (w_objs w !! o); [eauto|done]. }
  rewrite Ho in *. cbn [mbind option_bind] in *.
  destruct (ri_refs _ _ _ (inv_ref _ _ HI) _ _ _ Hrf Er) as [rc Hrc]. rewrite Hrc in *. cbn [mbind option_bind] in *.
  destruct (r_valid rc) eqn:Ev.
  - assert (Hl : is_Some (live w !! r)). { unfold live. rewrite lookup_live_of, Hrc. cbn. unfold live_rec. rewrite Ev. eauto. }
    assert (Hin : r ∈ o_recs ob) by auto.
    destruct (set_data_ok b (size (w_objs w)) ord w o ob r rc k v) as (w' & E & HI' & Ew); auto.
    change (dfuel w) with (S (S (size (w_objs w)))). eexists _, _. split; [exact E|]. split; [done|].
    destruct (res_ok (set_data_answer ob k v)) eqn:Ea.
    + right. exists r, o, ob, rc. repeat (split; [done || auto|]). done.
    + left. split; [done|]. split; [done|]. split; [intros Hn; by rewrite Hn in Hl; destruct Hl|]. intros r1 o1 ob1. intros [= <-] _ [= <-] Ho1. congruence.
  - eexists _, _. split; [done|]. split; [done|]. left. split; [done|]. split; [done|]. split; [done|].
    intros r1 o1 ob1 [= <-] Hl. exfalso. unfold live in Hl. rewrite lookup_live_of, Hrc in Hl. cbn in Hl. unfold live_rec in Hl. rewrite Ev in Hl. by destruct Hl.
Qed.

(** Writes never change which objects exist or the bindings of references. *)
Lemma data_set_obj r k v o rc w x ob : w_objs w !! x = Some ob ->
  exists ob', w_objs (data_set r k v o rc w) !! x = Some ob' /\ ob' = ob_idx (o_idx ob') ob.
Proof.
  intros H. cbn. rewrite lookup_upd_on, H. cbn. eexists. split; [done|]. destruct (decide _); [apply set_obj_data_shape|by destruct ob].
Qed.
Lemma data_set_obj_back r k v o rc w x ob' : w_objs (data_set r k v o rc w) !! x = Some ob' ->
  exists ob, w_objs w !! x = Some ob /\ ob' = ob_idx (o_idx ob') ob.
Proof.
  cbn. rewrite lookup_upd_on. destruct (w_objs w !! x) as [ob|]; [|done]. cbn. intros [= <-]. exists ob. split; [done|].
  destruct (decide _); [apply set_obj_data_shape|by destruct ob].
Qed.

Lemma ref_fit_data_set b r k v o rc w rf : ref_fit b w rf -> ref_fit b (data_set r k v o rc w) rf.
Proof.
  intros H r' o' Hr Ho. destruct (H _ _ Hr Ho) as [H1 H2]. split.
  - intros ob' Hob'. destruct (data_set_obj_back _ _ _ _ _ _ _ _ Hob') as (ob & Hob & E). rewrite E. cbn. by apply H1.
  - intros Hb. destruct (H2 Hb) as [ob Hob]. destruct (data_set_obj r k v o rc w _ _ Hob) as (ob' & Hob' & _). eauto.
Qed.

Lemma ref_set_many_loop_ok b ord f ps : forall w rf res,
  fair ord -> Inv b w -> w_refs w !! f = Some rf -> ref_fit b w rf -> Def b (ref_set_many_loop ord w f ps res) ->
  exists w' res', ref_set_many_loop ord w f ps res = Some (w', res') /\ Inv b w'.
Proof.
  induction ps as [|[k v] ps IH]; intros w rf res Hf HI Hrf Hfit HD; [by eauto 10|].
  cbn [ref_set_many_loop] in *.
  destruct (ref_set_data_ok b ord w f rf k v) as (w' & res' & E & HI' & Hc); try done. { by eapply Def_bind. }
  rewrite E in *. cbn [mbind option_bind] in *. destruct (res_ok res') eqn:Eo; [|by eauto 10].
  eapply (IH w' rf); try done.
  - destruct Hc as [[-> _]|(r & o & ob & rc & _ & _ & _ & _ & _ & _ & _ & _ & ->)]; done.
  - destruct Hc as [[-> _]|(r & o & ob & rc & _ & _ & _ & _ & _ & _ & _ & _ & ->)]; [done|]. by apply ref_fit_data_set.
Qed.

Lemma ref_set_many_ok b ord w f rf ps :
  fair ord -> Inv b w -> w_refs w !! f = Some rf -> ref_fit b w rf -> (b = true -> exists o, f_vlt rf = Some o /\ is_Some (w_objs w !! o)) ->
  Def b (ref_set_many ord w f ps) ->
  exists w' res', ref_set_many ord w f ps = Some (w', res') /\ Inv b w'.
Proof.
  intros Hf HI Hrf Hfit Hb HD. unfold ref_set_many in *. rewrite Hrf in *. cbn [mbind option_bind] in *.
  assert (exists o, f_vlt rf = Some o /\ is_Some (w_objs w !! o)) as (o & Eo & ob & Ho).
  { destruct b; [auto|]. destruct (HD eq_refl) as [z Hz]. destruct (f_vlt rf) as [o|]; [|done]. cbn in Hz.
    destruct (w_objs w !! o) eqn:E; [|done]. exists o. rewrite E. eauto. }
  rewrite Eo in *. cbn [mbind option_bind] in *. rewrite Ho in *. cbn [mbind option_bind] in *. by eapply ref_set_many_loop_ok.
Qed.
