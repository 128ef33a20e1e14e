(** Every allowed operation is defined (safe class) and keeps the invariant. *)
From Verif Require Export InvMove.
Open Scope nat_scope.

(** The vocabulary of Spec.v in terms of the map of valid records the invariant speaks about. *)
Lemma live_Some w r l : live w !! r = Some l <-> exists rc, w_recs w !! r = Some rc /\ r_valid rc = true /\ l = (r_data rc, r_deps rc).
Proof.
  unfold live. rewrite lookup_live_of. destruct (w_recs w !! r) as [rc|]; cbn.
  - unfold live_rec. destruct (r_valid rc) eqn:E; split.
    + intros [= <-]. eauto.
    + intros (rc' & [= <-] & _ & ->). done.
    + done.
    + intros (rc' & [= <-] & H & _). congruence.
  - split; [done|]. intros (rc & ? & _). done.
Qed.
Lemma stored_val_of w r k : stored w r k = val_of (live w) k r.
Proof.
  unfold stored, val_of, live. rewrite lookup_live_of. destruct (w_recs w !! r) as [rc|]; cbn; [|done].
  unfold live_rec. by destruct (r_valid rc).
Qed.
Lemma valid_rec_live w r : valid_rec w r <-> is_Some (live w !! r).
Proof.
  split.
  - intros (rc & H & Hv). eexists. apply live_Some. eauto.
  - intros [l Hl]. apply live_Some in Hl as (rc & H & Hv & _). exists rc. done.
Qed.
Lemma dependent_live w r s : dependent w r s <-> exists l, live w !! r = Some l /\ s ∈ l.2.
Proof.
  split.
  - intros (rc & H & Hv & Hs). eexists. split; [apply live_Some; eauto|done].
  - intros (l & Hl & Hs). apply live_Some in Hl as (rc & H & Hv & ->). exists rc. done.
Qed.
Lemma dependent_none w s : (forall r, ~ dependent w r s) -> forall r l, live w !! r = Some l -> s ∉ l.2.
Proof. intros H r l Hl Hs. apply (H r), dependent_live. eauto. Qed.
Lemma unmentioned_unused w o : w_objs w !! o = None -> unmentioned w o -> unused w o.
Proof.
  intros Ho [H1 H2]. split; [done|]. split; [by apply dependent_none|]. intros f rf r Hf Hr Ho'.
  apply eq_None_not_Some. intros Hl. apply (H2 f r); [by exists rf|by exists rf|by apply valid_rec_live].
Qed.
Lemma unshared_lonely w o : unshared w o -> lonely w o.
Proof.
  intros [H1 H2]. split; [intros s sb Hs Hst; by eapply H1|]. intros f rf r Hf Hr Ho. apply eq_None_not_Some. intros Hl. apply (H2 f r); [by exists rf|by exists rf|by apply valid_rec_live].
Qed.
Lemma leftovers_target w s sb pb : w_objs w !! s = Some sb -> leftovers_in w s pb ->
  (o_parent sb = None -> o_recs sb = ∅) -> (forall p, o_parent sb = Some p -> is_Some (w_objs w !! p)) ->
  target_ok (reset_result s sb w) s pb.
Proof.
  intros Hs HL Hn Hp r l Hl Hin. unfold reset_result in Hl. destruct (o_parent sb) as [p|].
  - destruct (Hp p eq_refl) as [qb Hqb]. rewrite Hqb in Hl. rewrite live_reset in Hl. destruct (live w !! r) as [l0|] eqn:E; [|done]. cbn in Hl.
    injection Hl as <-. destruct (decide (r ∈ o_recs sb)) as [Hr|Hr]; [cbn in Hin; set_solver|]. eapply HL; [done| |done]. apply dependent_live. eauto.
  - eapply HL; [done|apply dependent_live; eauto|]. rewrite Hn by done. apply not_elem_of_empty.
Qed.
Lemma leftovers_target_inv b w s sb pb : Inv b w -> w_objs w !! s = Some sb -> o_static_set sb = true -> leftovers_in w s pb -> target_ok (reset_result s sb w) s pb.
Proof.
  intros HI Hs Hst HL. apply (leftovers_target w s sb pb Hs HL).
  - intros Hn. by apply (so_none _ _ _ _ _ _ (vi_set _ _ _ _ (inv_obj _ _ HI) _ _ Hs Hst)) in Hn as (_ & _ & _ & _ & _ & ?).
  - intros p Hp. apply (so_some _ _ _ _ _ _ (vi_set _ _ _ _ (inv_obj _ _ HI) _ _ Hs Hst)) in Hp as (qb & Hqb & _). eauto.
Qed.

Lemma is_vault_true w o : is_vault w o = true -> exists ob, w_objs w !! o = Some ob /\ o_static_set ob = false.
Proof. unfold is_vault. destruct (w_objs w !! o) as [ob|]; [|done]. intros H. exists ob. split; [done|]. by destruct (o_static_set ob). Qed.
Lemma is_set_true w o : is_set w o = true -> exists ob, w_objs w !! o = Some ob /\ o_static_set ob = true.
Proof. unfold is_set. destruct (w_objs w !! o) as [ob|]; [|done]. eauto. Qed.
Lemma is_obj_true w o : is_obj w o = true -> exists ob, w_objs w !! o = Some ob.
Proof. unfold is_obj. intros H. by apply bool_decide_eq_true in H as [ob H]; eauto. Qed.
Lemma is_obj_false w o : negb (is_obj w o) = true -> w_objs w !! o = None.
Proof. unfold is_obj. intros H. apply negb_true_iff, bool_decide_eq_false in H. by apply eq_None_not_Some. Qed.
Lemma is_ref_true w f : is_ref w f = true -> exists rf, w_refs w !! f = Some rf.
Proof. unfold is_ref. intros H. by apply bool_decide_eq_true in H as [ob H]; eauto. Qed.
Lemma is_ref_false w f : negb (is_ref w f) = true -> w_refs w !! f = None.
Proof. unfold is_ref. intros H. apply negb_true_iff, bool_decide_eq_false in H. by apply eq_None_not_Some. Qed.

(** Outcome of a step: defined, and the invariant holds. *)
Definition step_good (b : bool) (m : option (world * out)) : Prop := exists w' out, m = Some (w', out) /\ Inv b w'.
Lemma good_guard b c w m : Inv b w -> (c = true -> step_good b m) -> step_good b (guard_op c w m).
Proof. intros HI H. unfold guard_op. destruct c; [auto|]. by exists w, OSkip. Qed.
Lemma good_res b (m : option (world * opres)) : (exists w' r, m = Some (w', r) /\ Inv b w') -> step_good b (res_out m).
Proof. intros (w' & r & -> & H). by exists w', (ORes r). Qed.
Lemma good_bool b (m : option (world * bool)) : (exists w' r, m = Some (w', r) /\ Inv b w') -> step_good b (bool_out m).
Proof. intros (w' & r & -> & H). by exists w', (OBool r). Qed.
Lemma good_unit b (m : option world) : (exists w', m = Some w' /\ Inv b w') -> step_good b (unit_out m).
Proof. intros (w' & -> & H). by exists w', OUnit. Qed.
Lemma def_guard b (c : bool) w m : c = true -> Def b (guard_op c w m) -> Def b m.
Proof. intros -> H. exact H. Qed.
Lemma def_res b m : Def b (res_out m) -> Def b m.
Proof. intros H E. destruct (H E) as [x Hx]. destruct m as [[]|]; [eauto|done]. Qed.
Lemma def_bool b m : Def b (bool_out m) -> Def b m.
Proof. intros H E. destruct (H E) as [x Hx]. destruct m as [[]|]; [eauto|done]. Qed.
Lemma def_unit b m : Def b (unit_out m) -> Def b m.
Proof. intros H E. destruct (H E) as [x Hx]. destruct m as [|]; [eauto|done]. Qed.

Ltac guards :=
  repeat match goal with
  | H : _ && _ = true |- _ => apply andb_true_iff in H as [? ?]
  | H : is_vault _ _ = true |- _ => apply is_vault_true in H as (? & ? & ?)
  | H : is_set _ _ = true |- _ => apply is_set_true in H as (? & ? & ?)
  | H : is_obj _ _ = true |- _ => apply is_obj_true in H as (? & ?)
  | H : is_ref _ _ = true |- _ => apply is_ref_true in H as (? & ?)
  | H : negb (is_obj _ _) = true |- _ => apply is_obj_false in H
  | H : negb (is_ref _ _) = true |- _ => apply is_ref_false in H
  end.

Ltac nobj o x H := match goal with H0 : w_objs _ !! o = Some ?y |- _ => rename y into x; rename H0 into H end.
Ltac nref f x H := match goal with H0 : w_refs _ !! f = Some ?y |- _ => rename y into x; rename H0 into H end.

Lemma step_ok b ord w p : fair ord -> Inv b w -> allowed b w p -> Def b (step ord w p) -> step_good b (step ord w p).
Proof.
  intros Hf HI HA HD. destruct p; cbn [step allowed] in *.
  all: apply good_guard; [done|]; intros Hg; apply (def_guard _ _ _ _ Hg) in HD; guards.
  - (* ONewVault *) eexists _, _. split; [done|]. apply new_vault_inv; [done|]. apply unmentioned_unused; auto.
  - (* ODelVault *) apply good_unit. apply def_unit in HD. destruct (drop_vault_ok b ord w o x) as (w' & E & HI' & Hd); try done. { by eapply Def_bind. }
    rewrite E. cbn [mbind option_bind]. eexists. split; [done|]. pose proof (dr_o _ _ _ Hd _ H) as Ho. eapply del_vault_inv; [done|exact Ho|done|done|done].
  - (* ONewSet *) eexists _, _. split; [done|]. apply new_set_inv; [done|done|]. destruct b; [|by apply dependent_none, HA].
    intros r l Hl Hin. apply (vi_deps _ _ _ _ (inv_obj _ _ HI) r l s Hl) in Hin as [_ Hin]. destruct (Hin eq_refl) as (sb & Hsb & _). congruence.
  - (* ODelSet *) apply good_unit. apply def_unit in HD. destruct (del_set_ok b ord w s x) as (E & HI'); try done. eauto.
  - (* ONewRef *) eexists _, _. split; [done|]. by apply new_ref_spec.
  - (* ODelRef *) apply good_unit. destruct (reset_ref_spec w f x) as (w' & E & Hro & Hr); [apply HI|done|]. rewrite E. cbn [mbind option_bind].
    eexists. split; [done|]. eapply (del_ref_inv b w' f (Ref None None)); [|by rewrite Hr, lookup_insert|done].
    eapply (Inv_ref_only b w); [done|done|]. rewrite Hr. apply vlt_ok_insert; [apply HI|done].
  - (* OAddKey *) apply good_res. apply def_res in HD. destruct (o_keys x !! k) as [[t d0]|] eqn:Ek.
    + unfold add_key, add_key_local. rewrite H. cbn [mbind option_bind]. rewrite Ek. cbn. eauto.
    + destruct (add_key_plain_ok b ord w o x k d) as (w' & E & HI' & _); try done. eauto.
  - (* OAddUniqueKey *) apply good_res. apply def_res in HD. destruct (o_keys x !! k) as [[t' d0]|] eqn:Ek.
    + unfold add_key, add_key_local. rewrite H. cbn [mbind option_bind]. rewrite Ek. cbn. eauto.
    + destruct (add_key_uniq_ok b ord w o x k (vzero t) (fun _ _ _ => vzero t) true) as (w' & res & E & HI' & _); try done; [by auto|]. eauto.
  - (* OAddUniqueKeyFn *) apply good_res. apply def_res in HD. destruct (o_keys x !! k) as [[t' d0]|] eqn:Ek.
    + unfold add_key, add_key_local. rewrite H. cbn [mbind option_bind]. rewrite Ek. cbn. eauto.
    + destruct (add_key_uniq_ok b ord w o x k (vzero t) g false) as (w' & res & E & HI' & _); try done; [by intros; right; eauto|]. eauto.
  - (* OUpdateKey *) apply good_res. destruct (update_key_ok b w o x k d) as (w' & E & HI' & _); try done. eauto.
  - (* ORemoveKey *) apply good_bool. destruct (remove_key_ok b ord w o x k) as (w' & E & HI' & _); try done. eauto.
  - (* OCreateRecord *) apply good_res. destruct (create_record_ok b w o x f ps) as (w' & res & E & HI' & _); try done; [|eauto].
    intros f0 ->. match goal with H : is_ref _ _ = true |- _ => apply is_ref_true in H as (rf & Hrf) end. eauto.
  - (* OReadRows *) apply good_unit. apply def_unit in HD. destruct (read_rows_ok b w o x load keys user rows) as (w' & E & HI'); try done; [|eauto].
    destruct b; [right; by apply HA|left; by apply HD].
  - (* OEraseRef *) nobj o ob Hob. nref f rf Hrf. apply good_bool. apply def_bool in HD. unfold erase_ref in *. rewrite Hob, Hrf in *. cbn [mbind option_bind] in *.
    destruct (o_static_set ob) eqn:Hst.
    + cbn [andb] in *. destruct (o_parent ob) as [p|] eqn:Ep; cbn in *; [|eauto]. destruct (f_rec rf) as [r|]; [|eauto].
      destruct b; [specialize (HA eq_refl _ eq_refl Hst); congruence|]. destruct (HD eq_refl) as [[w' bb] E]. rewrite E.
      destruct (remove_record_set_ok ord w o ob p r w' bb) as (HI' & _); try done. eauto.
    + cbn [andb] in *. destruct (f_rec rf) as [r|]; [|eauto]. destruct (remove_record_ok b ord w o ob r) as (w' & E & HI' & _); try done. eauto.
  - (* OEraseRecord *) nobj o ob Hob. apply good_res. apply def_res in HD. unfold set_parent_guard in *. rewrite Hob in *. cbn [mbind option_bind] in *.
    destruct (o_static_set ob) eqn:Hst.
    + cbn [andb] in *. destruct (o_parent ob) as [p|] eqn:Ep; cbn [bool_decide option_eq_None_dec decide_rel] in *; [|eauto].
      destruct b; [specialize (HA eq_refl _ eq_refl Hst); congruence|].
      destruct (HD eq_refl) as [[w' bb] E]. rewrite E. destruct (erase_record_set_ok ord w o ob p k v w' bb) as (HI' & _); try done. eauto.
    + cbn [andb] in *. destruct (erase_record_ok b ord w o ob k v) as (w' & res & E & HI' & _); try done. eauto.
  - (* OEraseRecords *) nobj o ob Hob. apply good_res. apply def_res in HD. unfold set_parent_guard in *. rewrite Hob in *. cbn [mbind option_bind] in *.
    destruct (o_static_set ob) eqn:Hst.
    + cbn [andb] in *. destruct (o_parent ob) as [p|] eqn:Ep; cbn [bool_decide option_eq_None_dec decide_rel] in *; [|eauto].
      destruct b; [specialize (HA eq_refl _ eq_refl Hst); congruence|].
      destruct (HD eq_refl) as [[w' bb] E]. rewrite E. destruct (erase_records_set_ok ord w o ob p k v amt w' bb) as (HI' & _); try done. eauto.
    + cbn [andb] in *. destruct (erase_records_ok b ord w o ob k v amt) as (w' & res & E & HI' & _); try done. eauto.
  - (* OGetRecord *) nobj o ob Hob. nref f rf Hrf. apply good_res. apply def_res in HD. destruct (o_static_set ob) eqn:Hst.
    + destruct (get_record_set_ok b ord w o ob k v f rf) as (w' & res & E & HI' & _); try done; [|eauto]. intros p pb r Hp Hpb Hr Hl. eapply (HA ob p pb r); [done|done|done|by exists rf|by apply valid_rec_live].
    + destruct (get_record_vault_ok b ord w o ob k v f rf) as (w' & res & rf' & E & HI' & _); try done. eauto.
  - (* OGetRecords *) nobj o ob Hob. apply good_res. apply def_res in HD. rewrite Hob in *. cbn [mbind option_bind] in *.
    destruct (get_records_step_ok b ord w o ob k v amt fs) as (w' & res & E & HI' & _); try done. eauto.
  - (* OGetSorted *) apply good_unit. apply def_unit in HD. destruct (sorted_step_ok b w o x k rev amt fs) as (w' & E & HI' & _); try done. eauto.
  - (* OSetData *) apply good_res. apply def_res in HD. destruct (ref_set_data_ok b ord w f x k v) as (w' & res & E & HI' & _); try done; [by apply HA|]. eauto.
  - (* OSetMany *) apply good_res. apply def_res in HD. destruct (HA _ H) as [A1 A2]. destruct (ref_set_many_ok b ord w f x ps) as (w' & res & E & HI'); try done. eauto.
  - (* OCopyRef *) nref dst rd Hrd. nref src rs Hrs. apply good_unit. destruct (decide (dst = src)) as [->|Hne].
    + unfold copy_ref. rewrite decide_True by done. eauto.
    + destruct (copy_ref_spec w dst src rd rs) as (w' & E & Hro & Hr); [apply HI|done|done|done|]. eexists. split; [done|].
      eapply (Inv_ref_only b w); [done|done|]. rewrite Hr. apply vlt_ok_insert; [apply HI|]. destruct (f_rec rs) as [r|] eqn:Er; cbn; [|done].
      intros ? [= <-]. by eapply (inv_vlt _ _ HI).
  - (* OMoveRef *) nref dst rd Hrd. nref src rs Hrs. apply good_unit. destruct (decide (dst = src)) as [->|Hne].
    + unfold move_ref. rewrite decide_True by done. eauto.
    + destruct (move_ref_spec w dst src rd rs) as (w' & E & Hro & Hr); [apply HI|done|done|done|]. eexists. split; [done|].
      eapply (Inv_ref_only b w); [done|done|]. rewrite Hr. destruct (f_rec rs) as [r|] eqn:Er.
      * apply vlt_ok_insert; [|done]. apply vlt_ok_insert; [apply HI|]. cbn. intros ? [= <-]. by eapply (inv_vlt _ _ HI).
      * apply vlt_ok_insert; [apply HI|done].
  - (* OResetRef *) apply good_unit. destruct (reset_ref_spec w f x) as (w' & E & Hro & Hr); [apply HI|done|]. eexists. split; [done|].
    eapply (Inv_ref_only b w); [done|done|]. rewrite Hr. apply vlt_ok_insert; [apply HI|done].
  - (* ORequest *) nobj o ob Hob. nobj s sb Hsb. apply good_res. apply def_res in HD.
    destruct (request_ok b ord w o ob rt k b0 (vcast (vty b0) e) ib ie amt p s sb) as (w' & res & E & HI' & _); try done;
      [intros Hb pv Hpv sb0 pb Hsb0 Hpb Hne; replace sb0 with sb in * by congruence; eapply (leftovers_target_inv b); [done..|]; by eapply HA|by apply vty_vcast|]. eauto.
  - (* OComplex *) nobj o ob Hob. nobj s sb Hsb. apply good_res. apply def_res in HD. destruct HA as [A1 A2].
    destruct (complex_ok b ord w o ob q s sb) as (w' & res & E & HI' & _); try done;
      [intros Hb pv Hpv sb0 pb Hsb0 Hpb Hne; replace sb0 with sb in * by congruence; eapply (leftovers_target_inv b); [done..|]; by eapply A1|]. eauto.
  - (* ODropData *) apply good_unit. apply def_unit in HD. destruct (drop_data_ok b ord w o x) as (w' & E & HI' & _); try done. eauto.
  - (* ODropVault *) apply good_unit. apply def_unit in HD. destruct (drop_vault_ok b ord w o x) as (w' & E & HI' & _); try done. eauto.
  - (* OCopyVault *) apply good_unit. destruct HA as [A1 A2]. destruct (copy_construct_vault_ok b ord w dst src x) as (w' & E & _ & HI'); try done; [by apply unmentioned_unused; auto|]. eauto.
  - (* OAssignVault *) apply good_unit. apply def_unit in HD. destruct (decide (dst = src)) as [->|Hne].
    + unfold copy_assign_vault. rewrite decide_True by done. eauto.
    + destruct (copy_assign_vault_ok b ord w dst src x x0) as (w1 & w' & E & _ & _ & _ & _ & HI'); try done. eauto.
  - (* OMoveVault *) apply good_unit. destruct HA as [A1 A2]. destruct (move_construct_vault_ok b w dst src x) as (E & HI'); try done; [by apply unmentioned_unused; auto|by apply unshared_lonely|]. eauto.
  - (* OMoveAssignVault *) nobj dst db Hdb. nobj src sb Hsb. apply good_unit. apply def_unit in HD. destruct (decide (dst = src)) as [->|Hne].
    + unfold move_assign_vault. rewrite decide_True by done. eauto.
    + destruct (move_assign_vault_ok b ord w dst src db sb) as (w1 & _ & _ & _ & _ & E & HI'); try done; [by apply unshared_lonely; auto|]. eauto.
  - (* OSetAdd *) apply good_res. destruct (set_add_ok b w s x f x0) as (w' & res & E & HI' & _); try done. eauto.
  - (* OSetClear *) apply good_unit. apply def_unit in HD. destruct (set_clear_ok b ord w s x) as (E & HI'); try done. eauto.
  - (* OSetReset *) apply good_unit. apply def_unit in HD. destruct (set_reset_ok b ord w s x) as (E & HI'); try done. eauto.
  - (* OJoin *) nobj s sb Hsb. nobj a ab Hab. subst b. apply good_res. apply def_res in HD. destruct (HD eq_refl) as [[w' res] E]. rewrite E. destruct (join_ok ord w s a sb ab w' res) as (HI' & _); try done. eauto.
  - (* OExclude *) nobj s sb Hsb. nobj a ab Hab. subst b. apply good_res. apply def_res in HD. destruct (HD eq_refl) as [[w' res] E]. rewrite E. destruct (subtract_ok false ord w s a sb ab w' res) as (HI' & _); try done. eauto.
  - (* OIntersect *) nobj s sb Hsb. nobj a ab Hab. subst b. apply good_res. apply def_res in HD. destruct (HD eq_refl) as [[w' res] E]. rewrite E. destruct (subtract_ok true ord w s a sb ab w' res) as (HI' & _); try done. eauto.
  - (* OUnion *) nobj a ab Hab. nobj b0 bb Hbb. nobj res rb Hrb. destruct HA as [-> HA]. apply good_res. apply def_res in HD. destruct (HD eq_refl) as [[w' rs] E]. rewrite E.
    destruct (union_ok ord w a b0 res ab bb rb w' rs) as (HI' & _); try done; [intros p pb Hp Hpb; eapply (leftovers_target_inv false); [done..|]; by eapply HA|]. eauto.
  - (* OIntersection *) nobj a ab Hab. nobj b0 bb Hbb. nobj res rb Hrb. destruct HA as [-> HA]. apply good_res. apply def_res in HD. destruct (HD eq_refl) as [[w' rs] E]. rewrite E.
    destruct (intersection_ok ord w a b0 res ab bb rb w' rs) as (HI' & _); try done; [intros p pb Hp Hpb; eapply (leftovers_target_inv false); [done..|]; by eapply HA|]. eauto.
  - (* OCopySet *) nobj src x Hsb. apply good_unit. apply def_unit in HD. destruct HA as [A1 A2]. destruct (o_parent x) as [p|] eqn:Ep; [|by destruct (A2 _ Hsb)].
    destruct (copy_construct_set_ok b ord w dst src x p) as (w' & sb' & E & HI' & _); try done; [by intros Hb; apply dependent_none; auto|]. eauto.
  - (* OAssignSet *) nobj dst db Hdb. nobj src sb Hsb. apply good_unit. apply def_unit in HD. destruct (decide (dst = src)) as [->|Hne].
    + unfold copy_assign_set. rewrite decide_True by done. eauto.
    + destruct (copy_assign_set_ok b ord w dst src sb db) as (w' & sb' & E & HI' & _); try done; [intros Hb p pb Hp Hpb; eapply (leftovers_target_inv b); [done..|]; by eapply HA|]. eauto.
  - done.
  - done.
Qed.

Lemma Inv_empty b : Inv b empty_world.
Proof.
  split; cbn.
  - intros r [x Hx]. by rewrite lookup_empty in Hx.
  - split; cbn; intros.
    + by rewrite lookup_empty in H.
    + by apply elem_of_nil in H.
    + by rewrite lookup_empty in H.
    + by rewrite lookup_empty in H.
  - assert (live empty_world = ∅) as ->. { unfold live. cbn. apply omap_empty. }
    split; cbn; intros.
    + by rewrite lookup_empty in H.
    + by rewrite lookup_empty in H.
    + by rewrite lookup_empty in H.
    + by rewrite lookup_empty in H.
    + destruct H as [x Hx]. by rewrite lookup_empty in Hx.
    + by rewrite lookup_empty in H.
  - intros f rf r H. by rewrite lookup_empty in H.
Qed.

Theorem reach_inv b w : reach b w -> Inv b w.
Proof.
  induction 1 as [|ord w p w' out HR IH Hf HA E]; [apply Inv_empty|].
  destruct (step_ok b ord w p Hf IH HA) as (w1 & out1 & E1 & HI); [intros _; eauto|]. congruence.
Qed.

(** The safe class never runs into undefined behaviour. *)
Theorem safe_no_ub ord w p : reach true w -> fair ord -> allowed true w p -> is_Some (step ord w p).
Proof. intros HR Hf HA. destruct (step_ok true ord w p Hf (reach_inv _ _ HR) HA) as (w1 & out1 & E1 & _); [done|eauto]. Qed.
