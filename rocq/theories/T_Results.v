(** C54: the results of operations tell what happened. *)
From Verif Require Import T_Refuted T_Base T_Frame T_Keys T_Records T_Query T_Sets.
From Verif Require Export ResultModel Spec.
Open Scope nat_scope.

(** C54: two results compare equal exactly if they are the same in every field. *)
Lemma t_C54_equality_is_equality :
  forall a b, res_eq a b = true <-> a = b.
Proof.
  intros [o1 c1 k1 q1 s1] [o2 c2 k2 q2 s2]. unfold res_eq. cbn. rewrite !andb_true_iff, Bool.eqb_true_iff, Nat.eqb_eq, String.eqb_eq, !bool_decide_eq_true. split.
  - intros ((((-> & Hc) & ->) & ->) & ->). f_equal. destruct c1, c2; done.
  - intros [= -> -> -> -> ->]. done.
Qed.
(** C54: every result code has a text, and no two codes have the same. *)
Lemma t_C54_texts_tell_codes_apart :
  forall c c', (code_text c = code_text c' <-> c = c') /\ code_text c <> EmptyString.
Proof. intros c c'. split; [split; [|by intros ->]|by destruct c]. destruct c, c'; first [done|intros H; exfalso; vm_compute in H; discriminate]. Qed.

Definition coh (r : opres) : Prop := res_ok r = true <-> res_code r = Success.
Lemma coh_ok k a b : coh (okres Success k a b).
Proof. done. Qed.
Lemma coh_bad c k a b : c <> Success -> coh (bad c k a b).
Proof. intros H. split; [done|]. intros E. by destruct (H E). Qed.
Ltac split1 H :=
  match type of H with
  | Some _ = Some _ => injection H as <- <-
  | None = Some _ => discriminate H
  | mbind _ ?m = Some _ => let E := fresh "E" in destruct m eqn:E; [cbn [mbind option_bind] in H|discriminate H]
  | option_bind _ _ _ ?m = Some _ => let E := fresh "E" in destruct m eqn:E; [cbn [mbind option_bind] in H|discriminate H]
  | (if ?c then _ else _) = Some _ => destruct c
  | match ?m with _ => _ end = Some _ => let E := fresh "E" in destruct m eqn:E
  end.
Ltac splits H := repeat split1 H.
Ltac coh_tac := first [apply coh_ok|apply coh_bad; done|apply coh_bad; congruence].

Lemma set_data_coh fuel ord w o r k v w' res : set_data_to_record fuel ord w o r k v = Some (w', res) -> coh res.
Proof. destruct fuel as [|fuel]; [done|]. cbn [set_data_to_record]. intros H. splits H; coh_tac. Qed.
Lemma ref_set_coh ord w f k v w' res : ref_set_data ord w f k v = Some (w', res) -> coh res.
Proof. unfold ref_set_data. intros H. splits H; try coh_tac. by eapply set_data_coh. Qed.
Lemma many_coh ord f ps : forall w res w' res', coh res \/ ps <> [] -> ref_set_many_loop ord w f ps res = Some (w', res') -> coh res'.
Proof.
  induction ps as [|[k v] ps IH]; intros w res w' res' Hc H; cbn [ref_set_many_loop] in H; [injection H as <- <-; by destruct Hc|].
  destruct (ref_set_data ord w f k v) as [[w1 res1]|] eqn:E; [|done]. cbn [mbind option_bind] in H. apply ref_set_coh in E. destruct (res_ok res1); [|by injection H as <- <-]. eapply IH; [|done]. by left.
Qed.
Lemma add_local_coh ord w o k d g n w' res : add_key_local ord w o k d g n = Some (w', res) -> coh res.
Proof. unfold add_key_local. intros H. splits H; coh_tac. Qed.
Lemma add_coh ord w o k d g n w' res : add_key ord w o k d g n = Some (w', res) -> coh res.
Proof. unfold add_key. intros H. splits H; by eapply add_local_coh. Qed.
Lemma create_coh w o f ps w' res : create_record w o f ps = Some (w', res) -> coh res.
Proof.
  unfold create_record. intros H. destruct (w_objs w !! o) as [ob|]; [|done]. cbn [mbind option_bind] in H. destruct (apply_params ob ps (o_tmpl ob) res0) as [pr|] eqn:Ea; [|done]. cbn [mbind option_bind] in H.
  assert (forall ps data r0 e, apply_params ob ps data r0 = Some (inl e) -> coh e) as A.
  { clear. induction ps as [|[k v] ps IH]; intros data r0 e H; cbn [apply_params] in H; [done|]. destruct (data !! k) as [old|]; [|injection H as <-; coh_tac]. destruct (o_keys ob !! k); [|done]. cbn [mbind option_bind] in H.
    destruct (decide _); [by eapply IH|]. injection H as <-. coh_tac. }
  destruct pr as [e|[data r1]]; [injection H as <- <-; by eapply A|]. splits H; coh_tac.
Qed.
Lemma vget_coh ord w o k v f w' res : vault_get_record ord w o k v f = Some (w', res) -> coh res.
Proof. unfold vault_get_record. intros H. splits H; coh_tac. Qed.
Lemma get_coh ord w o k v f w' res : get_record ord w o k v f = Some (w', res) -> coh res.
Proof. unfold get_record. intros H. splits H; try coh_tac; by eapply vget_coh. Qed.
Lemma reqset_coh ord w ob rt k b e ib ie amt p res l : request_set ord w ob rt k b e ib ie amt p = Some (res, l) -> coh res.
Proof. unfold request_set. intros H. splits H; coh_tac. Qed.
Lemma eval_coh ord w ob q e : eval_req ord w ob q = Some (inl e) -> coh e.
Proof.
  revert e. induction q as [l k v p|a IHa b IHb|a IHa b IHb]; intros e H; cbn [eval_req] in H.
  - destruct (request_set _ _ _ _ _ _ _ _ _ _ _) as [[res rs]|] eqn:E; [|done]. cbn [mbind option_bind] in H. apply reqset_coh in E. destruct (res_ok res); [done|]. by injection H as <-.
  - destruct (shortcut a b) as [[[[[ib k] va] vb] p]|].
    + destruct (request_set _ _ _ _ _ _ _ _ _ _ _) as [[res rs]|] eqn:E; [|done]. cbn [mbind option_bind] in H. apply reqset_coh in E. destruct (res_ok res); [done|]. by injection H as <-.
    + destruct (eval_req ord w ob a) as [[ea|la]|]; [|destruct (eval_req ord w ob b) as [[eb|lb]|]|]; cbn in H; try done; injection H as <-; [by apply IHa|by apply IHb].
  - destruct (eval_req ord w ob a) as [[ea|la]|]; [|destruct (eval_req ord w ob b) as [[eb|lb]|]|]; cbn in H; try done; injection H as <-; [by apply IHa|by apply IHb].
Qed.
Lemma check_coh s a sb ab c : algebra_check s a sb ab = Some c -> c <> Success.
Proof. unfold algebra_check. intros H ->. repeat case_match; done. Qed.
Lemma join_coh ord w s a w' res : set_join ord w s a = Some (w', res) -> coh res.
Proof. unfold set_join. intros H. splits H; try coh_tac. apply coh_bad. by eapply check_coh. Qed.
Lemma subtract_coh c ord w s a w' res : set_subtract c ord w s a = Some (w', res) -> coh res.
Proof. unfold set_subtract. intros H. splits H; try coh_tac. apply coh_bad. by eapply check_coh. Qed.

(** C54: IsOperationSuccess and ResultCode never contradict each other: whatever the state and the operation, the flag is set exactly if the code is Success.
    The one exception is SetData with an empty parameter list (see the _refuted theorem). *)
Lemma t_C54_flag_agrees_with_code :
  forall ord w p w' res, step ord w p = Some (w', ORes res) -> (forall f, p <> OSetMany f []) -> (res_ok res = true <-> res_code res = Success).
Proof.
  intros ord w p w' res H Hp. change (coh res).
  assert (R : forall c m, guard_op c w (res_out m) = Some (w', ORes res) -> m = Some (w', res)).
  { intros c m E. apply guard_inv in E as [(_ & _ & E)|[_ E]]; [done|]. apply res_inv in E as (r & E & Er). by injection Er as ->. }
  assert (NU : forall c m, guard_op c w (unit_out m) <> Some (w', ORes res)) by (intros [] m E; [|done]; unfold unit_out, guard_op in E; by destruct m).
  assert (NB : forall c m, guard_op c w (bool_out m) <> Some (w', ORes res)) by (intros [] m E; [|done]; unfold bool_out, guard_op in E; by destruct m as [[? ?]|]).
  assert (NS : forall c x, guard_op c w (Some (x, OUnit)) <> Some (w', ORes res)) by (by intros [] x E).
  assert (G : forall (o : nat) k v (m : option (world * opres)), (forall w' res, m = Some (w', res) -> coh res) -> set_parent_guard w o k v m = Some (w', res) -> coh res).
  { intros o k v m Hm E. unfold set_parent_guard in E. splits E; [coh_tac|by eapply Hm]. }
  destruct p; cbn [step] in H; try (by apply NU in H); try (by apply NB in H); try (by apply NS in H); apply R in H.
  - by eapply add_coh. - by eapply add_coh. - by eapply add_coh.
  - unfold update_key in H. splits H; coh_tac.
  - by eapply create_coh.
  - eapply G; [|exact H]. clear. intros w' res H. unfold erase_record in H. splits H; coh_tac.
  - eapply G; [|exact H]. clear. intros w' res H. unfold erase_records in H. splits H; coh_tac.
  - by eapply get_coh.
  - destruct (w_objs w !! o) as [ob|]; [|done]. cbn [mbind option_bind] in H. destruct (get_records ord w o k v amt) as [[r l]|] eqn:E; [|done]. cbn [mbind option_bind] in H. assert (coh r) as Hr by (unfold get_records in E; splits E; coh_tac).
    destruct (assign_refs _ _ _ _); [|done]. by injection H as <- <-.
  - by eapply ref_set_coh.
  - unfold ref_set_many in H. destruct (w_refs w !! f) as [rf|]; [|done]. cbn [mbind option_bind] in H. destruct (f_vlt rf) as [o|]; [|done]. cbn [mbind option_bind] in H. destruct (w_objs w !! o); [|done]. cbn [mbind option_bind] in H.
    eapply many_coh; [|exact H]. right. intros ->. by apply (Hp f).
  - unfold request in H. destruct (w_objs w !! o) as [ob|]; [|done]. cbn [mbind option_bind] in H. destruct (source_vault o ob); [|injection H as <- <-; coh_tac]. destruct (_ && _); [injection H as <- <-; coh_tac|].
    destruct (w_objs w !! _); [|done]. cbn [mbind option_bind] in H. destruct (bind_target _ _ _ _ _) as [w1|]; [|done]. cbn [mbind option_bind] in H. destruct (w_objs w1 !! o); [|done]. cbn [mbind option_bind] in H.
    destruct (request_set _ _ _ _ _ _ _ _ _ _ _) as [[r l]|] eqn:E; [|done]. cbn [mbind option_bind] in H. apply reqset_coh in E. destruct (foldM _ _ _); [|done]. by injection H as <- <-.
  - unfold complex_request in H. splits H; try coh_tac. by eapply eval_coh.
  - unfold set_add_record in H. splits H; try coh_tac. apply coh_bad. by case_match.
  - by eapply join_coh.
  - by eapply subtract_coh.
  - by eapply subtract_coh.
  - unfold set_union in H. splits H; try coh_tac. by eapply join_coh.
  - unfold set_intersection in H. splits H; try coh_tac.
Qed.
(** C54: SetData with an empty parameter list does nothing but answers success, with the code of an operation that was not performed. *)
Lemma t_C54_empty_setdata_refuted :
  exists ord w f w' res, fair ord /\ reach true w /\ allowed true w (OSetMany f []) /\ step ord w (OSetMany f []) = Some (w', ORes res) /\ res_ok res = true /\ res_code res = Idle.
Proof. exists id_order, W, 0, (nw W (OSetMany 0 [])), (res_of W (OSetMany 0 [])). rx. Qed.

(** C54: an operation by key names in its result the key and the type it was asked for, and tells the two ways of asking wrongly apart: WrongKey exactly if the object has no such key,
    WrongType exactly if the key has another type, which is then given. *)
Lemma t_C54_wrong_key_or_type :
  forall b ord w p o k t ob pv w' res, fair ord -> reach b w -> allowed b w p -> asks p = Some (o, k, t) -> source_at b w o ob pv ->
    step ord w p = Some (w', ORes res) ->
    res_key res = k /\ res_req res = Some t /\
    (res_code res = WrongKey <-> get_key_type ob k = None) /\
    (res_code res = WrongType <-> exists t', get_key_type ob k = Some t' /\ t' <> t) /\
    (res_code res = WrongType -> res_saved res = get_key_type ob k).
Proof.
  intros b ord w p o k t ob pv w' res Hf HR HA Ha Hs H. pose proof (source_obj _ _ _ _ _ Hs) as Ho. pose proof (source_guard _ _ _ _ _ Hs) as Hg. pose proof (source_vault_at _ _ _ _ _ HR Hs) as Hv.
  assert (R : forall c m, guard_op c w (res_out m) = Some (w', ORes res) -> m = Some (w', res)).
  { intros c m E. apply guard_inv in E as [(_ & _ & E)|[_ E]]; [done|]. apply res_inv in E as (r & E & Er). by injection Er as ->. }
  set (P := fun res => res_key res = k /\ res_req res = Some t /\ (res_code res = WrongKey <-> get_key_type ob k = None) /\
    (res_code res = WrongType <-> exists t', get_key_type ob k = Some t' /\ t' <> t) /\ (res_code res = WrongType -> res_saved res = get_key_type ob k)). change (P res).
  assert (P1 : get_key_type ob k = None -> P (bad WrongKey k (Some t) None)).
  { intros E. unfold P. cbn. rewrite E. split_and!; try done. split; [done|]. by intros (? & ? & _). }
  assert (P2 : forall t', get_key_type ob k = Some t' -> t' <> t -> P (bad WrongType k (Some t) (Some t'))).
  { intros t' E Hne. unfold P. cbn. rewrite E. split_and!; try done. split; [|done]. intros _. by exists t'. }
  assert (P3 : forall c t' x ok, get_key_type ob k = Some t' -> t' = t -> c <> WrongKey -> c <> WrongType -> P (OpRes ok c k (Some t) x)).
  { intros c t' x ok E Hne H1 H2. unfold P. cbn. rewrite E. split_and!; try done. split; [done|]. intros (? & [= <-] & ?). done. }
  assert (K : forall x td, o_keys ob !! x = Some td -> get_key_type ob x = Some td.1) by (intros x td E; unfold get_key_type; by rewrite E).
  assert (K0 : forall x, o_keys ob !! x = None -> get_key_type ob x = None) by (intros x E; unfold get_key_type; by rewrite E).
  assert (G : forall kk v (m : option (world * opres)), set_parent_guard w o kk v m = Some (w', res) -> m = Some (w', res)).
  { intros kk v m E. unfold set_parent_guard in E. rewrite Ho in E. cbn [mbind option_bind] in E. by rewrite Hg in E. }
  assert (V : forall v f w1 r1, vty v = t -> vault_get_record ord w o k v f = Some (w1, r1) -> P r1).
  { intros v f w1 r1 Ht E. unfold vault_get_record in E. rewrite Ho in E. cbn [mbind option_bind] in E. rewrite Ht in E. destruct (o_keys ob !! k) as [[t' d]|] eqn:Ek; [|injection E as <- <-; by apply P1, K0]. apply K in Ek. cbn in Ek.
    destruct (decide (t' = t)); [|injection E as <- <-; by apply P2]. splits E; by eapply P3. }
  destruct p; try done; cbn [asks] in Ha; lazymatch goal with H : step _ _ (ORequest _ _ _ _ _ _ _ _ _ _) = _ |- _ => idtac | _ => cbn [step] in H; apply R in H end.
  - injection Ha as -> -> <-. unfold update_key in H. rewrite Ho in H. cbn [mbind option_bind] in H. destruct (o_keys ob !! k) as [[t' d']|] eqn:Ek; [|injection H as <- <-; by apply P1, K0]. apply K in Ek. cbn in Ek.
    destruct (decide _); [|injection H as <- <-; by apply P2]. splits H; by eapply P3.
  - injection Ha as -> -> <-. apply G in H. unfold erase_record in H. rewrite Ho in H. cbn [mbind option_bind] in H. destruct (o_keys ob !! k) as [[t' d']|] eqn:Ek; [|injection H as <- <-; by apply P1, K0]. apply K in Ek. cbn in Ek.
    destruct (decide _); [|injection H as <- <-; by apply P2]. splits H; by eapply P3.
  - injection Ha as -> -> <-. apply G in H. unfold erase_records in H. rewrite Ho in H. cbn [mbind option_bind] in H. destruct (o_keys ob !! k) as [[t' d']|] eqn:Ek; [|injection H as <- <-; by apply P1, K0]. apply K in Ek. cbn in Ek.
    destruct (decide _); [|injection H as <- <-; by apply P2]. splits H; by eapply P3.
  - injection Ha as -> -> <-. unfold get_record in H. rewrite Ho in H. cbn [mbind option_bind] in H. destruct (o_static_set ob) eqn:Est; [|by eapply V]. destruct (o_parent ob); [|done]. destruct (w_objs w !! _); [|done]. cbn [mbind option_bind] in H.
    destruct (vault_get_record ord w o k v f) as [[w1 r1]|] eqn:E; [|done]. cbn [mbind option_bind] in H. destruct (w_refs w1 !! f); [|done]. injection H as <- <-. by eapply V.
  - injection Ha as -> -> <-. rewrite Ho in H. cbn [mbind option_bind] in H. destruct (get_records ord w o k v amt) as [[r1 l]|] eqn:E; [|done]. cbn [mbind option_bind] in H. destruct (assign_refs _ _ _ _); [|done]. injection H as <- <-.
    unfold get_records in E. rewrite Ho in E. cbn [mbind option_bind] in E. rewrite Hg in E. destruct (o_keys ob !! k) as [[t' d']|] eqn:Ek; [|injection E as <- <-; by apply P1, K0]. apply K in Ek. cbn in Ek.
    destruct (decide _); [|injection E as <- <-; by apply P2]. splits E; by eapply P3.
  - destruct (decide _) as [|Hne]; [done|]. injection Ha as -> -> <-. rename b0 into bv, e into ev.
    assert (H' : step ord w (ORequest o rt k bv (vcast (vty bv) ev) ib ie amt p s) = Some (w', ORes res)).
    { rewrite <- H. cbn [step]. do 3 f_equal. unfold vcast. by repeat case_decide. }
    destruct (request_step b ord w o ob pv rt k bv (vcast (vty bv) ev) ib ie amt p s w' res) as (_ & sb' & l & _ & _ & _ & E); try done; [by apply vty_vcast|].
    unfold request_set in E. destruct (o_keys ob !! k) as [[t' d']|] eqn:Ek; [|injection E as <- <-; by apply P1, K0]. apply K in Ek. cbn in Ek.
    destruct (decide _); [|injection E as <- <-; by apply P2]. splits E; by eapply P3.
Qed.

(** C54: a failed operation changes nothing at all, except for those that document otherwise or are treated below. *)
Lemma t_C54_failure_changes_nothing :
  forall b ord w p w' res, fair ord -> reach b w -> allowed b w p -> step ord w p = Some (w', ORes res) -> res_ok res = false ->
    match p with
    | OSetMany _ _ | ORequest _ _ _ _ _ _ _ _ _ _ | OComplex _ _ _ | OGetRecord _ _ _ _ | OCreateRecord _ _ _ | OAddUniqueKey _ _ _ | OAddUniqueKeyFn _ _ _ _ => True
    | _ => w' = w
    end.
Proof.
  intros b ord w p w' res Hf HR HA H Hr.
  assert (R : forall c m, guard_op c w (res_out m) = Some (w', ORes res) -> c = true /\ m = Some (w', res)).
  { intros c m E. apply guard_inv in E as [(_ & _ & E)|[Hc E]]; [done|]. apply res_inv in E as (r & E & Er). by injection Er as ->. }
  assert (NU : forall c m, guard_op c w (unit_out m) <> Some (w', ORes res)) by (intros [] m E; [|done]; unfold unit_out, guard_op in E; by destruct m).
  assert (NB : forall c m, guard_op c w (bool_out m) <> Some (w', ORes res)) by (intros [] m E; [|done]; unfold bool_out, guard_op in E; by destruct m as [[? ?]|]).
  assert (NS : forall c x, guard_op c w (Some (x, OUnit)) <> Some (w', ORes res)) by (by intros [] x E).
  destruct p; try done; cbn [step] in H; try (by apply NU in H); try (by apply NB in H); try (by apply NS in H).
  all: pose proof H as H0; apply R in H as [Hc H].
  - unfold add_key in H. destruct (w_objs w !! o) as [ob|]; [|done]. cbn [mbind option_bind] in H. destruct (add_key_local _ _ _ _ _ _ _) as [[w1 r1]|] eqn:E; [|done]. cbn [mbind option_bind] in H.
    assert (w1 = w \/ res_ok r1 = true) as D by (unfold add_key_local in E; splits E; [by left|by right]). destruct (res_ok r1 && _) eqn:Eb.
    + destruct (foldM _ _ _); [|done]. injection H as <- <-. apply andb_prop in Eb as [Eb _]. congruence.
    + injection H as <- <-. destruct D as [->|D]; [done|congruence].
  - unfold update_key in H. splits H; done.
  - unfold set_parent_guard, erase_record in H. splits H; done.
  - unfold set_parent_guard, erase_records in H. splits H; done.
  - destruct (w_objs w !! o) as [ob|]; [|done]. cbn [mbind option_bind] in H. destruct (get_records ord w o k v amt) as [[r l]|] eqn:E; [|done]. cbn [mbind option_bind] in H.
    assert (l = [] \/ res_ok r = true) as D by (unfold get_records in E; splits E; first [by left|by right]). destruct (assign_refs _ _ _ _) as [w1|] eqn:Ea; [|done]. injection H as <- <-. destruct D as [->|D]; [|congruence]. cbn in Ea. by injection Ea as <-.
  - unfold ref_set_data in H. destruct (w_refs w !! f) as [rf|]; [|done]. cbn [mbind option_bind] in H. destruct (f_rec rf) as [r|]; [|by injection H as <- <-]. destruct (f_vlt rf) as [o|]; [|done]. cbn [mbind option_bind] in H.
    destruct (w_objs w !! o); [|done]. cbn [mbind option_bind] in H. destruct (w_recs w !! r) as [rc|]; [|done]. cbn [mbind option_bind] in H. destruct (r_valid rc); [|by injection H as <- <-].
    destruct (dfuel w) as [|fuel]; [done|]. cbn [set_data_to_record] in H. splits H; done.
  - unfold set_add_record in H. splits H; done.
  - unfold set_join in H. splits H; done.
  - unfold set_subtract in H. splits H; done.
  - unfold set_subtract in H. splits H; done.
  - apply andb_prop in Hc as [[Hc1 Hc2]%andb_prop Hc3]. apply is_set_true in Hc1 as (xb & Hx & Hxs), Hc2 as (yb & Hy & Hys), Hc3 as (zb & Hz & Hzs). destruct HA as [-> HA]. assert (HA' : allowed false w (OUnion a b0 res0)) by done.
    destruct (t_C23_union_exact false ord w a b0 res0 xb yb zb w' (ORes res) Hf HR (conj Hx Hxs) (conj Hy Hys) (conj Hz Hzs) HA' H0) as (r & Er & _ & _ & K & _). injection Er as <-. by apply K.
  - unfold set_intersection in H. splits H; done.
Qed.

(** C54: no failed operation touches the data of a vault: records, values, keys, key types, defaults and uniqueness stay as they were. (SetData with several parameters
    keeps what it wrote before the failing one, see C42.) *)
Lemma t_C54_failure_keeps_vault_data :
  forall b ord w p w' res, fair ord -> reach b w -> allowed b w p -> step ord w p = Some (w', ORes res) -> res_ok res = false ->
    (forall f ps, p <> OSetMany f ps) -> vault_data_kept w w'.
Proof.
  intros b ord w p w' res Hf HR HA H Hr Hp. assert (Refl : vault_data_kept w w) by (split; [done|]; split; [done|]; intros o ob Ho Hs; by exists ob).
  assert (Q : set_or_ref_op w p -> vault_data_kept w w').
  { intros Hq. destruct (quiet_step _ _ _ _ _ _ Hf HR HA Hq H) as [(Q1 & Q2 & Q3) _]. split; [done|]. split; [done|]. intros o ob Ho Hs. destruct (Q3 o ob (conj Ho Hs)) as (ob' & [Ho' Hs'] & E). exists ob'. split; [done|]. split; [done|]. rewrite E. done. }
  assert (S : forall o ob ob', w_objs w !! o = Some ob -> o_static_set ob' = o_static_set ob -> o_recs ob' = o_recs ob -> o_keys ob' = o_keys ob -> o_order ob' = o_order ob -> o_uniq ob' = o_uniq ob -> o_tmpl ob' = o_tmpl ob -> vault_data_kept w (set_obj o ob' w)).
  { intros o ob ob' Ho E1 E2 E3 E4 E5 E6. split; [done|]. split; [done|]. intros x xb Hx Hxs. cbn. destruct (decide (x = o)) as [->|Hne].
    - rewrite lookup_insert. assert (xb = ob) as -> by congruence. exists ob'. split; [done|]. split; [congruence|]. done.
    - rewrite lookup_insert_ne by done. by exists xb. }
  pose proof (t_C54_failure_changes_nothing b ord w p w' res Hf HR HA H Hr) as N.
  destruct p; try (by rewrite N); try (by apply Q); try (by destruct (Hp f ps)).
  - pose proof H as H0. cbn [step] in H0. apply guard_inv in H0 as [(_ & _ & E)|[Hc _]]; [done|]. apply is_vault_true in Hc as (ob & Ho & Hs). destruct (get_key_type ob k) as [t'|] eqn:Ek.
    + destruct (t_C15_duplicate_rejected ord w o ob k (vzero t) t' w' (ORes res) (OAddUniqueKey o k t) (conj Ho Hs) Ek) as [-> _]; try done. right. left. by rewrite vty_vzero.
    + pose proof (t_C16_without_generator b ord w o ob k t w' (ORes res) Hf HR (conj Ho Hs) Ek H) as E. destruct (decide _); [destruct E as (E & _); injection E as ->; done|]. destruct E as [_ ->]. by eapply S.
  - pose proof H as H0. cbn [step] in H0. apply guard_inv in H0 as [(_ & _ & E)|[Hc _]]; [done|]. apply is_vault_true in Hc as (ob & Ho & Hs). destruct (get_key_type ob k) as [t'|] eqn:Ek.
    + destruct (t_C15_duplicate_rejected ord w o ob k (vzero t) t' w' (ORes res) (OAddUniqueKeyFn o k t g) (conj Ho Hs) Ek) as [-> _]; try done. right. right. exists g. by rewrite vty_vzero.
    + destruct (t_C16_generated_exact b ord w o ob k t g w' (ORes res) Hf HR HA (conj Ho Hs) Ek H) as (rs & _ & E). destruct (decide _); [destruct E as (E & _); injection E as ->; done|]. destruct E as [_ ->]. by eapply S.
  - pose proof H as H0. cbn [step] in H0. apply guard_inv in H0 as [(_ & _ & E)|[Hc _]]; [done|]. apply andb_prop in Hc as [Hc _]. apply is_vault_true in Hc as (ob & Ho & Hs).
    destruct (t_C02_failed_create_changes_nothing b ord w o ob f ps w' res HR (conj Ho Hs) H Hr) as (E1 & E2 & E3). split; [by rewrite E1|]. split; [by rewrite E1|]. rewrite E2. by apply Refl.
Qed.
