(** Concrete programs: an executable check that a program stays in a class, used for the examples that show the
    hypotheses of the theorems are met, and for the counterexamples. *)
From Verif Require Export Classes.
Open Scope nat_scope.

Definition id_order : order := fun l => l.
Lemma id_order_fair : fair id_order.
Proof. intros l. done. Qed.
Lemma rev_order_fair : fair (@rev nat).
Proof. intros l. symmetry. apply Permutation_rev. Qed.

Definition no_dependentb (w : world) (s : nat) : bool := bool_decide (map_Forall (fun _ rc => r_valid rc = true -> s ∉ r_deps rc) (w_recs w)).
Definition unmentionedb (w : world) (o : nat) : bool := no_dependentb w o && bool_decide (map_Forall (fun _ rf => f_vlt rf <> Some o) (w_refs w)).
Definition leftoversb (w : world) (s : nat) (pb : obj) : bool :=
  match w_objs w !! s with
  | None => true
  | Some sb => bool_decide (map_Forall (fun r rc => r_valid rc = true -> s ∈ r_deps rc -> r ∉ o_recs sb -> r ∈ o_recs pb) (w_recs w))
  end.
Definition ref_fitb (b : bool) (w : world) (f : nat) : bool :=
  match w_refs w !! f with
  | Some (Ref (Some _) (Some o)) =>
      match w_objs w !! o with Some ob => negb (o_static_set ob) | None => negb b end
  | _ => true
  end.
Definition rebindb (w : world) (o s : nat) : bool :=
  match w_objs w !! o with
  | Some ob => match source_vault o ob with
               | Some pv => match w_objs w !! pv with Some pb => leftoversb w s pb | None => true end
               | None => true
               end
  | None => true
  end.
Definition fillb (w : world) (a s : nat) : bool :=
  match w_objs w !! a with
  | Some ab => match o_parent ab with
               | Some p => match w_objs w !! p with Some pb => leftoversb w s pb | None => true end
               | None => true
               end
  | None => true
  end.
Fixpoint req_okb (q : req) : bool :=
  match q with
  | QLeaf _ _ _ _ => true
  | QOr a b => req_okb a && req_okb b
  | QAnd a b => match shortcut a b with
                | Some (_, _, va, vb, _) => bool_decide (vty vb = vty va)
                | None => req_okb a && req_okb b
                end
  end.
Definition no_uniqb (w : world) (o : nat) : bool := match w_objs w !! o with Some ob => bool_decide (o_uniq ob = []) | None => true end.

Definition unsharedb (w : world) (o : nat) : bool :=
  bool_decide (map_Forall (fun _ sb => o_parent sb <> Some o) (w_objs w)) && bool_decide (map_Forall (fun _ rf => f_vlt rf <> Some o) (w_refs w)).
Definition allowedb (b : bool) (w : world) (p : op) : bool :=
  match p with
  | ONewVault o => unmentionedb w o
  | ONewSet s => b || no_dependentb w s
  | OAddUniqueKeyFn o _ _ _ => negb b || match w_objs w !! o with Some ob => bool_decide (o_sets ob = ∅ \/ o_recs ob = ∅) | None => true end
  | OReadRows o load keys user rows => negb b ||
      match w_objs w !! o with Some ob => bool_decide (Forall (fun row => is_Some (row_fields ob load keys user row)) rows) | None => true end
  | OEraseRef o _ | OEraseRecord o _ _ | OEraseRecords o _ _ _ => negb b ||
      match w_objs w !! o with Some ob => negb (o_static_set ob) || bool_decide (o_parent ob = None) | None => true end
  | OGetRecord o _ _ f =>
      match w_objs w !! o, w_refs w !! f with
      | Some ob, Some (Ref (Some r) _) =>
          negb (o_static_set ob) ||
          match o_parent ob with
          | Some p => match w_objs w !! p with Some pb => bool_decide (r ∈ o_recs pb) | None => true end
          | None => true
          end
      | _, _ => true
      end
  | OSetData f _ _ => ref_fitb b w f
  | OSetMany f _ => ref_fitb b w f && (negb b || match w_refs w !! f with
        | Some (Ref _ (Some o)) => bool_decide (is_Some (w_objs w !! o)) | Some (Ref _ None) => false | None => true end)
  | ORequest o _ _ _ _ _ _ _ _ s => b || rebindb w o s
  | OComplex o q s => (b || rebindb w o s) && (negb b || req_okb q)
  | OCopyVault dst src => unmentionedb w dst && no_uniqb w src
  | OAssignVault dst src => no_uniqb w src
  | OMoveVault dst src => unmentionedb w dst && unsharedb w src
  | OMoveAssignVault dst src => unsharedb w src
  | OMoveSet _ _ | OMoveAssignSet _ _ => false
  | OJoin _ _ | OExclude _ _ | OIntersect _ _ => negb b
  | OUnion a _ res | OIntersection a _ res => negb b && fillb w a res
  | OCopySet dst src => (b || no_dependentb w dst) && match w_objs w !! src with Some sb => bool_decide (o_parent sb <> None) | None => true end
  | OAssignSet dst src => b || fillb w src dst
  | _ => true
  end.

Lemma no_dependentb_ok w s : no_dependentb w s = true -> forall r, ~ dependent w r s.
Proof. intros H r (rc & Hr & Hv & Hs). apply bool_decide_eq_true in H. by eapply (H r rc). Qed.
Lemma unmentionedb_ok w o : unmentionedb w o = true -> unmentioned w o.
Proof.
  intros H. apply andb_true_iff in H as [H1 H2]. split; [by apply no_dependentb_ok|]. intros f r _ (rf & Hf & Ho) _.
  apply bool_decide_eq_true in H2. by apply (H2 f rf).
Qed.
Lemma leftoversb_ok w s pb : leftoversb w s pb = true -> leftovers_in w s pb.
Proof.
  intros H sb r Hs (rc & Hr & Hv & Hd) Hn. unfold leftoversb in H. rewrite Hs in H. apply bool_decide_eq_true in H. by eapply (H r rc).
Qed.
Lemma ref_fitb_ok b w f rf : ref_fitb b w f = true -> w_refs w !! f = Some rf -> ref_fit b w rf.
Proof.
  intros H Hf r o Hr Ho. unfold ref_fitb in H. rewrite Hf in H. destruct rf as [fr fv]; cbn in *. subst. destruct (w_objs w !! o) as [ob|] eqn:E.
  - split; [|eauto]. intros ob' [= <-]. by apply negb_true_iff in H.
  - split; [done|]. intros ->. done.
Qed.
Lemma rebindb_ok w o s : rebindb w o s = true -> forall ob pv pb, w_objs w !! o = Some ob -> source_vault o ob = Some pv -> w_objs w !! pv = Some pb -> leftovers_in w s pb.
Proof. unfold rebindb. intros H ob pv pb H1 H2 H3. rewrite H1, H2, H3 in H. by apply leftoversb_ok. Qed.
Lemma fillb_ok w a s : fillb w a s = true -> forall ab p pb, w_objs w !! a = Some ab -> o_parent ab = Some p -> w_objs w !! p = Some pb -> leftovers_in w s pb.
Proof. unfold fillb. intros H ob pv pb H1 H2 H3. rewrite H1, H2, H3 in H. by apply leftoversb_ok. Qed.
Lemma req_okb_ok q : req_okb q = true -> req_ok q.
Proof.
  induction q as [l k v p|a IHa b IHb|a IHa b IHb]; cbn; [done|..].
  - destruct (shortcut a b) as [[[[[? ?] ?] ?] ?]|]; intros H; [by apply bool_decide_eq_true in H|]. apply andb_true_iff in H as [? ?]; auto.
  - intros H. apply andb_true_iff in H as [? ?]; auto.
Qed.
Lemma no_uniqb_ok w o : no_uniqb w o = true -> forall ob, w_objs w !! o = Some ob -> o_uniq ob = [].
Proof. unfold no_uniqb. intros H ob Ho. rewrite Ho in H. by apply bool_decide_eq_true in H. Qed.
Lemma unsharedb_ok w o : unsharedb w o = true -> unshared w o.
Proof.
  intros H. apply andb_true_iff in H as [H1 H2]. apply bool_decide_eq_true in H1, H2. split; [intros s sb [Hs _]; by apply (H1 s sb)|]. intros f r _ (rf & Hf & Ho) _. by apply (H2 f rf).
Qed.
Lemma orb_l (b c : bool) : b || c = true -> b = false -> c = true.
Proof. intros H ->. done. Qed.
Lemma orb_nl (b c : bool) : negb b || c = true -> b = true -> c = true.
Proof. intros H ->. done. Qed.

Lemma allowedb_ok b w p : allowedb b w p = true -> allowed b w p.
Proof.
  destruct p; cbn [allowed allowedb]; intros H; try done.
  - intros _. by apply unmentionedb_ok.
  - intros Hb _. by apply no_dependentb_ok, (orb_l b).
  - intros Hb ob Ho. apply (orb_nl _ _ H) in Hb. rewrite Ho in Hb. by apply bool_decide_eq_true in Hb.
  - intros Hb ob Ho. apply (orb_nl _ _ H) in Hb. rewrite Ho in Hb. by apply bool_decide_eq_true in Hb.
  - intros Hb ob Ho Hs. apply (orb_nl _ _ H) in Hb. rewrite Ho, Hs in Hb. by apply bool_decide_eq_true in Hb.
  - intros Hb ob Ho Hs. apply (orb_nl _ _ H) in Hb. rewrite Ho, Hs in Hb. by apply bool_decide_eq_true in Hb.
  - intros Hb ob Ho Hs. apply (orb_nl _ _ H) in Hb. rewrite Ho, Hs in Hb. by apply bool_decide_eq_true in Hb.
  - intros ob p pb r [Ho Hs] Hp Hpb (rf & Hf & Hr) Hv. rewrite Ho, Hf in H. destruct rf as [fr fv]; cbn in Hr. subst fr.
    rewrite Hs, Hp, Hpb in H. cbn in H. by apply bool_decide_eq_true in H.
  - intros rf Hf. by eapply ref_fitb_ok.
  - intros rf Hf. apply andb_true_iff in H as [H1 H2]. split; [by eapply ref_fitb_ok|]. intros Hb. apply (orb_nl _ _ H2) in Hb. rewrite Hf in Hb.
    destruct rf as [fr [fv|]]; [|done]. apply bool_decide_eq_true in Hb. cbn. eauto.
  - intros Hb ob sb pv pb H1 H2 H3 _ _. eapply (rebindb_ok w o s); [by apply (orb_l b)|done..].
  - apply andb_true_iff in H as [H1 H2]. split.
    + intros Hb ob sb pv pb E1 E2 E3 _ _. eapply (rebindb_ok w o s); [by apply (orb_l b)|done..].
    + intros Hb. by apply req_okb_ok, (orb_nl b).
  - apply andb_true_iff in H as [H1 H2]. split; [by intros; apply unmentionedb_ok|]. by apply no_uniqb_ok.
  - intros _. by apply no_uniqb_ok.
  - apply andb_true_iff in H as [H1 H2]. split; [by intros; apply unmentionedb_ok|by apply unsharedb_ok].
  - intros _. by apply unsharedb_ok.
  - by apply negb_true_iff in H.
  - by apply negb_true_iff in H.
  - by apply negb_true_iff in H.
  - apply andb_true_iff in H as [H1 H2]. split; [by apply negb_true_iff in H1|]. by apply fillb_ok.
  - apply andb_true_iff in H as [H1 H2]. split; [by apply negb_true_iff in H1|]. by apply fillb_ok.
  - apply andb_true_iff in H as [H1 H2]. split; [intros Hb _; by apply no_dependentb_ok, (orb_l b)|]. intros sb Hsb. rewrite Hsb in H2. by apply bool_decide_eq_true in H2.
  - intros Hb. by apply fillb_ok, (orb_l b).
Qed.

(** Run a program with identity iteration order as long as it stays in the class. *)
Fixpoint runb (b : bool) (w : world) (ps : list op) : option world :=
  match ps with
  | [] => Some w
  | p :: ps' => if allowedb b w p then match step id_order w p with Some (w', _) => runb b w' ps' | None => None end else None
  end.
Lemma runb_reach b ps : forall w w', reach b w -> runb b w ps = Some w' -> reach b w'.
Proof.
  induction ps as [|p ps IH]; intros w w' HR; cbn [runb]; [by intros [= <-]|].
  destruct (allowedb b w p) eqn:Ea; [|done]. destruct (step id_order w p) as [[w1 out]|] eqn:E; [|done].
  apply IH. eapply reach_step; [done|apply id_order_fair|by apply allowedb_ok|done].
Qed.
(** A state with an executable property [P] is reachable. *)
Lemma reach_by b ps (P : world -> bool) : match runb b empty_world ps with Some w => P w | None => false end = true ->
  exists w, reach b w /\ P w = true.
Proof.
  destruct (runb b empty_world ps) as [w|] eqn:E; [|done]. intros H. exists w. split; [|done]. eapply runb_reach; [apply reach_empty|done].
Qed.
(** The same for unrestricted programs. *)
Lemma run_by ps (P : world -> bool) : match run empty_world (pair id_order <$> ps) with Some w => P w | None => false end = true ->
  exists w, run empty_world (pair id_order <$> ps) = Some w /\ P w = true.
Proof. destruct (run empty_world _) as [w|]; [|done]. eauto. Qed.
