(** C50-C52: DataSaver, for every program over any number of DataSaver variables. *)
From Verif Require Export SaverSpec.
From Verif Require Import SaverProofs.
Open Scope nat_scope.

Lemma from_string_vty t s v : from_string t s = FsOk v -> vty v = t.
Proof.
  destruct t as [t| | |n]; cbn.
  - assert (from_string_int t s = FsOk v -> vty v = TInt t) as H.
    { unfold from_string_int. intros E. repeat case_match; try done; by injection E as <-. }
    destruct t; try done.
  - repeat case_decide; try done; by intros [= <-].
  - by intros [= <-].
  - done.
Qed.

Lemma dstep_ok w m p : dok w m ->
  match dstep w p with
  | Some (w', b) => dok w' (content_step m p) /\ (reset_of p = None -> d_calls w' = d_calls w) /\
      match p with DFromString l t => b = match m !! l with Some (Some v) => Some (match from_string (vty v) t with FsOk _ => true | _ => false end) | _ => None end | _ => b = None end
  | None => exists l t c, p = DFromString l t /\ m !! l = Some c /\ (c = None \/ exists v, c = Some v /\ from_string (vty v) t = FsUB)
  end.
Proof.
  intros H. destruct p as [l|l v c|l o|l o|l v c|l t|l|l o|l]; cbn [dstep content_step reset_of]; rewrite ?(dok_lives _ _ _ H).
  - destruct (decide (is_Some (m !! l))) as [E|E]; [rewrite bool_decide_true by done; done|]. rewrite bool_decide_false by done. cbn. apply eq_None_not_Some in E. split; [by apply new_ok|done].
  - destruct (decide (is_Some (m !! l))) as [E|E]; [rewrite bool_decide_true by done; done|]. rewrite bool_decide_false by done. cbn [negb dskip]. apply eq_None_not_Some in E.
    destruct (make_ok _ _ l v c H E) as (w' & -> & H1 & H2). done.
  - destruct (decide (is_Some (m !! l))) as [E|E]; [rewrite bool_decide_true by done; done|]. rewrite bool_decide_false by done. cbn [negb andb]. apply eq_None_not_Some in E.
    destruct (m !! o) as [c|] eqn:Eo; [|done]. rewrite bool_decide_true by eauto. cbn [dskip]. destruct (copy_ok _ _ l o c H E Eo) as (w' & -> & H1 & H2). done.
  - destruct (m !! l) as [c|] eqn:El; [|done]. destruct (m !! o) as [c'|] eqn:Eo; [|by rewrite andb_false_r]. rewrite !bool_decide_true by eauto. cbn [andb dskip].
    destruct (assign_ok _ _ l o c c' H El Eo) as (w' & -> & H1 & H2). done.
  - destruct (m !! l) as [c'|] eqn:El; [|done]. rewrite bool_decide_true by eauto. cbn [dskip]. destruct (set_ok _ _ l c' v c H El) as (w' & -> & H1 & H2). done.
  - destruct (m !! l) as [c|] eqn:El; [|done]. rewrite bool_decide_true by eauto. pose proof (from_string_ok _ _ l c t H El) as K. destruct c as [v|].
    + destruct (from_string (vty v) t) as [v'| |] eqn:Ef.
      * destruct K as (w' & -> & H1 & H2); [by eapply from_string_vty|]. cbn. unfold read_text. rewrite Ef. done.
      * rewrite K. cbn. unfold read_text. rewrite Ef, insert_id by done. done.
      * rewrite K. cbn. exists l, t, (Some v). split; [done|]. split; [done|]. right. eauto.
    + rewrite K. cbn. exists l, t, None. split; [done|]. split; [done|]. by left.
  - destruct (m !! l) as [c|] eqn:El; [|done]. rewrite bool_decide_true by eauto. cbn [dskip]. destruct (reset_ok _ _ l c H El) as (w' & s & -> & H1 & H2 & H3). cbn. done.
  - destruct (m !! l) as [c|] eqn:El; [|done]. destruct (m !! o) as [c'|] eqn:Eo; [|by rewrite andb_false_r]. rewrite !bool_decide_true by eauto. cbn [andb dskip].
    destruct (swap_ok w m l o (fresh (dom (d_vars w))) c c' H El Eo) as (w' & -> & H1 & H2); [|done].
    pose proof (is_fresh (dom (d_vars w))) as Hfr. apply eq_None_not_Some. intros Hs. apply Hfr, elem_of_dom. by apply (dok_dom _ _ _ H).
  - destruct (m !! l) as [c|] eqn:El.
    + rewrite bool_decide_true by eauto. cbn [dskip]. destruct (delete_ok _ _ l c H El) as (w' & -> & H1 & H2). done.
    + rewrite bool_decide_false by (by intros [? ?]). cbn [dskip]. by rewrite delete_notin.
Qed.
Lemma drun_ok ps w m w' : dok w m -> drun w ps = Some w' -> dok w' (foldl content_step m ps).
Proof.
  revert w m. induction ps as [|p ps IH]; intros w m H; cbn [drun foldl]; [by intros [= <-]|]. pose proof (dstep_ok w m p H) as K. destruct (dstep w p) as [[w1 b]|]; [|done]. cbn [mbind option_bind]. intros E. by eapply IH; [apply K|].
Qed.
Lemma drun_init ps w : drun d_init ps = Some w -> dok w (contents_after ps).
Proof. apply drun_ok, dok_init. Qed.

(** C50: after every program, every DataSaver answers exactly for the value it was given last: GetData gives it back under its own type and refuses every other type,
    Str gives its text, GetDataType its type; an empty DataSaver refuses every type. *)
Lemma t_C50_answers_for_its_content :
  forall ps w l, drun d_init ps = Some w ->
    match contents_after ps !! l with
    | Some c => answers w l c
    | None => d_vars w !! l = None
    end.
Proof.
  intros ps w l E%drun_init. pose proof (dk_vars _ _ E l) as K. destruct (contents_after ps !! l) as [c|], (d_vars w !! l) as [s|] eqn:Es; try done.
  unfold answers, saver_get, saver_str, saver_type. rewrite Es. cbn [mbind option_bind]. destruct c as [v|]; cbn in K.
  - destruct K as (p & K1 & K2 & K3 & K4 & K5 & K6 & K7). rewrite K1, K3, K6. split; [|split; [by rewrite (d_read_ok _ _ _ K2)|done]]. intros t. destruct (decide (vty v = t)) as [<-|Hne].
    + rewrite decide_False by (by intros ?). by rewrite (d_read_ok _ _ _ K2).
    + rewrite decide_True; [done|congruence].
  - intros t. rewrite K. by destruct (decide _).
Qed.
(** C50: the one way into undefined behaviour is SetDataFromString on an empty DataSaver, or with a number that overflows its parser (C33). *)
Lemma t_C50_undefined_iff :
  forall ps w p, drun d_init ps = Some w ->
    (dstep w p = None <-> exists l t c, p = DFromString l t /\ contents_after ps !! l = Some c /\ (c = None \/ exists v, c = Some v /\ from_string (vty v) t = FsUB)).
Proof.
  intros ps w p E%drun_init. pose proof (dstep_ok _ _ p E) as K. split.
  - intros Es. by rewrite Es in K.
  - intros (l & t & c & -> & Hc & Hb). cbn [dstep]. rewrite (dok_lives _ _ _ E), bool_decide_true by eauto. pose proof (from_string_ok _ _ l c t E Hc) as F.
    destruct Hb as [->|(v & -> & Hf)]; [by rewrite F|]. rewrite Hf in F. by rewrite F.
Qed.
(** C50: SetDataFromString reports whether the text was read. *)
Lemma t_C50_from_string_reports :
  forall ps w l t v w' b, drun d_init ps = Some w -> contents_after ps !! l = Some (Some v) -> dstep w (DFromString l t) = Some (w', b) ->
    b = Some (match from_string (vty v) t with FsOk _ => true | _ => false end).
Proof. intros ps w l t v w' b E%drun_init Hc Es. pose proof (dstep_ok _ _ (DFromString l t) E) as K. rewrite Es in K. destruct K as (_ & _ & ->). by rewrite Hc. Qed.
(** C50: the answers of a DataSaver the operation does not write to stay the same. *)
Lemma t_C50_others_untouched :
  forall ps w p w' b l, drun d_init ps = Some w -> dstep w p = Some (w', b) ->
    match p with
    | DNew x | DMake x _ _ | DCopy x _ | DAssign x _ | DSet x _ _ | DFromString x _ | DReset x | DDelete x => l <> x
    | DSwap x y => l <> x /\ l <> y
    end ->
    (forall t, saver_get l t w' = saver_get l t w) /\ saver_str l w' = saver_str l w.
Proof.
  intros ps w p w' b l E Es Hl. assert (E' : drun d_init (ps ++ [p]) = Some w').
  { revert E. generalize d_init. induction ps as [|q ps IH]; intros d; cbn [drun app]; [intros [= ->]; by rewrite Es|]. destruct (dstep d q) as [[d1 ?]|]; [|done]. cbn [mbind option_bind]. apply IH. }
  assert (contents_after (ps ++ [p]) !! l = contents_after ps !! l) as Hc.
  { unfold contents_after. rewrite foldl_app. cbn [foldl]. set (m := foldl _ _ _). clearbody m.
    destruct p; cbn [content_step]; [..|by rewrite lookup_delete_ne]; repeat case_match; try done; try (by rewrite lookup_insert_ne); destruct Hl; by rewrite !lookup_insert_ne. }
  pose proof (t_C50_answers_for_its_content _ _ l E) as A. pose proof (t_C50_answers_for_its_content _ _ l E') as A'. rewrite Hc in A'.
  apply drun_init in E, E'. pose proof (dk_vars _ _ E l) as K. pose proof (dk_vars _ _ E' l) as K'. rewrite Hc in K'. destruct (contents_after ps !! l) as [[v|]|].
  - destruct A as (A1 & A2 & _), A' as (A1' & A2' & _). split; [intros t; by rewrite A1, A1'|congruence].
  - cbn in A, A'. split; [intros t; by rewrite A, A'|]. unfold saver_str. destruct (d_vars w !! l) as [s|], (d_vars w' !! l) as [s'|]; try done. cbn in *. rewrite K, K'. unfold d_read. by destruct (sv_str s), (sv_str s').
  - unfold saver_get, saver_str. by rewrite A, A'.
Qed.

(** C51: no cell is shared, freed too early or leaked: after every program each live heap cell belongs to exactly one DataSaver, and each DataSaver that holds a value
    owns a live cell that contains it. *)
Lemma t_C51_each_cell_has_one_owner :
  forall ps w, drun d_init ps = Some w ->
    (forall p, is_Some (d_cells w !! p) <-> exists l, owns w l p) /\ (forall p l l', owns w l p -> owns w l' p -> l = l') /\
    (forall l v, contents_after ps !! l = Some (Some v) <-> exists p, owns w l p /\ d_cells w !! p = Some v).
Proof.
  intros ps w E%drun_init. split; [|split].
  - intros p. split; [intros [v Hv]; by eapply (dk_own _ _ E)|]. intros (l & s & Hs & Hp). pose proof (dk_vars _ _ E l) as K. rewrite Hs in K. destruct (contents_after ps !! l) as [[v|]|]; try done; cbn in K; [|congruence].
    destruct K as (q & K1 & K2 & _). assert (q = p) as -> by congruence. eauto.
  - intros p l l'. apply (dk_inj _ _ E).
  - intros l v. pose proof (dk_vars _ _ E l) as K. split.
    + intros Hc. rewrite Hc in K. destruct (d_vars w !! l) as [s|] eqn:Es; [|done]. destruct K as (p & K1 & K2 & _). exists p. split; [by exists s|done].
    + intros (p & (s & Hs & Hp) & Hv). rewrite Hs in K. destruct (contents_after ps !! l) as [[u|]|]; try done; cbn in K; [|congruence]. destruct K as (q & K1 & K2 & _). congruence.
Qed.
(** C51: when all DataSavers are gone, so are all cells. *)
Lemma t_C51_nothing_leaks :
  forall ps w, drun d_init ps = Some w -> d_vars w = ∅ -> d_cells w = ∅.
Proof.
  intros ps w E Hv. destruct (t_C51_each_cell_has_one_owner _ _ E) as (H1 & _). apply map_empty. intros p. apply eq_None_not_Some. rewrite H1. intros (l & s & Hs & _). by rewrite Hv, lookup_empty in Hs.
Qed.

(** C52: a custom delete function is called by ResetData only, at most once per call, with the value that is being reset. *)
Lemma t_C52_called_by_reset_only :
  forall ps w p w' b, drun d_init ps = Some w -> dstep w p = Some (w', b) ->
    d_calls w' = d_calls w \/
    exists l f c, p = DReset l /\ contents_after ps !! l = Some c /\ d_calls w' = d_calls w ++ [(f, c)].
Proof.
  intros ps w p w' b E%drun_init Es. pose proof (dstep_ok _ _ p E) as K. rewrite Es in K. destruct K as (_ & K & _). destruct p; try (left; by apply K).
  cbn [dstep] in Es. rewrite (dok_lives _ _ _ E) in Es. destruct (contents_after ps !! l) as [c|] eqn:Ec.
  - rewrite bool_decide_true in Es by eauto. cbn [dskip] in Es. destruct (reset_ok _ _ l c E Ec) as (w1 & s & E1 & _ & _ & Hc). rewrite E1 in Es. cbn in Es. injection Es as <- <-. rewrite Hc.
    destruct (sv_cust s) as [f|]; [right; exists l, f, c; by rewrite Ec|left; apply app_nil_r].
  - rewrite bool_decide_false in Es by (by intros [? ?]). injection Es as <- <-. by left.
Qed.
(** C52: ResetData after SetData with a custom delete function calls it exactly once with the value, and not again. *)
Lemma t_C52_set_then_reset :
  forall ps w l v f w1 b1 w2 b2, drun d_init ps = Some w -> is_Some (contents_after ps !! l) ->
    dstep w (DSet l v f) = Some (w1, b1) -> dstep w1 (DReset l) = Some (w2, b2) ->
    d_calls w2 = d_calls w ++ match f with Some f => [(f, Some v)] | None => [] end /\
    exists w3 b3, dstep w2 (DReset l) = Some (w3, b3) /\ d_calls w3 = d_calls w2.
Proof.
  intros ps w l v f w1 b1 w2 b2 E%drun_init [c Hc] E1 E2. cbn [dstep] in E1. rewrite (dok_lives _ _ _ E), bool_decide_true in E1 by eauto. cbn [dskip] in E1.
  destruct (set_ok _ _ l c v f E Hc) as (w' & Es & H1 & C1). assert (Hv : exists s, d_vars w' !! l = Some s /\ sv_cust s = f).
  { unfold saver_set in Es. destruct (d_vars w !! l); [|done]. cbn [mbind option_bind] in Es. destruct (d_drop _ _); [|done]. cbn in Es. injection Es as <-. cbn. rewrite lookup_insert. eexists. split; [done|]. done. }
  rewrite Es in E1. cbn in E1. injection E1 as <- <-. cbn [dstep] in E2. rewrite (dok_lives _ _ _ H1), bool_decide_true in E2 by (rewrite lookup_insert; eauto). cbn [dskip] in E2.
  destruct (reset_ok _ _ l (Some v) H1) as (w'' & s & Es2 & H2 & Hs & C2); [by rewrite lookup_insert|]. assert (Hv2 : exists s, d_vars w'' !! l = Some s /\ sv_cust s = None).
  { unfold saver_reset in Es2. destruct (d_vars w' !! l); [|done]. cbn [mbind option_bind] in Es2. destruct (d_drop _ _); [|done]. cbn in Es2. injection Es2 as <-. cbn. rewrite lookup_insert. eexists. split; [done|]. done. }
  rewrite Es2 in E2. cbn in E2. injection E2 as <- <-.
  destruct Hv as (s1 & Hs1 & <-). assert (s1 = s) as -> by congruence. split; [by rewrite C2, C1|].
  destruct (reset_ok _ _ l None H2) as (w3 & s3 & Es3 & H3 & Hs3 & C3); [by rewrite lookup_insert|]. exists w3, None. cbn [dstep].
  rewrite (dok_lives _ _ _ H2), bool_decide_true by (rewrite lookup_insert; eauto). cbn [dskip]. rewrite Es3. split; [done|]. rewrite C3. destruct Hv2 as (s4 & Hs4 & E4). assert (s4 = s3) as -> by congruence. rewrite E4. apply app_nil_r.
Qed.
(** C52: the class comment says the function clears the value "when an object of the class is destroyed": it is not called then (nor when the value is overwritten). *)
Lemma t_C52_not_called_by_destructor_refuted :
  exists ps w w' l v f, drun d_init ps = Some w /\ contents_after ps !! l = Some (Some v) /\ d_calls w = [] /\
    ps = [DMake l v (Some f)] /\ dstep w (DDelete l) = Some (w', None) /\ d_calls w' = [].
Proof.
  set (l := (false, 0) : loc). exists [DMake l (VBool true) (Some 7)]. eexists _, _, l, (VBool true), 7. split; [vm_compute; reflexivity|]. split; [vm_compute; reflexivity|]. split; [vm_compute; reflexivity|].
  split; [reflexivity|]. split; vm_compute; reflexivity.
Qed.
(** C52: after a copy both DataSavers carry the function, and resetting both calls it twice for one value. *)
Lemma t_C52_called_twice_refuted :
  exists l m f v w, drun d_init [DMake l v (Some f); DCopy m l; DReset l; DReset m] = Some w /\ d_calls w = [(f, Some v); (f, Some v)].
Proof. exists (false, 0), (false, 1), 7, (VBool true). eexists. split; vm_compute; reflexivity. Qed.
(** C50: a DataSaver that was assigned an empty one is empty but still reports the type of its old value, and Str of it is undefined; its custom delete function
    is later called with a null pointer. *)
Lemma t_C50_stale_type_refuted :
  exists ps w l t f, drun d_init ps = Some w /\ contents_after ps !! l = Some None /\ saver_type l w = Some (Some t) /\ saver_str l w = None /\
    exists w', dstep w (DReset l) = Some (w', None) /\ d_calls w' = [(f, None)].
Proof.
  set (l := (false, 0) : loc). set (m := (false, 1) : loc). exists [DMake l (VBool true) (Some 7); DNew m; DAssign l m]. eexists _, l, TBool, 7. split; [vm_compute; reflexivity|]. split; [vm_compute; reflexivity|].
  split; [vm_compute; reflexivity|]. split; [vm_compute; reflexivity|]. eexists. split; vm_compute; reflexivity.
Qed.
