(** C53: the containers of DataSavers, for every program over one container and any number of DataSaver variables. *)
From Verif Require Export SaverSpec.
From Verif Require Import SaverProofs T_Saver SaverProofs2.
Open Scope nat_scope.

Lemma var_step (M V : contents) p : user_op p = true -> (forall x, M !! (false, x) = V !! (false, x)) ->
  (forall x, content_step M p !! (false, x) = content_step V p !! (false, x)) /\ (forall n, content_step M p !! (true, n) = M !! (true, n)) /\ (forall n, content_step V p !! (true, n) = V !! (true, n)).
Proof.
  intros Hu Ha. assert (U : forall l : loc, negb l.1 = true -> M !! l = V !! l) by (intros [[] x] Hl; [done|apply Ha]).
  assert (G : (forall l : loc, negb l.1 = true -> content_step M p !! l = content_step V p !! l) /\ (forall l : loc, l.1 = true -> content_step M p !! l = M !! l) /\ (forall l : loc, l.1 = true -> content_step V p !! l = V !! l)).
  2:{ destruct G as (G1 & G2 & G3). split; [intros x; by apply G1|]. split; [intros x; by apply G2|intros x; by apply G3]. }
  assert (I : forall (M V : contents) (x : loc) c, (forall l : loc, negb l.1 = true -> M !! l = V !! l) -> (forall l : loc, negb l.1 = true -> <[x := c]> M !! l = <[x := c]> V !! l)).
  { clear. intros M V x c Ha y Hy. destruct (decide (x = y)) as [->|]; [by rewrite !lookup_insert|]. rewrite !lookup_insert_ne by congruence. by apply Ha. }
  assert (T : forall (M : contents) (x : loc) c (l : loc), negb x.1 = true -> l.1 = true -> <[x := c]> M !! l = M !! l).
  { clear. intros M x c l Hx Hl. rewrite lookup_insert_ne; [done|]. intros ->. by rewrite Hl in Hx. }
  assert (D : forall (x l : loc), negb l.1 = true -> delete x M !! l = delete x V !! l).
  { intros x y Hy. destruct (decide (x = y)) as [->|]; [by rewrite !lookup_delete|]. rewrite !lookup_delete_ne by congruence. by apply U. }
  assert (E : forall (M : contents) (x l : loc), negb x.1 = true -> l.1 = true -> delete x M !! l = M !! l).
  { clear. intros M x l Hx Hl. rewrite lookup_delete_ne; [done|]. intros ->. by rewrite Hl in Hx. }
  clear Ha. destruct p; cbn in Hu; try apply andb_prop in Hu as [Hu Hu2]; split_and!; intros z Hz; cbn [content_step]; rewrite ?(U l Hu); try rewrite (U m Hu2); repeat case_match; rewrite ?T, ?E by done; eauto.
Qed.
Lemma cok_var w s M p : cok w s M -> user_op p = true -> forall d, dok d (content_step M p) -> cok (with_d d w) (Store (st_nodes s) (content_step (st_vars s) p)) (content_step M p).
Proof.
  intros [H1 H2 H3 H4 H5 H6 H7] Hu d Hd. destruct (var_step M (st_vars s) p Hu H2) as (A & B & C). split; cbn; try done.
  - intros n. by rewrite C.
  - eapply Forall2_impl; [done|]. intros e f [E1 E2]. split; [done|]. by rewrite B.
  - intros n. rewrite B. apply H6.
Qed.
Lemma chosen_none ch k s : chosen ch k (st_nodes s) = None -> forall w M, cok w s M -> k ∉ (st_nodes s).*1.
Proof. intros E w M H. pose proof (find_chosen _ _ _ ch k H) as F. rewrite E in F. by destruct (c_find ch k w). Qed.

Definition added_calls (s : store) (p : cop) (l : list (nat * option value)) : Prop :=
  l = [] \/ exists f c, l = [(f, c)] /\ ((exists x, p = CVar (DReset (false, x)) /\ st_vars s !! (false, x) = Some c) \/ (exists ch k, p = CErase ch k /\ found ch k s = Some c)).
Lemma cstep_ok multi w s M p : cok w s M ->
  match cstep multi w p with
  | Some (w', b) => exists M', cok w' (store_step multi s p) M' /\ b = reported s p /\ exists l, d_calls (c_d w') = d_calls (c_d w) ++ l /\ added_calls s p l
  | None => undefined_op s p
  end /\ (undefined_op s p -> cstep multi w p = None).
Proof.
  intros H. pose proof H as [H1 H2 H3 H4 H5 H6 H7].
  assert (Nil : forall w' : cworld, d_calls (c_d w') = d_calls (c_d w) -> exists l, d_calls (c_d w') = d_calls (c_d w) ++ l /\ added_calls s p l) by (intros w' E; exists []; split; [by rewrite app_nil_r|by left]).
  assert (L : forall x, lives (c_d w) (false, x) = bool_decide (is_Some (st_vars s !! (false, x)))) by (intros x; by rewrite (dok_lives _ _ _ H1), H2).
  destruct p as [p|k v f|k x|ch k v f|ch k x|ch k t|ch k x|ch k|]; cbn [cstep store_step reported].
  - destruct (user_op p) eqn:Eu.
    + pose proof (dstep_ok _ _ p H1) as K. split.
      * destruct (dstep (c_d w) p) as [[d b]|] eqn:Ed; cbn [mbind option_bind].
        -- destruct K as (K1 & K2 & K3). exists (content_step M p). split; [by apply cok_var|]. split.
           ++ destruct p as [| | | | |[[] x] t| | |]; try done. rewrite K3, H2. cbn. destruct (st_vars s !! (false, x)) as [[v|]|] eqn:Ev; cbn; try done.
              exfalso. cbn [dstep] in Ed. rewrite L, Ev in Ed. cbn in Ed. pose proof (from_string_ok _ _ (false, x) None t H1) as F. rewrite H2, Ev in F. rewrite F in Ed by done. done.
           ++ destruct (reset_of p) as [l|] eqn:Er; [|apply Nil; cbn; by apply K2]. destruct p; try done. injection Er as ->. destruct l as [[] x]; [done|]. cbn [dstep] in Ed. rewrite L in Ed.
              destruct (st_vars s !! (false, x)) as [c|] eqn:Ec; [|cbn in Ed; injection Ed as <- <-; by apply Nil]. rewrite bool_decide_true in Ed by eauto. cbn [dskip] in Ed.
              destruct (reset_ok _ _ (false, x) c H1) as (w1 & sv & E1 & _ & _ & Hc); [by rewrite H2|]. rewrite E1 in Ed. cbn in Ed. injection Ed as <- <-. cbn. rewrite Hc. eexists. split; [done|]. destruct (sv_cust sv) as [g|]; [|by left].
              right. exists g, c. split; [done|]. left. by exists x.
        -- destruct K as (l & t & c & -> & Hc & Hb). destruct l as [[] x]; [done|]. cbn. exists c. by rewrite <- H2.
      * destruct p as [| | | | |[[] x] t| | |]; try done. intros (c & Hc & Hb). cbn [dstep]. rewrite L, bool_decide_true by eauto. pose proof (from_string_ok _ _ (false, x) c t H1) as F. rewrite H2 in F. specialize (F Hc).
        destruct Hb as [->|(v & -> & Hf)]; [by rewrite F|]. rewrite Hf in F. by rewrite F.
    + split; [|destruct p as [| | | | |[[] x] t| | |]; try done]. exists M. split; [done|]. split; [|by apply Nil]. destruct p as [| | | | |[[] x] t| | |]; done.
  - destruct (add_ok multi k v f w s M H) as (w' & M' & -> & K & C). split; [|done]. exists M'. split; [done|]. split; [done|]. by apply Nil.
  - rewrite L. destruct (st_vars s !! (false, x)) as [c|] eqn:Ec.
    + rewrite bool_decide_true by eauto. destruct (emplace_ok multi k x c w s M H Ec) as (w' & M' & -> & K & C). split; [|done]. exists M'. split; [done|]. split; [done|]. by apply Nil.
    + split; [|done]. exists M. split; [done|]. split; [done|]. by apply Nil.
  - unfold c_set. pose proof (find_chosen _ _ _ ch k H) as F. destruct (c_find ch k w) as [n|], (chosen ch k (st_nodes s)) as [i|]; try done.
    + destruct F as (c & Hi & Hsi & Hm). destruct (set_ok _ _ (true, n) c v f H1 Hm) as (d & -> & Hd & C). cbn [mbind option_bind cunit]. split; [|done]. eexists. split; [by eapply cok_set_node|]. split; [done|]. by apply Nil.
    + destruct (add_ok multi k v f w s M H) as (w' & M' & -> & K & C). split; [|done]. exists M'. split; [done|]. split; [done|]. by apply Nil.
  - rewrite L. destruct (st_vars s !! (false, x)) as [c|] eqn:Ec.
    + rewrite bool_decide_true by eauto. unfold c_set_saver. pose proof (find_chosen _ _ _ ch k H) as F. destruct (c_find ch k w) as [n|], (chosen ch k (st_nodes s)) as [i|]; try done.
      * destruct F as (c' & Hi & Hsi & Hm). destruct (assign_ok _ _ (true, n) (false, x) c' c H1 Hm) as (d & -> & Hd & C); [by rewrite H2|]. cbn [mbind option_bind cunit]. split; [|done]. eexists. split; [by eapply cok_set_node|]. split; [done|]. by apply Nil.
      * destruct (emplace_ok multi k x c w s M H Ec) as (w' & M' & -> & K & C). split; [|done]. exists M'. split; [done|]. split; [done|]. by apply Nil.
    + split; [|done]. exists M. split; [done|]. split; [done|]. by apply Nil.
  - unfold c_from_string. pose proof (find_chosen _ _ _ ch k H) as F. destruct (c_find ch k w) as [n|], (chosen ch k (st_nodes s)) as [i|] eqn:Ech; try done.
    + destruct F as (c & Hi & Hsi & Hm). rewrite Hsi. pose proof (from_string_ok _ _ (true, n) c t H1 Hm) as G. cbn [undefined_op]. rewrite Ech. split.
      * destruct c as [v|]; [|rewrite G; exists i, None; split_and!; try done; by left]. destruct (from_string (vty v) t) as [v'| |] eqn:Ef.
        -- destruct G as (d & -> & Hd & C); [by eapply from_string_vty|]. cbn [mbind option_bind]. eexists. split; [unfold read_text; rewrite Ef; by eapply cok_set_node|]. split; [cbn; by rewrite Ef|by apply Nil].
        -- rewrite G. cbn [mbind option_bind]. exists M. split; [|split; [cbn; by rewrite Ef|by apply Nil]]. unfold read_text. rewrite Ef. unfold set_node. rewrite list_insert_id by done. by destruct w, s.
        -- rewrite G. cbn. exists i, (Some v). split_and!; try done. right. by exists v.
      * intros (i' & c' & [= <-] & Hc' & Hb). rewrite Hsi in Hc'. injection Hc' as <-. destruct Hb as [->|(v & -> & Hf)]; [by rewrite G|]. rewrite Hf in G. by rewrite G.
    + split; [|cbn; intros (i & c & Hi & _); congruence]. cbn. exists M. split; [done|]. split; [done|]. by apply Nil.
  - rewrite L. destruct (st_vars s !! (false, x)) as [c|] eqn:Ec; cbn [mbind option_bind].
    + rewrite bool_decide_true by eauto. unfold c_get_saver. pose proof (find_chosen _ _ _ ch k H) as F. destruct (c_find ch k w) as [n|], (chosen ch k (st_nodes s)) as [i|]; try done.
      * destruct F as (c' & Hi & Hsi & Hm). rewrite Hsi. destruct (assign_ok _ _ (false, x) (true, n) c c' H1) as (d & -> & Hd & C); [by rewrite H2|done|]. cbn [mbind option_bind]. split; [|done]. eexists. split; [by eapply cok_set_var|]. split; [|by apply Nil].
        rewrite bool_decide_true; [done|]. apply elem_of_list_fmap. exists (k, c'). split; [done|]. by eapply elem_of_list_lookup_2.
      * cbn [mbind option_bind]. split; [|done]. exists M. split; [done|]. split; [|by apply Nil]. by rewrite bool_decide_false.
    + split; [|done]. exists M. split; [done|]. split; [done|]. by apply Nil.
  - destruct (erase_ok ch k w s M H) as (w' & M' & -> & K & l & C & Hl). cbn [cunit mbind option_bind]. split; [|done]. exists M'. split; [done|]. split; [done|]. exists l. split; [done|].
    destruct (chosen ch k (st_nodes s)) as [i|] eqn:Ech; [|by left]. destruct Hl as [->|(f & c & Hi & ->)]; [by left|]. right. exists f, c. split; [done|]. right. exists ch, k. split; [done|]. unfold found. rewrite Ech. cbn. by rewrite Hi.
  - destruct (clear_ok w s M H) as (w' & M' & -> & K & C). split; [|done]. exists M'. split; [done|]. split; [done|]. by apply Nil.
Qed.
Lemma crun_ok multi ps w s M w' : cok w s M -> crun multi w ps = Some w' -> exists M', cok w' (foldl (store_step multi) s ps) M'.
Proof.
  revert w s M. induction ps as [|p ps IH]; intros w s M H; cbn [crun foldl]; [intros [= <-]; eauto|]. destruct (cstep_ok multi w s M p H) as [K _]. destruct (cstep multi w p) as [[w1 b]|]; [|done].
  cbn [mbind option_bind]. destruct K as (M' & K & _). intros E. by eapply IH.
Qed.
Lemma crun_init multi ps w : crun multi c_init ps = Some w -> exists M, cok w (store_after multi ps) M.
Proof. apply crun_ok with (M := ∅), cok_init. Qed.

Lemma dok_answers w M l c : dok w M -> M !! l = Some c -> answers w l c.
Proof.
  intros E Hc. pose proof (dk_vars _ _ E l) as K. rewrite Hc in K. destruct (d_vars w !! l) as [s|] eqn:Es; [|done].
  unfold answers, saver_get, saver_str, saver_type. rewrite Es. cbn [mbind option_bind]. destruct c as [v|]; cbn in K.
  - destruct K as (p & K1 & K2 & K3 & K4 & K5 & K6 & K7). rewrite K1, K3, K6. split; [|split; [by rewrite (d_read_ok _ _ _ K2)|done]]. intros t. destruct (decide (vty v = t)) as [<-|Hne].
    + rewrite decide_False by (by intros ?). by rewrite (d_read_ok _ _ _ K2).
    + rewrite decide_True; [done|congruence].
  - intros t. rewrite K. by destruct (decide _).
Qed.
Lemma answers_get w l c t : answers w l c -> saver_get l t w = Some (typed_value t c).
Proof. destruct c as [v|]; cbn; [intros (A & _); rewrite A; unfold typed_value; cbn; by destruct (decide _)|intros A; by rewrite A]. Qed.
Lemma answers_str w l v : answers w l (Some v) -> saver_str l w = Some (to_string v).
Proof. by intros (_ & A & _). Qed.
Lemma found_node ch k w s M : cok w s M ->
  match c_find ch k w with Some n => exists c, found ch k s = Some c /\ answers (c_d w) (true, n) c | None => found ch k s = None /\ k ∉ (st_nodes s).*1 end /\ (is_Some (found ch k s) <-> k ∈ (st_nodes s).*1).
Proof.
  intros H. pose proof (find_chosen _ _ _ ch k H) as F. unfold found. destruct (c_find ch k w) as [n|], (chosen ch k (st_nodes s)) as [i|]; try done; cbn [mbind option_bind].
  - destruct F as (c & Hi & Hsi & Hm). rewrite Hsi. split; [exists c; split; [done|]; eapply dok_answers; [apply H|done]|]. split; [|by eexists]. intros _. apply elem_of_list_fmap. exists (k, c). split; [done|]. by eapply elem_of_list_lookup_2.
  - split; [done|]. split; [by intros [? ?]|done].
Qed.

(** C53: after every program the container holds exactly what the abstract store holds: the same number of elements, the same keys (with multiplicity), under each key the same values
    in the order of insertion, and GetData, GetDataAsString and IsData answer for the stored value the search picks; the DataSaver variables answer for their own contents. *)
Lemma t_C53_container_holds_what_was_stored :
  forall multi ps w, crun multi c_init ps = Some w -> let s := store_after multi ps in
    c_size w = length (st_nodes s) /\
    (forall k, c_is k w = bool_decide (k ∈ (st_nodes s).*1)) /\
    (forall k, Forall2 (fun n c => answers (c_d w) (true, n) c) (c_all k w) (contents_under k s)) /\
    (forall ch k t, c_get ch k t w = Some (match found ch k s with Some c => (true, typed_value t c) | None => (false, None) end)) /\
    (forall ch k, match found ch k s with Some (Some v) => c_str ch k w = Some (Some (to_string v)) | None => c_str ch k w = Some None | _ => True end) /\
    (forall ch k, is_Some (found ch k s) <-> k ∈ (st_nodes s).*1) /\
    (forall x, match st_vars s !! (false, x) with Some c => answers (c_d w) (false, x) c | None => d_vars (c_d w) !! (false, x) = None end).
Proof.
  intros multi ps w (M & H)%crun_init s. fold s in H. clearbody s. split; [|split; [|split; [|split; [|split; [|split]]]]].
  - unfold c_size. by eapply Forall2_length, H.
  - intros k. unfold c_is. by rewrite (cok_keys _ _ _ H).
  - intros k. unfold c_all, contents_under. pose proof (ck_nodes _ _ _ H) as F. pose proof (ck_d _ _ _ H) as Hd. induction F as [|[k1 n] [k2 c] l l' [E1 E2] _ IH]; [constructor|]. cbn in E1, E2. subst k2. rewrite !filter_cons. cbn [fst].
    destruct (decide (k1 = k)); [|done]. cbn. constructor; [|done]. by eapply dok_answers.
  - intros ch k t. unfold c_get. destruct (found_node ch k w s M H) as [F _]. destruct (c_find ch k w) as [n|]; [|by destruct F as [-> _]]. destruct F as (c & -> & A). by rewrite (answers_get _ _ _ t A).
  - intros ch k. unfold c_str. destruct (found_node ch k w s M H) as [F _]. destruct (c_find ch k w) as [n|]; [|by destruct F as [-> _]]. destruct F as (c & -> & A). destruct c as [v|]; [|done]. by rewrite (answers_str _ _ _ A).
  - intros ch k. by destruct (found_node ch k w s M H) as [_ F].
  - intros x. rewrite <- (ck_user _ _ _ H). destruct (M !! (false, x)) as [c|] eqn:Ec; [eapply dok_answers; [apply H|done]|eapply dok_dead; [apply H|done]].
Qed.
(** C53: the result of every operation: whether the text was read, whether the key was found. *)
Lemma t_C53_reports :
  forall multi ps w p w' b, crun multi c_init ps = Some w -> cstep multi w p = Some (w', b) -> b = reported (store_after multi ps) p.
Proof. intros multi ps w p w' b (M & H)%crun_init E. destruct (cstep_ok multi w _ M p H) as [K _]. rewrite E in K. by destruct K as (_ & _ & -> & _). Qed.
(** C53: the one way into undefined behaviour is SetDataFromString on an element or variable that is empty, or with a number that overflows its parser. *)
Lemma t_C53_undefined_iff :
  forall multi ps w p, crun multi c_init ps = Some w -> (cstep multi w p = None <-> undefined_op (store_after multi ps) p).
Proof. intros multi ps w p (M & H)%crun_init. destruct (cstep_ok multi w _ M p H) as [K1 K2]. split; [|done]. intros E. by rewrite E in K1. Qed.

(** C53: the containers own their values: each live heap cell belongs to exactly one DataSaver, which is a variable of the program or an element of the container; temporaries leave nothing behind. *)
Lemma t_C53_each_cell_has_one_owner :
  forall multi ps w, crun multi c_init ps = Some w ->
    (forall p, is_Some (d_cells (c_d w) !! p) <-> exists l, owns (c_d w) l p) /\ (forall p l l', owns (c_d w) l p -> owns (c_d w) l' p -> l = l') /\
    (forall n, is_Some (d_vars (c_d w) !! (true, n)) <-> n ∈ (c_nodes w).*2) /\ NoDup (c_nodes w).*2 /\
    (c_nodes w = [] -> (forall x, d_vars (c_d w) !! (false, x) = None) -> d_cells (c_d w) = ∅).
Proof.
  intros multi ps w (M & H)%crun_init. pose proof (ck_d _ _ _ H) as E.
  assert (A : forall p, is_Some (d_cells (c_d w) !! p) <-> exists l, owns (c_d w) l p).
  { intros p. split; [intros [v Hv]; by eapply (dk_own _ _ E)|]. intros (l & s & Hs & Hp). pose proof (dk_vars _ _ E l) as K. rewrite Hs in K. destruct (M !! l) as [[v|]|]; try done; cbn in K; [|congruence].
    destruct K as (q & K1 & K2 & _). assert (q = p) as -> by congruence. eauto. }
  assert (B : forall n, is_Some (d_vars (c_d w) !! (true, n)) <-> n ∈ (c_nodes w).*2).
  { intros n. rewrite (dok_dom _ _ _ E). split; [apply (ck_dom _ _ _ H)|]. intros ([k n'] & -> & Hin)%elem_of_list_fmap. apply elem_of_list_lookup in Hin as [i Hi]. destruct (cok_node _ _ _ _ _ _ H Hi) as (c & _ & Hm). cbn. by exists c. }
  split; [done|]. split; [intros p l l'; apply (dk_inj _ _ E)|]. split; [done|]. split; [apply H|]. intros Hn Hv. apply map_empty. intros p. apply eq_None_not_Some. rewrite A. intros ([[] n] & s & Hs & _).
  - assert (n ∈ (c_nodes w).*2) as Hin by (apply B; by exists s). rewrite Hn in Hin. by apply elem_of_nil in Hin.
  - by rewrite Hv in Hs.
Qed.
(** C53: custom delete functions are called by ResetData and EraseData only, at most once per call and with the value being removed: not by Clear, by replacing a value or by destroying one. *)
Lemma t_C53_custom_deleters :
  forall multi ps w p w' b, crun multi c_init ps = Some w -> cstep multi w p = Some (w', b) -> let s := store_after multi ps in
    d_calls (c_d w') = d_calls (c_d w) \/
    exists f c, d_calls (c_d w') = d_calls (c_d w) ++ [(f, c)] /\
      ((exists x, p = CVar (DReset (false, x)) /\ st_vars s !! (false, x) = Some c) \/ (exists ch k, p = CErase ch k /\ found ch k s = Some c)).
Proof.
  intros multi ps w p w' b (M & H)%crun_init E s. fold s in H. destruct (cstep_ok multi w s M p H) as [K _]. rewrite E in K. destruct K as (_ & _ & _ & l & C & Hl). rewrite C.
  destruct Hl as [->|(f & c & -> & Hl)]; [left; apply app_nil_r|right; by exists f, c].
Qed.
Lemma positions_elem j i k ks : j ∈ positions_from i k ks <-> exists d, j = i + d /\ ks !! d = Some k.
Proof.
  revert i. induction ks as [|x ks IH]; intros i; cbn [positions_from].
  - split; [intros Hj; by apply elem_of_nil in Hj|]. intros (d & _ & Hd). by rewrite lookup_nil in Hd.
  - destruct (decide (x = k)) as [->|Hne].
    + rewrite elem_of_cons, IH. split.
      * intros [->|(d & -> & Hd)]; [exists 0; split; [lia|done]|exists (S d); split; [lia|done]].
      * intros ([|d] & -> & Hd); [left; lia|right; exists d; split; [lia|done]].
    + rewrite IH. split; [intros (d & -> & Hd); exists (S d); split; [lia|done]|]. intros ([|d] & -> & Hd); [cbn in Hd; congruence|]. exists d. split; [lia|done].
Qed.
Lemma chosen_spec ch k l : match chosen ch k l with Some i => exists c, l !! i = Some (k, c) | None => k ∉ l.*1 end.
Proof.
  unfold chosen. destruct (positions k l !! _) as [i|] eqn:E.
  - apply elem_of_list_lookup_2, positions_elem in E as (d & -> & Hd). cbn. rewrite list_lookup_fmap in Hd. destruct (l !! d) as [[k' c]|]; [|done]. injection Hd as ->. eauto.
  - intros Hk. apply elem_of_list_lookup in Hk as [d Hd]. assert (Hp : d ∈ positions k l) by (apply positions_elem; by exists d). destruct (positions k l) as [|q qs] eqn:Eq; [by apply elem_of_nil in Hp|].
    apply lookup_ge_None in E. pose proof (Nat.mod_upper_bound ch (length (q :: qs))) as B. cbn in E, B. lia.
Qed.
Lemma drop_frame s d d' : d_drop s d = Some d' -> d_vars d' = d_vars d /\ d_calls d' = d_calls d.
Proof. unfold d_drop, d_free. destruct (sv_ptr s) as [p|]; [|by intros [= <-]]. destruct (d_read _ _ _); [|done]. cbn. by intros [= <-]. Qed.
Lemma set_cust l v f d d' : saver_set l v f d = Some d' -> exists s, d_vars d' !! l = Some s /\ sv_cust s = f.
Proof. unfold saver_set. destruct (d_vars d !! l); [|done]. cbn [mbind option_bind]. destruct (d_drop _ _); [|done]. cbn. intros [= <-]. cbn. rewrite lookup_insert. by eexists. Qed.
Lemma copy_cust l m s d d' : l <> m -> d_vars d !! m = Some s -> is_Some (sv_ptr s) -> saver_copy l m d = Some d' ->
  exists s', d_vars d' !! l = Some s' /\ sv_cust s' = sv_cust s.
Proof.
  intros Hne Hs [p Hp] E. unfold saver_copy, saver_assign in E. rewrite decide_False in E by done. cbn [d_put d_vars] in E. rewrite lookup_insert, lookup_insert_ne, Hs in E by done. cbn [mbind option_bind] in E.
  destruct (d_drop _ _); [|done]. cbn [mbind option_bind] in E. rewrite Hp in E. destruct (d_read _ _ _); [|done]. cbn in E. injection E as <-. cbn. rewrite lookup_insert. by eexists.
Qed.
Lemma delete_frame l d d' : saver_delete l d = Some d' -> d_vars d' = delete l (d_vars d).
Proof. unfold saver_delete. destruct (d_vars d !! l); [|done]. cbn [mbind option_bind]. destruct (d_drop _ _) eqn:E; [|done]. cbn. intros [= <-]. cbn. apply drop_frame in E as [-> _]. done. Qed.
Lemma erase_calls multi ch k w s M n sv c w' b : cok w s M -> c_find ch k w = Some n -> d_vars (c_d w) !! (true, n) = Some sv -> M !! (true, n) = Some c ->
  cstep multi w (CErase ch k) = Some (w', b) -> d_calls (c_d w') = d_calls (c_d w) ++ match sv_cust sv with Some f => [(f, c)] | None => [] end.
Proof.
  intros H Hf Hs Hc E. cbn [cstep] in E. unfold c_erase in E. rewrite Hf in E. destruct (reset_ok _ _ (true, n) c (ck_d _ _ _ H) Hc) as (d1 & s1 & E1 & H1 & Hs1 & C1). rewrite E1 in E. cbn [mbind option_bind] in E.
  destruct (delete_ok d1 _ (true, n) None H1) as (d2 & E2 & _ & C2); [by rewrite lookup_insert|]. rewrite E2 in E. cbn in E. injection E as <- <-. cbn. rewrite C2, C1. by pose proof (eq_trans (eq_sym Hs1) Hs) as [= ->].
Qed.
Lemma set_find multi ch k v f w s M w1 b : cok w s M -> cstep multi w (CSet ch k v f) = Some (w1, b) ->
  exists n sv, c_find ch k w1 = Some n /\ d_vars (c_d w1) !! (true, n) = Some sv /\ sv_cust sv = f.
Proof.
  intros H E. cbn [cstep] in E. unfold c_set in E. destruct (c_find ch k w) as [n|] eqn:Ef.
  - destruct (saver_set _ _ _ _) as [d|] eqn:Ed; [|done]. cbn in E. injection E as <- <-. destruct (set_cust _ _ _ _ _ Ed) as (sv & Hs & Hc). by exists n, sv.
  - pose proof (find_chosen _ _ _ ch k H) as F. rewrite Ef in F. destruct (chosen ch k (st_nodes s)); [done|].
    assert (Hk : k ∉ (c_nodes w).*1) by by rewrite (cok_keys _ _ _ H).
    unfold c_add in E. destruct (saver_make _ _ _ _) as [d|] eqn:Em; [|done]. cbn [mbind option_bind cunit] in E. unfold c_emplace in E. cbn [c_node c_d c_nodes] in E.
    destruct (saver_copy _ _ _) as [d2|] eqn:Ec; [|done]. cbn [mbind option_bind] in E. rewrite (bool_decide_false (k ∈ _)), andb_false_r in E by done. cbn [mbind option_bind c_d] in E.
    destruct (saver_delete _ _) as [d3|] eqn:Ed; [|done]. cbn in E. injection E as <- <-. cbn [with_d c_d c_nodes].
    assert (Hm : exists s1, d_vars d !! (true, c_node w) = Some s1 /\ sv_cust s1 = f /\ is_Some (sv_ptr s1)).
    { unfold saver_make, saver_set in Em. destruct (d_vars _ !! _); [|done]. cbn [mbind option_bind] in Em. destruct (d_drop _ _); [|done]. cbn in Em. injection Em as <-. cbn. rewrite lookup_insert. by eexists. }
    destruct Hm as (s1 & Hs1 & <- & Hp). destruct (copy_cust (true, S (c_node w)) (true, c_node w) s1 d d2) as (s2 & Hs2 & Hc2); [intros [= ?]; lia|done|done|done|].
    exists (S (c_node w)), s2. split; [|split; [|done]].
    + unfold c_find. cbn [c_nodes with_d].
      assert (filter (fun e : string * nat => e.1 = k) (c_nodes w ++ [(k, S (c_node w))]) = filter (fun e : string * nat => e.1 = k) (c_nodes w) ++ filter (fun e : string * nat => e.1 = k) [(k, S (c_node w))]) as -> by apply filter_app. assert (filter (fun e : string * nat => e.1 = k) (c_nodes w) = []) as ->.
      { destruct (filter _ (c_nodes w)) as [|y l'] eqn:Eq; [done|]. exfalso. assert (Hy : y ∈ filter (fun e : string * nat => e.1 = k) (c_nodes w)) by (rewrite Eq; left). apply elem_of_list_filter in Hy as [Hy Hin]. apply Hk, elem_of_list_fmap. by exists y. }
      rewrite filter_cons. cbn [fst]. rewrite decide_True by done. rewrite filter_nil. cbn [fmap list_fmap length app snd]. by rewrite Nat.mod_1_r.
    + rewrite (delete_frame _ _ _ Ed), lookup_delete_ne; [done|]. intros [= ?]. lia.
Qed.
(** C53: EraseData after SetData (with the same key, on the element that SetData wrote) calls the custom delete function given to SetData exactly once, with the value stored, and calls none if none was given. *)
Lemma t_C53_set_then_erase :
  forall multi ps w ch k v f w1 b1 w2 b2, crun multi c_init ps = Some w ->
    cstep multi w (CSet ch k v f) = Some (w1, b1) -> cstep multi w1 (CErase ch k) = Some (w2, b2) ->
    d_calls (c_d w2) = d_calls (c_d w) ++ match f with Some f => [(f, Some v)] | None => [] end.
Proof.
  intros multi ps w ch k v f w1 b1 w2 b2 (M & H)%crun_init E1 E2. destruct (set_find _ _ _ _ _ _ _ _ _ _ H E1) as (n & sv & Hf & Hs & <-).
  destruct (cstep_ok multi w _ M (CSet ch k v (sv_cust sv)) H) as [K _]. rewrite E1 in K. destruct K as (M1 & H1 & _ & l & C1 & Hl).
  assert (l = []) as ->. { destruct Hl as [->|(g & c & _ & [(x & Hx & _)|(ch' & k' & Hx & _)])]; done. }
  rewrite app_nil_r in C1. pose proof (find_chosen _ _ _ ch k H1) as F. rewrite Hf in F. cbn [store_step] in F, H1. destruct (chosen ch k (st_nodes (match chosen ch k _ with Some i => _ | None => _ end))) as [j|] eqn:Ej; [|done].
  destruct F as (c & Hj & Hsj & Hm). rewrite (erase_calls _ _ _ _ _ _ _ _ _ _ _ H1 Hf Hs Hm E2), C1. f_equal. destruct (sv_cust sv) as [g|]; [|done].
  assert (c = Some v) as ->; [|done]. clear - Hsj Ej. set (s := store_after multi ps) in *. clearbody s. destruct (chosen ch k (st_nodes s)) as [i|] eqn:Ei.
  - cbn [set_node st_nodes] in *. pose proof (chosen_spec ch k (st_nodes s)) as C. rewrite Ei in C. destruct C as [a Ha]. unfold chosen, positions in Ej, Ei. rewrite list_fmap_insert in Ej. cbn [fst] in Ej.
    rewrite list_insert_id in Ej by (by rewrite list_lookup_fmap, Ha). assert (j = i) as -> by congruence. rewrite list_lookup_insert in Hsj by (by eapply lookup_lt_Some). congruence.
  - pose proof (chosen_spec ch k (st_nodes s)) as C. rewrite Ei in C. unfold add_node in *. rewrite (bool_decide_false (k ∈ _)), andb_false_r in Hsj by done. rewrite (bool_decide_false (k ∈ _)), andb_false_r in Ej by done.
    cbn [st_nodes] in *. apply elem_of_list_lookup_2, elem_of_app in Hsj as [Hin|Hin%elem_of_list_singleton]; [|congruence]. exfalso. apply C, elem_of_list_fmap. by exists (k, c).
Qed.

(** The containers with unique keys as maps. *)
Definition tomap (l : list (string * option value)) : gmap string (option value) := list_to_map l.
Lemma tomap_insert l i k a c : NoDup l.*1 -> l !! i = Some (k, a) -> tomap (<[i := (k, c)]> l) = <[k := c]> (tomap l).
Proof.
  revert i. induction l as [|[x b] l IH]; intros [|i] Hnd Hi; cbn in *; try done; apply NoDup_cons in Hnd as [Hx Hnd].
  - injection Hi as -> ->. by rewrite insert_insert.
  - rewrite <- (insert_commute (M := gmap string)); [|intros ->; apply Hx, elem_of_list_fmap; exists (k, a); split; [done|]; by eapply elem_of_list_lookup_2]. f_equal. by apply IH.
Qed.
Lemma tomap_delete l i k a : NoDup l.*1 -> l !! i = Some (k, a) -> tomap (delete i l) = delete k (tomap l).
Proof.
  revert i. induction l as [|[x b] l IH]; intros [|i] Hnd Hi; cbn in *; try done; apply NoDup_cons in Hnd as [Hx Hnd].
  - injection Hi as -> ->. rewrite delete_insert; [done|]. by apply not_elem_of_list_to_map.
  - rewrite delete_insert_ne; [f_equal; by apply IH|]. intros ->. apply Hx, elem_of_list_fmap. exists (x, a). split; [done|]. by eapply elem_of_list_lookup_2.
Qed.
Record mok (s : store) (m : mstore) : Prop := Mok { mk_nd : NoDup (st_nodes s).*1; mk_map : ms_map m = tomap (st_nodes s); mk_vars : ms_vars m = st_vars s }.
Lemma mok_look s m k : mok s m -> is_Some (ms_map m !! k) <-> k ∈ (st_nodes s).*1.
Proof.
  intros [H1 H2 H3]. rewrite H2. unfold tomap. split.
  - intros [c Hc]. apply elem_of_list_to_map_2 in Hc. apply elem_of_list_fmap. by exists (k, c).
  - intros ([k' c] & -> & Hin)%elem_of_list_fmap. exists c. by apply elem_of_list_to_map_1.
Qed.
Lemma mok_at s m i k c : mok s m -> st_nodes s !! i = Some (k, c) -> ms_map m !! k = Some c.
Proof. intros [H1 H2 H3] Hi. rewrite H2. apply elem_of_list_to_map_1; [done|]. by eapply elem_of_list_lookup_2. Qed.
Lemma mok_add s m k c : mok s m -> mok (add_node false k c s) (if decide (is_Some (ms_map m !! k)) then m else MStore (<[k := c]> (ms_map m)) (ms_vars m)).
Proof.
  intros H. unfold add_node. cbn [negb andb]. destruct (decide (is_Some (ms_map m !! k))) as [E|E]; rewrite (mok_look s m k H) in E.
  - by rewrite bool_decide_true.
  - rewrite bool_decide_false by done. destruct H as [H1 H2 H3]. split; cbn; [|rewrite H2; unfold tomap; by rewrite list_to_map_snoc|done].
    rewrite fmap_app. apply NoDup_app. split; [done|]. split; [|apply NoDup_singleton]. by intros x Hx ->%elem_of_list_singleton.
Qed.
Lemma mok_set s m i k a c : mok s m -> st_nodes s !! i = Some (k, a) -> mok (set_node i k c s) (MStore (<[k := c]> (ms_map m)) (ms_vars m)).
Proof.
  intros [H1 H2 H3] Hi. split; cbn; [|rewrite H2; symmetry; by eapply tomap_insert|done]. rewrite list_fmap_insert. cbn. rewrite list_insert_id; [done|]. by rewrite list_lookup_fmap, Hi.
Qed.
Lemma mok_vars s m V : mok s m -> mok (Store (st_nodes s) V) (MStore (ms_map m) V).
Proof. intros [H1 H2 H3]. by split. Qed.
Lemma mstep_ok s m p : mok s m -> mok (store_step false s p) (map_step m p).
Proof.
  intros H. pose proof H as [H1 H2 H3]. assert (N : forall ch k, chosen ch k (st_nodes s) = None -> ms_map m !! k = None).
  { intros ch k E. pose proof (chosen_spec ch k (st_nodes s)) as C. rewrite E in C. apply eq_None_not_Some. by rewrite (mok_look _ _ _ H). }
  destruct p as [p|k v f|k x|ch k v f|ch k x|ch k t|ch k x|ch k|]; cbn [store_step map_step]; rewrite ?H3.
  - destruct (user_op p); [by apply mok_vars|done].
  - rewrite <- H3. by apply mok_add.
  - destruct (st_vars s !! _) as [c|]; [rewrite <- H3; by apply mok_add|done].
  - rewrite <- H3. pose proof (chosen_spec ch k (st_nodes s)) as C. destruct (chosen ch k (st_nodes s)) as [i|] eqn:E; [destruct C as [a Ha]; by eapply mok_set|].
    pose proof (mok_add s m k (Some v) H) as A. rewrite decide_False in A; [done|]. rewrite (N ch k E). by intros [? ?].
  - destruct (st_vars s !! _) as [c|]; [|done]. rewrite <- H3. pose proof (chosen_spec ch k (st_nodes s)) as C. destruct (chosen ch k (st_nodes s)) as [i|] eqn:E; [destruct C as [a Ha]; by eapply mok_set|].
    pose proof (mok_add s m k c H) as A. rewrite decide_False in A; [done|]. rewrite (N ch k E). by intros [? ?].
  - rewrite <- H3. pose proof (chosen_spec ch k (st_nodes s)) as C. destruct (chosen ch k (st_nodes s)) as [i|] eqn:E; [destruct C as [a Ha]|by rewrite (N ch k E)]. rewrite Ha, (mok_at _ _ _ _ _ H Ha). destruct a as [v|]; [by eapply mok_set|done].
  - destruct (st_vars s !! _) as [c|]; [|done]. pose proof (chosen_spec ch k (st_nodes s)) as C. destruct (chosen ch k (st_nodes s)) as [i|] eqn:E; [destruct C as [a Ha]|by rewrite (N ch k E)]. rewrite Ha, (mok_at _ _ _ _ _ H Ha). by apply mok_vars.
  - rewrite <- H3. pose proof (chosen_spec ch k (st_nodes s)) as C. destruct (chosen ch k (st_nodes s)) as [i|] eqn:E; [destruct C as [a Ha]|].
    + split; cbn; [|rewrite H2; symmetry; by eapply tomap_delete|done]. eapply sublist_NoDup'; [|exact H1]. apply fmap_sublist, sublist_delete.
    + rewrite delete_notin by (by eapply N). by destruct m.
  - split; cbn; [constructor|done|done].
Qed.
Lemma mafter_ok ps : mok (store_after false ps) (map_after ps).
Proof.
  unfold store_after, map_after. assert (forall s m, mok s m -> mok (foldl (store_step false) s ps) (foldl map_step m ps)) as G.
  { induction ps as [|p ps IH]; intros s m H; [done|]. cbn [foldl]. by apply IH, mstep_ok. }
  apply G. split; cbn; [constructor|done|done].
Qed.
(** C53: DataHashMap and DataMap are maps: AddData keeps the value a key has, SetData replaces or adds, EraseData removes, Clear empties; Size is the number of keys and
    GetData, GetDataAsString and IsData answer for the value the key maps to. *)
Lemma t_C53_unique_containers_are_maps :
  forall ps w, crun false c_init ps = Some w -> let m := ms_map (map_after ps) in
    c_size w = size m /\
    (forall k, c_is k w = bool_decide (is_Some (m !! k))) /\
    (forall ch k t, c_get ch k t w = Some (match m !! k with Some c => (true, typed_value t c) | None => (false, None) end)) /\
    (forall ch k, match m !! k with Some (Some v) => c_str ch k w = Some (Some (to_string v)) | None => c_str ch k w = Some None | _ => True end) /\
    (forall k, match m !! k with Some c => exists n, c_all k w = [n] /\ answers (c_d w) (true, n) c | None => c_all k w = [] end) /\
    (forall x, match ms_vars (map_after ps) !! (false, x) with Some c => answers (c_d w) (false, x) c | None => d_vars (c_d w) !! (false, x) = None end).
Proof.
  intros ps w E m. subst m. destruct (t_C53_container_holds_what_was_stored _ _ _ E) as (A1 & A2 & A3 & A4 & A5 & A6 & A7). pose proof (mafter_ok ps) as H. set (s := store_after false ps) in *. set (m := map_after ps) in *. clearbody s m.
  assert (F : forall ch k, found ch k s = ms_map m !! k).
  { intros ch k. unfold found. pose proof (chosen_spec ch k (st_nodes s)) as C. destruct (chosen ch k (st_nodes s)) as [i|]; cbn [mbind option_bind].
    - destruct C as [c Hc]. rewrite Hc. cbn. symmetry. by eapply mok_at.
    - symmetry. apply eq_None_not_Some. by rewrite (mok_look _ _ _ H). }
  split; [|split; [|split; [|split; [|split]]]].
  - rewrite A1, (mk_map _ _ H). unfold tomap, size, map_size. pose proof (map_to_list_to_map (M := gmap string) (st_nodes s) (mk_nd _ _ H)) as P. by rewrite P.
  - intros k. rewrite A2. apply bool_decide_ext. symmetry. by apply mok_look.
  - intros ch k t. rewrite A4. by rewrite F.
  - intros ch k. specialize (A5 ch k). by rewrite F in A5.
  - intros k. specialize (A3 k). assert (U : contents_under k s = match ms_map m !! k with Some c => [c] | None => [] end).
    { unfold contents_under. rewrite (mk_map _ _ H). pose proof (mk_nd _ _ H) as Hnd. clear - Hnd. induction (st_nodes s) as [|[x c] l IH]; [done|]. cbn in Hnd. apply NoDup_cons in Hnd as [Hx Hnd]. rewrite filter_cons. cbn [fst tomap list_to_map]. specialize (IH Hnd).
      destruct (decide (x = k)) as [->|Hne]; [|unfold tomap; cbn; by rewrite lookup_insert_ne]. unfold tomap. cbn. rewrite lookup_insert. assert (filter (fun e : string * option value => e.1 = k) l = []) as ->; [|done].
      destruct (filter _ l) as [|y l'] eqn:Ef; [done|]. exfalso. assert (Hy : y ∈ filter (fun e : string * option value => e.1 = k) l) by (rewrite Ef; left). apply elem_of_list_filter in Hy as [Hy Hin]. apply Hx, elem_of_list_fmap. by exists y. }
    rewrite U in A3. destruct (ms_map m !! k) as [c|].
    + inversion A3 as [|n ? l ? P Q]; subst. inversion Q; subst. by exists n.
    + by inversion A3.
  - intros x. specialize (A7 x). by rewrite (mk_vars _ _ H).
Qed.
