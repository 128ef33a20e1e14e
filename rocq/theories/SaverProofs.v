(** Lemmas about DataSaver. *)
From Verif Require Export SaverSpec.
Open Scope nat_scope.

Definition saver_ok (cells : gmap nat value) (s : saver) (c : option value) : Prop :=
  match c with
  | None => sv_ptr s = None
  | Some v => exists p, sv_ptr s = Some p /\ cells !! p = Some v /\ sv_type s = Some (vty v) /\ sv_copy s = Some (vty v) /\ sv_del s = Some (vty v) /\ sv_str s = Some (vty v) /\ sv_from s = Some (vty v)
  end.
Record dok (w : dworld) (m : contents) : Prop := Dok {
  dk_vars : forall l, match d_vars w !! l, m !! l with Some s, Some c => saver_ok (d_cells w) s c | None, None => True | _, _ => False end;
  dk_inj : forall l l' p, owns w l p -> owns w l' p -> l = l';
  dk_own : forall p v, d_cells w !! p = Some v -> exists l, owns w l p;
  dk_next : forall p v, d_cells w !! p = Some v -> p < d_next w
}.
Lemma dok_init : dok d_init ∅.
Proof. split; [intros l; cbn; by rewrite !lookup_empty|intros l l' p (s & H & _); cbn in H; by rewrite lookup_empty in H|intros p v H; cbn in H; by rewrite lookup_empty in H..]. Qed.
Lemma dok_live w m l c : dok w m -> m !! l = Some c -> exists s, d_vars w !! l = Some s /\ saver_ok (d_cells w) s c.
Proof. intros H Hl. pose proof (dk_vars _ _ H l) as K. rewrite Hl in K. destruct (d_vars w !! l) as [s|]; [eauto|done]. Qed.
Lemma dok_dead w m l : dok w m -> m !! l = None -> d_vars w !! l = None.
Proof. intros H Hl. pose proof (dk_vars _ _ H l) as K. rewrite Hl in K. by destruct (d_vars w !! l). Qed.
Lemma dok_dom w m l : dok w m -> is_Some (d_vars w !! l) <-> is_Some (m !! l).
Proof.
  intros H. pose proof (dk_vars _ _ H l) as K. destruct (d_vars w !! l), (m !! l); try done; (split; [|]; intros [? ?]; try done; eauto).
Qed.
Lemma dok_lives w m l : dok w m -> lives w l = bool_decide (is_Some (m !! l)).
Proof. intros H. unfold lives. apply bool_decide_ext, (dok_dom _ _ _ H). Qed.
Lemma dok_calls w m c : dok w m -> dok (DWorld (d_cells w) (d_next w) (d_vars w) c) m.
Proof. intros [H1 H2 H3 H4]. split; cbn; try done. Qed.

(** [l]'s cell was freed, or it has none. *)
Definition vacated (w : dworld) (l : loc) (w1 : dworld) : Prop :=
  d_vars w1 = d_vars w /\ d_next w1 = d_next w /\ d_calls w1 = d_calls w /\ (forall p v, d_cells w1 !! p = Some v <-> d_cells w !! p = Some v /\ ~ owns w l p).
Lemma vacated_dead w l : d_vars w !! l = None -> vacated w l w.
Proof. intros H. split; [done|]. split; [done|]. split; [done|]. intros p v. split; [intros K; split; [done|]; intros (s & Hs & _); congruence|by intros [? _]]. Qed.
Lemma d_read_ok w p v : d_cells w !! p = Some v -> d_read (Some (vty v)) (Some p) w = Some v.
Proof. intros H. unfold d_read. cbn [mbind option_bind]. rewrite H. cbn [mbind option_bind]. by rewrite decide_True. Qed.
Lemma drop_ok w m l s c : dok w m -> d_vars w !! l = Some s -> m !! l = Some c -> exists w1, d_drop s w = Some w1 /\ vacated w l w1.
Proof.
  intros H Hs Hc. pose proof (dk_vars _ _ H l) as K. rewrite Hs, Hc in K. unfold d_drop. destruct c as [v|]; cbn in K.
  - destruct K as (p & K1 & K2 & K3 & K4 & K5 & K6 & K7). rewrite K1, K5. unfold d_free. rewrite (d_read_ok _ _ _ K2). cbn [mbind option_bind].
    eexists. split; [done|]. split; [done|]. split; [done|]. split; [done|]. intros q u. cbn. rewrite lookup_delete_Some. split.
    + intros [H1 H2]. split; [done|]. intros (s' & Hs' & Hp'). congruence.
    + intros [H1 H2]. split; [|done]. intros <-. apply H2. exists s. done.
  - rewrite K. exists w. split; [done|]. split; [done|]. split; [done|]. split; [done|]. intros p v. split; [intros Hp; split; [done|]|by intros [? _]]. intros (s' & Hs' & Hp'). congruence.
Qed.

Lemma put_none w m l w1 s' : dok w m -> vacated w l w1 -> sv_ptr s' = None -> dok (d_put l s' w1) (<[l := None]> m).
Proof.
  intros H (V1 & V2 & V3 & V4) Hp. assert (O : forall x p, owns (d_put l s' w1) x p <-> x <> l /\ owns w x p).
  { intros x p. unfold owns. cbn. rewrite V1. destruct (decide (x = l)) as [->|Hne].
    - rewrite lookup_insert. split; [intros (s & [= <-] & E); congruence|by intros [? _]].
    - rewrite lookup_insert_ne by done. split; [intros ?; by split|by intros [_ ?]]. }
  split.
  - intros x. cbn. rewrite V1. destruct (decide (x = l)) as [->|Hne]; [rewrite !lookup_insert; exact Hp|]. rewrite !lookup_insert_ne by done.
    pose proof (dk_vars _ _ H x) as K. destruct (d_vars w !! x) as [s|] eqn:Es, (m !! x) as [c|]; try done. destruct c as [v|]; [|done]. destruct K as (p & K1 & K2 & K3).
    exists p. split; [done|]. split; [|done]. apply V4. split; [done|]. intros Ho. apply Hne. eapply (dk_inj _ _ H); [|done]. by exists s.
  - intros x y p [_ Hx]%O [_ Hy]%O. by eapply (dk_inj _ _ H).
  - intros p v Hc. cbn in Hc. apply V4 in Hc as [Hc Hn]. destruct (dk_own _ _ H _ _ Hc) as [x Hx]. exists x. apply O. split; [|done]. intros ->. done.
  - intros p v Hc. cbn in *. apply V4 in Hc as [Hc _]. rewrite V2. by eapply (dk_next _ _ H).
Qed.
Definition full (p : nat) (v : value) (c : option nat) : saver := let t := Some (vty v) in Saver (Some p) t t t t c t.
Lemma put_some w m l w1 v c : dok w m -> vacated w l w1 ->
  let '(w2, p) := d_alloc v w1 in dok (d_put l (full p v c) w2) (<[l := Some v]> m).
Proof.
  intros H (V1 & V2 & V3 & V4). cbn. set (w' := d_put _ _ _). assert (O : forall x p, owns w' x p <-> x <> l /\ owns w x p \/ x = l /\ p = d_next w).
  { intros x p. unfold owns. cbn. rewrite V1. destruct (decide (x = l)) as [->|Hne].
    - rewrite lookup_insert. split; [intros (s & [= <-] & E); right; cbn in E; split; [done|congruence]|intros [[? _]|[_ ->]]; [done|]]. eexists. split; [done|]. cbn. by rewrite V2.
    - rewrite lookup_insert_ne by done. split; [intros ?; by left|intros [[_ ?]|[? _]]; done]. }
  assert (Hlt : forall x p, owns w x p -> p < d_next w).
  { intros x p (s & Hs & Hp). pose proof (dk_vars _ _ H x) as K. rewrite Hs in K. destruct (m !! x) as [[u|]|]; try done; cbn in K; [|congruence].
    destruct K as (q & K1 & K2 & _). assert (q = p) as -> by congruence. by eapply (dk_next _ _ H). }
  split.
  - intros x. cbn. rewrite V1. destruct (decide (x = l)) as [->|Hne].
    + rewrite !lookup_insert. exists (d_next w1). cbn. by rewrite lookup_insert.
    + rewrite !lookup_insert_ne by done.
      pose proof (dk_vars _ _ H x) as K. destruct (d_vars w !! x) as [s|] eqn:Es, (m !! x) as [u|]; try done. destruct u as [u|]; [|done]. destruct K as (p & K1 & K2 & K3).
      exists p. split; [done|]. split; [|done]. rewrite lookup_insert_ne. { apply V4. split; [done|]. intros Ho. apply Hne. eapply (dk_inj _ _ H); [|done]. by exists s. }
      rewrite V2. apply (dk_next _ _ H) in K2. lia.
  - intros x y p Hx%O Hy%O. destruct Hx as [[Hx1 Hx]|[-> ->]], Hy as [[Hy1 Hy]|[-> Ep]]; [by eapply (dk_inj _ _ H)| | |done].
    + subst p. apply Hlt in Hx. lia.
    + apply Hlt in Hy. lia.
  - intros p u Hc. cbn in Hc. apply lookup_insert_Some in Hc as [[<- _]|[_ Hc]]; [exists l; apply O; right; by rewrite V2|].
    apply V4 in Hc as [Hc Hn]. destruct (dk_own _ _ H _ _ Hc) as [x Hx]. exists x. apply O. left. split; [|done]. intros ->. done.
  - intros p u Hc. cbn in *. apply lookup_insert_Some in Hc as [[<- _]|[_ Hc]]; [lia|]. apply V4 in Hc as [Hc _]. rewrite V2. apply (dk_next _ _ H) in Hc. lia.
Qed.

(** ** The operations *)
Lemma set_ok w m l c v f : dok w m -> m !! l = Some c ->
  exists w', saver_set l v f w = Some w' /\ dok w' (<[l := Some v]> m) /\ d_calls w' = d_calls w.
Proof.
  intros H Hc. destruct (dok_live _ _ _ _ H Hc) as (s & Hs & _). destruct (drop_ok _ _ _ _ _ H Hs Hc) as (w1 & E & V). unfold saver_set. rewrite Hs. cbn [mbind option_bind]. rewrite E. cbn [mbind option_bind].
  pose proof (put_some _ _ _ _ v f H V) as K. destruct (d_alloc v w1) as [w2 p] eqn:Ea. eexists. split; [done|]. split; [done|]. unfold d_alloc in Ea. injection Ea as <- _. cbn. apply V.
Qed.
Lemma assign_ok w m l o c c' : dok w m -> m !! l = Some c -> m !! o = Some c' ->
  exists w', saver_assign l o w = Some w' /\ dok w' (<[l := c']> m) /\ d_calls w' = d_calls w.
Proof.
  intros H Hc Hc'. unfold saver_assign. destruct (decide (l = o)) as [->|Hne]. { exists w. split; [done|]. split; [|done]. by rewrite insert_id. }
  destruct (dok_live _ _ _ _ H Hc) as (s & Hs & _). destruct (dok_live _ _ _ _ H Hc') as (so & Hso & K). destruct (drop_ok _ _ _ _ _ H Hs Hc) as (w1 & E & V). rewrite Hs, Hso. cbn [mbind option_bind]. rewrite E. cbn [mbind option_bind].
  destruct c' as [v|]; cbn in K.
  - destruct K as (p & K1 & K2 & K3 & K4 & K5 & K6 & K7). rewrite K1, K3, K4, K5, K6, K7.
    assert (Hr : d_cells w1 !! p = Some v). { apply V. split; [done|]. intros Ho. apply Hne. eapply (dk_inj _ _ H); [done|]. by exists so. }
    rewrite (d_read_ok _ _ _ Hr). cbn [mbind option_bind]. pose proof (put_some _ _ _ _ v (sv_cust so) H V) as P. destruct (d_alloc v w1) as [w2 q] eqn:Ea. eexists. split; [done|]. split; [done|].
    unfold d_alloc in Ea. injection Ea as <- _. cbn. apply V.
  - rewrite K. eexists. split; [done|]. split; [by eapply put_none|]. cbn. apply V.
Qed.
Lemma new_ok w m l : dok w m -> m !! l = None -> dok (saver_new l w) (<[l := None]> m).
Proof. intros H Hl. eapply put_none; [done| |done]. apply vacated_dead. by eapply dok_dead. Qed.
Lemma make_ok w m l v f : dok w m -> m !! l = None -> exists w', saver_make l v f w = Some w' /\ dok w' (<[l := Some v]> m) /\ d_calls w' = d_calls w.
Proof.
  intros H Hl. pose proof (new_ok _ _ _ H Hl) as H1. destruct (set_ok _ _ l None v f H1) as (w' & E & H2 & H3); [by rewrite lookup_insert|]. exists w'. split; [done|]. rewrite insert_insert in H2. done.
Qed.
Lemma copy_ok w m l o c : dok w m -> m !! l = None -> m !! o = Some c -> exists w', saver_copy l o w = Some w' /\ dok w' (<[l := c]> m) /\ d_calls w' = d_calls w.
Proof.
  intros H Hl Ho. pose proof (new_ok _ _ _ H Hl) as H1. assert (l <> o) by congruence.
  destruct (assign_ok _ _ l o None c H1) as (w' & E & H2 & H3); [by rewrite lookup_insert|by rewrite lookup_insert_ne|]. exists w'. split; [done|]. rewrite insert_insert in H2. done.
Qed.
Lemma delete_ok w m l c : dok w m -> m !! l = Some c -> exists w', saver_delete l w = Some w' /\ dok w' (delete l m) /\ d_calls w' = d_calls w.
Proof.
  intros H Hc. destruct (dok_live _ _ _ _ H Hc) as (s & Hs & _). destruct (drop_ok _ _ _ _ _ H Hs Hc) as (w1 & E & V). unfold saver_delete. rewrite Hs. cbn [mbind option_bind]. rewrite E. cbn [mbind option_bind].
  eexists. split; [done|]. split; [|apply V]. pose proof (put_none _ _ _ _ empty_saver H V eq_refl) as [P1 P2 P3 P4].
  set (w' := DWorld _ _ _ _). assert (O : forall x p, owns w' x p <-> owns (d_put l empty_saver w1) x p).
  { intros x p. unfold owns. cbn. destruct (decide (x = l)) as [->|Hne]; [rewrite lookup_delete, lookup_insert|by rewrite lookup_delete_ne, lookup_insert_ne]. split; [by intros (? & ? & _)|intros (? & [= <-] & ?); done]. }
  split.
  - intros x. specialize (P1 x). cbn in *. destruct (decide (x = l)) as [->|Hne]; [by rewrite !lookup_delete|]. rewrite !lookup_insert_ne in P1 by done. by rewrite !lookup_delete_ne by done.
  - intros x y p Hx%O Hy%O. by eapply P2.
  - intros p v Hp. destruct (P3 p v Hp) as [x Hx]. exists x. by apply O.
  - exact P4.
Qed.
Lemma reset_ok w m l c : dok w m -> m !! l = Some c ->
  exists w' s, saver_reset l w = Some w' /\ dok w' (<[l := None]> m) /\ d_vars w !! l = Some s /\
    d_calls w' = d_calls w ++ match sv_cust s with Some f => [(f, c)] | None => [] end.
Proof.
  intros H Hc. destruct (dok_live _ _ _ _ H Hc) as (s & Hs & K). destruct (drop_ok _ _ _ _ _ H Hs Hc) as (w1 & E & V). unfold saver_reset. rewrite Hs. cbn [mbind option_bind]. rewrite E. cbn [mbind option_bind].
  eexists _, s. split; [done|]. split; [|split; [done|]].
  - apply dok_calls with (c := d_calls (d_put l (Saver None None None (sv_del s) None None None) w1)) in H as H'.
    pose proof (put_none _ _ _ _ (Saver None None None (sv_del s) None None None) H V eq_refl) as P. apply (dok_calls _ _ (match sv_cust s with Some c => d_calls w ++ [(c, p ← sv_ptr s; d_cells w !! p)] | None => d_calls w end)) in P. exact P.
  - cbn. assert (Hp : (p ← sv_ptr s; d_cells w !! p) = c). { destruct c as [v|]; cbn in K; [|by rewrite K]. destruct K as (p & -> & K & _). done. }
    rewrite Hp. destruct (sv_cust s); [done|by rewrite app_nil_r].
Qed.
Lemma from_string_ok w m l c t : dok w m -> m !! l = Some c ->
  match c with
  | None => saver_from_string l t w = None
  | Some v => match from_string (vty v) t with
              | FsUB => saver_from_string l t w = None
              | FsFail => saver_from_string l t w = Some (w, false)
              | FsOk v' => vty v' = vty v -> exists w', saver_from_string l t w = Some (w', true) /\ dok w' (<[l := Some v']> m) /\ d_calls w' = d_calls w
              end
  end.
Proof.
  intros H Hc. destruct (dok_live _ _ _ _ H Hc) as (s & Hs & K). unfold saver_from_string. rewrite Hs. cbn [mbind option_bind]. destruct c as [v|]; cbn in K.
  - destruct K as (p & K1 & K2 & K3 & K4 & K5 & K6 & K7). rewrite K1, K7, (d_read_ok _ _ _ K2). cbn [mbind option_bind]. destruct (from_string (vty v) t) as [v'| |] eqn:Ef; [|done..].
    intros Hty. eexists. split; [done|]. split; [|done]. set (w' := DWorld _ _ _ _). assert (O : forall x q, owns w' x q <-> owns w x q) by done. split.
    + intros x. cbn. destruct (decide (x = l)) as [->|Hne].
      * rewrite Hs, lookup_insert. exists p. rewrite Hty. cbn. by rewrite lookup_insert.
      * rewrite lookup_insert_ne by done. pose proof (dk_vars _ _ H x) as P. destruct (d_vars w !! x) as [sx|] eqn:Es, (m !! x) as [u|]; try done. destruct u as [u|]; [|done]. destruct P as (q & P1 & P2 & P3).
        exists q. split; [done|]. split; [|done]. rewrite lookup_insert_ne; [done|]. intros <-. apply Hne. eapply (dk_inj _ _ H); [exists sx|exists s]; done.
    + intros x y q Hx Hy. by eapply (dk_inj _ _ H).
    + intros q u Hq. cbn in Hq. apply lookup_insert_Some in Hq as [[<- _]|[_ Hq]]; [exists l; by exists s|by apply (dk_own _ _ H q u)].
    + intros q u Hq. cbn in *. apply lookup_insert_Some in Hq as [[<- _]|[_ Hq]]; by eapply (dk_next _ _ H).
  - unfold d_read. rewrite K. by destruct (sv_from s).
Qed.
Lemma swap_ok w m l o t c c' : dok w m -> m !! l = Some c -> m !! o = Some c' -> m !! t = None ->
  exists w', saver_swap l o t w = Some w' /\ dok w' (<[l := c']> (<[o := c]> m)) /\ d_calls w' = d_calls w.
Proof.
  intros H Hl Ho Ht. assert (N1 : t <> l) by congruence. assert (N2 : t <> o) by congruence. unfold saver_swap.
  destruct (copy_ok _ _ t o c' H Ht Ho) as (w1 & E1 & H1 & C1). rewrite E1. cbn [mbind option_bind].
  destruct (assign_ok _ _ o l c' c H1) as (w2 & E2 & H2 & C2); [by rewrite lookup_insert_ne..|]. rewrite E2. cbn [mbind option_bind].
  destruct (assign_ok w2 (<[o := c]> (<[t := c']> m)) l t c c' H2) as (w3 & E3 & H3 & C3).
  { destruct (decide (l = o)) as [->|]; [by rewrite lookup_insert|by rewrite !lookup_insert_ne by done]. } { by rewrite lookup_insert_ne, lookup_insert by done. } rewrite E3. cbn [mbind option_bind].
  destruct (delete_ok w3 _ t c' H3) as (w4 & E4 & H4 & C4). { by rewrite !lookup_insert_ne, lookup_insert by done. }
  exists w4. split; [done|]. split; [|congruence]. rewrite delete_insert_ne, delete_insert_ne, delete_insert in H4 by done. done.
Qed.
