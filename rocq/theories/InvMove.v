(** Moving a vault that no set and no reference depends on keeps the invariant. *)
From Verif Require Export InvCopy.
Open Scope nat_scope.

(** No set is bound to vault [o] and no reference bound to it denotes a valid record. *)
Definition lonely (w : world) (o : nat) : Prop :=
  (forall s sb, w_objs w !! s = Some sb -> o_static_set sb = true -> o_parent sb <> Some o) /\
  (forall f rf r, w_refs w !! f = Some rf -> f_rec rf = Some r -> f_vlt rf = Some o -> live w !! r = None).
(** The address [dst] is free or holds a vault without records and sets. *)
Definition vacant (w : world) (dst : nat) : Prop :=
  unused w dst \/ exists db, w_objs w !! dst = Some db /\ o_static_set db = false /\ o_recs db = ∅ /\ o_sets db = ∅.
Definition moved_world (dst src : nat) (sb : obj) (w : world) : world := set_obj src new_vault (set_obj dst sb w).

Lemma move_vault_inv b w dst src sb :
  Inv b w -> w_objs w !! src = Some sb -> o_static_set sb = false -> dst <> src -> lonely w src -> vacant w dst -> Inv b (moved_world dst src sb w).
Proof.
  intros HI Hs Hst Hne [HL1 HL2] Hv. pose proof (inv_obj _ _ HI) as [V1 V2 V3 V4 V5 V6].
  assert (Hsets : o_sets sb = ∅).
  { apply set_eq. intros s. split; [|by intros ?%not_elem_of_empty]. intros Hin. destruct (V2 _ _ _ Hs Hst Hin) as (x & E1 & E2 & E3). by destruct (HL1 _ _ E1 E2). }
  assert (Hd : forall db, w_objs w !! dst = Some db -> o_static_set db = false /\ o_recs db = ∅ /\ o_sets db = ∅).
  { intros db Hdb. destruct Hv as [[E _]|(db' & E & H)]; [congruence|]. by assert (db' = db) as -> by congruence. }
  assert (HO : forall x xb, w_objs (moved_world dst src sb w) !! x = Some xb ->
    (x = src /\ xb = new_vault) \/ (x = dst /\ xb = sb) \/ (x <> src /\ x <> dst /\ w_objs w !! x = Some xb)).
  { intros x xb Hx. cbn in Hx. apply lookup_insert_Some in Hx as [[<- <-]|[N1 Hx]]; [by left|]. apply lookup_insert_Some in Hx as [[<- <-]|[N2 Hx]]; [by right; left|]. right; right. done. }
  assert (HK : forall x xb, w_objs w !! x = Some xb -> x <> src -> x <> dst -> w_objs (moved_world dst src sb w) !! x = Some xb).
  { intros x xb Hx N1 N2. cbn. rewrite !lookup_insert_ne by done. done. }
  assert (HS : forall x xb, w_objs w !! x = Some xb -> o_static_set xb = true -> x <> src /\ x <> dst).
  { intros x xb Hx Hxs. split; intros ->; [congruence|]. destruct (Hd _ Hx). congruence. }
  split; [apply HI|apply HI| |].
  - change (live (moved_world dst src sb w)) with (live w). change (w_next (moved_world dst src sb w)) with (w_next w). split.
    + intros x xb Hx Hxs. apply HO in Hx as [[-> ->]|[[-> ->]|(_ & _ & Hx)]]; [by apply vault_ok_empty|eauto..].
    + intros x xb s Hx Hxs Hin. apply HO in Hx as [[-> ->]|[[-> ->]|(_ & _ & Hx)]]; [by apply not_elem_of_empty in Hin|rewrite Hsets in Hin; by apply not_elem_of_empty in Hin|].
      destruct (V2 _ _ _ Hx Hxs Hin) as (tb & E1 & E2 & E3). destruct (HS _ _ E1 E2). exists tb. split; [by apply HK|done].
    + intros s tb Hx Hxs. apply HO in Hx as [[-> ->]|[[-> ->]|(N1 & N2 & Hx)]]; [done|congruence|]. destruct (V3 _ _ Hx Hxs) as [S1 S2 S3 S4 S5 S6]. split; try done.
      intros p Hp. destruct (S6 _ Hp) as (pb & Hpb & Hpst & Hin & Hpar). exists pb. split; [|done]. apply HK; [done| |].
      * intros ->. by destruct (HL1 _ _ Hx Hxs).
      * intros ->. destruct (Hd _ Hpb) as (_ & _ & E). rewrite E in Hin. by apply not_elem_of_empty in Hin.
    + intros x xb y yb r Hx Hxs Hy Hys Hr1 Hr2. apply HO in Hx as [[-> ->]|[[-> ->]|(N1 & N2 & Hx)]]; [by apply not_elem_of_empty in Hr1|..];
        apply HO in Hy as [[-> ->]|[[-> ->]|(N3 & N4 & Hy)]]; try (by apply not_elem_of_empty in Hr2); try done.
      * by destruct (N3 (V4 _ _ _ _ _ Hy Hys Hs Hst Hr2 Hr1)).
      * by destruct (N1 (V4 _ _ _ _ _ Hx Hxs Hs Hst Hr1 Hr2)).
      * by eapply V4.
    + intros r Hl. destruct (V5 r Hl) as (x & xb & Hx & Hxs & Hxr). destruct (decide (x = src)) as [->|N1].
      * assert (xb = sb) as -> by congruence. exists dst, sb. split; [|done]. cbn. rewrite lookup_insert_ne by done. by rewrite lookup_insert.
      * exists x, xb. split; [|done]. apply HK; [done|done|]. intros ->. destruct (Hd _ Hx) as (_ & E & _). rewrite E in Hxr. by apply not_elem_of_empty in Hxr.
    + intros r l s Hl Hsl. destruct (V6 _ _ _ Hl Hsl) as [D1 D2]. split.
      * intros tb Hx. apply HO in Hx as [[-> ->]|[[-> ->]|(N1 & N2 & Hx)]].
        -- destruct (D1 _ Hs). congruence.
        -- destruct Hv as [(_ & E & _)|(db & Hdb & _)]; [by destruct (E _ _ Hl)|]. destruct (D1 _ Hdb) as [E _]. destruct (Hd _ Hdb). congruence.
        -- destruct (D1 _ Hx) as [D3 D4]. split; [done|]. intros p Hp. destruct (D4 _ Hp) as (pb & Hpb & Hpst & Hin). exists pb. split; [|done]. apply HK; [done| |].
           ++ intros ->. by destruct (HL1 _ _ Hx D3).
           ++ intros ->. destruct (Hd _ Hpb) as (_ & E & _). rewrite E in Hin. by apply not_elem_of_empty in Hin.
      * intros Hb. destruct (D2 Hb) as (tb & Htb & Hin). destruct (D1 _ Htb) as [Hts _]. destruct (HS _ _ Htb Hts). exists tb. split; [by apply HK|done].
  - intros f rf r Hf Hr. destruct (inv_vlt _ _ HI _ _ _ Hf Hr) as (x & Hx & Hin). exists x. split; [done|]. intros xb Hxb Hxs Hl. change (live (moved_world dst src sb w)) with (live w) in Hl.
    apply HO in Hxb as [[-> ->]|[[-> ->]|(N1 & N2 & Hxb)]]; [| |eauto].
    + rewrite (HL2 f rf r Hf Hr Hx) in Hl. by destruct Hl.
    + destruct Hv as [(_ & _ & E)|(db & Hdb & Hds & Hdr & _)]; [rewrite (E f rf r Hf Hr Hx) in Hl; by destruct Hl|]. specialize (Hin _ Hdb Hds Hl). rewrite Hdr in Hin. by apply not_elem_of_empty in Hin.
Qed.

Lemma move_construct_vault_ok b w dst src sb :
  Inv b w -> unused w dst -> w_objs w !! src = Some sb -> o_static_set sb = false -> lonely w src ->
  move_construct_vault w dst src = Some (moved_world dst src sb w) /\ Inv b (moved_world dst src sb w).
Proof.
  intros HI Hu Hs Hst HL. unfold move_construct_vault, move_vault_body. rewrite Hs. split; [done|]. apply move_vault_inv; try done; [|by left].
  intros ->. destruct Hu. congruence.
Qed.
Lemma move_assign_vault_ok b ord w dst src db sb :
  fair ord -> Inv b w -> w_objs w !! dst = Some db -> o_static_set db = false -> w_objs w !! src = Some sb -> o_static_set sb = false -> dst <> src -> lonely w src ->
  Def b (move_assign_vault ord w dst src) ->
  exists w1, drop_vault ord w dst = Some w1 /\ dropped dst w w1 /\ Inv b w1 /\ w_objs w1 !! src = Some sb /\
    move_assign_vault ord w dst src = Some (moved_world dst src sb w1) /\ Inv b (moved_world dst src sb w1).
Proof.
  intros Hf HI Hd Hdst Hs Hst Hne [HL1 HL2] HD. unfold move_assign_vault in *. rewrite decide_False in * by done.
  destruct (drop_vault_ok b ord w dst db) as (w1 & E & HI1 & Hdr); try done; [by eapply Def_bind|]. rewrite E in *. cbn [mbind option_bind] in *.
  assert (Hs1 : w_objs w1 !! src = Some sb). { rewrite (dr_objs _ _ _ Hdr); [done|done|]. intros (x & E1 & E2 & _). congruence. }
  exists w1. split; [done|]. split; [done|]. split; [done|]. split; [done|]. unfold move_vault_body. rewrite Hs1. split; [done|]. apply move_vault_inv; try done.
  - split.
    + intros s tb Htb Hts. destruct (decide (s = dst)) as [->|Hn]; [pose proof (dr_o _ _ _ Hdr _ Hd) as E1; rewrite E1 in Htb; injection Htb as <-; cbn in Hts; congruence|].
      destruct (w_objs w !! s) as [tb0|] eqn:Es.
      * assert (set_of w dst s \/ ~ set_of w dst s) as [Hso|Hso].
        { destruct (o_static_set tb0) eqn:E0; [|right; intros (x & E1 & E2 & _); congruence]. destruct (decide (o_parent tb0 = Some dst)) as [E1|E1]; [left; by exists tb0|right; intros (x & ? & _ & ?); congruence]. }
        2:{ rewrite (dr_objs _ _ _ Hdr) in Htb by done. assert (tb0 = tb) as -> by congruence. by eapply HL1. }
        destruct Hso as (tb1 & E1 & E2 & E3). rewrite (dr_sets _ _ _ Hdr _ _ E1 E2 E3) in Htb. injection Htb as <-. done.
      * rewrite (dr_objs _ _ _ Hdr) in Htb; [congruence|done|]. intros (x & E1 & _). congruence.
    + intros f rf r Hrf Hr Hv. rewrite (dr_refs _ _ _ Hdr) in Hrf. pose proof (HL2 _ _ _ Hrf Hr Hv) as E1. pose proof (dr_live _ _ _ Hdr r) as E2. rewrite E1 in E2. destruct (decide _); by destruct (live w1 !! r).
  - right. eexists. split; [by apply (dr_o _ _ _ Hdr)|]. done.
Qed.
