(** Concrete states and tactics for the examples that stand beside the theorems. *)
From Verif Require Export Runs T_Base.
Open Scope nat_scope.

(** What an operation makes of a state, with its unordered containers visited in identity order. *)
Definition nw (w : world) (p : op) : world := match step id_order w p with Some (w', _) => w' | None => w end.
Definition out_of (w : world) (p : op) : out := match step id_order w p with Some (_, x) => x | None => OSkip end.
Definition res_of (w : world) (p : op) : opres := match out_of w p with ORes r => r | _ => res0 end.
Definition ob_at (w : world) (o : nat) : obj := default new_vault (w_objs w !! o).
Definition rf_at (w : world) (f : nat) : vref := default (Ref None None) (w_refs w !! f).
Definition state (b : bool) (ps : list op) : world := default empty_world (runb b empty_world ps).

Lemma state_reach b ps : bool_decide (is_Some (runb b empty_world ps)) = true -> reach b (state b ps).
Proof.
  intros H. apply bool_decide_eq_true in H as [w E]. unfold state. rewrite E. cbn. eapply runb_reach; [apply reach_empty|done].
Qed.
Lemma nw_reach b w p : reach b w -> allowedb b w p && bool_decide (is_Some (step id_order w p)) = true -> reach b (nw w p).
Proof.
  intros HR H. apply andb_true_iff in H as [H1 H2]. apply bool_decide_eq_true in H2 as [[w' x] E]. unfold nw. rewrite E.
  eapply reach_step; [done|apply id_order_fair|by apply allowedb_ok|done].
Qed.
Lemma nw_later b w w1 p : later b w w1 -> allowedb b w1 p && bool_decide (is_Some (step id_order w1 p)) = true -> later b w (nw w1 p).
Proof.
  intros HR H. apply andb_true_iff in H as [H1 H2]. apply bool_decide_eq_true in H2 as [[w' x] E]. unfold nw. rewrite E.
  eapply later_step; [done|apply id_order_fair|by apply allowedb_ok|done].
Qed.
Lemma nw_later_if b Q w w1 p : later_if b Q w w1 -> Q p -> allowedb b w1 p && bool_decide (is_Some (step id_order w1 p)) = true -> later_if b Q w (nw w1 p).
Proof.
  intros HR HQ H. apply andb_true_iff in H as [H1 H2]. apply bool_decide_eq_true in H2 as [[w' x] E]. unfold nw. rewrite E.
  eapply later_if_step; [done|apply id_order_fair|by apply allowedb_ok|done|done].
Qed.

Lemma nw_later_while b Q w w1 p : later_while b Q w w1 -> Q w1 p -> allowedb b w1 p && bool_decide (is_Some (step id_order w1 p)) = true -> later_while b Q w (nw w1 p).
Proof.
  intros HR HQ H. apply andb_true_iff in H as [H1 H2]. apply bool_decide_eq_true in H2 as [[w' x] E]. unfold nw. rewrite E.
  eapply later_while_step; [done|apply id_order_fair|by apply allowedb_ok|done|done].
Qed.
Ltac nconc := let H := fresh in intros [H|[H|[H|(? & ? & ? & _ & _ & _ & H)]]]; cbn in H; intuition discriminate.

Global Instance valid_rec_dec w r : Decision (valid_rec w r).
Proof.
  destruct (w_recs w !! r) as [rc|] eqn:E; [|right; intros (rc & H & _); congruence].
  destruct (r_valid rc) eqn:Ev; [left; eauto|right]. { by exists rc. } intros (rc' & H & Hv). congruence.
Defined.
Global Instance denotes_dec w f r : Decision (denotes w f r).
Proof.
  destruct (w_refs w !! f) as [rf|] eqn:E; [|right; intros (rc & H & _); congruence].
  destruct (decide (f_rec rf = Some r)) as [Er|Er]; [left; by exists rf|right]. intros (rf' & H & Hv). congruence.
Defined.
Global Instance bound_to_dec w f o : Decision (bound_to w f o).
Proof.
  destruct (w_refs w !! f) as [rf|] eqn:E; [|right; intros (rc & H & _); congruence].
  destruct (decide (f_vlt rf = Some o)) as [Er|Er]; [left; by exists rf|right]. intros (rf' & H & Hv). congruence.
Defined.
Global Instance filed_dec ob k v r : Decision (filed ob k v r).
Proof.
  destruct (o_idx ob !! k) as [ix|] eqn:E; [|right; intros (ix & H & _); congruence].
  destruct (decide ((v, r) ∈ ix_hash ix)) as [Er|Er]; [left; by exists ix|right]. intros (ix' & H & Hv). congruence.
Defined.
Global Instance filed_ord_dec ob k v r : Decision (filed_ord ob k v r).
Proof.
  destruct (o_idx ob !! k) as [ix|] eqn:E; [|right; intros (ix & H & _); congruence].
  destruct (decide ((v, r) ∈ ix_tree ix)) as [Er|Er]; [left; by exists ix|right]. intros (ix' & H & Hv). congruence.
Defined.
Lemma by_dec (P : Prop) {d : Decision P} : bool_decide P = true -> P.
Proof. apply bool_decide_eq_true. Qed.

Lemma step_out w p : bool_decide (is_Some (step id_order w p)) = true -> step id_order w p = Some (nw w p, out_of w p).
Proof. intros H. apply bool_decide_eq_true in H as [[w' x] E]. unfold nw, out_of. by rewrite E. Qed.
Lemma step_res w p : match step id_order w p with Some (_, ORes _) => true | _ => false end = true -> step id_order w p = Some (nw w p, ORes (res_of w p)).
Proof. unfold nw, res_of, out_of. destruct (step id_order w p) as [[w' []]|]; done. Qed.
Lemma step_bool w p b : match step id_order w p with Some (_, OBool b') => bool_decide (b' = b) | _ => false end = true ->
  step id_order w p = Some (nw w p, OBool b).
Proof. unfold nw. destruct (step id_order w p) as [[w' []]|]; try done. intros H. apply bool_decide_eq_true in H. by subst. Qed.
Lemma at_vault w o : is_vault w o = true -> vault_at w o (ob_at w o).
Proof. unfold is_vault, ob_at, vault_at. destruct (w_objs w !! o) as [ob|]; [|done]. intros H. split; [done|]. by apply negb_true_iff in H. Qed.
Lemma at_set w o : is_set w o = true -> set_at w o (ob_at w o).
Proof. unfold is_set, ob_at, set_at. destruct (w_objs w !! o) as [ob|]; [|done]. by intros H. Qed.

Global Opaque nw out_of res_of ob_at rf_at state.
Ltac vmr := vm_compute; reflexivity.
Ltac dec := match goal with |- ?P => apply (by_dec P); vmr end.
Ltac reach_tac := solve [repeat (first [apply state_reach; vmr | apply nw_reach; [|vmr]])].
Ltac ex :=
  lazymatch goal with
  | |- exists _, _ => idtac
  | |- forall _, _ => idtac
  | |- later_if _ _ _ _ => idtac
  | |- _ /\ _ => split; [ex|ex]
  | |- fair id_order => apply id_order_fair
  | |- reach _ _ => reach_tac
  | |- later _ _ _ => repeat (first [apply later_now|apply nw_later; [|vmr]])
  | |- allowed _ _ _ => apply allowedb_ok; vmr
  | |- vault_at _ _ _ => apply at_vault; vmr
  | |- set_at _ _ _ => apply at_set; vmr
  | |- source_at _ _ _ _ _ => first [left; split; [apply at_vault; vmr|reflexivity] | right; split; [reflexivity|split; [apply at_set; vmr|dec]]]
  | |- True => exact I
  | |- step _ _ _ = Some (_, ORes (okres _ _ _ _)) => idtac
  | |- step _ _ _ = Some (_, ORes _) => apply step_res; vmr
  | |- step _ _ _ = Some (_, OBool _) => apply step_bool; vmr
  | |- step _ _ _ = Some (_, _) => apply step_out; vmr
  | |- erases_from _ _ => reflexivity
  | |- plain_ref_op _ => exact I
  | |- set_or_ref_op _ _ => first [exact I|cbn; eexists; apply at_set; vmr]
  | |- _ = _ :> bool => vmr
  | |- get_records _ _ _ _ _ _ = _ => vm_compute; reflexivity
  | |- _ = _ :> opres => vm_compute; reflexivity
  | |- _ = _ :> out => vm_compute; reflexivity
  | |- _ = _ :> option vref => vm_compute; reflexivity
  | |- _ => first [dec|fast_done|idtac]
  end.
(** Only record [x] lost its validity. *)
Lemma only_lost_ok (w w' : world) (x : nat) : bool_decide (map_Forall (fun r rc => r_valid rc = true -> r = x \/ valid_rec w' r) (w_recs w)) = true ->
  forall y, valid_rec w y -> ~ valid_rec w' y -> y = x.
Proof. intros H y (rc & Hr & Hv) Hn. apply bool_decide_eq_true in H. by destruct (H y rc Hr Hv). Qed.
Ltac only_lost x := let Hy := fresh in let Hn := fresh in
  match goal with |- forall y, valid_rec ?w y -> ~ valid_rec ?w' y -> _ =>
    intros y Hy Hn; assert (y = x) as -> by (eapply (only_lost_ok w w' x); [vmr|done..]); dec end.
(** Examples about the mutexes: everything is computed. *)
Ltac mx := repeat (match goal with |- _ /\ _ => apply conj end); first [vm_compute; reflexivity|discriminate|lia|dec].
Ltac csvx := repeat (match goal with |- _ /\ _ => apply conj end); first [by (split; [|split]; vm_compute; discriminate)|discriminate|dec].
Ltac ne := vm_compute; discriminate.
Ltac refute_dec := let H := fresh in intros H; eapply bool_decide_eq_true_2 in H; vm_compute in H; discriminate H.

(** A program in the safe class: a vault with a unique key, two plain keys and five records (two of them sharing an age), a second vault,
    references to records of both, an erased record that is still referenced, and three sets filled by requests. *)
Definition sc_keys : list op :=
  [ONewVault 0; OAddUniqueKey 0 "id" (TInt I32); OAddKey 0 "age" (VInt I32 18); OAddKey 0 "name" (VStr "nobody");
   ONewRef 0; ONewRef 1; ONewRef 2; ONewRef 3; ONewRef 4; ONewRef 9].
Definition sc_recs : list op :=
  [OCreateRecord 0 (Some 0) [("id", VInt I32 1); ("age", VInt I32 30)];
   OCreateRecord 0 (Some 1) [("id", VInt I32 2); ("age", VInt I32 30); ("name", VStr "bob")];
   OCreateRecord 0 (Some 2) [("id", VInt I32 3); ("age", VInt I32 40)];
   OCreateRecord 0 (Some 3) [("id", VInt I32 4)];
   OCreateRecord 0 (Some 4) [("id", VInt I32 5); ("age", VInt I32 50)];
   OEraseRef 0 4].
Definition sc_sets : list op :=
  [ONewSet 10; ONewSet 11; ONewSet 12;
   ORequest 0 RGreaterOrEqual "age" (VInt I32 30) (VInt I32 30) false false None None 10;
   ORequest 0 RLess "age" (VInt I32 40) (VInt I32 40) false false None None 11;
   ONewVault 1; OAddKey 1 "age" (VInt I32 1); OAddKey 1 "x" (VBool true); OCreateRecord 1 None [("age", VInt I32 7)]].
Definition sc : list op := sc_keys ++ sc_recs ++ sc_sets.
Notation W := (state true sc).
