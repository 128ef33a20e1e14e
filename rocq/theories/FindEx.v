(** Executable checks for the examples of T_Find. *)
From Verif Require Export FindSpec.
From Verif Require Import Ex_Base PrintEx.
From Verif Require Export VaultModel Spec FindSpec.
Open Scope nat_scope.

Definition findableb (w : world) (ob : obj) (k : string) : bool :=
  match o_idx ob !! k with Some ix => entries_okb w (o_recs ob) k (ix_hash ix) && entries_okb w (o_recs ob) k (ix_tree ix) | None => false end.
Lemma findableb_ok w ob k : findableb w ob k = true -> findable w ob k.
Proof.
  intros H v r. unfold findableb in H. unfold filed, filed_ord. destruct (o_idx ob !! k) as [ix|]; [|done]. apply andb_true_iff in H as [H1 H2]. split.
  - rewrite <- (entries_okb_ok _ _ _ _ H1). split; [intros (ix' & [= <-] & ?); done|eauto].
  - rewrite <- (entries_okb_ok _ _ _ _ H2). split; [intros (ix' & [= <-] & ?); done|eauto].
Qed.
Definition overwritesb (w : world) (p : op) (k : string) (r x : nat) : bool :=
  match p with
  | OSetData f k' _ => bool_decide (k' = k) && bool_decide (denotes w f r) && bool_decide (stored w r k = stored w x k)
  | OSetMany f ps => bool_decide (denotes w f r)
  | _ => false
  end.
Definition disturbsb (w : world) (p : op) (w' : world) (o : nat) (k : string) : bool :=
  let rs := elements (o_recs (ob_at w o)) in
  existsb (fun r => existsb (fun x => negb (bool_decide (r = x)) &&
    (overwritesb w p k r x || (bool_decide (stored w r k = stored w x k) && negb (bool_decide (valid_rec w' r)) && bool_decide (valid_rec w' x)))) rs) rs.
Lemma disturbsb_ok w p w' o k : disturbsb w p w' o k = false -> ~ disturbs w p w' o k.
Proof.
  intros H (ob & r & x & [Ho Hs] & Hr & Hx & Hne & Hc). assert (disturbsb w p w' o k = true); [|congruence]. clear H. unfold disturbsb.
  assert (E : ob_at w o = ob). { Local Transparent ob_at. unfold ob_at. by rewrite Ho. } rewrite E.
  apply existsb_exists. exists r. split; [by apply elem_of_list_In, elem_of_elements|]. apply existsb_exists. exists x. split; [by apply elem_of_list_In, elem_of_elements|].
  rewrite bool_decide_false by done. cbn [negb andb]. apply orb_true_iff. destruct Hc as [Hc|(H1 & H2 & H3)]; [left|right].
  - destruct p; cbn in *; try done.
    + destruct Hc as (H1 & H2 & H3). by rewrite !bool_decide_true.
    + destruct Hc as [H1 _]. by rewrite bool_decide_true.
  - by rewrite (bool_decide_true (stored w r k = _)), (bool_decide_false (valid_rec w' r)), (bool_decide_true (valid_rec w' x)).
Qed.
Global Opaque ob_at.
Lemma nw_calm b o k w w1 p : calm b o k w w1 -> ~ ends_key o k p -> disturbsb w1 p (nw w1 p) o k = false ->
  allowedb b w1 p && bool_decide (is_Some (step id_order w1 p)) = true -> calm b o k w (nw w1 p).
Proof.
  intros HR HQ Hd H. apply andb_true_iff in H as [H1 H2]. apply bool_decide_eq_true in H2 as [[w' x] E]. Local Transparent nw. unfold nw in *. rewrite E in *.
  eapply calm_step; [done|apply id_order_fair|by apply allowedb_ok|done|done|by apply disturbsb_ok].
Qed.
Global Opaque nw.
Ltac nend := let H := fresh in intros H; cbn in H; intuition discriminate.
Ltac fdx := repeat match goal with
  | |- _ /\ _ => split
  | |- findable _ _ _ => apply findableb_ok; vmr
  | |- ~ ends_key _ _ _ => nend
  | |- ~ disturbs _ _ _ _ _ => apply disturbsb_ok; vmr
  | |- calm _ _ _ ?w ?w => apply calm_now
  | |- calm _ _ _ _ (nw _ _) => apply nw_calm; [|nend|vmr|vmr]
  | |- forall k, k ∈ ?l -> findable ?w ?ob k => let k := fresh in let H := fresh in intros k H; cbn in H; repeat (apply elem_of_cons in H as [->|H]; [apply findableb_ok; vmr|]); by apply elem_of_nil in H
  | |- _ => progress px
  end.
