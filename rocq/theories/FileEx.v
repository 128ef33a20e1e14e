(** Decision procedures for the concrete cases beside the theorems about files. *)
From Verif Require Export T_Refuted FileSpec.
Open Scope nat_scope.

Definition after (x : option (world * bool)) : world := default empty_world (fst <$> x).
Lemma after_ok x b : bool_decide (snd <$> x = Some b) = true -> x = Some (after x, b).
Proof. intros H. apply bool_decide_eq_true in H. unfold after. destruct x as [[w b']|]; [|done]. cbn in H |- *. congruence. Qed.
Global Opaque after.
Definition saved (x : option text) : text := default [] x.
Lemma saved_ok x : bool_decide (is_Some x) = true -> x = Some (saved x).
Proof. intros H. apply bool_decide_eq_true in H as [f ->]. done. Qed.
Global Instance fsres_eq_dec : EqDecision fs_result.
Proof. solve_decision. Defined.
Global Instance survives_dec sep v : Decision (survives sep v).
Proof. unfold survives. apply _. Defined.
Global Instance plain_name_dec sep k : Decision (plain_name sep k).
Proof. unfold plain_name, quoted. apply _. Defined.
Lemma all_stored (w : world) (X : gset nat) (P : string -> value -> Prop) {d : forall k v, Decision (P k v)} :
  bool_decide (set_Forall (fun r => map_Forall P (from_option r_data ∅ (w_recs w !! r))) X) = true ->
  forall r k v, r ∈ X -> stored w r k = Some v -> P k v.
Proof.
  intros H r k v Hr Hs. apply bool_decide_eq_true in H. specialize (H r Hr). cbn in H. unfold stored in Hs. destruct (w_recs w !! r) as [rc|]; [|done]. cbn in Hs.
  destruct (r_valid rc); [|done]. by apply H.
Qed.
Lemma no_clash (w : world) (ks : list string) (X Y : gset nat) (Q : nat -> nat -> Prop) {d : forall x y, Decision (Q x y)} :
  bool_decide (Forall (fun k => set_Forall (fun r => set_Forall (fun x => Q x r -> stored w x k <> stored w r k) Y) X) ks) = true ->
  forall k r x, k ∈ ks -> r ∈ X -> x ∈ Y -> Q x r -> stored w x k <> stored w r k.
Proof. intros H k r x Hk Hr Hx. apply bool_decide_eq_true in H. rewrite Forall_forall in H. by apply (H k Hk r Hr x Hx). Qed.
Ltac fx := repeat match goal with
  | |- _ /\ _ => split
  | |- read_file _ _ _ _ _ _ _ = Some (after _, _) => apply after_ok; vmr
  | |- save_file _ _ _ _ _ _ = Some (saved _) => apply saved_ok; vmr
  | |- read_file _ _ _ _ _ _ _ = None => vm_compute; reflexivity
  | |- save_file _ _ _ _ _ _ = None => vm_compute; reflexivity
  | |- plain_sep _ => by (split; [|split]; vm_compute; discriminate)
  | |- _ => progress rx
  end.
(** Two vaults with the same keys, a unique one among them: the first has records, with texts that need quotes. *)
Definition file_vault (o : nat) : list op := [ONewVault o; OAddUniqueKey o "id" (TInt I32); OAddKey o "name" (VStr "nobody"); OAddKey o "age" (VInt I32 18)].
Definition file_recs : list op :=
  [OCreateRecord 0 None [("id", VInt I32 1); ("name", VStr "a,b")]; OCreateRecord 0 None [("id", VInt I32 2); ("name", VStr "")];
   OCreateRecord 0 None [("id", VInt I32 (-3)); ("age", VInt I32 40)]; OCreateRecord 5 None [("id", VInt I32 9); ("name", VStr "x")]].
Notation FW := (state true (file_vault 0 ++ file_vault 5 ++ file_recs)).
Lemma rows_safe_b ob (load : bool) (keys user : list string) (rows : list (list text)) : bool_decide (Forall (fun row =>
    (if load then true else match user with [] => bool_decide (length row <= length (o_order ob)) | _ => true end) = true /\
    Forall (fun c : string * text => (t ← get_key_type ob c.1; Some (bool_decide (from_string t c.2 = FsUB))) <> Some true) (zip (row_keys ob load keys user) row)) rows) = true ->
  Forall (row_safe ob load keys user) rows.
Proof.
  intros H. apply bool_decide_eq_true in H. eapply Forall_impl; [exact H|]. intros row [H1 H2]. split.
  - intros -> ->. by apply bool_decide_eq_true in H1.
  - intros c Hc t Ht. rewrite Forall_forall in H2. specialize (H2 c Hc). cbn beta in H2. rewrite Ht in H2. cbn [mbind option_bind] in H2. intros E. apply H2. by rewrite bool_decide_true.
Qed.
Lemma same_types (ob pb : obj) : bool_decide (o_keys pb = o_keys ob) = true -> forall k, get_key_type pb k = get_key_type ob k.
Proof. intros H k. apply bool_decide_eq_true in H. unfold get_key_type. by rewrite H. Qed.
Lemma names_plain (hk : bool) sep ks : bool_decide (Forall (fun k => plain_name sep k /\ k <> ""%string) ks) = true ->
  forall k, hk = true -> k ∈ ks -> plain_name sep k /\ (last ks = Some k -> k <> ""%string).
Proof. intros H k _ Hk. apply bool_decide_eq_true in H. rewrite Forall_forall in H. destruct (H k Hk). done. Qed.
Ltac save_load_tac := repeat match goal with
  | |- _ /\ _ => split
  | |- forall r k v, r ∈ ?X -> stored ?w r k = Some v -> survives ?sep v /\ (last ?l = Some k -> _) => apply (all_stored w X (fun k v => survives sep v /\ (last l = Some k -> to_string v <> []))); vmr
  | |- forall k, get_key_type _ _ = get_key_type _ _ => apply same_types; vmr
  | |- forall k, _ -> _ -> plain_name _ _ /\ _ => apply names_plain; vmr
  | |- forall k r x, _ -> _ -> _ -> stored _ _ _ <> stored _ _ _ => intros ? ? ? ? ? ?; eapply (no_clash _ _ _ _ (fun _ _ => True)); [|eassumption..|exact I]; vmr
  | |- forall k r x, _ -> _ -> _ -> x <> r -> _ => apply (no_clash _ _ _ _ (fun x r => x <> r)); vmr
  | |- forall ks row, _ = row => done
  | |- _ <> [] => ne
  | |- _ => progress fx
  end.
