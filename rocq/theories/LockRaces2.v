(** Which programs have a data race (C57): whatever is in the table of RaceSpec.v races in some run. *)
From Verif Require Export LockRaces LockDumps5.
From Verif Require Import MutexProofs MutexProofs2 MutexProofs3 LockProofs.
Open Scope nat_scope.

(** ** Where in a call an action is *)
Definition bal (st : list rkind) (h : held) (l : list cact) : Prop := after st h l = Some (st, h).
Lemma bal_nil st h : bal st h [].
Proof. done. Qed.
Lemma bal_app st h l1 l2 : bal st h l1 -> bal st h l2 -> bal st h (l1 ++ l2).
Proof. unfold bal. intros H1 H2. by rewrite after_app, H1. Qed.
Lemma bal_concat {A} st h (f : A -> list cact) xs : (forall x, bal st h (f x)) -> bal st h (concat (f <$> xs)).
Proof. intros H. induction xs as [|x xs IH]; [done|]. cbn. by apply bal_app. Qed.
Lemma bal_read st h x l : bal st h l -> bal st h (ARead x :: l).
Proof. done. Qed.
Lemma bal_write st h x l : bal st h l -> bal st h (AWrite x :: l).
Proof. done. Qed.
Lemma bal_sec st h k l : bal (k :: st) h l -> bal st h (sec k l).
Proof. unfold bal, sec. cbn [after next]. rewrite after_app. intros ->. done. Qed.
Lemma bal_rsec st h h' r l : inc h r = Some h' -> bal st h' l -> bal st h (rsec r l).
Proof.
  unfold bal, rsec. cbn [after next]. intros Hi H. rewrite Hi, after_app, H. destruct h as [[r' n]|]; cbn in Hi.
  - destruct (decide (r' = r)) as [->|]; [|done]. injection Hi as <-. cbn. by rewrite decide_True.
  - injection Hi as <-. cbn. by rewrite decide_True.
Qed.
Lemma bal_fmap_read st h (rs : list nat) : bal st h ((fun r => ARead (LData r)) <$> rs).
Proof. induction rs as [|r rs IH]; [done|]. exact IH. Qed.
Lemma bal_fmap_write st h (rs : list nat) : bal st h ((fun r => AWrite (LData r)) <$> rs).
Proof. induction rs as [|r rs IH]; [done|]. exact IH. Qed.
Ltac bals :=
  repeat first
    [ progress cbn [touch_opt fst snd]
    | progress unfold get_is_valid, touch, touches, get_key_type_locks, set_record, ref_get, with_ref, read_data, write_data, set_clear, set_reset, erase_one, set_data_to_record, ref_set
    | apply bal_nil | apply bal_fmap_read | apply bal_fmap_write | apply bal_read | apply bal_write | apply bal_sec
    | eapply bal_rsec; [cbn [inc]; try rewrite decide_True by reflexivity; reflexivity|] | apply bal_app | apply bal_concat; intros ? ].

Definition at_acc (st : list rkind) (h : held) (l : list cact) (a : cact) (st' : list rkind) (h' : held) : Prop :=
  exists p rest, l = p ++ a :: rest /\ after st h p = Some (st', h').
Lemma at_here st h a l : at_acc st h (a :: l) a st h.
Proof. by exists [], l. Qed.
Lemma at_cons st h b l a st' h' : (forall st h, next st h b = Some (st, h)) -> at_acc st h l a st' h' -> at_acc st h (b :: l) a st' h'.
Proof. intros Hb (p & rest & -> & H). exists (b :: p), rest. split; [done|]. cbn [after]. by rewrite Hb. Qed.
Lemma at_left st h l1 l2 a st' h' : at_acc st h l1 a st' h' -> at_acc st h (l1 ++ l2) a st' h'.
Proof. intros (p & rest & -> & H). exists p, (rest ++ l2). by rewrite <- app_assoc. Qed.
Lemma at_right st h l1 l2 a st' h' : bal st h l1 -> at_acc st h l2 a st' h' -> at_acc st h (l1 ++ l2) a st' h'.
Proof. intros Hb (p & rest & -> & H). exists (l1 ++ p), rest. rewrite <- app_assoc. split; [done|]. by rewrite after_app, Hb. Qed.
Lemma at_sec st h k l a st' h' : at_acc (k :: st) h l a st' h' -> at_acc st h (sec k l) a st' h'.
Proof. intros (p & rest & -> & H). exists (ALock k :: p), (rest ++ [AUnlock]). unfold sec. rewrite <- app_assoc. done. Qed.
Lemma at_rsec st h h1 r l a st' h' : inc h r = Some h1 -> at_acc st h1 l a st' h' -> at_acc st h (rsec r l) a st' h'.
Proof. intros Hi (p & rest & -> & H). exists (ARec r :: p), (rest ++ [ARecEnd r]). unfold rsec. rewrite <- app_assoc. split; [done|]. cbn [after next]. by rewrite Hi. Qed.
Lemma at_concat {A} st h (f : A -> list cact) xs x a st' h' : x ∈ xs -> (forall x, bal st h (f x)) -> at_acc st h (f x) a st' h' -> at_acc st h (concat (f <$> xs)) a st' h'.
Proof.
  intros Hx Hb H. apply elem_of_list_split in Hx as (l1 & l2 & ->). rewrite fmap_app, concat_app. cbn [fmap list_fmap concat].
  apply at_right; [by apply bal_concat|]. by apply at_left.
Qed.
Ltac ats :=
  unfold get_is_valid, touch, touches, get_key_type_locks, set_record, ref_get, with_ref, read_data, write_data, set_clear, set_reset, erase_one, set_data_to_record, ref_set; cbn [fst snd];
  first [
    (apply at_here) + (apply at_cons; [by intros|]; ats) + (apply at_left; ats) + (apply at_right; [solve [bals]|]; ats) + (apply at_sec; ats)
    + (eapply at_rsec; [cbn [inc]; try rewrite decide_True by reflexivity; reflexivity|]; ats) + (eapply at_concat; [eassumption|solve [intros; bals]|]; ats) ].
Definition matches (g : prot) (st : list rkind) (h : held) : Prop :=
  match g with GNone => st = [] /\ h = None | GRead => st <> [] /\ h = None | GWrite => KWrite ∈ st end.
Definition act (x : loc) (w : bool) : cact := if w then AWrite x else ARead x.
Definition found (c : capi) (e : used) : Prop :=
  match e with (x, w, g) => exists st h, at_acc [] None (skeleton c) (act x w) st h /\ matches g st h end.
Lemma found_fmap {A} c (f : A -> used) (l : list A) : (forall x, x ∈ l -> found c (f x)) -> Forall (found c) (f <$> l).
Proof. intros H. apply Forall_forall. intros y Hy. apply elem_of_list_fmap in Hy as (x & -> & Hx). auto. Qed.
Lemma in_concat {A B} (f : A -> list B) l y : y ∈ concat (f <$> l) -> exists x, x ∈ l /\ y ∈ f x.
Proof. induction l as [|x l IH]; cbn; [intros H; by apply elem_of_nil in H|]. intros H. apply elem_of_app in H as [H|H]; [exists x; split; [left|done]|]. destruct (IH H) as (z & ? & ?). exists z. split; [by right|done]. Qed.
Ltac fnd := unfold found, rd, wt, act; eexists _, _; cbn [skeleton]; split; [solve [ats]|cbn [matches]; first [done | set_solver]].
Lemma uses_found c : Forall (found c) (uses c).
Proof.
  destruct c; cbn [uses]; repeat first [apply Forall_nil_2 | apply Forall_cons_2 | apply Forall_app_2 | apply found_fmap; intros ? ?].
  all: try (solve [fnd]).
  - apply in_concat in H as (e & He & Hx). fnd.
  - rewrite <- (list_fmap_id sss) in H. apply in_concat in H as (e & He & Hx). cbn in Hx. fnd.
Qed.

(** ** Calls that never lock the vault for writing *)
Lemma dok_no_write L I t l : forall st h, dok L I (fun _ => False) t st h l -> ALock KWrite ∉ l.
Proof.
  induction l as [|a l IH]; intros st h H Hin; [by apply elem_of_nil in Hin|]. apply elem_of_cons in Hin as [<-|Hin].
  - cbn [dok] in H. destruct H as [H _]. by apply H.
  - destruct a as [k| |r|r|x|x]; cbn [dok] in H; try (by eapply IH).
    + destruct H as (_ & _ & H). by eapply IH.
    + destruct st; [done|]. destruct H as [_ H]. by eapply IH.
    + destruct H as [_ H]. destruct (inc h r); [by eapply IH|done].
    + destruct h as [[]|]; [|done]. destruct H as [_ H]. by eapply IH.
Qed.
Lemma reader_no_write c : ~ writes c -> ALock KWrite ∉ skeleton c.
Proof.
  intros H. eapply (dok_no_write yes0 yes1 0 _ [] None). apply dgood_ok. by apply skeleton_dgood.
Qed.
Lemma shared_reader c x w : (x, w, GRead) ∈ uses c -> ~ writes c.
Proof.
  destruct c; cbn [uses writes]; intros H Hw; try done; unfold rd, wt in H; set_unfold in H;
    repeat match type of H with _ \/ _ => destruct H as [H|H] end; repeat match type of H with exists _, _ => destruct H as [? H] | _ /\ _ => destruct H as [H ?] end; try done; try discriminate.
Qed.
