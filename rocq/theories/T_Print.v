(** Printed tables (C37). *)
From Coq Require Import Ascii.
From Verif Require Export PrintSpec.
From Verif Require Import T_Base T_Sets T_Query T_Refuted StringsProofs T_Json.
From Verif Require Export VaultModel Spec.
Open Scope nat_scope.

Lemma lines_app l1 l2 : lines (l1 ++ l2) = lines l1 ++ lines l2.
Proof. unfold lines. by rewrite fmap_app, concat_app. Qed.
Lemma lines_cons t l : lines (t :: l) = t ++ [LF] ++ lines l.
Proof. unfold lines. cbn [fmap list_fmap concat]. by rewrite <- app_assoc. Qed.
Section Shape.
Context {A : Type} (get : A -> string -> text -> option text) (val : A -> string -> text).
Lemma splitter_rule c d ms : splitter c d ms = rule_of c d ms.
Proof.
  unfold splitter, rule_of. f_equal. f_equal. apply list_fmap_ext. intros i m _. rewrite Nat.add_comm. cbn. f_equal. change [d; c] with ([d] ++ [c]). rewrite app_assoc, <- repeat_cons. done.
Qed.
Lemma header_row ks ms : header ks ms = row_of ms (tx <$> ks).
Proof. unfold header, row_of. cbn. f_equal. f_equal. revert ms. induction ks as [|k ks IH]; intros [|m ms]; cbn; try done. by rewrite IH. Qed.
Lemma column_width_ok k rs : forall m s, (forall r s, r ∈ rs -> get r k s = Some (val r k)) ->
  exists m' s', column_width get k rs m s = Some (m', s') /\ m <= m' /\ (forall r, r ∈ rs -> length (val r k) <= m') /\ (m' = m \/ exists r, r ∈ rs /\ m' = length (val r k)).
Proof.
  induction rs as [|r rs IH]; intros m s H; cbn [column_width].
  - exists m, s. split; [done|]. split; [done|]. split; [|by left]. intros r Hr. by apply elem_of_nil in Hr.
  - rewrite (H r s) by (by left). cbn [mbind option_bind]. destruct (IH (if m <? length (val r k) then length (val r k) else m) (val r k)) as (m' & s' & E & L & F & G); [intros; apply H; by right|].
    exists m', s'. split; [done|]. assert (G' : m' = m \/ exists x, x ∈ r :: rs /\ m' = length (val x k)).
    { destruct G as [G|(x & Hx & G)]; [|right; exists x; split; [by right|done]]. destruct (m <? length (val r k)); [right; exists r; split; [by left|done]|by left]. }
    destruct (Nat.ltb_spec m (length (val r k))); (split; [lia|]); (split; [|exact G']); intros x Hx; apply elem_of_cons in Hx as [->|Hx]; try by apply F. all: lia.
Qed.
Lemma column_widths_ok ks rs : forall s, (forall r k s, r ∈ rs -> k ∈ ks -> get r k s = Some (val r k)) ->
  exists ms s', column_widths get ks rs s = Some (ms, s') /\ fit_columns ms (tx <$> ks) /\ (forall r, r ∈ rs -> fit_columns ms (val r <$> ks)) /\
    Forall2 (fun k m => m = length (tx k) \/ exists r, r ∈ rs /\ m = length (val r k)) ks ms.
Proof.
  induction ks as [|k ks IH]; intros s H; cbn [column_widths].
  - exists [], s. split; [done|]. split; [constructor|]. split; [intros r _; constructor|constructor].
  - destruct (column_width_ok k rs (length (tx k)) s) as (m & s1 & E1 & L & F & T); [intros; apply H; [done|by left]|]. rewrite E1. cbn [mbind option_bind].
    destruct (IH s1) as (ms & s2 & E2 & G1 & G2 & G3); [intros; apply H; [done|by right]|]. rewrite E2. cbn. exists (m :: ms), s2. split; [done|]. split; [by constructor|].
    split; [|by constructor]. intros r Hr. constructor; [by apply F|by apply G2].
Qed.
Lemma row_cells_ok r ks : forall ms s, length ms = length ks -> (forall k s, k ∈ ks -> get r k s = Some (val r k)) ->
  exists t s', row_cells get r ks ms s = Some (t, s') /\ "|"%char :: t = row_of ms (val r <$> ks).
Proof.
  induction ks as [|k ks IH]; intros [|m ms] s Hl H; try done; cbn [row_cells]; [by eexists _, _|].
  rewrite (H k s) by (by left). cbn [mbind option_bind]. destruct (IH ms (val r k)) as (t & s' & E & F); [by injection Hl|intros; apply H; by right|]. rewrite E. cbn.
  eexists _, _. split; [done|]. unfold row_of in *. cbn. injection F as F. by rewrite F.
Qed.
Lemma table_rows_ok ident rs ks ms : forall s, length ms = length ks -> (forall r k s, r ∈ rs -> k ∈ ks -> get r k s = Some (val r k)) ->
  table_rows get ident rs ks ms s = Some (lines ((fun r => row_of ms (val r <$> ks) ++ match ident with Some f => tx " " ++ f r | None => [] end) <$> rs)).
Proof.
  induction rs as [|r rs IH]; intros s Hl H; cbn [table_rows]; [done|].
  destruct (row_cells_ok r ks ms s Hl) as (t & s' & E & F); [intros; apply H; [by left|done]|]. rewrite E. cbn [mbind option_bind]. rewrite (IH s' Hl) by (intros; apply H; [by right|done]).
  cbn [mbind option_bind]. f_equal. unfold lines. cbn [fmap list_fmap concat]. rewrite <- F. cbn. by rewrite <- !app_assoc.
Qed.
End Shape.
Lemma closing_rule amt n ms : closing amt n ms = if match amt with None => true | Some m => n <=? m end then rule_of "+" "-" ms else rule_of "$" "~" ms.
Proof. unfold closing. by rewrite !splitter_rule. Qed.

Lemma row_of_width ms ts : fit_columns ms ts -> length (row_of ms ts) = table_width ms.
Proof.
  unfold row_of, table_width. cbn [length Nat.add]. intros H0. f_equal. induction H0 as [|m t ms ts H HF IH]; [done|]. cbn [zip_with concat sum_list_with]. rewrite app_length. cbn [length]. rewrite !app_length, repeat_length.
  rewrite IH. cbn. lia.
Qed.
Lemma rule_of_width c d ms : length (rule_of c d ms) = table_width ms.
Proof.
  unfold rule_of, table_width. cbn [length]. f_equal. induction ms as [|m ms IH]; [done|]. cbn [fmap list_fmap concat sum_list_with]. rewrite !app_length, repeat_length, IH. cbn. lia.
Qed.

(** What a table says: lines of the same width (apart from the ids at the end of the rows and the count below), the names of the keys,
    and for each record in [rs] the texts of its values. *)
Section Facts.
Context (w : world) (o : nat) (ob : obj) (Ho : w_objs w !! o = Some ob).
Context (Hval : forall r, r ∈ o_recs ob -> valid_rec w r) (Hst : forall r k, r ∈ o_recs ob -> is_Some (get_key_type ob k) -> is_Some (stored w r k)).
Definition text_of_value (r : nat) (k : string) : text := from_option to_string [] (stored w r k).
Lemma record_as_string_val r k s : r ∈ o_recs ob -> is_Some (get_key_type ob k) -> record_as_string w r k s = Some (text_of_value r k).
Proof.
  intros Hr Hk. destruct (Hval r Hr) as (rc & Hrc & Hv). destruct (Hst r k Hr Hk) as [v Ev]. unfold record_as_string, text_of_value. rewrite Hrc, Ev. cbn. unfold as_string.
  unfold stored in Ev. rewrite Hrc in Ev. cbn in Ev. rewrite Hv in Ev. by rewrite Ev.
Qed.
Lemma ref_as_string_val r k s : r ∈ o_recs ob -> is_Some (get_key_type ob k) -> ref_as_string w (Ref (Some r) (Some o)) k s = Some (text_of_value r k).
Proof.
  intros Hr Hk. destruct (Hval r Hr) as (rc & Hrc & Hv). destruct (Hst r k Hr Hk) as [v Ev]. unfold ref_as_string, text_of_value. cbn. rewrite Ho, Hrc, Ev. cbn. rewrite Hv.
  unfold get_key_type in Hk. destruct (o_keys ob !! k); [|by destruct Hk]. unfold as_string. unfold stored in Ev. rewrite Hrc in Ev. cbn in Ev. rewrite Hv in Ev. by rewrite Ev.
Qed.
Lemma texts_of_val r ks : r ∈ o_recs ob -> (forall k, k ∈ ks -> is_Some (get_key_type ob k)) -> texts_of w r ks (text_of_value r <$> ks).
Proof.
  intros Hr Hks. unfold texts_of. apply Forall2_fmap_r, Forall_Forall2_diag, Forall_forall. intros k Hk. destruct (Hst r k Hr (Hks k Hk)) as [v Ev]. exists v. split; [done|].
  unfold text_of_value. by rewrite Ev.
Qed.
Lemma widths_are (R : nat -> Prop) ks ms : fit_columns ms (tx <$> ks) -> (forall r, R r -> r ∈ o_recs ob) -> (forall k, k ∈ ks -> is_Some (get_key_type ob k)) ->
  (forall r, R r -> fit_columns ms (text_of_value r <$> ks)) -> Forall2 (fun k m => m = length (tx k) \/ exists r, R r /\ m = length (text_of_value r k)) ks ms ->
  column_widths_are w R ks ms.
Proof.
  intros F1 HR Hks F2 F3. apply Forall2_same_length_lookup in F3 as [Hl F3]. apply Forall2_same_length_lookup. split; [done|]. intros i k m Hk Hm. split; [|split].
  - eapply (Forall2_lookup_lr _ _ _ i) in F1; [exact F1|done|]. by rewrite list_lookup_fmap, Hk.
  - intros r v Hr Ev. specialize (F2 r Hr). eapply (Forall2_lookup_lr _ _ _ i) in F2; [|done|by rewrite list_lookup_fmap, Hk]. unfold text_of_value in F2. by rewrite Ev in F2.
  - destruct (F3 i k m Hk Hm) as [?|(r & Hr & E)]; [by left|right]. apply elem_of_list_lookup_2 in Hk. destruct (Hst r k (HR r Hr) (Hks k Hk)) as [v Ev]. exists r, v. split; [done|]. split; [done|].
    unfold text_of_value in E. by rewrite Ev in E.
Qed.
End Facts.

Lemma sort_by_all w o key rev amt rs : sorted_records w o key rev amt = Some rs -> sort_by w o key rev amt (fun _ _ => true) = Some rs.
Proof.
  intros H. unfold sort_by.
  assert (exists l, sorted_records w o key rev None = Some l /\ rs = limit amt l) as (l & -> & ->).
  { unfold sorted_records in *. destruct (w_objs w !! o) as [ob|]; [|done]. cbn [mbind option_bind] in *. destruct (_ && _); [injection H as <-; exists []; split; [done|]; destruct amt; cbn; [by rewrite take_nil|done]|].
    destruct (o_keys ob !! key); [|injection H as <-; exists []; split; [done|]; destruct amt; cbn; [by rewrite take_nil|done]]. destruct (o_idx ob !! key); [|done]. cbn in *. injection H as <-. by eexists. }
  cbn. f_equal. destruct amt as [n|]; cbn [limit].
  - assert (G : forall l i, visit_while (fun _ _ : nat => true) (Some n) i l = take (n - i) l); [|by rewrite G, Nat.sub_0_r]. clear. intros l. induction l as [|r l IH]; intros i; cbn [visit_while]; [by rewrite take_nil|].
    destruct (Nat.leb_spec n i); [by replace (n - i) with 0 by lia|]. rewrite IH. by replace (n - i) with (S (n - S i)) by lia.
  - assert (G : forall l i, visit_while (fun _ _ : nat => true) None i l = l); [|by rewrite G]. clear. intros l. induction l as [|r l IH]; intros i; cbn [visit_while]; [done|]. by rewrite IH.
Qed.
Lemma source_any b w o ob pv : reach b w -> source_at b w o ob pv ->
  (forall r, r ∈ o_recs ob -> valid_rec w r) /\ (forall r k, r ∈ o_recs ob -> is_Some (get_key_type ob k) -> is_Some (stored w r k)) /\ (forall k, is_Some (get_key_type ob k) -> is_Some (o_idx ob !! k)).
Proof.
  intros HR HS. pose proof (reach_inv _ _ HR) as HI.
  assert (VA : forall o ob, vault_at w o ob -> (forall r, r ∈ o_recs ob -> valid_rec w r) /\ (forall r k, r ∈ o_recs ob -> is_Some (get_key_type ob k) -> is_Some (stored w r k)) /\ (forall k, is_Some (get_key_type ob k) -> is_Some (o_idx ob !! k))).
  { intros o' ob' HV. split; [intros r; by apply (vault_valid b w HR o')|]. split.
    - intros r k Hr [t Hk]. unfold get_key_type in Hk. destruct (o_keys ob' !! k) as [td|] eqn:E; [|done]. destruct (vault_stored b w HR _ _ _ _ _ HV Hr E) as (v & Ev & _). eauto.
    - intros k [t Hk]. unfold get_key_type in Hk. destruct (o_keys ob' !! k) as [td|] eqn:E; [|done]. destruct HV as [V1 V2]. destruct (v_idx _ _ (vi_vault _ _ _ _ (inv_obj _ _ HI) _ _ V1 V2) _ _ E) as (ix & Hix & _). eauto. }
  destruct HS as [[HV ->]|(-> & HSt & Hp)]; [by eapply VA|]. destruct HSt as [Hs Hst].
  destruct (so_some _ _ _ _ _ _ (vi_set _ _ _ _ (inv_obj _ _ HI) _ _ Hs Hst) pv Hp) as (pb & Hpb & Hps & _ & SP). pose proof (sp_strict _ _ _ _ _ SP eq_refl) as S. destruct (VA pv pb (conj Hpb Hps)) as (V1 & V2 & V3).
  assert (HK : forall k, get_key_type ob k = get_key_type pb k). { intros k. unfold get_key_type. rewrite <- !lookup_fmap. by rewrite (st_keys _ _ _ _ S). }
  split; [intros r Hr; by apply V1, (st_recs _ _ _ _ S)|]. split; [intros r k Hr Hk; apply V2; [by apply (st_recs _ _ _ _ S)|by rewrite <- HK]|].
  intros k [t Hk]. unfold get_key_type in Hk. destruct (o_keys ob !! k) as [td|] eqn:E; [|done]. destruct (st_idx _ _ _ _ S _ _ E) as (ix & Hix & _). eauto.
Qed.

Lemma print_ok b ord w o ob pv ids amt primary rev keys addr ks key rs :
  reach b w -> fair ord -> source_at b w o ob pv -> ks = match keys with [] => get_keys ob | _ => keys end ->
  (if decide (primary = ""%string) then head ks else Some primary) = Some key -> (forall k, k ∈ key :: ks -> is_Some (get_key_type ob k)) ->
  sorted_records w o key rev amt = Some rs ->
  exists widths rows,
    vault_print ord w o ids amt primary rev keys addr = Some (lines (
      [rule_of "+" "-" widths; row_of widths (tx <$> ks); rule_of "+" "-" widths] ++ rows ++
      [if match amt with None => true | Some n => size (o_recs ob) <=? n end then rule_of "+" "-" widths else rule_of "$" "~" widths;
       records_line (size (o_recs ob))])) /\
    fit_columns widths (tx <$> ks) /\ column_widths_are w (fun r => r ∈ o_recs ob) ks widths /\
    Forall2 (fun r row => r ∈ o_recs ob /\ exists ts, texts_of w r ks ts /\ fit_columns widths ts /\ row = row_of widths ts ++ (if ids then tx " " ++ addr r else [])) rs rows.
Proof.
  intros HR Hf HS Eks Ekey Hks Hrs. pose proof (source_obj _ _ _ _ _ HS) as Ho. destruct (source_any _ _ _ _ _ HR HS) as (Hval & Hst & Hix). set (val := text_of_value w).
  assert (Hks' : forall k, k ∈ ks -> is_Some (get_key_type ob k)) by (intros; apply Hks; by right).
  assert (Hin : forall r, r ∈ rs -> r ∈ o_recs ob).
  { intros r Hr. assert (Hk : is_Some (get_key_type ob key)) by (apply Hks; by left).
    assert (exists l, sorted_records w o key false None = Some l /\ r ∈ l) as (l & El & Hl).
    { unfold sorted_records in *. rewrite Ho in *. cbn [mbind option_bind] in *. destruct (_ && _); [injection Hrs as <-; by apply elem_of_nil in Hr|].
      destruct (o_keys ob !! key); [|injection Hrs as <-; by apply elem_of_nil in Hr]. destruct (o_idx ob !! key) as [ix|]; [|done]. cbn in *. injection Hrs as <-. eexists. split; [done|].
      destruct amt as [n|]; cbn in Hr.
      - apply elem_of_take in Hr as (i & Hr & _). apply elem_of_list_lookup_2 in Hr. destruct rev; cbn; [by apply elem_of_reverse|done].
      - destruct rev; cbn; [by apply elem_of_reverse|done]. }
    destruct (t_C12_sorted_order _ _ _ _ _ _ _ HR HS Hk El) as (_ & _ & H & _). by apply H. }
  assert (Hne : o_idx ob <> ∅). { intros E. destruct (Hix key) as [ix Eix]; [apply Hks; by left|]. by rewrite E, lookup_empty in Eix. }
  unfold vault_print. rewrite Ho. cbn [mbind option_bind]. rewrite decide_False by done. fold (get_keys ob). rewrite <- Eks.
  destruct (column_widths_ok (record_as_string w) val ks (ord (elements (o_recs ob))) []) as (ms & s & Ems & F1 & F2 & F3).
  { intros r k s Hr Hk. apply record_as_string_val with ob; auto. rewrite (Hf _), elem_of_elements in Hr. done. }
  rewrite Ems. cbn [mbind option_bind]. rewrite Ekey. cbn [mbind option_bind]. rewrite (sort_by_all _ _ _ _ _ _ Hrs). cbn [mbind option_bind].
  assert (Hlen : length ms = length ks). { apply Forall2_length in F1. by rewrite fmap_length in F1. }
  rewrite (table_rows_ok _ val _ rs ks ms s Hlen). 2:{ intros r k s' Hr Hk. apply ref_as_string_val with ob; auto. }
  cbn [mbind option_bind]. set (rows := _ <$> rs). exists ms, rows. split; [|split; [done|split; [|unfold rows; clear rows]]].
  - f_equal. rewrite header_row, closing_rule, !splitter_rule, !lines_app, !lines_cons. unfold counted, records_line. rewrite <- !app_assoc. rewrite app_nil_r. reflexivity.
  - assert (HE : forall r, r ∈ ord (elements (o_recs ob)) <-> r ∈ o_recs ob) by (intros r; by rewrite (Hf _), elem_of_elements).
    apply widths_are with ob; try done; [intros r Hr; by apply F2, HE|]. eapply Forall2_impl; [exact F3|]. intros k m [?|(r & Hr & E)]; [by left|right]. exists r. split; [by apply HE|done].
  - apply Forall2_fmap_r, Forall_Forall2_diag, Forall_forall. intros r Hr. split; [by apply Hin|]. exists (val r <$> ks). split; [apply texts_of_val with ob; auto|]. split; [apply F2; rewrite (Hf _), elem_of_elements; by apply Hin|].
    by destruct ids.
Qed.

(** C37: what Print writes for a vault: a header with the names of the keys, a row for each record that GetSortedRecords gives, with the texts
    of its values, in columns exactly as wide as the longest of the texts of all records, then the number of records. *)
Lemma t_C37_print_exact :
  forall b ord w o ob ids amt primary rev keys addr ks key rs, reach b w -> fair ord -> vault_at w o ob ->
    ks = match keys with [] => get_keys ob | _ => keys end -> (if decide (primary = ""%string) then head ks else Some primary) = Some key ->
    (forall k, k ∈ key :: ks -> is_Some (get_key_type ob k)) -> sorted_records w o key rev amt = Some rs ->
    exists widths rows,
      vault_print ord w o ids amt primary rev keys addr = Some (lines (
        [rule_of c_plus c_dash widths; row_of widths (tx <$> ks); rule_of c_plus c_dash widths] ++ rows ++
        [if match amt with None => true | Some n => size (o_recs ob) <=? n end then rule_of c_plus c_dash widths else rule_of c_dollar c_tilde widths;
         records_line (size (o_recs ob))])) /\
      column_widths_are w (fun r => r ∈ o_recs ob) ks widths /\
      Forall2 (fun r row => exists ts, texts_of w r ks ts /\ fit_columns widths ts /\ row = row_of widths ts ++ (if ids then tx " " ++ addr r else [])) rs rows.
Proof.
  intros b ord w o ob ids amt primary rev keys addr ks key rs HR Hf HV Eks Ekey Hks Hrs.
  destruct (print_ok b ord w o ob o ids amt primary rev keys addr ks key rs) as (ms & rows & E & F1 & F3 & F2); try done; [by left|]. exists ms, rows. split; [done|]. split; [done|].
  eapply Forall2_impl; [exact F2|]. by intros r row [_ H].
Qed.
(** C37: the same for a set. *)
Lemma t_C37_set_print_exact :
  forall ord w s sb p ids amt primary rev keys addr ks key rs, reach true w -> fair ord -> set_at w s sb -> o_parent sb = Some p ->
    ks = match keys with [] => get_keys sb | _ => keys end -> (if decide (primary = ""%string) then head ks else Some primary) = Some key ->
    (forall k, k ∈ key :: ks -> is_Some (get_key_type sb k)) -> sorted_records w s key rev amt = Some rs ->
    exists widths rows,
      set_print ord w s ids amt primary rev keys addr = Some (lines (
        [rule_of c_plus c_dash widths; row_of widths (tx <$> ks); rule_of c_plus c_dash widths] ++ rows ++
        [if match amt with None => true | Some n => size (o_recs sb) <=? n end then rule_of c_plus c_dash widths else rule_of c_dollar c_tilde widths;
         records_line (size (o_recs sb))])) /\
      column_widths_are w (fun r => r ∈ o_recs sb) ks widths /\
      Forall2 (fun r row => exists ts, texts_of w r ks ts /\ fit_columns widths ts /\ row = row_of widths ts ++ (if ids then tx " " ++ addr r else [])) rs rows.
Proof.
  intros ord w s sb p ids amt primary rev keys addr ks key rs HR Hf HS Hp Eks Ekey Hks Hrs.
  destruct (print_ok true ord w s sb p ids amt primary rev keys addr ks key rs) as (ms & rows & E & F1 & F3 & F2); try done; [by right|]. exists ms, rows. split.
  { unfold set_print. destruct HS as [-> _]. cbn [mbind option_bind]. rewrite Hp. exact E. } split; [done|].
  eapply Forall2_impl; [exact F2|]. by intros r row [_ H].
Qed.
Lemma digit_no_lf d : (0 <= d <= 9)%Z -> digit_char d <> LF.
Proof. intros H E. apply (f_equal byte) in E. rewrite byte_digit in E by done. assert (byte LF = 10%Z) as E2 by (vm_compute; reflexivity). lia. Qed.
Lemma dec_no_lf z : LF ∉ dec z.
Proof.
  destruct (dec_spec z) as (neg & ds & (-> & Hd & _) & _). intros H. apply elem_of_app in H as [H|H].
  - destruct neg; [|by apply elem_of_nil in H]. apply elem_of_list_singleton in H. discriminate H.
  - apply elem_of_list_fmap in H as (d & E & Hi). unfold digits in Hd. rewrite Forall_forall in Hd. symmetry in E. revert E. apply digit_no_lf. by apply Hd.
Qed.
Lemma repeat_no_lf c n : c <> LF -> LF ∉ repeat c n.
Proof. intros H Hi. apply H. induction n as [|n IH]; cbn in Hi; [by apply elem_of_nil in Hi|]. apply elem_of_cons in Hi as [E|Hi]; [by symmetry|by apply IH]. Qed.
Lemma rule_no_lf c d ms : c <> LF -> d <> LF -> LF ∉ rule_of c d ms.
Proof.
  intros Hc Hd H. unfold rule_of in H. apply elem_of_cons in H as [H|H]; [by apply Hc|]. induction ms as [|m ms IH]; cbn in H; [by apply elem_of_nil in H|].
  apply elem_of_app in H as [H|H]; [|by apply IH]. apply elem_of_app in H as [H|H]; [by apply (repeat_no_lf d (m + 2))|]. apply elem_of_list_singleton in H. by apply Hc.
Qed.
Lemma row_no_lf ms ts : Forall (fun t => LF ∉ t) ts -> LF ∉ row_of ms ts.
Proof.
  intros Ht H. unfold row_of in H. apply elem_of_cons in H as [H|H]; [discriminate H|]. revert ms H. induction Ht as [|t ts Hn Ht IH]; intros [|m ms] H; cbn [zip_with concat] in H; try (by apply elem_of_nil in H).
  apply elem_of_app in H as [H|H]; [|by eapply IH]. apply elem_of_cons in H as [H|H]; [discriminate H|]. apply elem_of_app in H as [H|H]; [done|].
  apply elem_of_app in H as [H|H]; [revert H; by apply repeat_no_lf|]. vm_compute in H. repeat (apply elem_of_cons in H as [H|H]; [discriminate H|]). by apply elem_of_nil in H.
Qed.
(** C37: without the identifiers all lines but the last ("(n records)") have the same number of bytes; if no name and no value contains a line
    break, these are the lines of the output. *)
Lemma t_C37_aligned :
  forall b ord w o ob pv amt primary rev keys addr ks key, reach b w -> fair ord -> source_at b w o ob pv ->
    ks = match keys with [] => get_keys ob | _ => keys end -> (if decide (primary = ""%string) then head ks else Some primary) = Some key ->
    (forall k, k ∈ key :: ks -> is_Some (get_key_type ob k)) ->
    exists n ls last, vault_print ord w o false amt primary rev keys addr = Some (lines (ls ++ [last])) /\ 4 <= length ls /\ Forall (fun l => length l = n) ls /\
      ((forall k, k ∈ ks -> LF ∉ tx k) -> (forall r k v, r ∈ o_recs ob -> k ∈ ks -> stored w r k = Some v -> LF ∉ to_string v) -> Forall (fun l => LF ∉ l) (ls ++ [last])).
Proof.
  intros b ord w o ob pv amt primary rev keys addr ks key HR Hf HS Eks Ekey Hks.
  assert (exists rs, sorted_records w o key rev amt = Some rs) as [rs Hrs].
  { unfold sorted_records. rewrite (source_obj _ _ _ _ _ HS). cbn [mbind option_bind]. destruct (_ && _); [eauto|]. destruct (source_any _ _ _ _ _ HR HS) as (_ & _ & Hix).
    destruct (Hix key) as [ix ->]; [apply Hks; by left|]. destruct (o_keys ob !! key); eauto. }
  destruct (print_ok b ord w o ob pv false amt primary rev keys addr ks key rs) as (ms & rows & E & F1 & F3 & F2); try done.
  eexists (table_width ms), (_ :: _ :: _ :: rows ++ [_]), _. split; [rewrite E; cbn [app]; rewrite <- app_assoc; reflexivity|]. split; [cbn; rewrite app_length; cbn; lia|]. split.
  - repeat apply Forall_cons_2; try apply rule_of_width; [by apply row_of_width|]. apply Forall_app. split.
    + clear -F2. induction F2 as [|r row rs rows (_ & ts & _ & H & ->) HF IH]; constructor; [|done]. rewrite app_nil_r. by apply row_of_width.
    + constructor; [|constructor]. destruct (match amt with None => _ | _ => _ end); apply rule_of_width.
  - intros Hk Hv. apply Forall_app. split.
    + repeat apply Forall_cons_2; try (by apply rule_no_lf).
      { apply row_no_lf. rewrite Forall_forall. intros t Ht. apply elem_of_list_fmap in Ht as (k & -> & Ht). by apply Hk. }
      apply Forall_app. split; [|constructor; [destruct (match amt with None => _ | _ => _ end); by apply rule_no_lf|constructor]].
      clear -F2 Hv. induction F2 as [|r row rs rows (Hr & ts & HT & H & ->) HF IH]; constructor; [|done]. rewrite app_nil_r. apply row_no_lf.
      clear -HT Hv Hr. unfold texts_of in HT. revert Hv. induction HT as [|k t ks ts (v & Hs & ->) HT IH]; intros Hv; constructor; [eapply Hv; [done|by left|done]|].
      apply IH. intros r' k' v' H1 H2. apply Hv; [done|by right].
    + constructor; [|constructor]. unfold records_line. intros H. apply elem_of_app in H as [H|H]; [|apply elem_of_app in H as [H|H]; [by apply dec_no_lf in H|]];
        vm_compute in H; repeat (apply elem_of_cons in H as [H|H]; [discriminate H|]); by apply elem_of_nil in H.
Qed.
(** C37: when the records are filed under the key the table is sorted by, every one of them has its row. *)
Lemma t_C37_all_records_shown :
  forall b ord w o ob pv ids primary rev keys addr ks key, reach b w -> fair ord -> source_at b w o ob pv -> indexed w ob ->
    ks = match keys with [] => get_keys ob | _ => keys end -> (if decide (primary = ""%string) then head ks else Some primary) = Some key ->
    (forall k, k ∈ key :: ks -> is_Some (get_key_type ob k)) ->
    exists widths rs above rows below, vault_print ord w o ids None primary rev keys addr = Some (lines (above ++ rows ++ below)) /\ rs ≡ₚ elements (o_recs ob) /\
      Forall2 (fun r row => exists ts, texts_of w r ks ts /\ fit_columns widths ts /\ row = row_of widths ts ++ (if ids then tx " " ++ addr r else [])) rs rows.
Proof.
  intros b ord w o ob pv ids primary rev keys addr ks key HR Hf HS Hidx Eks Ekey Hks. destruct (source_any _ _ _ _ _ HR HS) as (_ & Hst & Hix). assert (Hk : is_Some (get_key_type ob key)) by (apply Hks; by left).
  assert (exists l, sorted_records w o key false None = Some l) as [l Hl].
  { unfold sorted_records. rewrite (source_obj _ _ _ _ _ HS). cbn [mbind option_bind]. destruct (_ && _); [eauto|]. destruct (Hix key Hk) as [ix ->]. destruct (o_keys ob !! key); eauto. }
  assert (HP : l ≡ₚ elements (o_recs ob)).
  { destruct (t_C12_sorted_order _ _ _ _ _ _ _ HR HS Hk Hl) as (H1 & H2 & H3 & _). apply NoDup_Permutation; [done|apply NoDup_elements|]. intros r. rewrite elem_of_elements. split; [intros Hr; by apply H3|].
    intros Hr. apply H2. destruct (Hst r key Hr Hk) as [v Ev]. exists v. by apply (Hidx key Hk). }
  assert (Hr : sorted_records w o key rev None = Some (if rev then reverse l else l)). { destruct (t_C12_reverse_and_limit _ _ _ _ Hl) as [H _]. by destruct rev. }
  destruct (print_ok b ord w o ob pv ids None primary rev keys addr ks key _ HR Hf HS Eks Ekey Hks Hr) as (ms & rows & E & F1 & F3 & F2).
  eexists ms, (if rev then reverse l else l), _, rows, _. split; [exact E|]. split.
  - destruct rev; [|done]. etransitivity; [|exact HP]. apply reverse_Permutation.
  - eapply Forall2_impl; [exact F2|]. by intros r row [_ H].
Qed.
(** C37: a set without a vault prints a message. *)
Lemma t_C37_set_not_valid :
  forall ord w s sb ids amt primary rev keys addr, set_at w s sb -> o_parent sb = None ->
    set_print ord w s ids amt primary rev keys addr = Some (lines [tx "The parent Vault is not valid!"]).
Proof. intros ord w s sb ids amt primary rev keys addr [Hs _] Hp. unfold set_print. rewrite Hs. cbn [mbind option_bind]. rewrite Hp. done. Qed.

(** C37: PrintAsTable on references to valid records of a vault: a row for each of them, or for the first [n]. *)
Lemma t_C37_table_of_refs :
  forall b w o ob rfs ids amt keys addr ks, reach b w -> vault_at w o ob -> rfs <> [] ->
    (forall rf, rf ∈ rfs -> f_vlt rf = Some o /\ exists r, f_rec rf = Some r /\ r ∈ o_recs ob) ->
    ks = match keys with [] => get_keys ob | _ => keys end -> (forall k, k ∈ ks -> is_Some (get_key_type ob k)) -> amt <> Some 0 ->
    exists widths rows,
      print_as_table w rfs ids amt keys addr = Some (lines (
        [rule_of c_plus c_dash widths; row_of widths (tx <$> ks); rule_of c_plus c_dash widths] ++ rows ++
        [if match amt with None => true | Some n => length rfs <=? n end then rule_of c_plus c_dash widths else rule_of c_dollar c_tilde widths;
         records_line (length rfs)])) /\
      column_widths_are w (fun r => exists rf, rf ∈ rfs /\ f_rec rf = Some r) ks widths /\
      Forall2 (fun rf row => exists r ts, f_rec rf = Some r /\ texts_of w r ks ts /\ fit_columns widths ts /\ row = row_of widths ts ++ (if ids then tx " " ++ addr r else []))
        (match amt with None => rfs | Some n => take n rfs end) rows.
Proof.
  intros b w o ob rfs ids amt keys addr ks HR HV Hne Hrfs Eks Hks Hamt. pose proof HV as [Ho _].
  destruct (source_any b w o ob o HR ltac:(by left)) as (Hval & Hst & _). set (val := fun rf => match f_rec rf with Some r => text_of_value w r | None => fun _ => [] end).
  assert (Hget : forall rf k s, rf ∈ rfs -> k ∈ ks -> ref_as_string w rf k s = Some (val rf k)).
  { intros [fr fv] k s Hin Hk. destruct (Hrfs _ Hin) as (E1 & r & E2 & Hr). cbn in E1, E2. subst fr fv. unfold val. cbn [f_rec]. apply ref_as_string_val with ob; auto. }
  destruct rfs as [|rf rfs0] eqn:Erfs; [done|]. unfold print_as_table. rewrite <- Erfs in *.
  assert (Hin0 : rf ∈ rfs) by (rewrite Erfs; by left). destruct (Hrfs _ Hin0) as (Ev & r0 & Er & Hr0). destruct (Hval _ Hr0) as (rc & Hrc & Hvr).
  assert (Ek : match keys with [] => ref_keys w rf | _ => Some keys end = Some ks). { subst ks. destruct keys; [|done]. unfold ref_keys. rewrite Er, Hrc. cbn. rewrite Hvr, Ev. cbn. by rewrite Ho. }
  rewrite Ek. cbn [mbind option_bind]. destruct (column_widths_ok (ref_as_string w) val ks rfs []) as (ms & s & Ems & F1 & F2 & F3); [done|]. rewrite Ems. cbn [mbind option_bind].
  assert (Hlen : length ms = length ks). { apply Forall2_length in F1. by rewrite fmap_length in F1. }
  assert (Et : match amt with None | Some 0 => rfs | Some (S n as n0) => take n0 rfs end = match amt with None => rfs | Some n => take n rfs end). { by destruct amt as [[|n]|]. }
  rewrite Et. set (rs := match amt with None => rfs | Some n => take n rfs end).
  assert (Hsub : forall x, x ∈ rs -> x ∈ rfs). { intros x Hx. unfold rs in Hx. destruct amt as [n|]; [|done]. apply elem_of_take in Hx as (i & Hx & _). by eapply elem_of_list_lookup_2. }
  rewrite (table_rows_ok _ val _ rs ks ms s Hlen). 2:{ intros r k s' Hr Hk. apply Hget; auto. }
  cbn [mbind option_bind]. set (rows := _ <$> rs). exists ms, rows. split; [|split; [|unfold rows; clear rows]].
  - f_equal. rewrite header_row, closing_rule, !splitter_rule, !lines_app, !lines_cons. unfold counted, records_line. rewrite <- !app_assoc. rewrite app_nil_r. reflexivity.
  - apply widths_are with ob; try done.
    + intros r (x & Hx & Ex). destruct (Hrfs _ Hx) as (_ & r' & E' & Hr'). congruence.
    + intros r (x & Hx & Ex). specialize (F2 x Hx). unfold val in F2. by rewrite Ex in F2.
    + eapply Forall2_impl; [exact F3|]. intros k m [?|(x & Hx & E)]; [by left|right]. destruct (Hrfs _ Hx) as (_ & r & E' & Hr'). exists r. split; [by exists x|]. unfold val in E. by rewrite E' in E.
  - apply Forall2_fmap_r, Forall_Forall2_diag, Forall_forall. intros x Hx. apply Hsub in Hx as Hx'. destruct (Hrfs _ Hx') as (E1 & r & E2 & Hr). exists r, (val x <$> ks). split; [done|].
    unfold val at 1. rewrite E2. split; [apply texts_of_val with ob; auto|]. split; [by apply F2|]. unfold ref_ident. destruct ids; [|done]. rewrite E2. destruct (Hval _ Hr) as (rc' & -> & ->). done.
Qed.
(** C37: PrintRecord shows all keys of the record with the texts of their values. Missing: states in which AddUniqueKey has failed, see below. *)
Lemma t_C37_print_record_partial :
  forall b (ko : list string -> list string) w f rf r o ob addr, reach b w -> w_refs w !! f = Some rf -> f_rec rf = Some r -> f_vlt rf = Some o -> vault_at w o ob -> valid_rec w r ->
    (forall l, ko l ≡ₚ l) -> (forall k, is_Some (o_idx ob !! k) -> is_Some (get_key_type ob k)) ->
    exists ks ts, ks ≡ₚ get_keys ob /\ texts_of w r ks ts /\
      print_record ko w rf addr = Some (lines ((tx "Vault record " ++ addr r ++ tx ":") :: zip_with (fun k t => tab ++ tx k ++ tx " = " ++ t) ks ts)).
Proof.
  intros b ko w f rf r o ob addr HR Hrf Er Eo HV Hva Hko Hix. pose proof HV as [Ho Hs]. pose proof (reach_inv b w HR) as HI. destruct (source_any b w o ob o HR ltac:(by left)) as (Hval & Hst & Hid).
  assert (r ∈ o_recs ob) as Hr. { destruct (inv_vlt _ _ HI f rf r Hrf Er) as (o' & Eo' & H). assert (o' = o) as -> by congruence. apply H; [done|done|]. by apply valid_rec_live. }
  destruct Hva as (rc & Hrc & Hvr). set (ks := ko (elements (dom (o_idx ob)))). exists ks, (text_of_value w r <$> ks).
  assert (Hks : forall k, k ∈ ks <-> is_Some (get_key_type ob k)). { intros k. unfold ks. rewrite (Hko _), elem_of_elements, elem_of_dom. split; auto. }
  split; [|split].
  - apply NoDup_Permutation; [unfold ks; rewrite (Hko _); apply NoDup_elements|apply (vault_keys b w HR _ _ HV)|]. intros k. rewrite Hks. unfold get_keys. rewrite (k_order _ (vault_keys b w HR _ _ HV)).
    unfold get_key_type. by rewrite fmap_is_Some.
  - apply texts_of_val with ob; [done|done|]. intros k Hk. by apply Hks.
  - unfold print_record. rewrite Er, Hrc. cbn [mbind option_bind]. rewrite Hvr, Eo. cbn [mbind option_bind]. rewrite Ho. cbn [mbind option_bind]. fold ks.
    assert (Hv : forall k, k ∈ ks -> exists v, r_data rc !! k = Some v /\ text_of_value w r k = to_string v).
    { intros k Hk. destruct (Hst r k Hr) as [v Ev]; [by apply Hks|]. exists v. unfold text_of_value. rewrite Ev. split; [|done]. unfold stored in Ev. rewrite Hrc in Ev. cbn in Ev. by rewrite Hvr in Ev. }
    assert (mapM (fun k => s ← saver_text (r_data rc !! k); Some (["009"%char] ++ tx k ++ tx " = " ++ s ++ [LF])) ks = Some ((fun l => l ++ [LF]) <$> zip_with (fun k t => tab ++ tx k ++ tx " = " ++ t) ks (text_of_value w r <$> ks))) as ->.
    { clear -Hv. induction ks as [|k ks IH]; [done|]. destruct (Hv k) as (v & E1 & E2); [by left|]. cbn [mapM]. rewrite E1. cbn [saver_text mbind option_bind]. rewrite IH by (intros; apply Hv; by right). cbn [mbind option_bind].
      cbn [fmap list_fmap zip_with]. rewrite E2. f_equal. f_equal. rewrite <- !app_assoc. done. }
    cbn [mbind option_bind]. f_equal. rewrite lines_cons. unfold lines. rewrite <- !app_assoc. done.
Qed.
