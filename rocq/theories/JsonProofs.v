From Coq Require Import Ascii.
From Verif Require Import T_Base StringsProofs JsonSpec.
From Verif Require Import VaultModel Spec.
Open Scope nat_scope.

Definition allws (s : text) : Prop := Forall (fun c => is_ws c = true) s.
Definition no_digit (s : text) : Prop := match s with c :: _ => is_digit c = false | [] => True end.
Lemma skip_ws_app p s : allws p -> skip_ws (p ++ s) = skip_ws s.
Proof. induction 1 as [|c p Hc Hp IH]; [done|]. cbn [app skip_ws]. by rewrite Hc. Qed.
Lemma p_text_plain s rest : plain_json s -> p_text (s ++ quote :: rest) = Some (s, rest).
Proof.
  induction 1 as [|c s (H1 & H2 & H3) Hs IH]; cbn [app p_text].
  - by rewrite decide_True.
  - rewrite decide_False, decide_False, decide_False by (done || lia). rewrite IH. done.
Qed.
Lemma p_digits_map ds rest : digits ds -> no_digit rest -> p_digits (map digit_char ds ++ rest) = (ds, rest).
Proof.
  intros Hd Hr. induction Hd as [|d ds H Hd IH]; cbn [map app p_digits].
  - destruct rest as [|c r]; [done|]. cbn in Hr. cbn [p_digits]. by rewrite Hr.
  - rewrite is_digit_char by done. rewrite IH. rewrite byte_digit by done. do 2 f_equal. lia.
Qed.
Lemma p_natural_map ds rest : digits ds -> ds <> [] -> (number ds <> 0%Z -> hd 0%Z ds <> 0%Z) -> (number ds = 0%Z -> ds = [0%Z]) -> no_digit rest ->
  p_natural (map digit_char ds ++ rest) = Some (number ds, rest).
Proof.
  intros Hd Hne Hh Hz Hr. unfold p_natural. rewrite p_digits_map by done. destruct ds as [|d ds]; [done|]. destruct d as [|d|d]; [|done|done].
  destruct ds as [|d2 ds]; [done|]. exfalso. destruct (Z.eq_dec (number (0%Z :: d2 :: ds)) 0) as [E|E]; [by apply Hz in E|]. by apply Hh in E.
Qed.
Lemma digit_cases d : (0 <= d <= 9)%Z -> digit_char d ∈ tx "0123456789".
Proof.
  intros H. assert (d ∈ [0;1;2;3;4;5;6;7;8;9]%Z) as Hd by (rewrite !elem_of_cons; lia). clear H. revert d Hd. apply Forall_forall. apply (bool_decide_eq_true_1 _). vm_compute. reflexivity.
Qed.
Lemma p_number_dec z rest : no_digit rest -> p_number (dec z ++ rest) = Some (z, rest).
Proof.
  intros Hr. destruct (dec_spec z) as (neg & ds & (E & Hd & Hne) & Hv & Hn & Hh & Hz). rewrite E. unfold numeral_value in Hv. destruct neg; cbn [sign app].
  - cbn [p_number]. rewrite p_natural_map; [cbn [mbind option_bind]; do 2 f_equal; lia|done|done|intros H; apply Hh; lia|intros H; apply Hz; lia|done].
  - assert (p_number (map digit_char ds ++ rest) = p_natural (map digit_char ds ++ rest)) as ->.
    { destruct ds as [|d ds]; [done|]. apply Forall_cons in Hd as [Hd _]. cbn [map app]. pose proof (digit_cases d Hd) as Hc. revert Hc. generalize (digit_char d). intros c Hc.
      unfold tx in Hc. cbn in Hc. rewrite !elem_of_cons, elem_of_nil in Hc. destruct_or! Hc; subst; done. }
    rewrite p_natural_map; [by rewrite Hv|done|done|by rewrite Hv|by rewrite Hv|done].
Qed.
(** [v] is a text of the JSON value [j]: it can stand before anything that does not go on as a number. *)
Definition is_json (v : text) (j : json) : Prop := forall rest n, no_digit rest -> 2 * length (v ++ rest) < n -> p_value n (v ++ rest) = Some (j, rest).
Lemma is_json_ws p v j : allws p -> is_json v j -> is_json (p ++ v) j.
Proof.
  intros Hp Hv rest n Hr Hn. rewrite <- app_assoc in *. specialize (Hv rest n Hr). rewrite <- Hv by (rewrite app_length in Hn; lia). destruct n as [|n]; [lia|]. cbn [p_value]. by rewrite skip_ws_app.
Qed.
Lemma is_json_value v t : plain_value v -> json_value (Some v) = Some t -> is_json t (json_of v).
Proof.
  intros Hp E rest n Hr Hn. unfold json_value, saver_text in E. cbn [mbind option_bind fmap option_fmap option_map] in E. apply (inj Some) in E. subst t.
  destruct n as [|n]; [lia|]. destruct v as [t z|b|s|m z]; cbn [vty quoted_json to_string json_of] in *.
  - pose proof (p_number_dec z rest Hr) as H. revert H. clear. destruct (dec_spec z) as (neg & ds & (E & Hd & Hne) & _). rewrite E. destruct neg; cbn [sign app].
    + intros H. cbn [p_value]. change (skip_ws ("-"%char :: map digit_char ds ++ rest)) with ("-"%char :: map digit_char ds ++ rest). cbv beta iota zeta. rewrite H. done.
    + destruct ds as [|d ds]; [done|]. apply Forall_cons in Hd as [Hd _]. cbn [map app]. pose proof (digit_cases d Hd) as Hc. revert Hc. generalize (digit_char d). intros c Hc.
      unfold tx in Hc. cbn in Hc. rewrite !elem_of_cons, elem_of_nil in Hc. destruct_or! Hc; subst; intros H; cbn [p_value];
      match goal with |- context [skip_ws (?c :: ?l)] => change (skip_ws (c :: l)) with (c :: l) end; cbv beta iota zeta; rewrite H; done.
  - destruct b; done.
  - rewrite <- !app_assoc. cbn [app p_value]. change (skip_ws (quote :: tx s ++ quote :: rest)) with (quote :: tx s ++ quote :: rest). unfold quote at 1. cbv beta iota.
    by rewrite (p_text_plain (tx s) rest Hp).
  - done.
Qed.

(** Members and elements, separated by commas. *)
Definition item : Type := text * text * text * json.
Definition item_text (i : item) : text := let '(p, k, v, _) := i in p ++ [quote] ++ k ++ tx """:" ++ v.
Definition good_item (i : item) : Prop := let '(p, k, v, j) := i in allws p /\ plain_json k /\ is_json v j.
Fixpoint items_text (l : list item) : text :=
  match l with
  | [] => []
  | [i] => item_text i
  | i :: l' => item_text i ++ comma :: items_text l'
  end.
Definition item_member (i : item) : text * json := let '(_, k, _, j) := i in (k, j).
Lemma p_members_items l : forall tail rest n, l <> [] -> Forall good_item l -> allws tail -> 2 * length (items_text l ++ tail ++ "}"%char :: rest) < n ->
  p_members n (items_text l ++ tail ++ "}"%char :: rest) = Some (item_member <$> l, rest).
Proof.
  induction l as [|[[[p k] v] j] l IH]; intros tail rest n Hne Hg Ht Hn; [done|]. apply Forall_cons in Hg as [(Hp & Hk & Hv) Hg].
  assert (Hstep : forall X Y, no_digit X -> 2 * length (item_text (p, k, v, j) ++ X) < n -> (forall m, n = S m ->
     match skip_ws X with
              | ","%char :: s5 => '(l, rest) ← p_members m s5; Some ((k, j) :: l, rest)
              | "}"%char :: s5 => Some ([(k, j)], s5)
              | _ => None
              end = Y) -> p_members n (item_text (p, k, v, j) ++ X) = Y).
  { intros X Y HX Hl HY. destruct n as [|m]; [lia|]. specialize (HY m eq_refl). cbn [item_text] in *. rewrite <- !app_assoc in *. cbn [p_members]. rewrite skip_ws_app by done.
    cbn [app]. change (skip_ws (quote :: ?s)) with (quote :: s). unfold quote at 1. cbv beta iota. change (tx """:" ++ v ++ X) with (quote :: ":"%char :: v ++ X).
    rewrite p_text_plain by done. cbn [mbind option_bind]. change (skip_ws (":"%char :: v ++ X)) with (":"%char :: v ++ X). cbv beta iota.
    rewrite (Hv X m HX); [cbn [mbind option_bind]; done|]. rewrite !app_length in Hl. cbn in Hl. rewrite app_length. lia. }
  destruct l as [|i2 l].
  - cbn [items_text] in *. apply Hstep.
    + destruct tail as [|c tail]; [done|]. apply Forall_cons in Ht as [Hc _]. cbn. unfold is_ws in Hc. apply bool_decide_eq_true in Hc. rewrite !elem_of_cons, elem_of_nil in Hc. destruct_or! Hc; by subst.
    + done.
    + intros m _. rewrite skip_ws_app by done. done.
  - change (items_text ((p, k, v, j) :: i2 :: l)) with (item_text (p, k, v, j) ++ comma :: items_text (i2 :: l)) in *. rewrite <- app_assoc in *. cbn [app] in *. apply Hstep.
    + done.
    + done.
    + intros m ->. change (skip_ws (comma :: ?s)) with (comma :: s). unfold comma at 1. cbv beta iota. rewrite IH; [done|done|done|done|].
      rewrite app_length in Hn. cbn [length] in Hn. lia.
Qed.
Lemma items_head p k v j l tail : exists s, items_text ((p, k, v, j) :: l) ++ tail = p ++ quote :: s.
Proof.
  destruct l as [|i l]; cbn [items_text item_text]; eexists; rewrite <- !app_assoc; cbn [app]; done.
Qed.
Lemma is_json_object l tail : Forall good_item l -> allws tail -> is_json (tx "{" ++ items_text l ++ tail ++ tx "}") (JObject (item_member <$> l)).
Proof.
  intros Hg Ht rest n Hr Hn. destruct n as [|n]; [lia|]. change (tx "{" ++ items_text l ++ tail ++ tx "}") with ("{"%char :: items_text l ++ tail ++ ["}"%char]) in *. cbn [app] in *.
  rewrite <- !app_assoc in *. cbn [app] in *. cbn [p_value]. change (skip_ws ("{"%char :: ?s)) with ("{"%char :: s). cbv beta iota. destruct l as [|[[[p k] v] j] l].
  - cbn [items_text app]. rewrite skip_ws_app by done. done.
  - destruct (items_head p k v j l (tail ++ "}"%char :: rest)) as [s Es]. rewrite Es at 1. apply Forall_cons in Hg as Hg'. destruct Hg' as [(Hp & _) _].
    rewrite skip_ws_app by done. change (skip_ws (quote :: s)) with (quote :: s). unfold quote at 1. cbv beta iota. rewrite p_members_items; [done|done|done|done|]. cbn [length] in Hn. lia.
Qed.
Fixpoint elems_text (l : list (text * json)) : text :=
  match l with
  | [] => []
  | [i] => i.1
  | i :: l' => i.1 ++ comma :: elems_text l'
  end.
Definition starts (s : text) : Prop := exists p c s', s = p ++ c :: s' /\ allws p /\ is_ws c = false /\ c <> "]"%char.
Lemma p_elements_elems l : forall tail rest n, l <> [] -> Forall (fun i => is_json i.1 i.2) l -> allws tail -> 2 * length (elems_text l ++ tail ++ "]"%char :: rest) + 1 < n ->
  p_elements n (elems_text l ++ tail ++ "]"%char :: rest) = Some (l.*2, rest).
Proof.
  induction l as [|[v j] l IH]; intros tail rest n Hne Hg Ht Hn; [done|]. apply Forall_cons in Hg as [Hv Hg]. cbn [fst snd] in Hv. destruct n as [|n]; [lia|]. destruct l as [|i2 l].
  - cbn [elems_text p_elements fst] in *. rewrite Hv; [cbn [mbind option_bind]; rewrite skip_ws_app by done; done| |lia].
    destruct tail as [|c tail]; [done|]. apply Forall_cons in Ht as [Hc _]. cbn. unfold is_ws in Hc. apply bool_decide_eq_true in Hc. rewrite !elem_of_cons, elem_of_nil in Hc. destruct_or! Hc; by subst.
  - change (elems_text ((v, j) :: i2 :: l)) with (v ++ comma :: elems_text (i2 :: l)) in *. rewrite <- app_assoc in *. cbn [app] in *. cbn [p_elements]. rewrite Hv; [|done|lia].
    cbn [mbind option_bind]. change (skip_ws (comma :: ?s)) with (comma :: s). unfold comma at 1. cbv beta iota. rewrite IH; [done|done|done|done|]. rewrite app_length in Hn. cbn [length] in Hn. lia.
Qed.
Lemma is_json_array l tail : Forall (fun i => is_json i.1 i.2 /\ starts i.1) l -> allws tail -> is_json (tx "[" ++ elems_text l ++ tail ++ tx "]") (JArray l.*2).
Proof.
  intros Hg Ht rest n Hr Hn. destruct n as [|n]; [lia|]. change (tx "[" ++ elems_text l ++ tail ++ tx "]") with ("["%char :: elems_text l ++ tail ++ ["]"%char]) in *. cbn [app] in *.
  rewrite <- !app_assoc in *. cbn [app] in *. cbn [p_value]. change (skip_ws ("["%char :: ?s)) with ("["%char :: s). cbv beta iota. destruct l as [|[v j] l].
  - cbn [elems_text app]. rewrite skip_ws_app by done. done.
  - assert (exists p c s, elems_text ((v, j) :: l) ++ tail ++ "]"%char :: rest = p ++ c :: s /\ allws p /\ is_ws c = false /\ c <> "]"%char) as (p & c & s & Es & Hp & Hc & Hb).
    { apply Forall_cons in Hg as [[_ (p & c & s & E & H)] _]. cbn [fst] in E. exists p, c. destruct l as [|i l]; cbn [elems_text fst]; rewrite E, <- !app_assoc; cbn [app]; eexists; split; try done. }
    rewrite Es at 1. rewrite skip_ws_app by done. cbn [skip_ws]. rewrite Hc.
    assert (p_elements n (elems_text ((v, j) :: l) ++ tail ++ "]"%char :: rest) = Some (((v, j) :: l).*2, rest)) as H.
    { apply p_elements_elems; [done| |done|cbn [length] in Hn; lia]. eapply Forall_impl; [exact Hg|]. by intros ? [? _]. }
    assert (('(l0, r0) ← p_elements n (elems_text ((v, j) :: l) ++ tail ++ "]"%char :: rest); Some (JArray l0, r0)) = Some (JArray ((v, j) :: l).*2, rest)) as H2 by (by rewrite H).
    destruct c as [[] [] [] [] [] [] [] []]; try exact H2. by destruct Hb.
Qed.

Lemma allws_tab n : allws (tab_of n).
Proof. unfold tab_of. apply Forall_forall. intros c Hc. apply elem_of_list_In, repeat_spec in Hc. by subst. Qed.
Lemma allws_lf s : allws s -> allws ([LF] ++ s).
Proof. intros H. by apply Forall_cons. Qed.
Lemma allws_if (fmt : bool) s : allws s -> allws (if fmt then s else []).
Proof. intros H. destruct fmt; [done|constructor]. Qed.
Lemma fields_items fmt ind data total ks : forall counter, allws ind -> counter + length ks = total ->
  (forall k, k ∈ ks -> exists v, data !! k = Some v /\ plain_value v) -> (forall k, k ∈ ks -> plain_json (tx k)) ->
  exists l, json_fields fmt ind total ks counter data = Some (items_text l) /\ Forall good_item l /\
    Forall2 (fun k (i : item) => exists v, data !! k = Some v /\ item_member i = (tx k, json_of v)) ks l.
Proof.
  induction ks as [|k ks IH]; intros counter Hi Ht Hd Hk; cbn [json_fields]; [exists []; done|].
  destruct (Hd k ltac:(by left)) as (v & Ev & Hv). destruct (IH (S counter)) as (l & El & Hg & HF); [done|cbn [length] in Ht; lia|intros k' H'; apply Hd; by right|intros k' H'; apply Hk; by right|].
  rewrite Ev. destruct (json_value (Some v)) as [t|] eqn:Et; [|done]. cbn [mbind option_bind]. rewrite El. cbn [mbind option_bind].
  exists (((if fmt then [LF] ++ ind else []), tx k, (if fmt then tx " " else []) ++ t, json_of v) :: l). split; [|split].
  - f_equal. destruct ks as [|k2 ks].
    + inversion HF; subst. cbn [items_text item_text]. rewrite decide_True by (cbn [length] in *; lia). cbn [app]. by rewrite !app_nil_r.
    + inversion HF as [|? i2 ? l2 ? ? E1 E2]; subst. rewrite decide_False by (cbn [length] in *; lia).
      change (items_text ((?a, ?b, ?c, ?d) :: i2 :: l2)) with (item_text (a, b, c, d) ++ comma :: items_text (i2 :: l2)). cbn [item_text]. rewrite <- !app_assoc. done.
  - apply Forall_cons. split; [|done]. split; [by apply allws_if, allws_lf|]. split; [apply Hk; by left|]. apply is_json_ws; [apply allws_if; by apply (bool_decide_eq_true_1 _)|by apply is_json_value].
  - constructor; [|done]. exists v. done.
Qed.
Lemma record_json fmt ind tail w ob r rc : w_recs w !! r = Some rc -> r_valid rc = true -> allws ind -> allws tail ->
  (forall k, k ∈ o_order ob -> exists v, stored w r k = Some v /\ plain_value v) -> (forall k, k ∈ o_order ob -> plain_json (tx k)) ->
  exists t l, json_fields fmt ind (length (o_order ob)) (o_order ob) 0 (r_data rc) = Some t /\ is_json (tx "{" ++ t ++ tail ++ tx "}") (JObject l) /\ json_record w (o_order ob) r l.
Proof.
  intros Hr Hv Hi Ht Hd Hk. assert (forall k, stored w r k = r_data rc !! k) as Es. { intros k. unfold stored. rewrite Hr. cbn. by rewrite Hv. }
  destruct (fields_items fmt ind (r_data rc) (length (o_order ob)) (o_order ob) 0) as (l & El & Hg & HF); [done|done|intros k Hin; rewrite <- Es; by apply Hd|done|].
  exists (items_text l), (item_member <$> l). split; [done|]. split; [by apply is_json_object|]. unfold json_record. rewrite Forall2_fmap_r. eapply Forall2_impl; [exact HF|].
  intros k i (v & Ev & Ei). exists v. by rewrite Es.
Qed.
Definition record_name (use_template : bool) (template : text) (addr : nat -> text) (i r : nat) : text := if use_template then template ++ dec (Z.of_nat i) else addr r.
Lemma dec_plain z : plain_json (dec z).
Proof.
  destruct (dec_spec z) as (neg & ds & (E & Hd & Hne) & _). rewrite E. apply Forall_app. split.
  - destruct neg; [|constructor]. apply Forall_singleton. apply (bool_decide_eq_true_1 _). reflexivity.
  - clear -Hd. induction Hd as [|d ds H Hd IH]; cbn [map]; constructor; [|done]. apply digit_cases in H. revert H. generalize (digit_char d). apply Forall_forall. apply (bool_decide_eq_true_1 _). vm_compute. reflexivity.
Qed.
(** The records as members of an object. *)
Lemma records_items w ob fmt tab ut tm addr rs : forall counter, counter + length rs = size (o_recs ob) ->
  (forall r, r ∈ rs -> valid_rec w r) -> (forall r k, r ∈ rs -> k ∈ o_order ob -> exists v, stored w r k = Some v /\ plain_value v) -> (forall k, k ∈ o_order ob -> plain_json (tx k)) ->
  (forall i r, r ∈ rs -> plain_json (record_name ut tm addr i r)) ->
  exists l, json_records w ob fmt tab ut tm addr false rs counter = Some (items_text l) /\ Forall good_item l /\
    Forall2 (fun (r : nat * nat) i => exists m, json_record w (o_order ob) r.2 m /\ item_member i = (record_name ut tm addr (counter + r.1) r.2, JObject m)) (imap pair rs) l.
Proof.
  induction rs as [|r rs IH]; intros counter Ht Hv Hd Hk Hn; cbn [json_records]; [exists []; split; [done|]; split; constructor|].
  destruct (Hv r ltac:(by left)) as (rc & Hr & Hva). destruct (record_json fmt (tab_of tab ++ tab_of tab) (if fmt then [LF] ++ tab_of tab else []) w ob r rc) as (t & m & Et & Hj & Hm); try done.
  { apply Forall_app; split; apply allws_tab. } { apply allws_if, allws_lf, allws_tab. } { intros k Hin. apply Hd; [by left|done]. }
  destruct (IH (S counter)) as (l & El & Hg & HF); [cbn [length] in Ht; lia|intros x Hx; apply Hv; by right|intros x k Hx; apply Hd; by right|done|intros i x Hx; apply Hn; by right|].
  rewrite Hr. cbn [mbind option_bind]. rewrite Et. cbn [mbind option_bind]. rewrite El. cbn [mbind option_bind].
  exists (((if fmt then [LF] ++ tab_of tab else []), record_name ut tm addr counter r, (if fmt then tx " " else []) ++ tx "{" ++ t ++ (if fmt then [LF] ++ tab_of tab else []) ++ tx "}", JObject m) :: l). split; [|split].
  - f_equal. assert ((if fmt && negb false then tx " {" else tx "{") = (if fmt then tx " " else []) ++ tx "{") as -> by (by destruct fmt). unfold record_name. destruct rs as [|r2 rs].
    + inversion HF; subst. cbn [items_text item_text]. rewrite decide_True by (cbn [length] in *; lia). rewrite <- !app_assoc. cbn [app]. by rewrite !app_nil_r.
    + cbn [imap] in HF. inversion HF as [|? i2 ? l2 ? ? E1 E2]; subst. rewrite decide_False by (cbn [length] in *; lia).
      change (items_text ((?a, ?b, ?c, ?d) :: i2 :: l2)) with (item_text (a, b, c, d) ++ comma :: items_text (i2 :: l2)). cbn [item_text]. rewrite <- !app_assoc. done.
  - apply Forall_cons. split; [|done]. split; [by apply allws_if, allws_lf, allws_tab|]. split; [apply Hn; by left|]. apply is_json_ws; [apply allws_if; by apply (bool_decide_eq_true_1 _)|done].
  - cbn [imap]. constructor; [exists m; rewrite Nat.add_0_r; done|]. clear -HF. 
    replace (imap (pair ∘ S) rs) with ((fun p : nat * nat => (S p.1, p.2)) <$> imap pair rs) by (rewrite fmap_imap; done). rewrite Forall2_fmap_l.
    eapply Forall2_impl; [exact HF|]. intros [i x] it (m' & Hm' & E). exists m'. cbn [fst snd] in *. split; [done|]. by rewrite Nat.add_succ_r.
Qed.
(** The records as elements of an array. *)
Lemma records_elems w ob fmt tab ut tm addr rs : forall counter, counter + length rs = size (o_recs ob) ->
  (forall r, r ∈ rs -> valid_rec w r) -> (forall r k, r ∈ rs -> k ∈ o_order ob -> exists v, stored w r k = Some v /\ plain_value v) -> (forall k, k ∈ o_order ob -> plain_json (tx k)) ->
  exists l, json_records w ob fmt tab ut tm addr true rs counter = Some (elems_text l) /\ Forall (fun i => is_json i.1 i.2 /\ starts i.1) l /\
    Forall2 (fun r (i : text * json) => exists m, json_record w (o_order ob) r m /\ i.2 = JObject m) rs l.
Proof.
  induction rs as [|r rs IH]; intros counter Ht Hv Hd Hk; cbn [json_records]; [exists []; done|].
  destruct (Hv r ltac:(by left)) as (rc & Hr & Hva). destruct (record_json fmt (tab_of tab ++ tab_of tab) (if fmt then [LF] ++ tab_of tab else []) w ob r rc) as (t & m & Et & Hj & Hm); try done.
  { apply Forall_app; split; apply allws_tab. } { apply allws_if, allws_lf, allws_tab. } { intros k Hin. apply Hd; [by left|done]. }
  destruct (IH (S counter)) as (l & El & Hg & HF); [cbn [length] in Ht; lia|intros x Hx; apply Hv; by right|intros x k Hx; apply Hd; by right|done|].
  rewrite Hr. cbn [mbind option_bind]. rewrite Et. cbn [mbind option_bind]. rewrite El. cbn [mbind option_bind].
  assert (allws (if fmt then [LF] ++ tab_of tab else [])) as Hws by (by apply allws_if, allws_lf, allws_tab).
  exists (((if fmt then [LF] ++ tab_of tab else []) ++ tx "{" ++ t ++ (if fmt then [LF] ++ tab_of tab else []) ++ tx "}", JObject m) :: l). split; [|split].
  - f_equal. rewrite andb_false_r. destruct rs as [|r2 rs].
    + inversion HF; subst. cbn [elems_text fst]. rewrite decide_True by (cbn [length] in *; lia). cbn [app]. by rewrite !app_nil_r.
    + inversion HF as [|? i2 ? l2 ? ? E1 E2]; subst. rewrite decide_False by (cbn [length] in *; lia).
      change (elems_text ((?a, ?b) :: i2 :: l2)) with (a ++ comma :: elems_text (i2 :: l2)). rewrite <- !app_assoc. done.
  - apply Forall_cons. split; [|done]. cbn [fst snd]. split; [by apply is_json_ws|]. eexists _, "{"%char, _. split; [done|]. done.
  - constructor; [|done]. exists m. done.
Qed.
Lemma is_json_parse v j : is_json v j -> parse_json v = Some j.
Proof.
  intros H. unfold parse_json. rewrite <- (app_nil_r v) at 2. rewrite H; [done|done|rewrite app_nil_r; lia].
Qed.
