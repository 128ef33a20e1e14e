(** What is read back of every row that the writer can write (C28, C29): CsvSpec.as_rows. *)
From Verif Require Import CsvModel CsvSpec CsvProofs.
From Coq Require Import Ascii.
Open Scope Z_scope.

Notation wle := without_last_empty.
(** Reading on with a row and a field begun. *)
Definition rd (sep : ascii) (s pole : text) (row : list text) : list (list text) :=
  let '(b, row', s') := ptext sep s false pole row in if (b : bool) then row' :: rows_text (S (length s')) sep s' else [].
Lemma rd_start sep s : rows_text (S (length s)) sep s = rd sep s [] [].
Proof. unfold rd. destruct (ptext sep s false [] []) as [[b row] s'] eqn:E. by apply rows_text_step. Qed.
Lemma rd_end sep : rd sep [] [] [] = [].
Proof. done. Qed.
Lemma rd_plain sep c s pole row : c <> quote -> c <> CR -> c <> LF -> c <> sep -> rd sep (c :: s) pole row = rd sep s (pole ++ [c]) row.
Proof.
  intros N1 N2 N3 N4. unfold rd. cbn [ptext negb andb]. rewrite (bool_decide_false (c = CR)), (bool_decide_false (c = LF)), (decide_False (P := c = quote)), (bool_decide_false (c = sep)) by done.
  done.
Qed.
Lemma rd_sep sep s pole row : plain_sep sep -> rd sep (sep :: s) pole row = rd sep s [] (row ++ [pole]).
Proof.
  intros (N1 & N2 & N3). unfold rd. cbn [ptext negb andb]. rewrite (bool_decide_false (sep = CR)), (bool_decide_false (sep = LF)), (decide_False (P := sep = quote)) by done.
  cbn [orb andb]. by rewrite (bool_decide_true (sep = sep)) by done.
Qed.
Lemma fin_wle pole row : fin pole row = wle (row ++ [pole]).
Proof.
  unfold fin, without_last_empty. rewrite last_snoc. destruct pole as [|c p]; [|done]. rewrite decide_True by done. by rewrite removelast_last.
Qed.
Lemma rd_cr sep s pole row : (forall d t', s = d :: t' -> d <> LF) -> rd sep (CR :: s) pole row = wle (row ++ [pole]) :: rd sep s [] [].
Proof.
  intros Hs. unfold rd at 1. cbn [ptext negb andb]. rewrite (bool_decide_true (CR = CR)) by done. cbn [orb]. rewrite fin_wle. f_equal.
  destruct s as [|d s]; [done|]. rewrite decide_False by (by eapply Hs). by rewrite rd_start.
Qed.
Lemma rd_crlf sep s pole row : rd sep (CR :: LF :: s) pole row = wle (row ++ [pole]) :: rd sep s [] [].
Proof.
  unfold rd at 1. cbn [ptext negb andb]. rewrite (bool_decide_true (CR = CR)) by done. cbn [orb]. rewrite fin_wle. f_equal.
  rewrite decide_True by done. by rewrite rd_start.
Qed.

(** Reading on after rows [g], the last field of the last of which is not finished. *)
Definition after (sep : ascii) (t : text) (g : list (list text)) : list (list text) :=
  (wle <$> removelast g) ++ rd sep t (default [] (last (default [] (last g)))) (removelast (default [] (last g))).
Lemma after_one sep t pole row : after sep t [row ++ [pole]] = rd sep t pole row.
Proof. unfold after. change (last [row ++ [pole]]) with (Some (row ++ [pole])). unfold from_option, id. by rewrite last_snoc, removelast_last. Qed.
Lemma after_cons sep t r g : g <> [] -> after sep t (r :: g) = wle r :: after sep t g.
Proof. intros Hg. destruct g as [|h g]; [done|]. unfold after. done. Qed.
(** Cells with a row and a field begun before them. *)
Definition begun (pole : text) (row : list text) (g : list (list text)) : list (list text) :=
  match g with (c :: r) :: g' => (row ++ (pole ++ c) :: r) :: g' | _ => g end.
Lemma pieces_ne c x : pieces c x <> [].
Proof. destruct x as [|d x]; [done|]. cbn. destruct (decide _); [done|]. by destruct (pieces c x). Qed.
Definition bare_cut (sep : ascii) (x : text) : list (list text) := pieces sep <$> pieces CR x.
Lemma bare_ne sep x : bare_cut sep x <> [].
Proof. unfold bare_cut. pose proof (pieces_ne CR x). by destruct (pieces CR x). Qed.
Lemma bare_head sep x : exists c r g, bare_cut sep x = (c :: r) :: g.
Proof.
  unfold bare_cut. pose proof (pieces_ne CR x). destruct (pieces CR x) as [|p ps]; [done|]. cbn. pose proof (pieces_ne sep p). destruct (pieces sep p) as [|c r]; [done|].
  by exists c, r, (pieces sep <$> ps).
Qed.
Lemma bare_cons sep d x : bare_cut sep (d :: x) =
  if decide (d = CR) then [[]] :: bare_cut sep x
  else match bare_cut sep x with (c :: r) :: g => (if decide (d = sep) then [] :: c :: r else (d :: c) :: r) :: g | g => g end.
Proof.
  unfold bare_cut. cbn [pieces]. destruct (decide (d = CR)); [done|]. pose proof (pieces_ne CR x). destruct (pieces CR x) as [|p ps]; [done|].
  cbn [fmap list_fmap pieces]. pose proof (pieces_ne sep p). destruct (pieces sep p) as [|c r]; [done|]. by destruct (decide (d = sep)).
Qed.
Lemma rd_bare sep x t : plain_sep sep -> quote ∉ x -> LF ∉ x -> (forall d t', t = d :: t' -> d <> LF) ->
  forall pole row, rd sep (x ++ t) pole row = after sep t (begun pole row (bare_cut sep x)).
Proof.
  intros Hs. induction x as [|d x IH]; intros Hq Hl Ht pole row.
  - change (bare_cut sep []) with [[@nil ascii]]. cbn [begun app]. rewrite app_nil_r. by rewrite after_one.
  - apply not_elem_of_cons in Hq as [N1 Hq], Hl as [N2 Hl]. specialize (IH Hq Hl Ht). rewrite bare_cons. cbn [app]. destruct (decide (d = CR)) as [->|N3].
    + rewrite rd_cr. 2:{ intros e t' E ->. destruct x as [|e' x]; [by eapply Ht|]. cbn in E. injection E as -> _. apply Hl. left. }
      rewrite IH. cbn [begun]. rewrite app_nil_r, after_cons by apply bare_ne. do 2 f_equal.
      destruct (bare_head sep x) as (c & r & g & ->). done.
    + destruct (bare_head sep x) as (c & r & g & E). rewrite E in *. destruct (decide (d = sep)) as [->|N4].
      * rewrite rd_sep by done. rewrite IH. cbn [begun]. rewrite app_nil_r, <- app_assoc. done.
      * rewrite rd_plain by done. rewrite IH. cbn [begun]. by rewrite <- app_assoc.
Qed.
Lemma glue_begun row g : glue [row] g = match g with s :: g' => (row ++ s) :: g' | [] => [row] end.
Proof. done. Qed.
Lemma cut_head sep x : exists c r g, cut sep x = (c :: r) :: g.
Proof. unfold cut. case_bool_decide; [by eexists _, _, _|]. apply bare_head. Qed.
Lemma rd_cut sep x t row : plain_sep sep -> (forall d t', t = d :: t' -> d <> LF /\ d <> quote) ->
  rd sep (format_csv x ++ t) [] row = after sep t (glue [row] (cut sep x)).
Proof.
  intros Hs Ht. unfold cut. case_bool_decide as Hq.
  - unfold rd. rewrite ptext_field; [|by left|intros d t' E; by apply (Ht d t')]. rewrite glue_begun. rewrite after_one. done.
  - rewrite format_csv_spec, decide_False by done. unfold quoted in Hq. fold (bare_cut sep x). rewrite (rd_bare sep x t Hs); [|tauto|tauto|intros d t' E; by apply (Ht d t')].
    destruct (bare_head sep x) as (c & r & g & ->). done.
Qed.
Lemma glue_app a b : a <> [] -> glue a b = removelast a ++ glue [default [] (last a)] b.
Proof.
  induction a as [|r a IH]; [done|]. intros _. destruct a as [|r' a]; [done|]. change (glue (r :: r' :: a) b) with (r :: glue (r' :: a) b). rewrite IH by done. done.
Qed.
Lemma glue_one_ne r b : glue [r] b <> [].
Proof. rewrite glue_begun. by destruct b. Qed.
Lemma glue_assoc row a b : a <> [] -> glue [row] (glue a b) = glue (glue [row] a) b.
Proof.
  intros Ha. destruct a as [|r a]; [done|]. destruct a as [|r' a].
  - rewrite !glue_begun. destruct b as [|s b]; [done|]. by rewrite app_assoc.
  - done.
Qed.
Lemma last_glue_ne sep row x : default [] (last (glue [row] (cut sep x))) <> [].
Proof.
  rewrite glue_begun. unfold cut. case_bool_decide as Hq; [cbn; by destruct row|].
  fold (bare_cut sep x). unfold bare_cut. pose proof (pieces_ne CR x). destruct (pieces CR x) as [|p ps]; [done|]. cbn [fmap list_fmap].
  destruct ps as [|q ps].
  - cbn. pose proof (pieces_ne sep p). intros E. apply app_eq_nil in E as [_ E]. done.
  - assert (G : forall l, l <> [] -> default [] (last (pieces sep <$> l)) <> []).
    { intros l. induction l as [|y l IH] using rev_ind; [done|]. intros _. rewrite fmap_app. change (pieces sep <$> [y]) with [pieces sep y]. rewrite last_snoc. apply pieces_ne. }
    specialize (G (q :: ps) ltac:(done)). cbn [fmap list_fmap] in G |- *. exact G.
Qed.
Lemma glue_nil g : g <> [] -> glue g [[]] = g.
Proof.
  intros Hg. induction g as [|r g IH]; [done|]. destruct g as [|s g]; [cbn; by rewrite app_nil_r|]. change (glue (r :: s :: g) [[]]) with (r :: glue (s :: g) [[]]). by rewrite IH.
Qed.
Lemma cut_ne sep x : cut sep x <> [].
Proof. destruct (cut_head sep x) as (c & r & g & ->). done. Qed.
Lemma glue_ne a b : a <> [] -> glue a b <> [].
Proof. intros Ha. rewrite glue_app by done. intros E. apply app_eq_nil in E as [_ E]. by eapply glue_one_ne. Qed.
Lemma as_rows_ne sep fs : as_rows sep fs <> [].
Proof. destruct fs as [|x fs]; [done|]. cbn. apply glue_ne, cut_ne. Qed.
(** A whole line. *)
Lemma rd_line sep fs t : plain_sep sep -> fs <> [] -> forall row,
  rd sep (joined [sep] (format_csv <$> fs) ++ CR :: LF :: t) [] row = (wle <$> glue [row] (as_rows sep fs)) ++ rd sep t [] [].
Proof.
  intros Hs Hfs. destruct Hs as (S1 & S2 & S3). induction fs as [|x fs IH]; [done|]. clear Hfs. intros row. destruct fs as [|y fs].
  - cbn [fmap list_fmap joined as_rows foldr]. rewrite rd_cut; [|done|intros d t' [= <- _]; done].
    rewrite glue_nil by apply cut_ne. set (g := glue [row] (cut sep x)). assert (Hg : g <> []) by apply glue_one_ne.
    assert (Hl : default [] (last g) <> []) by apply last_glue_ne. unfold after. rewrite rd_crlf.
    assert (Eg : g = removelast g ++ [default [] (last g)]).
    { clear Hl. clearbody g. induction g as [|r g IHg]; [done|]. destruct g as [|s g]; [done|]. change (removelast (r :: s :: g)) with (r :: removelast (s :: g)).
      change (last (r :: s :: g)) with (last (s :: g)). cbn [app]. f_equal. by apply IHg. }
    assert (El : default [] (last g) = removelast (default [] (last g)) ++ [default [] (last (default [] (last g)))]).
    { generalize dependent (default [] (last g)). clear. intros l Hl _. induction l as [|r l IHl]; [done|]. destruct l as [|s l]; [done|].
      change (removelast (r :: s :: l)) with (r :: removelast (s :: l)). change (last (r :: s :: l)) with (last (s :: l)). cbn [app]. f_equal. by apply IHl. }
    rewrite <- El. rewrite Eg at 3. rewrite fmap_app. cbn [fmap list_fmap]. by rewrite <- app_assoc.
  - specialize (IH ltac:(done)). change (joined [sep] (format_csv <$> x :: y :: fs)) with (format_csv x ++ [sep] ++ joined [sep] (format_csv <$> y :: fs)).
    rewrite <- !app_assoc. cbn [app]. rewrite rd_cut; [|done|intros d t' [= <- _]; done]. unfold after. rewrite rd_sep by done. rewrite IH.
    change (as_rows sep (x :: y :: fs)) with (glue (cut sep x) (as_rows sep (y :: fs))). rewrite glue_assoc by apply cut_ne.
    set (g := glue [row] (cut sep x)). assert (Hg : g <> []) by apply glue_one_ne. assert (Hl : default [] (last g) <> []) by apply last_glue_ne.
    rewrite (glue_app g) by done. rewrite fmap_app, <- app_assoc. do 4 f_equal.
    generalize dependent (default [] (last g)). clear. intros l Hl. f_equal. induction l as [|r l IHl]; [done|]. destruct l as [|s l]; [done|].
    change (removelast (r :: s :: l)) with (r :: removelast (s :: l)). change (last (r :: s :: l)) with (last (s :: l)). cbn [app]. f_equal. by apply IHl.
Qed.
Lemma parse_any sep rows : plain_sep sep ->
  parse_file sep (concat (csv_line sep <$> rows)) = concat ((fun fs => wle <$> as_rows sep fs) <$> rows).
Proof.
  intros Hs. rewrite parse_file_text, rd_start. induction rows as [|fs rows IH]; [done|]. cbn [fmap list_fmap concat]. rewrite <- IH. unfold csv_line at 1.
  rewrite <- app_assoc. cbn [app]. destruct fs as [|x fs].
  - cbn [fmap list_fmap joined app as_rows foldr]. by rewrite rd_crlf.
  - rewrite rd_line by done. f_equal. rewrite glue_begun. pose proof (as_rows_ne sep (x :: fs)). by destruct (as_rows sep (x :: fs)).
Qed.

(** ** When exactly is a row read back as it was *)

Lemma wle_lookup l i x : wle l !! i = Some x -> l !! i = Some x.
Proof.
  unfold without_last_empty. destruct (last l) as [[|]|] eqn:E; [|done..]. apply last_Some in E as [l' ->]. rewrite removelast_last. intros H. by apply lookup_app_l_Some.
Qed.
Lemma wle_id l : wle l = l <-> last l <> Some [].
Proof.
  unfold without_last_empty. destruct (last l) as [[|]|] eqn:E; [|done..]. apply last_Some in E as [l' ->]. rewrite removelast_last. split; [|done].
  intros H. apply (f_equal length) in H. rewrite app_length in H. cbn in H. lia.
Qed.
Lemma pieces_plain c x : c ∉ x -> pieces c x = [x].
Proof. induction x as [|d x IH]; [done|]. intros [H1 H2]%not_elem_of_cons. cbn [pieces]. rewrite decide_False by done. by rewrite IH. Qed.
Lemma pieces_many c x : c ∈ x -> exists p q ps, pieces c x = p :: q :: ps.
Proof.
  induction x as [|d x IH]; [by intros ?%elem_of_nil|]. intros H. cbn [pieces]. destruct (decide (d = c)) as [->|Hn].
  - pose proof (pieces_ne c x). destruct (pieces c x) as [|q ps]; [done|]. by exists [], q, ps.
  - apply elem_of_cons in H as [->|H]; [done|]. destruct (IH H) as (p & q & ps & ->). by exists (d :: p), q, ps.
Qed.
(** No piece has the character in it. *)
Lemma pieces_free c x : Forall (fun p => c ∉ p) (pieces c x).
Proof.
  induction x as [|d x IH]; cbn [pieces]; [apply Forall_singleton, not_elem_of_nil|]. destruct (decide (d = c)); [constructor; [apply not_elem_of_nil|done]|].
  destruct (pieces c x) as [|p ps]; [apply Forall_singleton; by rewrite elem_of_list_singleton|]. apply Forall_cons in IH as [H1 H2]. constructor; [|done]. by rewrite elem_of_cons; intros [->|?].
Qed.
Lemma pieces_sub c x p ps d : pieces c x = p :: ps -> d ∈ p -> d ∈ x.
Proof.
  revert p ps. induction x as [|e x IH]; intros p ps; cbn [pieces]; [by intros [= <- _] ?%elem_of_nil|]. destruct (decide (e = c)); [by intros [= <- _] ?%elem_of_nil|].
  pose proof (pieces_ne c x). destruct (pieces c x) as [|q qs] eqn:E; [done|]. intros [= <- _]. rewrite elem_of_cons. intros [->|Hd]; [left|]. right. by eapply IH.
Qed.
Lemma cut_plain sep x : plain_field sep x -> cut sep x = [[x]].
Proof.
  intros H. unfold cut. case_bool_decide; [done|]. destruct H as [?|[H1 H2]]; [done|]. rewrite pieces_plain by done. cbn. by rewrite pieces_plain.
Qed.
(** The first piece of a field that does not survive is not the field. *)
Lemma cut_not_plain sep x : ~ plain_field sep x -> exists u r g, cut sep x = (u :: r) :: g /\ u <> x.
Proof.
  intros H. unfold cut. case_bool_decide as Hq; [destruct H; by left|]. destruct (bare_head sep x) as (u & r & g & E). fold (bare_cut sep x). exists u, r, g. split; [done|].
  intros ->. apply H. right. unfold bare_cut in E. pose proof (pieces_free CR x) as Hf. destruct (pieces CR x) as [|p ps] eqn:Ep; [done|]. cbn [fmap list_fmap] in E. injection E as Ex _.
  assert (Hs : sep ∉ x). { pose proof (pieces_free sep p) as Hg. rewrite Ex in Hg. by apply Forall_cons in Hg as [? _]. }
  split; [|done]. apply Forall_cons in Hf as [Hc _]. intros Hin. apply Hc. by apply (pieces_sub sep p x r CR Ex).
Qed.
Lemma as_rows_plain sep fs : Forall (plain_field sep) fs -> as_rows sep fs = [fs].
Proof. induction 1 as [|x fs Hx _ IH]; [done|]. cbn [as_rows foldr]. fold (as_rows sep fs). by rewrite IH, cut_plain. Qed.
Lemma glue_head a b r : head (glue (r :: a) b) = Some (match a with [] => match b with s :: _ => r ++ s | [] => r end | _ => r end).
Proof. destruct a; [by destruct b|done]. Qed.
Lemma as_rows_not_plain sep fs : ~ Forall (plain_field sep) fs ->
  exists h i u x, head (as_rows sep fs) = Some h /\ h !! i = Some u /\ fs !! i = Some x /\ u <> x.
Proof.
  induction fs as [|x fs IH]; [by intros []|]. intros H. destruct (decide (plain_field sep x)) as [Hx|Hx].
  - destruct IH as (h & i & u & y & E1 & E2 & E3 & Hn); [intros ?; apply H; by constructor|]. exists (x :: h), (S i), u, y. split; [|done].
    cbn [as_rows foldr]. fold (as_rows sep fs). rewrite cut_plain by done. rewrite glue_head. destruct (as_rows sep fs) as [|s g]; [done|]. injection E1 as ->. done.
  - destruct (cut_not_plain sep x Hx) as (u & r & g & E & Hn). cbn [as_rows foldr]. rewrite E. rewrite glue_head. eexists _, 0%nat, u, x. split; [done|]. split; [|done].
    destruct g; [|done]. by destruct (foldr _ _ fs).
Qed.
Definition survives (sep : ascii) (fs : list text) : Prop := Forall (plain_field sep) fs /\ last fs <> Some [].
Lemma reads_back sep rows :
  concat ((fun fs => wle <$> as_rows sep fs) <$> rows) = rows <-> Forall (survives sep) rows.
Proof.
  split.
  - induction rows as [|fs rows IH]; [constructor|]. cbn [fmap list_fmap concat]. destruct (decide (Forall (plain_field sep) fs)) as [Hp|Hp].
    + rewrite as_rows_plain by done. cbn [fmap list_fmap app]. intros [= E1 E2]. constructor; [|by apply IH]. split; [done|]. by apply wle_id.
    + destruct (as_rows_not_plain sep fs Hp) as (h & i & u & x & E1 & E2 & E3 & Hn). destruct (as_rows sep fs) as [|r g]; [done|]. injection E1 as ->. cbn [fmap list_fmap app].
      intros [= E4 _]. exfalso. rewrite <- E4 in E3. apply wle_lookup in E3. congruence.
  - induction 1 as [|fs rows [H1 H2] _ IH]; [done|]. cbn [fmap list_fmap concat]. rewrite as_rows_plain by done. cbn [fmap list_fmap app]. f_equal; [by apply wle_id|done].
Qed.

(** ** When exactly does every row keep its number of fields (separator ',') *)
Lemma glue_length a b : a <> [] -> b <> [] -> (length (glue a b) = length a + length b - 1)%nat.
Proof.
  intros Ha Hb. rewrite glue_app by done. rewrite app_length, glue_begun. destruct b as [|s b]; [done|]. cbn [length].
  assert (length a = S (length (removelast a))) as ->; [|lia]. clear -Ha. induction a as [|r a IH]; [done|]. destruct a as [|r' a]; [done|].
  change (removelast (r :: r' :: a)) with (r :: removelast (r' :: a)). cbn [length] in *. by rewrite <- IH.
Qed.
Lemma cut_comma x : ~ plain_field comma x -> (1 < length (cut comma x))%nat.
Proof.
  intros H. unfold cut. case_bool_decide as Hq; [destruct H; by left|]. rewrite fmap_length. destruct (decide (CR ∈ x)) as [Hc|Hc].
  - destruct (pieces_many CR x Hc) as (p & q & ps & ->). cbn. lia.
  - destruct H. right. split; [done|]. unfold quoted in Hq. tauto.
Qed.
Lemma as_rows_many fs : ~ Forall (plain_field comma) fs -> (1 < length (as_rows comma fs))%nat.
Proof.
  induction fs as [|x fs IH]; [by intros []|]. intros H. cbn [as_rows foldr]. fold (as_rows comma fs). pose proof (as_rows_ne comma fs) as Hn. rewrite glue_length by (try apply cut_ne; done).
  assert (0 < length (as_rows comma fs))%nat by (destruct (as_rows comma fs); [done|cbn; lia]). assert (0 < length (cut comma x))%nat by (destruct (cut_head comma x) as (? & ? & ? & ->); cbn; lia).
  destruct (decide (plain_field comma x)) as [Hx|Hx]; [|pose proof (cut_comma x Hx); lia]. assert (1 < length (as_rows comma fs))%nat by (apply IH; intros ?; apply H; by constructor). lia.
Qed.
Lemma row_count rows : (length rows <= length (concat ((fun fs => wle <$> as_rows comma fs) <$> rows)))%nat /\
  (length (concat ((fun fs => wle <$> as_rows comma fs) <$> rows)) = length rows -> Forall (Forall (plain_field comma)) rows).
Proof.
  induction rows as [|fs rows [IH1 IH2]]; [by split|]. cbn [fmap list_fmap concat length]. rewrite app_length, fmap_length.
  assert (0 < length (as_rows comma fs))%nat by (pose proof (as_rows_ne comma fs); destruct (as_rows comma fs); [done|cbn; lia]).
  split; [lia|]. intros E. destruct (decide (Forall (plain_field comma) fs)) as [Hp|Hp]; [|pose proof (as_rows_many fs Hp); lia]. constructor; [done|]. apply IH2. lia.
Qed.
Lemma count_kept rows :
  length <$> concat ((fun fs => wle <$> as_rows comma fs) <$> rows) = length <$> rows <-> Forall (survives comma) rows.
Proof.
  split; [|intros H; apply reads_back in H; by rewrite H]. intros E. pose proof (proj2 (row_count rows)) as Hp. specialize (Hp ltac:(by rewrite <- (fmap_length length), E, fmap_length)).
  revert E. induction Hp as [|fs rows Hx Hp IH]; [constructor|]. cbn [fmap list_fmap concat]. rewrite as_rows_plain by done. cbn [fmap list_fmap app]. intros [= E1 E2]. constructor; [|by apply IH].
  split; [done|]. intros Hl. apply last_Some in Hl as [l ->]. unfold without_last_empty in E1. rewrite last_snoc, removelast_last, app_length in E1. cbn in E1. lia.
Qed.
