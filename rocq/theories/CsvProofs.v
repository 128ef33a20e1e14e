(** The reader delivers the file; the parser as a function of text; writing and reading back. *)
From Verif Require Import CsvModel CsvSpec.
From Coq Require Import Ascii.
Open Scope Z_scope.

(** ** The reader *)
Definition len2 (f : text) (i : Z) (c : ascii) : Prop := zlen f >= 2 -> char_at f (Z.min i (zlen f - 1)) = Some c.
(** The reader of [f] has passed [k] characters. *)
Record RdInv (r : reader) (f : text) (k : Z) : Prop := {
  ri_file : rd_file r = f;
  ri_size : rd_size r = zlen f;
  ri_k : 0 <= k <= zlen f;
  ri_char : k < zlen f -> char_at f k = Some (rd_char r);
  ri_char2 : len2 f k (rd_char r);
  ri_next2 : len2 f (k + 1) (rd_next r);
  ri_mode : match rd_data r with
    | Some d => d = f /\ rd_pos r = k + 1 /\ rd_neg r = false
    | None => rd_pos r + rd_cpos r = k + 1 /\ 0 <= rd_cpos r < BLOCK /\ 0 <= rd_pos r /\ rd_pos r mod BLOCK = 0 /\
        (0 < zlen f -> rd_pos r <= zlen f -> rd_at r = Z.min (zlen f) (rd_pos r + BLOCK)) /\
        (forall i, 0 <= i < BLOCK -> rd_pos r + i < zlen f -> char_at f (rd_pos r + i) = Some (rd_chunk r i)) /\
        rd_neg r = bool_decide (k = zlen f /\ zlen f mod BLOCK = BLOCK - 1)
    end
}.
Lemma zlen_nonneg f : 0 <= zlen f.
Proof. unfold zlen. lia. Qed.
Lemma char_at_some f i : 0 <= i < zlen f -> is_Some (char_at f i).
Proof. unfold zlen, char_at. intros H. rewrite decide_True by lia. apply lookup_lt_is_Some. lia. Qed.
Lemma char_at_nat f n : char_at f (Z.of_nat n) = f !! n.
Proof. unfold char_at. rewrite decide_True by lia. by rewrite Nat2Z.id. Qed.
Lemma read_chunk_some f a n ck i c : 0 <= i < n -> char_at f (a + i) = Some c -> read_chunk f a n ck i = c.
Proof. intros H E. unfold read_chunk. by rewrite decide_True, E by done. Qed.
Lemma ri_next r f k : RdInv r f k -> k + 1 < zlen f -> char_at f (k + 1) = Some (rd_next r).
Proof. intros H Hk. pose proof (ri_k r f k H). rewrite <- (ri_next2 r f k H) by lia. f_equal. lia. Qed.
Lemma inv_is_end r f k : RdInv r f k -> rd_is_end r = bool_decide (k < zlen f).
Proof.
  intros H. unfold rd_is_end. pose proof (ri_mode r f k H) as Hm. rewrite (ri_size r f k H). destruct (rd_data r).
  - destruct Hm as (_ & -> & _). apply bool_decide_ext. lia.
  - destruct Hm as (-> & _). apply bool_decide_ext. lia.
Qed.
Lemma inv_current r f k : RdInv r f k -> zlen f > 0 -> rd_current r = k.
Proof.
  intros H Hs. unfold rd_current. pose proof (ri_mode r f k H) as Hm. rewrite (ri_size r f k H), decide_False by lia. destruct (rd_data r); [lia|]. lia.
Qed.
Lemma move_end r f k : RdInv r f k -> k = zlen f -> rd_move r = (r, false).
Proof.
  intros H Hk. unfold rd_move. pose proof (ri_mode r f k H) as Hm. rewrite (ri_size r f k H). destruct (rd_data r).
  - destruct Hm as (_ & -> & _). by rewrite decide_False by lia.
  - destruct Hm as (-> & _). by rewrite decide_False by lia.
Qed.
Lemma move_inv r f k : RdInv r f k -> k < zlen f -> RdInv (move r) f (k + 1) /\ (rd_move r).2 = true.
Proof.
  intros H Hk. pose proof (ri_mode r f k H) as Hm. pose proof (ri_size r f k H) as Hs. pose proof (ri_k r f k H) as Hk0. pose proof (ri_next2 r f k H) as Hn.
  pose proof (ri_file r f k H) as Hf. unfold move, rd_move. rewrite !Hs. destruct (rd_data r) as [d|] eqn:Ed.
  - destruct Hm as (-> & Hp & Hneg). rewrite decide_True by lia. cbn [fst snd]. split; [|done]. constructor; cbn; try done; try lia.
    + intros Hlt. rewrite <- Hn by lia. f_equal. lia.
    + intros H2. destruct (decide (rd_pos r + 1 < zlen f)) as [Hl|Hl].
      * replace (Z.min (k + 1 + 1) (zlen f - 1)) with (rd_pos r + 1) by lia. destruct (char_at_some f (rd_pos r + 1)) as [c ->]; [lia|done].
      * rewrite <- Hn by lia. f_equal. lia.
    + split; [done|]. split; [lia|done].
  - destruct Hm as (Hp & Hc & Hp0 & Hmod & Hat & Hck & Hneg). rewrite decide_True by lia.
    assert (rd_neg r = false) as Hneg0 by (rewrite Hneg; apply bool_decide_eq_false; lia).
    set (pos' := rd_pos r + BLOCK). destruct (decide (rd_cpos r + 1 = BLOCK)) as [Eb|Eb]; cbn [fst snd]; (split; [|done]).
    + assert (pos' = k + 1 + 1) as Hpos' by lia. rewrite Hf.
      set (n := if decide (zlen f - pos' > BLOCK) then BLOCK else zlen f - pos').
      assert (Hat' : pos' <= zlen f -> rd_at r = pos') by (intros; rewrite Hat by lia; lia).
      assert (Hck' : forall i, 0 <= i < BLOCK -> pos' + i < zlen f -> char_at f (pos' + i) = Some (read_chunk f (rd_at r) n (rd_chunk r) i)).
      { intros i Hi Hl. destruct (char_at_some f (pos' + i)) as [c Ec]; [lia|]. rewrite Ec. f_equal. symmetry. apply read_chunk_some.
        - subst n. destruct (decide _); lia.
        - rewrite Hat' by lia. done. }
      constructor; cbn; try done; try lia.
      * intros Hlt. rewrite <- Hn by lia. f_equal. lia.
      * intros H2. destruct (decide (pos' + 0 < zlen f)) as [Hl|Hl].
        -- replace (Z.min (k + 1 + 1) (zlen f - 1)) with (pos' + 0) by lia. apply Hck'; [unfold BLOCK; lia|done].
        -- rewrite <- Hn by lia. f_equal. lia.
      * split; [lia|]. split; [unfold BLOCK; lia|]. split; [lia|]. split; [subst pos'; rewrite <- Zplus_mod_idemp_l, Hmod; reflexivity|].
        split; [|split; [done|]].
        { intros H1 H2. rewrite Hat' by done. subst n. destruct (decide _); lia. }
        rewrite Hneg0. cbn [orb]. apply bool_decide_ext. subst n. unfold pos' in Hpos'.
        assert (zlen f mod BLOCK = BLOCK - 1 <-> zlen f = k + 1 \/ zlen f mod BLOCK = BLOCK - 1) as Hx.
        { split; [by right|]. intros [E|?]; [|done]. rewrite E. replace (k + 1) with (rd_pos r + (BLOCK - 1)) by lia.
          rewrite <- Zplus_mod_idemp_l, Hmod. reflexivity. }
        assert (0 < BLOCK) by done. destruct (decide (zlen f - pos' > BLOCK)); split; intros; [lia|lia| |].
        -- assert (zlen f = k + 1) by lia. split; [lia|]. apply Hx. by left.
        -- lia.
    + constructor; cbn; try done; try lia.
      * intros Hlt. rewrite <- Hn by lia. f_equal. lia.
      * intros H2. destruct (decide (rd_pos r + (rd_cpos r + 1) < zlen f)) as [Hl|Hl].
        -- replace (Z.min (k + 1 + 1) (zlen f - 1)) with (rd_pos r + (rd_cpos r + 1)) by lia. apply Hck; lia.
        -- rewrite <- Hn by lia. f_equal. lia.
      * split; [lia|]. split; [lia|]. split; [lia|]. split; [done|]. split; [done|]. split; [done|].
        rewrite Hneg0. symmetry. apply bool_decide_eq_false. intros [E1 E2].
        assert (zlen f mod BLOCK = rd_cpos r) as E3; [|unfold BLOCK in *; lia].
        rewrite <- E1. replace (k + 1) with (rd_pos r + rd_cpos r) by lia. rewrite <- Zplus_mod_idemp_l, Hmod. apply Z.mod_small. lia.
Qed.
Lemma open_whole_inv f : zlen f > 0 -> RdInv (open_whole f) f 0.
Proof.
  intros Hs. constructor; cbn; try done; try lia.
  - intros _. destruct (char_at_some f 0) as [c ->]; [lia|done].
  - intros H2. replace (Z.min 0 (zlen f - 1)) with 0 by lia. destruct (char_at_some f 0) as [c ->]; [lia|done].
  - intros H2. rewrite decide_True by lia. replace (Z.min (0 + 1) (zlen f - 1)) with 1 by lia. destruct (char_at_some f 1) as [c ->]; [lia|done].
Qed.
Lemma open_chunked_inv f : zlen f >= 2 -> RdInv (open_chunked f) f 0.
Proof.
  intros Hs.
  assert (forall i, 0 <= i < BLOCK -> i < zlen f -> char_at f i = Some (read_chunk f 0 BLOCK (fun _ => NUL) i)) as Hck.
  { intros i Hi Hl. destruct (char_at_some f i) as [c Ec]; [lia|]. rewrite Ec. f_equal. symmetry. by apply read_chunk_some. }
  constructor; cbn [open_chunked rd_file rd_size rd_char rd_next rd_data rd_pos rd_cpos rd_at rd_chunk rd_neg]; try done; try lia.
  - intros _. apply Hck; unfold BLOCK; lia.
  - intros H2. replace (Z.min 0 (zlen f - 1)) with 0 by lia. apply Hck; unfold BLOCK; lia.
  - intros H2. replace (Z.min (0 + 1) (zlen f - 1)) with 1 by lia. apply Hck; unfold BLOCK; lia.
  - split; [lia|]. split; [unfold BLOCK; lia|]. split; [lia|]. split; [done|]. split; [|split].
    + intros _ _. by rewrite Z.add_0_l.
    + intros i Hi Hl. cbn in *. by apply Hck.
    + symmetry. apply bool_decide_eq_false. lia.
Qed.
Lemma empty_reader_inv f : zlen f = 0 -> RdInv (empty_reader f) f 0.
Proof.
  intros Hs. constructor; cbn; try done; try lia; try (intros H2; lia).
  split; [lia|]. split; [unfold BLOCK; lia|]. split; [lia|]. split; [done|]. split; [lia|]. split; [intros; lia|].
  symmetry. apply bool_decide_eq_false. rewrite Hs. intros [_ E]. vm_compute in E. done.
Qed.
Lemma open_inv f : RdInv (open_reader f) f 0.
Proof.
  unfold open_reader. pose proof (zlen_nonneg f). destruct (decide (zlen f > 0)); [|apply empty_reader_inv; lia].
  destruct (decide (zlen f > BIG)); [apply open_chunked_inv; unfold BIG in *; lia|by apply open_whole_inv].
Qed.
Lemma moved_inv n : forall r f k, RdInv r f k -> RdInv (moved n r) f (Z.min (k + Z.of_nat n) (zlen f)).
Proof.
  induction n as [|n IH]; intros r f k H; cbn [moved]; pose proof (ri_k r f k H) as Hk.
  - by replace (Z.min (k + Z.of_nat 0) (zlen f)) with k by lia.
  - destruct (decide (k = zlen f)) as [E|E].
    + assert (move r = r) as -> by (unfold move; by rewrite (move_end r f k)). replace (Z.min (k + Z.of_nat (S n)) (zlen f)) with (Z.min (k + Z.of_nat n) (zlen f)) by lia. by apply IH.
    + replace (Z.min (k + Z.of_nat (S n)) (zlen f)) with (Z.min (k + 1 + Z.of_nat n) (zlen f)) by lia. apply IH. apply move_inv; [done|lia].
Qed.
Lemma moved_open f n : RdInv (moved n (open_reader f)) f (Z.min (Z.of_nat n) (zlen f)).
Proof. apply (moved_inv n _ _ 0), open_inv. Qed.
Lemma moved_add n m r : moved (n + m) r = moved m (moved n r).
Proof. revert r. induction n as [|n IH]; intros r; [done|]. cbn [moved Nat.add]. apply IH. Qed.
Lemma seen_same r1 r2 f k : RdInv r1 f k -> RdInv r2 f k -> zlen f >= 2 -> seen r1 = seen r2.
Proof.
  intros H1 H2 Hs. unfold seen. rewrite (inv_is_end r1 f k H1), (inv_is_end r2 f k H2), (inv_current r1 f k H1), (inv_current r2 f k H2) by lia.
  pose proof (ri_char2 _ _ _ H1 Hs). pose proof (ri_char2 _ _ _ H2 Hs). pose proof (ri_next2 _ _ _ H1 Hs). pose proof (ri_next2 _ _ _ H2 Hs).
  congruence.
Qed.

(** ** The parser as a function of text *)
Definition fin (pole : text) (row : list text) : list text := if decide (pole = []) then row else row ++ [pole].
Fixpoint ptext (sep : ascii) (s : text) (esc : bool) (pole : text) (row : list text) {struct s} : bool * list text * text :=
  match s with
  | [] => (bool_decide (fin pole row <> []), fin pole row, [])
  | c :: s' =>
      if negb esc && (bool_decide (c = CR) || bool_decide (c = LF)) then
        (true, fin pole row, match s' with d :: s'' => if decide (d = LF) then s'' else s' | [] => [] end)
      else if decide (c = quote) then
        if negb esc then ptext sep s' true [] row
        else match s' with
             | d :: s'' => if decide (d = quote) then ptext sep s'' esc (pole ++ [quote]) row else ptext sep s' false pole row
             | [] => ptext sep s' false pole row
             end
      else if bool_decide (c = sep) && negb esc then ptext sep s' esc [] (row ++ [pole])
      else ptext sep s' esc (pole ++ [c]) row
  end.

Definition rest (f : text) (k : Z) : text := drop (Z.to_nat k) f.
Lemma rest_cons f k c : 0 <= k -> char_at f k = Some c -> rest f k = c :: rest f (k + 1).
Proof.
  intros Hk E. unfold char_at in E. rewrite decide_True in E by done. unfold rest. replace (Z.to_nat (k + 1)) with (S (Z.to_nat k)) by lia. by apply drop_S.
Qed.
Lemma rest_end f k : zlen f <= k -> rest f k = [].
Proof. intros H. unfold rest. apply drop_ge. unfold zlen in H. lia. Qed.
Lemma moved_1 r : moved 1 r = move r.
Proof. done. Qed.

Lemma next_loop_text sep f : forall fuel r k esc pole row, RdInv r f k -> zlen f > 0 -> zlen f - k < Z.of_nat fuel ->
  exists b row' n, next_loop fuel sep r esc pole row = (b, row', moved n r) /\ ptext sep (rest f k) esc pole row = (b, row', rest f (k + Z.of_nat n)) /\
    (k < zlen f -> (0 < n)%nat) /\ k + Z.of_nat n <= zlen f.
Proof.
  induction fuel as [|fuel IH]; intros r k esc pole row HI Hs Hf; [pose proof (ri_k _ _ _ HI); lia|].
  pose proof (ri_k _ _ _ HI) as Hk. cbn [next_loop]. rewrite (inv_is_end r f k HI). destruct (bool_decide (k < zlen f)) eqn:El.
  2:{ apply bool_decide_eq_false in El. rewrite rest_end by lia. cbn [ptext]. fold (fin pole row). eexists _, _, 0%nat. split; [done|].
      rewrite rest_end by lia. split; [done|]. split; [lia|lia]. }
  apply bool_decide_eq_true in El. rewrite (rest_cons f k (rd_char r)) by (lia || by apply (ri_char r f k HI)). cbn [ptext]. fold (fin pole row).
  rewrite (inv_current r f k HI Hs), (ri_size r f k HI).
  destruct (move_inv r f k HI El) as [HI1 _].
  assert (forall esc pole row, exists b row' n, next_loop fuel sep (move r) esc pole row = (b, row', moved n r) /\
    ptext sep (rest f (k + 1)) esc pole row = (b, row', rest f (k + Z.of_nat n)) /\ (k < zlen f -> (0 < n)%nat) /\ k + Z.of_nat n <= zlen f) as H1.
  { intros esc' pole' row'. destruct (IH (move r) (k + 1) esc' pole' row' HI1 Hs ltac:(lia)) as (b & rw & n & E1 & E2 & _ & Hb). exists b, rw, (S n). cbn [moved]. split; [done|].
    replace (k + Z.of_nat (S n)) with (k + 1 + Z.of_nat n) by lia. split; [done|]. split; [lia|done]. }
  assert (match rest f (k + 1) with [] => bool_decide (k < zlen f - 1) = false | d :: s'' => k + 1 < zlen f /\ bool_decide (k < zlen f - 1) = true /\ d = rd_next r /\ s'' = rest f (k + 2) end) as Hx.
  { destruct (decide (k + 1 < zlen f)) as [Hl|Hl].
    - rewrite (rest_cons f (k + 1) (rd_next r)) by (lia || by apply (ri_next r f k HI)). split; [done|]. split; [apply bool_decide_eq_true; lia|]. split; [done|]. f_equal. lia.
    - rewrite rest_end by lia. apply bool_decide_eq_false. lia. }
  destruct (negb esc && (bool_decide (rd_char r = CR) || bool_decide (rd_char r = LF))).
  { destruct (rest f (k + 1)) as [|d s''] eqn:Er.
    - rewrite Hx. cbn [andb]. eexists _, _, 1%nat. split; [done|]. change (Z.of_nat 1) with 1. rewrite Er. split; [done|]. split; [lia|lia].
    - destruct Hx as (Hl & -> & -> & ->). cbn [andb]. destruct (bool_decide (rd_next r = LF)) eqn:En.
      + apply bool_decide_eq_true in En. rewrite (decide_True (P := rd_next r = LF)) by done. eexists _, _, 2%nat. split; [done|]. split; [done|]. split; [lia|lia].
      + apply bool_decide_eq_false in En. rewrite (decide_False (P := rd_next r = LF)) by done. eexists _, _, 1%nat. split; [done|]. change (Z.of_nat 1) with 1. rewrite Er. split; [done|]. split; [lia|lia]. }
  destruct (decide (rd_char r = quote)).
  { destruct (negb esc); [apply H1|]. destruct (rest f (k + 1)) as [|d s''] eqn:Er.
    - rewrite Hx. cbn [andb]. apply H1.
    - destruct Hx as (Hl & -> & -> & ->). cbn [andb]. destruct (bool_decide (rd_next r = quote)) eqn:En.
      + apply bool_decide_eq_true in En. rewrite (decide_True (P := rd_next r = quote)) by done. destruct (move_inv _ _ _ HI1 Hl) as [HI2 _].
        destruct (IH (move (move r)) (k + 1 + 1) esc (pole ++ [quote]) row HI2 Hs ltac:(lia)) as (b & rw & n & E1 & E2 & _ & Hb).
        replace (k + 1 + 1) with (k + 2) in * by lia. exists b, rw, (S (S n)). cbn [moved]. split; [done|].
        replace (k + Z.of_nat (S (S n))) with (k + 2 + Z.of_nat n) by lia. split; [done|]. split; [lia|done].
      + apply bool_decide_eq_false in En. rewrite (decide_False (P := rd_next r = quote)) by done. apply H1. }
  destruct (bool_decide (rd_char r = sep) && negb esc); apply H1.
Qed.
Lemma get_next_text sep r f k : RdInv r f k ->
  exists b row' n, get_next sep r = (b, row', moved n r) /\ ptext sep (rest f k) false [] [] = (b, row', rest f (k + Z.of_nat n)) /\
    (k < zlen f -> (0 < n)%nat) /\ k + Z.of_nat n <= zlen f.
Proof.
  intros HI. unfold get_next. rewrite (ri_size _ _ _ HI). pose proof (ri_k _ _ _ HI) as Hk. destruct (decide (zlen f > 0)) as [Hs|Hs].
  - apply next_loop_text; [done..|lia].
  - exists false, [], 0%nat. split; [done|]. rewrite rest_end by lia. split; [by rewrite rest_end by lia|]. split; lia.
Qed.

(** A call that returns false delivers nothing and leaves nothing; at the end every call returns false. *)
Lemma ptext_false sep : forall n s esc pole row row' s', (length s <= n)%nat -> ptext sep s esc pole row = (false, row', s') -> row' = [] /\ s' = [].
Proof.
  induction n as [|n IH]; intros [|c s] esc pole row row' s' Hn; cbn [ptext length] in *; try lia.
  1-2: intros E; injection E as E <- <-; apply bool_decide_eq_false in E; split; [|done]; destruct (fin pole row); [done|]; by destruct E.
  destruct (negb esc && _); [done|]. destruct (decide (c = quote)).
  - destruct (negb esc); [apply IH; lia|]. destruct s as [|d s]; [apply IH; cbn; lia|]. cbn [length] in Hn. destruct (decide (d = quote)); apply IH; cbn; lia.
  - destruct (bool_decide (c = sep) && negb esc); apply IH; lia.
Qed.

(** All rows of a text. *)
Fixpoint rows_text (fuel : nat) (sep : ascii) (s : text) : list (list text) :=
  match fuel with
  | O => []
  | S fuel => let '(b, row, s') := ptext sep s false [] [] in if (b : bool) then row :: rows_text fuel sep s' else []
  end.
Lemma rows_loop_text sep f : forall fuel r k, RdInv r f k -> rows_loop fuel sep r = rows_text fuel sep (rest f k).
Proof.
  induction fuel as [|fuel IH]; intros r k HI; cbn [rows_loop rows_text]; [done|].
  destruct (get_next_text sep r f k HI) as (b & row & n & -> & -> & Hn & Hb). destruct b; [|done]. f_equal. apply IH.
  pose proof (moved_inv n r f k HI) as H. by replace (Z.min (k + Z.of_nat n) (zlen f)) with (k + Z.of_nat n) in H by lia.
Qed.
Lemma ptext_end sep : ptext sep [] false [] [] = (false, [], []).
Proof. done. Qed.
Lemma ptext_shorter sep : forall n s esc pole row b row' s', (length s <= n)%nat -> ptext sep s esc pole row = (b, row', s') ->
  (length s' <= length s)%nat /\ (s <> [] -> (length s' < length s)%nat).
Proof.
  induction n as [|n IH]; intros [|c s] esc pole row b row' s' Hn; cbn [ptext length] in *; try lia.
  1-2: intros E; injection E as _ _ <-; split; [cbn; lia|done].
  assert (forall s0 esc pole row, (length s0 <= length s)%nat -> ptext sep s0 esc pole row = (b, row', s') -> (length s' <= S (length s))%nat /\ (c :: s <> [] -> (length s' < S (length s))%nat)) as H.
  { intros s0 e p rw H0 E. destruct (IH s0 e p rw b row' s' ltac:(lia) E) as [H1 H2]. split; [lia|intros _; lia]. }
  destruct (negb esc && _).
  { intros E. injection E as _ _ <-. destruct s as [|d s]; [cbn; lia|]. destruct (decide (d = LF)); cbn; lia. }
  destruct (decide (c = quote)).
  - destruct (negb esc); [by apply H|]. destruct s as [|d s]; [apply H; cbn; lia|]. destruct (decide (d = quote)); apply H; cbn; lia.
  - destruct (bool_decide (c = sep) && negb esc); by apply H.
Qed.
Lemma rows_text_fuel sep : forall n m s, (length s < n)%nat -> (length s < m)%nat -> rows_text n sep s = rows_text m sep s.
Proof.
  induction n as [|n IH]; intros [|m] s Hn Hm; try lia. cbn [rows_text]. destruct (ptext sep s false [] []) as [[b row] s'] eqn:E. destruct b; [|done].
  destruct (ptext_shorter sep _ _ _ _ _ _ _ _ (le_n _) E) as [_ H]. f_equal. destruct s as [|c s]; [done|]. apply IH; specialize (H ltac:(done)); lia.
Qed.
Lemma rows_text_length sep : forall n s, (length (rows_text n sep s) <= length s)%nat.
Proof.
  induction n as [|n IH]; intros s; cbn [rows_text]; [cbn; lia|]. destruct (ptext sep s false [] []) as [[b row] s'] eqn:E. destruct b; [|cbn; lia].
  destruct (ptext_shorter sep _ _ _ _ _ _ _ _ (le_n _) E) as [_ H]. cbn [length]. specialize (IH s'). destruct s as [|c s]; [done|]. specialize (H ltac:(done)). lia.
Qed.
Lemma parse_file_text sep f : parse_file sep f = rows_text (S (length f)) sep f.
Proof. unfold parse_file. rewrite (rows_loop_text sep f _ _ 0) by apply open_inv. done. Qed.
Lemma rows_text_step sep s b row s' : ptext sep s false [] [] = (b, row, s') ->
  rows_text (S (length s)) sep s = if b then row :: rows_text (S (length s')) sep s' else [].
Proof.
  intros E. change (rows_text (S (length s)) sep s) with (let '(b, row, s') := ptext sep s false [] [] in if (b : bool) then row :: rows_text (length s) sep s' else []).
  rewrite E. destruct b; [|done]. f_equal. destruct (ptext_shorter sep _ _ _ _ _ _ _ _ (le_n _) E) as [_ H].
  destruct s as [|c s]; [done|]. specialize (H ltac:(done)). apply rows_text_fuel; lia.
Qed.

(** ** Writing and reading back *)
Fixpoint dup (s : text) : text := match s with [] => [] | c :: s' => (if decide (c = quote) then [quote; quote] else [c]) ++ dup s' end.
Lemma format_loop_spec s : forall res esc, format_loop s res esc = (res ++ dup s, esc || bool_decide (quoted s)).
Proof.
  induction s as [|c s IH]; intros res esc; cbn [format_loop dup].
  - rewrite app_nil_r. f_equal. rewrite bool_decide_false, orb_false_r; [done|]. unfold quoted. by rewrite !elem_of_nil; intros [|[|]].
  - assert (quoted (c :: s) <-> (c = quote \/ c = comma \/ c = LF) \/ quoted s) as Hq by (unfold quoted; rewrite !elem_of_cons; naive_solver).
    destruct (decide (c = quote)) as [Ec|Ec].
    + rewrite IH, <- app_assoc. f_equal. cbn [orb]. rewrite (bool_decide_true (quoted (c :: s))), orb_true_r; [done|]. apply Hq. by left; left.
    + rewrite IH, <- app_assoc. f_equal. destruct (decide (c = comma)) as [|Hc]; [|destruct (decide (c = LF)) as [|Hl]].
      * rewrite (bool_decide_true (quoted (c :: s))), orb_true_r; [done|]. apply Hq. by left; right; left.
      * rewrite (bool_decide_true (quoted (c :: s))), orb_true_r; [done|]. apply Hq. by left; right; right.
      * f_equal. apply bool_decide_ext. rewrite Hq. naive_solver.
Qed.
Lemma format_csv_spec s : format_csv s = if decide (quoted s) then [quote] ++ dup s ++ [quote] else s.
Proof.
  unfold format_csv. rewrite format_loop_spec. cbn [orb app]. destruct (decide (quoted s)) as [H|H]; [by rewrite bool_decide_true|]. rewrite bool_decide_false by done.
  assert (quote ∉ s) as Hq by (unfold quoted in H; tauto). clear H. induction s as [|c s IH]; [done|]. cbn [dup]. apply not_elem_of_cons in Hq as [H1 H2].
  rewrite decide_False by done. cbn [app]. f_equal. by apply IH.
Qed.
Lemma ptext_dup sep s : forall pole row t, (forall d t', t = d :: t' -> d <> quote) -> ptext sep (dup s ++ quote :: t) true pole row = ptext sep t false (pole ++ s) row.
Proof.
  induction s as [|c s IH]; intros pole row t Ht.
  - cbn [dup app ptext negb andb]. rewrite decide_True by done. rewrite app_nil_r. destruct t as [|d t']; [done|]. by rewrite decide_False by by eapply Ht.
  - cbn [dup]. destruct (decide (c = quote)) as [->|Hc]; cbn [app ptext negb andb].
    + rewrite !decide_True by done. rewrite IH by done. by rewrite <- app_assoc.
    + rewrite decide_False by done. rewrite andb_false_r, IH by done. by rewrite <- app_assoc.
Qed.
Lemma ptext_plain sep s : quote ∉ s -> CR ∉ s -> LF ∉ s -> sep ∉ s -> forall pole row t, ptext sep (s ++ t) false pole row = ptext sep t false (pole ++ s) row.
Proof.
  induction s as [|c s IH]; intros H1 H2 H3 H4 pole row t; [by rewrite app_nil_r|]. apply not_elem_of_cons in H1 as [N1 H1], H2 as [N2 H2], H3 as [N3 H3], H4 as [N4 H4].
  cbn [app ptext negb andb]. rewrite (bool_decide_false (c = CR)), (bool_decide_false (c = LF)), (decide_False (P := c = quote)), (bool_decide_false (c = sep)) by done. cbn [orb andb].
  rewrite IH by done. by rewrite <- app_assoc.
Qed.
Lemma ptext_field sep x row t : plain_field sep x -> (forall d t', t = d :: t' -> d <> quote) -> ptext sep (format_csv x ++ t) false [] row = ptext sep t false x row.
Proof.
  intros Hx Ht. rewrite format_csv_spec. destruct (decide (quoted x)) as [Hq|Hq].
  - cbn [app]. rewrite <- app_assoc. cbn [app ptext negb]. rewrite (bool_decide_false (quote = CR)), (bool_decide_false (quote = LF)) by done. cbn [orb andb].
    rewrite decide_True by done. by rewrite ptext_dup.
  - destruct Hx as [?|[H1 H2]]; [done|]. unfold quoted in Hq. rewrite ptext_plain; [done|tauto..].
Qed.
Lemma without_cons x y l : without_last_empty (x :: y :: l) = x :: without_last_empty (y :: l).
Proof. unfold without_last_empty. change (last (x :: y :: l)) with (last (y :: l)). destruct (last (y :: l)) as [[|]|]; done. Qed.
Lemma ptext_line sep fs : plain_sep sep -> Forall (plain_field sep) fs ->
  forall row t, ptext sep (csv_line sep fs ++ t) false [] row = (true, row ++ without_last_empty fs, t).
Proof.
  intros (Hs1 & Hs2 & Hs3). unfold csv_line.
  assert (forall pole row t, ptext sep (CR :: LF :: t) false pole row = (true, fin pole row, t)) as Hend.
  { intros pole row t. cbn [ptext negb andb]. rewrite (bool_decide_true (CR = CR)) by done. cbn [orb]. by rewrite decide_True by done. }
  induction fs as [|x fs IH]; intros Hf row t.
  - cbn [fmap list_fmap joined app]. rewrite Hend. unfold fin, without_last_empty. cbn. by rewrite app_nil_r.
  - apply Forall_cons in Hf as [Hx Hf]. destruct fs as [|y fs].
    + cbn [fmap list_fmap joined]. rewrite <- app_assoc. cbn [app]. rewrite ptext_field; [|done|]. 2:{ intros d t' [= <- _]. done. }
      rewrite Hend. unfold fin, without_last_empty. cbn [last]. destruct x as [|c x]; [|done]. cbn [removelast]. by rewrite app_nil_r.
    + specialize (IH Hf). cbn [fmap list_fmap] in *. cbn [joined] in *. rewrite <- !app_assoc in *. cbn [app]. rewrite ptext_field; [|done|]. 2:{ intros d t' [= <- _]. done. }
      cbn [ptext negb]. rewrite (bool_decide_false (sep = CR)), (bool_decide_false (sep = LF)), (decide_False (P := sep = quote)) by done. cbn [orb andb].
      rewrite bool_decide_true by done. cbn [andb]. rewrite without_cons. specialize (IH (row ++ [x]) t). rewrite <- !app_assoc in IH. cbn [app] in IH. exact IH.
Qed.
Lemma parse_lines sep rows : plain_sep sep -> Forall (Forall (plain_field sep)) rows ->
  parse_file sep (concat (csv_line sep <$> rows)) = without_last_empty <$> rows.
Proof.
  intros Hs. rewrite parse_file_text. induction rows as [|fs rows IH]; intros Hf; [done|]. apply Forall_cons in Hf as [Hx Hf]. cbn [fmap list_fmap concat].
  rewrite (rows_text_step sep _ true (without_last_empty fs) (concat (csv_line sep <$> rows))) by (by apply ptext_line). f_equal. by apply IH.
Qed.

(** ** Files of other programs *)
Lemma doubled_dup f : doubled f = dup f.
Proof. unfold doubled. induction f as [|c f IH]; [done|]. cbn [fmap list_fmap concat dup]. by rewrite IH. Qed.
Lemma ptext_written sep x t0 row t : written sep t0 x -> (forall d t', t = d :: t' -> d <> quote) -> ptext sep (t0 ++ t) false [] row = ptext sep t false x row.
Proof.
  intros Hx Ht. destruct Hx as [f Hf|f].
  - rewrite ptext_plain; [done|..]; intros H; rewrite Forall_forall in Hf; destruct (Hf _ H) as (? & ? & ? & ?); done.
  - rewrite doubled_dup. cbn [app]. rewrite <- app_assoc. cbn [app ptext negb]. rewrite (bool_decide_false (quote = CR)), (bool_decide_false (quote = LF)) by done. cbn [orb andb].
    rewrite decide_True by done. by rewrite ptext_dup.
Qed.
Lemma ptext_joined sep ws fs : plain_sep sep -> Forall2 (written sep) ws fs -> ws <> [] ->
  forall row t, (forall d t', t = d :: t' -> d <> quote) -> exists pole row0, ptext sep (joined [sep] ws ++ t) false [] row = ptext sep t false pole row0 /\ fin pole row0 = row ++ without_last_empty fs.
Proof.
  intros (Hs1 & Hs2 & Hs3) H. induction H as [|w x ws fs Hx Hf IH]; intros Hn row t Ht; [done|]. destruct Hf as [|w' y ws fs Hy Hf].
  - exists x, row. cbn [joined]. split; [by apply ptext_written|]. unfold fin, without_last_empty. cbn [last]. destruct x as [|c x]; [by rewrite decide_True, app_nil_r by done|]. by rewrite decide_False by done.
  - destruct (IH ltac:(done) (row ++ [x]) t Ht) as (pole & row0 & E & F). exists pole, row0. split.
    + rewrite <- E. cbn [joined]. rewrite <- !app_assoc. cbn [app]. rewrite (ptext_written sep x w); [|done|intros d t' [= <- _]; done].
      cbn [ptext negb]. rewrite (bool_decide_false (sep = CR)), (bool_decide_false (sep = LF)), (decide_False (P := sep = quote)) by done. cbn [orb andb].
      rewrite bool_decide_true by done. cbn [andb]. done.
    + rewrite F, without_cons, <- app_assoc. done.
Qed.
Lemma written_head sep t fs rest : plain_sep sep -> written_line sep t fs -> forall d t', t ++ rest = d :: t' -> d <> LF.
Proof.
  intros (Hs1 & Hs2 & Hs3) (ws & Hw & -> & Hne) d t' E. destruct Hw as [|w x ws fs Hx Hw]; [done|]. intros ->.
  assert (Hh : forall c s r, w ++ s = c :: r -> w <> [] -> c <> LF).
  { intros c s r E1 Hn. destruct Hx as [f Hf|f]; [|cbn in E1; by injection E1 as <- _]. destruct f as [|a f]; [done|]. apply Forall_cons in Hf as [(? & ? & ? & ?) _]. cbn in E1. by injection E1 as <- _. }
  destruct w as [|a w].
  - destruct Hw as [|w' y ws fs Hy Hw]; [done|]. cbn in E. by injection E as E _.
  - destruct Hw as [|w' y ws fs Hy Hw].
    + cbn [joined] in E. by apply (Hh LF rest t').
    + cbn [joined] in E. rewrite <- app_assoc in E. by eapply (Hh LF _ t').
Qed.
Lemma ptext_eol sep e pole row t : line_end e -> (forall d t', t = d :: t' -> d <> LF) -> ptext sep (e ++ t) false pole row = (true, fin pole row, t).
Proof.
  intros He Ht. destruct He; cbn [app ptext negb andb].
  - rewrite (bool_decide_false (LF = CR)), (bool_decide_true (LF = LF)) by done. cbn [orb]. destruct t as [|d t]; [done|]. by rewrite decide_False by (by eapply Ht).
  - rewrite (bool_decide_true (CR = CR)) by done. cbn [orb]. destruct t as [|d t]; [done|]. by rewrite decide_False by (by eapply Ht).
  - rewrite (bool_decide_true (CR = CR)) by done. cbn [orb]. by rewrite decide_True by done.
Qed.
Lemma file_head sep t rows : plain_sep sep -> written_file sep t rows -> forall d t', t = d :: t' -> d <> LF.
Proof.
  intros Hs H d t' E. destruct H as [|t fs Hl _|t e fs rest rows Hl He Hr|rest rows Hr]; [done|..].
  - eapply (written_head sep t fs [] Hs Hl). by rewrite app_nil_r.
  - by eapply (written_head sep t fs).
  - cbn in E. by injection E as <- _.
Qed.
Lemma line_nonempty sep t fs : written_line sep t fs -> exists ws, Forall2 (written sep) ws fs /\ t = joined [sep] ws /\ ws <> [].
Proof. intros (ws & H1 & -> & H2). exists ws. split; [done|]. split; [done|]. by intros ->. Qed.
Lemma parse_written sep t rows : plain_sep sep -> written_file sep t rows -> parse_file sep t = without_last_empty <$> rows.
Proof.
  intros Hs. rewrite parse_file_text. induction 1 as [|t fs Hl Hne|t e fs rest rows Hl He Hr IH|rest rows Hr IH]; [done|..].
  - destruct (line_nonempty _ _ _ Hl) as (ws & Hw & -> & Hn). destruct (ptext_joined sep ws fs Hs Hw Hn [] []) as (pole & row0 & E & F); [done|]. rewrite app_nil_r in E. cbn [ptext] in E.
    rewrite F in E. cbn [app] in E. rewrite (rows_text_step sep _ _ _ _ E). rewrite bool_decide_true by done. done.
  - destruct (line_nonempty _ _ _ Hl) as (ws & Hw & -> & Hn). pose proof (file_head _ _ _ Hs Hr) as Hh.
    destruct (ptext_joined sep ws fs Hs Hw Hn [] (e ++ rest)) as (pole & row0 & E & F); [intros d t' Ed; destruct He; by injection Ed as <- _|].
    rewrite (ptext_eol sep e pole row0 rest He Hh), F in E. cbn [app] in E. rewrite (rows_text_step sep _ _ _ _ E). cbn [fmap list_fmap]. by f_equal.
  - pose proof (file_head _ _ _ Hs Hr) as Hh. pose proof (ptext_eol sep [CR; LF] [] [] rest end_crlf Hh) as E. rewrite (rows_text_step sep _ _ _ _ E). cbn [fmap list_fmap]. f_equal. done.
Qed.
