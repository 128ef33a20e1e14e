(** Generated by tools/gen_ex.py from tools/examples.txt. *)
From Verif Require Import T_Csv Ex_Base.
Open Scope Z_scope.

Lemma tex_C30_reader_exact :
  exists f n,
    seen (moved n (open_reader f)) = (true, 1%Z, comma, default NUL (last f)).
Proof. exists (tx "a,b"), (1%nat); mx. Qed.

Lemma tex_C30_chunked_equals_whole :
  exists f n,
    (2 <= length f)%nat /\
    seen (moved n (open_chunked f)) = (true, 4096%Z, comma, comma).
Proof. exists (repeat comma 5000), (4096%nat); mx. Qed.

Lemma tex_C30_negative_read_iff :
  exists f,
    zlen f > BIG.
Proof. exists (repeat comma (Z.to_nat 10489855)); unfold zlen; rewrite repeat_length, Z2Nat.id by lia; reflexivity. Qed.

Lemma tex_C31_consumes :
  exists f n sep b row r',
    get_next sep (moved n (open_reader f)) = (b, row, r').
Proof. exists (tx "a,b"), (1%nat), (comma), (true), ([[]; tx "b"]), (moved 3%nat (open_reader (tx "a,b"))); mx. Qed.

Lemma tex_C31_function_of_rest :
  exists f g n m sep b row r',
    (n <= length f)%nat /\
    (m <= length g)%nat /\
    drop n f = drop m g /\
    get_next sep (moved n (open_reader f)) = (b, row, r').
Proof. exists (tx "a,b"), (tx "xya,b"), (1%nat), (3%nat), (comma), (true), ([[]; tx "b"]), (moved 3%nat (open_reader (tx "a,b"))); mx. Qed.

Lemma tex_C31_finite :
  exists sep f fuel,
    (length f < fuel)%nat /\
    parse_file sep f = [[tx "a"; tx "b"]].
Proof. exists (comma), (tx "a,b"), (4%nat); mx. Qed.

Lemma tex_C28_roundtrip_partial :
  exists sep rows,
    plain_sep sep /\
    Forall (Forall (plain_field sep)) rows /\
    Forall (fun fields => last fields <> Some []) rows.
Proof. exists (comma), ([[tx "a"; []; tx ",x"]; [quote :: tx "q"; CR :: LF :: tx "z"]]); csvx. Qed.

Lemma tex_C28_roundtrip_iff :
  exists sep rows,
    plain_sep sep /\
    parse_file sep (concat (csv_line sep <$> rows)) = rows.
Proof. exists (comma), ([[tx "a"; []; tx ",x"]; [quote :: tx "q"; CR :: LF :: tx "z"]]); csvx. Qed.

Lemma tex_C28_roundtrip_iff__not :
  exists sep rows,
    plain_sep sep /\
    parse_file sep (concat (csv_line sep <$> rows)) = [[tx "a"]; [tx "b"]; [tx "c"]].
Proof. exists (comma), ([[tx "a"; CR :: tx "b"]; [tx "c"; []]]); csvx. Qed.

Lemma tex_C28_reads_back_exact :
  exists sep rows,
    plain_sep sep /\
    parse_file sep (concat (csv_line sep <$> rows)) = [[tx "a"; tx "b"; tx "c"]; [tx "d"; []]; [tx ",;"]].
Proof. exists (Ascii.ascii_of_nat 59), ([[tx "a;b"; (tx "c" ++ CR :: tx "d;")%list; []]; [tx ",;"; []]]); csvx. Qed.

Lemma tex_C29_fields_read_back :
  exists sep rows,
    plain_sep sep /\
    Forall (Forall (plain_field sep)) rows.
Proof. exists (comma), ([[tx "a"; []]; [quote :: tx "q"; CR :: LF :: tx "z"; []]]); csvx. Qed.

Lemma tex_C29_field_count_partial :
  exists sep fields,
    plain_sep sep /\
    Forall (plain_field sep) fields /\
    last fields <> Some [].
Proof. exists (comma), ([tx "a"; []; quote :: tx "q"; CR :: LF :: tx "z"]); csvx. Qed.

Lemma tex_C29_field_count_iff :
  exists rows,
    length <$> parse_file comma (concat (csv_line comma <$> rows)) = [3%nat; 0%nat; 1%nat].
Proof. exists ([[tx "a"; []; quote :: tx "q"]; []; [CR :: LF :: tx "z"]]); csvx. Qed.

Lemma tex_C55_foreign_files :
  exists sep t rows,
    plain_sep sep /\
    written_file sep t rows /\
    length t = 18%nat.
Proof. exists (comma), (sample_file), ([[tx "a"; [quote; LF] ++ tx "x,y"; []]; []; [tx "b"]; [[]; tx "c"]]); split; [done|]; split; [apply sample_written|done]. Qed.
