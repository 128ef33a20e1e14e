(** Model of Source/CsvParser: the CSV writer, the file reader (whole-file and chunked) and the row parser. *)
From Verif Require Export StringsModel.
From Coq Require Import Ascii.
Open Scope Z_scope.

Definition quote : ascii := ascii_of_nat 34.
Definition comma : ascii := ascii_of_nat 44.
Definition CR : ascii := ascii_of_nat 13.
Definition LF : ascii := ascii_of_nat 10.
Definition NUL : ascii := ascii_of_nat 0.

(** ** Writing a field *)

(** The loop of [FormatStringToCsv]: Source/CsvParser/CsvParser.cpp 10-26. Result: res and isEscapingRequired. *)
Fixpoint format_loop (s : text) (res : text) (esc : bool) : text * bool :=
  match s with
  | [] => (res, esc)
  | c :: s' =>
      if decide (c = quote) then format_loop s' (res ++ [quote; quote]) true
      else format_loop s' (res ++ [c]) (if decide (c = comma) then true else if decide (c = LF) then true else esc)
  end.
(** [FormatStringToCsv]: Source/CsvParser/CsvParser.cpp 5-32. *)
Definition format_csv (s : text) : text :=
  let '(res, esc) := format_loop s [] false in if (esc : bool) then [quote] ++ res ++ [quote] else res.

(** ** The file reader *)

(** Source/CsvParser/StreamFileReader.h 9, 12. *)
Definition BLOCK : Z := 4096.
Definition BIG : Z := 10485760.

(** The content of a file as an array, indexed by Z; outside of it there is nothing. *)
Definition zlen (f : text) : Z := Z.of_nat (length f).
Definition char_at (f : text) (i : Z) : option ascii := if decide (0 <= i) then f !! Z.to_nat i else None.

(** Fields of a StreamFileReader: Source/CsvParser/StreamFileReader.h 45-66. [rd_file]: the file that is open; [rd_at]: the position of
    the stream; [rd_data]: Data; [rd_chunk]: DataChunk, by index, [NUL] where nothing was read; [rd_neg]: the stream was asked for a
    negative number of characters. *)
Record reader := Reader { rd_file : text; rd_at : Z; rd_size : Z; rd_pos : Z; rd_cpos : Z; rd_char : ascii; rd_next : ascii;
                          rd_chunk : Z -> ascii; rd_data : option text; rd_neg : bool }.

(** [File.read(DataChunk, n)]: the next [n] characters of the file replace the first [n] of the chunk (fewer if the file ends).
    A negative [n] reads nothing (libstdc++) and is recorded. *)
Definition read_chunk (f : text) (at_ n : Z) (chunk : Z -> ascii) : Z -> ascii :=
  fun i => if decide (0 <= i < n) then match char_at f (at_ + i) with Some c => c | None => chunk i end else chunk i.

(** [Open] on a file that exists: Source/CsvParser/StreamFileReader.cpp 12-41, chunked (25-27) or whole (31-36). *)
Definition empty_reader (f : text) : reader := Reader f 0 (zlen f) 0 1 NUL NUL (fun _ => NUL) None false.
Definition open_chunked (f : text) : reader :=
  let ck := read_chunk f 0 BLOCK (fun _ => NUL) in
  Reader f (Z.min (zlen f) BLOCK) (zlen f) 0 1 (ck 0) (ck 1) ck None false.
Definition open_whole (f : text) : reader :=
  Reader f (zlen f) (zlen f) 1 1 (default NUL (char_at f 0)) (if decide (zlen f > 1) then default NUL (char_at f 1) else NUL)
    (fun _ => NUL) (Some f) false.
Definition open_reader (f : text) : reader :=
  if decide (zlen f > 0) then if decide (zlen f > BIG) then open_chunked f else open_whole f
  else empty_reader f.

(** [IsEnd] (true as long as there is a character), [GetFileSize], [GetCurrentPos], [GetChar], [GetNextChar]:
    Source/CsvParser/StreamFileReader.cpp 48-86. *)
Definition rd_is_end (r : reader) : bool :=
  match rd_data r with
  | None => bool_decide (rd_pos r + rd_cpos r <= rd_size r)
  | Some _ => bool_decide (rd_pos r <= rd_size r)
  end.
Definition rd_current (r : reader) : Z :=
  if decide (rd_size r = 0) then 0
  else match rd_data r with None => rd_pos r + rd_cpos r - 1 | Some _ => rd_pos r - 1 end.

(** [Move]: Source/CsvParser/StreamFileReader.cpp 88-126. *)
Definition rd_move (r : reader) : reader * bool :=
  match rd_data r with
  | None =>
      if decide (rd_pos r + rd_cpos r <= rd_size r) then
        let cpos := rd_cpos r + 1 in
        let '(at_, pos, cpos, ck, neg) :=
          if decide (cpos = BLOCK) then
            let pos := rd_pos r + BLOCK in
            let n := if decide (rd_size r - pos > BLOCK) then BLOCK else rd_size r - pos in
            (rd_at r + Z.max 0 n, pos, 0, read_chunk (rd_file r) (rd_at r) n (rd_chunk r), rd_neg r || bool_decide (n < 0))
          else (rd_at r, rd_pos r, cpos, rd_chunk r, rd_neg r) in
        (Reader (rd_file r) at_ (rd_size r) pos cpos (rd_next r) (if decide (pos + cpos < rd_size r) then ck cpos else rd_next r) ck None neg, true)
      else (r, false)
  | Some d =>
      if decide (rd_pos r <= rd_size r) then
        let pos := rd_pos r + 1 in
        (Reader (rd_file r) (rd_at r) (rd_size r) pos (rd_cpos r) (rd_next r)
           (if decide (pos < rd_size r) then default NUL (char_at d pos) else rd_next r) (rd_chunk r) (Some d) (rd_neg r), true)
      else (r, false)
  end.
Definition move (r : reader) : reader := (rd_move r).1.

(** ** The parser *)

(** The loop of [GetNextVector]: Source/CsvParser/CsvParser.cpp 57-121. Every round moves the reader; the fuel is never exhausted
    (lemma [get_next_text]). Result: the value returned, the vector, the reader. *)
Fixpoint next_loop (fuel : nat) (sep : ascii) (r : reader) (esc : bool) (pole : text) (row : list text) : bool * list text * reader :=
  let finish := (let row := if decide (pole = []) then row else row ++ [pole] in (bool_decide (row <> []), row, r)) in
  match fuel with
  | O => finish
  | S fuel =>
      if rd_is_end r then
        let more := bool_decide (rd_current r < rd_size r - 1) in
        if negb esc && (bool_decide (rd_char r = CR) || bool_decide (rd_char r = LF)) then
          let row := if decide (pole = []) then row else row ++ [pole] in
          let r1 := if more && bool_decide (rd_next r = LF) then move r else r in
          (true, row, move r1)
        else if decide (rd_char r = quote) then
          if negb esc then next_loop fuel sep (move r) true [] row
          else if more && bool_decide (rd_next r = quote) then next_loop fuel sep (move (move r)) esc (pole ++ [quote]) row
          else next_loop fuel sep (move r) false pole row
        else if bool_decide (rd_char r = sep) && negb esc then next_loop fuel sep (move r) esc [] (row ++ [pole])
        else next_loop fuel sep (move r) esc (pole ++ [rd_char r]) row
      else finish
  end.
(** [GetNextVector]: Source/CsvParser/CsvParser.cpp 42-122 (an empty file has no loop, line 54). *)
Definition get_next (sep : ascii) (r : reader) : bool * list text * reader :=
  if decide (rd_size r > 0) then next_loop (S (Z.to_nat (rd_size r))) sep r false [] []
  else (false, [], r).

(** Calling [GetNextVector] until it returns false: the rows it delivered (Source/Vault.cpp 65). At most one row per character, so the
    fuel is never exhausted (lemma [parse_file_text]). *)
Fixpoint rows_loop (fuel : nat) (sep : ascii) (r : reader) : list (list text) :=
  match fuel with
  | O => []
  | S fuel => let '(b, row, r') := get_next sep r in if (b : bool) then row :: rows_loop fuel sep r' else []
  end.
Definition parse_file (sep : ascii) (f : text) : list (list text) := rows_loop (S (length f)) sep (open_reader f).
