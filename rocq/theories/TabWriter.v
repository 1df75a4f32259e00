(** * Model of the table printed by the commands (net/echonet/cmd/table.go Output)

    The writer is text/tabwriter of the Go standard library with the arguments
    of table.go L49: minwidth 0, tabwidth 0, padding 1, padchar blank, no flags.
    Texts are lists of bytes. *)
From Coq Require Import ZArith List Bool String Ascii.
From Verif Require Import Go Cmd.
Import ListNotations.
Local Open Scope Z_scope.

(** []byte(s) *)
Definition codes (s : string) : list Z := map char_code (list_ascii_of_string s).

(** ** unicode/utf8 *)

(** The tables first and acceptRanges: size of a sequence and the range of its
    second byte; size 1 for the bytes that start no sequence. *)
Definition utf8_first (c : Z) : nat * (Z * Z) :=
  if c <? 0xC2 then (1%nat, (0, 0))
  else if c <? 0xE0 then (2%nat, (0x80, 0xBF))
  else if c =? 0xE0 then (3%nat, (0xA0, 0xBF))
  else if c =? 0xED then (3%nat, (0x80, 0x9F))
  else if c <? 0xF0 then (3%nat, (0x80, 0xBF))
  else if c =? 0xF0 then (4%nat, (0x90, 0xBF))
  else if c <? 0xF4 then (4%nat, (0x80, 0xBF))
  else if c =? 0xF4 then (4%nat, (0x80, 0x8F))
  else (1%nat, (0, 0)).
Definition continues (c : Z) : bool := (0x80 <=? c) && (c <=? 0xBF).
(** The size of the rune at the head of the text. *)
Definition rune_size (c : Z) (t : list Z) : nat :=
  let '(size, (lo, hi)) := utf8_first c in
  match size, t with
  | 2%nat, c1 :: _ => if (lo <=? c1) && (c1 <=? hi) then 2%nat else 1%nat
  | 3%nat, c1 :: c2 :: _ => if (lo <=? c1) && (c1 <=? hi) && continues c2 then 3%nat else 1%nat
  | 4%nat, c1 :: c2 :: c3 :: _ => if (lo <=? c1) && (c1 <=? hi) && continues c2 && continues c3 then 4%nat else 1%nat
  | _, _ => 1%nat
  end.
(** utf8.RuneCount; [skip] bytes belong to the rune before. *)
Fixpoint rune_count (skip : nat) (s : list Z) : nat :=
  match s with
  | [] => O
  | c :: t => match skip with O => S (rune_count (rune_size c t - 1) t) | S k => rune_count k t end
  end.
Definition RuneCount (s : list Z) : nat := rune_count 0 s.

(** ** text/tabwriter *)

(** type cell: text and width in runes.  The size is the length of the text, and
    htab is read only with DiscardEmptyColumns.  Simplified: the text stands in
    the cell, not in the common buffer, from which format takes the cells in order. *)
Record cell : Type := mkCell { ce_text : list Z; ce_width : Z }.
(** A buffered line and what is written behind it: a newline, and nothing behind
    the last one (writeLines). *)
Definition line : Type := (list cell * list Z)%type.

(** type Writer: the lines before the last, the last line, the current cell, the
    part of its text whose runes are not counted yet (buf[pos:]), whether an
    escaped text is open (endChar), and what has been written. *)
Record writer : Type := mkWriter {
  w_lines : list (list cell); w_line : list cell; w_cell : cell; w_uncounted : list Z; w_escape : bool; w_out : list Z }.
Definition no_cell : cell := mkCell [] 0.
(** reset *)
Definition fresh (out : list Z) : writer := mkWriter [] [] no_cell [] false out.

(** writePadding with a blank *)
Definition padding (textw cellw : Z) : list Z := repeat 32 (Z.to_nat (cellw - textw)).
(** writeLines, one line: cells are aligned left, the cells that have a width are padded. *)
Fixpoint write_cells (widths : list Z) (cs : list cell) : list Z :=
  match cs with
  | [] => []
  | c :: cs =>
      match widths with
      | [] => ce_text c ++ write_cells [] cs
      | w :: ws => ce_text c ++ padding (ce_width c) w ++ write_cells ws cs
      end
  end.
Definition writeLines (widths : list Z) (ls : list line) : list Z :=
  flat_map (fun l => write_cells widths (fst l) ++ snd l) ls.

(** A cell exists in this column of the line: the last cell of a line is not part of a column. *)
Definition has_column (column : nat) (l : line) : bool := Nat.ltb column (length (fst l) - 1).
(** The lines in maximal blocks of equal answers. *)
Fixpoint blocks (p : line -> bool) (ls : list line) : list (bool * list line) :=
  match ls with
  | [] => []
  | l :: ls =>
      match blocks p ls with
      | (b, ms) :: r => if Bool.eqb b (p l) then (b, l :: ms) :: r else (p l, [l]) :: (b, ms) :: r
      | [] => [(p l, [l])]
      end
  end.
(** The width of a column block; minwidth is 0 and padding 1. *)
Definition block_width (column : nat) (ls : list line) : Z :=
  fold_left (fun width l => let w := ce_width (nth column (fst l) no_cell) + 1 in if width <? w then w else width) ls 0.
(** format: each block of lines that have the column is formatted with the width
    of the column, the others are written.  [depth] bounds the columns. *)
Fixpoint format (depth : nat) (widths : list Z) (ls : list line) : list Z :=
  match depth with
  | O => writeLines widths ls
  | S d =>
      flat_map (fun b : bool * list line => let '(has, ms) := b in
                  if has then format d (widths ++ [block_width (length widths) ms]) ms else writeLines widths ms)
               (blocks (has_column (length widths)) ls)
  end.

(** updateWidth, startEscape, endEscape (without StripEscape the two marks do not count) *)
Definition updateWidth (w : writer) : writer :=
  mkWriter (w_lines w) (w_line w) (mkCell (ce_text (w_cell w)) (ce_width (w_cell w) + Z.of_nat (RuneCount (w_uncounted w)))) [] (w_escape w) (w_out w).
Definition endEscape (w : writer) : writer :=
  let w := updateWidth w in
  mkWriter (w_lines w) (w_line w) (mkCell (ce_text (w_cell w)) (ce_width (w_cell w) - 2)) [] false (w_out w).
(** append, one byte *)
Definition append_byte (w : writer) (c : Z) : writer :=
  mkWriter (w_lines w) (w_line w) (mkCell (ce_text (w_cell w) ++ [c]) (ce_width (w_cell w))) (w_uncounted w ++ [c]) (w_escape w) (w_out w).
(** terminateCell *)
Definition terminateCell (w : writer) : writer :=
  mkWriter (w_lines w) (w_line w ++ [w_cell w]) no_cell (w_uncounted w) (w_escape w) (w_out w).
(** addLine *)
Definition addLine (w : writer) : writer :=
  mkWriter (w_lines w ++ [w_line w]) [] (w_cell w) (w_uncounted w) (w_escape w) (w_out w).
(** flushNoDefers.  Not modelled: errors of the output. *)
Definition Flush (w : writer) : writer :=
  let w := match ce_text (w_cell w) with [] => w | _ => terminateCell (if w_escape w then endEscape w else w) end in
  let ls := map (fun l => (l, [10])) (w_lines w) ++ [(w_line w, [])] in
  fresh (w_out w ++ format (fold_right Nat.max O (map (fun l : line => length (fst l)) ls)) [] ls).
(** Write, one byte: tab, vertical tab, newline and form feed end a cell; 255
    opens and closes an escaped text. *)
Definition put (w : writer) (c : Z) : writer :=
  if w_escape w then
    let w := append_byte w c in if c =? 255 then endEscape w else w
  else if (c =? 9) || (c =? 11) then terminateCell (updateWidth w)
  else if (c =? 10) || (c =? 12) then
    let w := terminateCell (updateWidth w) in
    let cells := length (w_line w) in
    let w := addLine w in
    if (c =? 12) || Nat.eqb cells 1 then Flush w else w
  else if c =? 255 then
    let w := append_byte (updateWidth w) c in
    mkWriter (w_lines w) (w_line w) (w_cell w) (w_uncounted w) true (w_out w)
  else append_byte w c.
Definition Write (w : writer) (b : list Z) : writer := fold_left put b w.

(** ** table.go *)

(** table.go L50-L61 *)
Fixpoint printRow (w : writer) (cols : list string) : writer :=
  match cols with
  | [] => w
  | [col] => Write w (codes col ++ [10])
  | col :: cols => printRow (Write w (codes col ++ [9])) cols
  end.
(** table.go L47-L67: the text on the standard output *)
Definition Output (t : table) : list Z :=
  w_out (Flush (fold_left printRow (t_columns t :: t_rows t) (fresh []))).
