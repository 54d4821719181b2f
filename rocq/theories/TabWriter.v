(** * text/tabwriter

    Package reporter prints through a tabwriter.Writer, which belongs to the Go
    standard library and is modelled here from its source, as reporter.go 25 sets
    it up: padding character ' ', AlignRight and no other flag.  Then the tab
    width is not used, a cell need not remember whether a tab ended it (only
    DiscardEmptyColumns looks), and '<' and '&' are ordinary.  A cell holds its
    text, where the Go code holds its size and keeps all texts in one buffer. *)
From Verif Require Import GoStr Json Stream.
Local Open Scope string_scope.

Record cell := MkCell { c_text : string; c_width : Z }.
Definition line := list cell.

(** tabwriter.Writer: [w_widths] is normally empty between two calls, and keeps
    what format had pushed when a call of Write is given up.  The cell being
    collected has the text [w_text ++ w_rest], of which [w_width] measures
    [w_text]; [w_escape] says that it is inside a pair of 0xff bytes. *)
Record tw := MkTw {
  w_widths : list Z;
  w_lines : list line;
  w_line : line;
  w_text : string;
  w_width : Z;
  w_rest : string;
  w_escape : bool
}.
(** reset *)
Definition tw_reset : tw := MkTw [] [] [] "" 0%Z "" false.

(** utf8.RuneCount: a byte that is not part of a valid sequence counts as one *)
Fixpoint rune_count (s : string) : Z :=
  match s with
  | "" => 0
  | String a s1 =>
      1 + match s1 with
          | "" => 0
          | String b s2 =>
              if utf8_2 a b then rune_count s2 else
              match s2 with
              | "" => rune_count s1
              | String c s3 =>
                  if utf8_3 a b c then rune_count s3 else
                  match s3 with
                  | "" => rune_count s1
                  | String d s4 => if utf8_4 a b c d then rune_count s4 else rune_count s1
                  end
              end
          end
  end%Z.

(** A call of the underlying Write, with the widths pushed at that time, or the
    run-time panic of slicing with a negative bound. *)
Inductive put := Put (widths : list Z) (text : string) | Bad.

Fixpoint spaces (n : nat) : string := match n with O => "" | S n => String " " (spaces n) end.
(** writeN(padbytes, n), padbytes having 8 bytes *)
Fixpoint pads (n : nat) : list string :=
  match n with
  | S (S (S (S (S (S (S (S (S _ as m)))))))) => spaces 8 :: pads m
  | _ => [spaces n]
  end.
(** writePadding *)
Definition padding (widths : list Z) (n : Z) : list put :=
  if (n <? 0)%Z then [Bad] else map (Put widths) (pads (Z.to_nat n)).
(** writeLines, its loop over the cells of a line; [ws] are the widths from the
    column of the first of [cells] on *)
Fixpoint cell_puts (widths ws : list Z) (cells : list cell) : list put :=
  match cells with
  | [] => []
  | c :: r =>
      match ws with w :: _ => padding widths (w - c_width c)%Z | [] => [] end
      ++ (if String.eqb (c_text c) "" then [] else [Put widths (c_text c)])
      ++ cell_puts widths (tl ws) r
  end%list.
(** writeLines; the last buffered line comes with [false] and gets no newline.
    (The cell being collected is empty whenever writeLines is called.) *)
Definition write_lines (widths : list Z) (lines : list (line * bool)) : list put :=
  flat_map (fun l : line * bool => cell_puts widths widths (fst l) ++ [Put widths (if snd l then LF else "")])%list lines.

(** format: column >= len(line)-1 *)
Definition has_cell (column : nat) (l : line * bool) : bool := Nat.ltb (S column) (length (fst l)).
(** format: the block of lines with a cell in the column *)
Fixpoint column_block (column : nat) (lines : list (line * bool)) : list (line * bool) * list (line * bool) :=
  match lines with
  | l :: r => if has_cell column l then let (b, s) := column_block column r in (l :: b, s) else ([], lines)
  | [] => ([], [])
  end.
(** format: its width *)
Definition block_width (minwidth pad : Z) (column : nat) (block : list (line * bool)) : Z :=
  fold_left (fun w l => Z.max w (c_width (nth column (fst l) (MkCell "" 0)) + pad))%Z block minwidth.
(** format; [before] are the lines from line0 to this.  The recursion is on
    [fuel], and [flush_puts] gives enough. *)
Fixpoint format (minwidth pad : Z) (fuel : nat) (widths : list Z) (before lines : list (line * bool)) : list put :=
  match fuel with
  | O => []
  | S k =>
      match lines with
      | [] => write_lines widths before
      | l :: r =>
          if has_cell (length widths) l then
            let (block, rest) := column_block (length widths) lines in
            (write_lines widths before
             ++ format minwidth pad k (widths ++ [block_width minwidth pad (length widths) block])%list [] block
             ++ format minwidth pad k widths [] rest)%list
          else format minwidth pad k widths (before ++ [l])%list r
      end
  end.

(** updateWidth *)
Definition update_width (w : tw) : tw :=
  MkTw (w_widths w) (w_lines w) (w_line w) (w_text w ++ w_rest w) (w_width w + rune_count (w_rest w)) "" (w_escape w).
(** append of one byte *)
Definition append_byte (a : ascii) (w : tw) : tw :=
  MkTw (w_widths w) (w_lines w) (w_line w) (w_text w) (w_width w) (w_rest w ++ String a "") (w_escape w).
(** startEscape(Escape) *)
Definition start_escape (w : tw) : tw :=
  MkTw (w_widths w) (w_lines w) (w_line w) (w_text w) (w_width w) (w_rest w) true.
(** endEscape, the case of Escape *)
Definition end_escape (w : tw) : tw :=
  let w := update_width w in
  MkTw (w_widths w) (w_lines w) (w_line w) (w_text w) (w_width w - 2) (w_rest w) false.
(** terminateCell *)
Definition terminate_cell (w : tw) : tw :=
  MkTw (w_widths w) (w_lines w) (w_line w ++ [MkCell (w_text w ++ w_rest w)%string (w_width w)])%list "" 0%Z "" (w_escape w).
(** addLine *)
Definition add_line (w : tw) : tw :=
  MkTw (w_widths w) (w_lines w ++ [w_line w])%list [] (w_text w) (w_width w) (w_rest w) (w_escape w).

(** flushNoDefers: the call of format *)
Definition flush_puts (minwidth pad : Z) (w : tw) : list put :=
  let lines := (map (fun l => (l, true)) (w_lines w) ++ [(w_line w, false)])%list in
  format minwidth pad (S (fold_right (fun l n => S (length (fst l) + n)) 0 lines)) (w_widths w) [] lines.
(** flushNoDefers: the part before it *)
Definition flush_cell (w : tw) : tw :=
  if String.eqb (w_text w ++ w_rest w) "" then w
  else terminate_cell (if w_escape w then end_escape w else w).

(** The calls of write0 against a sink that has answered [i] calls: the number
    of calls answered, the bytes that arrived, and whether all was accepted, a
    call was refused while these widths were pushed, or the program panicked. *)
Inductive flow := Done | Failed (widths : list Z) | Crashed.
Fixpoint emit (k : sink) (i : nat) (l : list put) : nat * string * flow :=
  match l with
  | [] => (i, "", Done)
  | Bad :: _ => (i, "", Crashed)
  | Put ws t :: r =>
      match k i with
      | Accept => let '(j, u, f) := emit k (S i) r in (j, t ++ u, f)
      | Refuse n => (S i, take n t, Failed ws)
      end
  end.

(** What a call of Write or Flush leaves: the writer, with or without an error,
    or a panic.  After an error in Write the buffered lines and the widths pushed
    at that time stay (handlePanic resets only for Flush). *)
Inductive outcome := Fine (w : tw) | Error (w : tw) | Crash.
Definition set_widths (ws : list Z) (w : tw) : tw :=
  MkTw ws (w_lines w) (w_line w) (w_text w) (w_width w) (w_rest w) (w_escape w).

(** Write *)
Fixpoint tw_write (minwidth pad : Z) (k : sink) (i : nat) (w : tw) (s : string) : nat * string * outcome :=
  match s with
  | "" => (i, "", Fine w)
  | String a r =>
      let n := code a in
      if w_escape w then
        if (n =? 255)%N then tw_write minwidth pad k i (end_escape (append_byte a w)) r
        else tw_write minwidth pad k i (append_byte a w) r
      else if (n =? 9)%N || (n =? 11)%N then tw_write minwidth pad k i (terminate_cell (update_width w)) r
      else if (n =? 10)%N || (n =? 12)%N then
        let w := terminate_cell (update_width w) in
        let ncells := length (w_line w) in
        let w := add_line w in
        if (n =? 12)%N || (ncells =? 1)%nat then
          let w := flush_cell w in
          match emit k i (flush_puts minwidth pad w) with
          | (i, t, Done) => let '(j, u, o) := tw_write minwidth pad k i tw_reset r in (j, t ++ u, o)
          | (i, t, Failed ws) => (i, t, Error (set_widths ws w))
          | (i, t, Crashed) => (i, t, Crash)
          end
        else tw_write minwidth pad k i w r
      else if (n =? 255)%N then tw_write minwidth pad k i (append_byte a (start_escape (update_width w))) r
      else tw_write minwidth pad k i (append_byte a w) r
  end.

(** Flush *)
Definition tw_flush (minwidth pad : Z) (k : sink) (i : nat) (w : tw) : nat * string * outcome :=
  match emit k i (flush_puts minwidth pad (flush_cell w)) with
  | (i, t, Done) => (i, t, Fine tw_reset)
  | (i, t, Failed _) => (i, t, Error tw_reset)
  | (i, t, Crashed) => (i, t, Crash)
  end.
