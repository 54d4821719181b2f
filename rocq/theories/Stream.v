(** * Reading from an io.Reader and writing to an io.Writer

    The other files take a text as the byte string it consists of.  Here the
    text arrives piece by piece, or stops arriving, and the text written may be
    refused.  bytes.Buffer, bufio.Scanner and json.Encoder belong to the Go
    standard library: they are modelled from its source. *)
From Verif Require Import GoStr Sorting Types TvUtil TvReader TvParser Convert ConvertGo TvWriter Json JsonSpdx JsonText.

(** What successive calls of Read deliver: [Give c] is a call that returns the
    bytes [c] and no error, [Stop c f] one that returns [c] together with io.EOF
    or another error, and after which every call returns that error again.  Any
    finite run of a reader has this form; a caller with too little room for [c]
    gets the beginning of it and the rest with the next call.  A reader that
    returns nothing forever is not represented. *)
Inductive fate := Eof | Broken.
Inductive stream :=
| Give (c : string) (next : stream)
| Stop (c : string) (f : fate).

Fixpoint take (n : nat) (s : string) : string :=
  match n, s with S n, String a s => String a (take n s) | _, _ => "" end.
Fixpoint drop (n : nat) (s : string) : string :=
  match n, s with S n, String _ s => drop n s | _, _ => s end.
Definition slen (s : string) : N := N.of_nat (String.length s).

(** A call of Read with a buffer of [room] bytes *)
Definition read (room : N) (s : stream) : string * option fate * stream :=
  match s with
  | Give c next =>
      if (slen c <=? room)%N then (c, None, next)
      else (take (N.to_nat room) c, None, Give (drop (N.to_nat room) c) next)
  | Stop c f =>
      if (slen c <=? room)%N then (c, Some f, Stop "" f)
      else (take (N.to_nat room) c, None, Stop (drop (N.to_nat room) c) f)
  end.

(** A bound on the number of calls, used where a loop ends because the reader does *)
Fixpoint calls (s : stream) : nat :=
  match s with
  | Give c next => S (String.length c + calls next)
  | Stop c _ => S (String.length c)
  end.

(** ** bytes.Buffer.ReadFrom, called at json/reader.go 34-38 and yaml/reader.go
    35-39.  [room n] is the free space of the buffer when it holds [n] bytes
    (at least bytes.MinRead, 512; how it grows does not matter). *)
Fixpoint read_from (fuel : nat) (room : N -> N) (buf : string) (s : stream) : res string :=
  let '(c, e, s') := read (room (slen buf)) s in
  match e with
  | Some Eof => Ok (buf ++ c)
  | Some Broken => Err "read error"
  | None => match fuel with O => Err "out of fuel" | S k => read_from k room (buf ++ c) s' end
  end.

(** json/reader.go 29-83 (ReadInto), [to] being the version of the document read into *)
Definition json_read_from (room : N -> N) (dz : bool) (to : version) (s : stream) : res gval :=
  let* content := read_from (calls s) room "" s in json_read dz to content.

(** ** bufio.Scanner with bufio.ScanLines, called at tagvalue/reader/reader.go 24-34 *)
Inductive scan_error := ReadError (f : fate) | TooLong | NoProgress.

(** [sc_buf] are the bytes between [start] and [end] of the Scanner, [sc_cap] is
    the size of its buffer *)
Record scanner := MkScanner {
  sc_cap : N;
  sc_start : N;
  sc_buf : string;
  sc_err : option scan_error;
  sc_src : stream
}.
Definition scanner_init (s : stream) : scanner := MkScanner 0 0 "" None s.
Definition set_err (e : scan_error) (sc : scanner) : scanner :=
  MkScanner (sc_cap sc) (sc_start sc) (sc_buf sc) (Some e) (sc_src sc).
Definition is_some {A} (o : option A) : bool := match o with Some _ => true | None => false end.

(** ScanLines: the next line, without the carriage return before its newline,
    and the bytes after it *)
Definition scan_lines (data : string) (at_eof : bool) : option (string * string) :=
  match cut LF data with
  | Some (l, rest) => Some (drop_cr l, rest)
  | None => if at_eof && nonempty data then Some (drop_cr data, "") else None
  end.

Definition sc_end (sc : scanner) : N := (sc_start sc + slen (sc_buf sc))%N.
(** bufio.MaxScanTokenSize and the size of the first buffer *)
Definition max_token : N := 65536.
Definition start_size : N := 4096.

(** Scan, before it reads: the bytes are moved to the front of the buffer, the
    buffer is doubled; [None] is ErrTooLong *)
Definition make_room (sc : scanner) : option scanner :=
  let start := if (0 <? sc_start sc)%N
                    && ((sc_end sc =? sc_cap sc)%N || (sc_cap sc / 2 <? sc_start sc)%N)
               then 0%N else sc_start sc in
  if (start + slen (sc_buf sc) =? sc_cap sc)%N then
    if (max_token <=? sc_cap sc)%N then None
    else Some (MkScanner (N.min (if (sc_cap sc =? 0)%N then start_size else 2 * sc_cap sc) max_token)
                         0 (sc_buf sc) (sc_err sc) (sc_src sc))
  else Some (MkScanner (sc_cap sc) start (sc_buf sc) (sc_err sc) (sc_src sc)).

(** Scan, reading: up to 100 calls that deliver nothing are tolerated *)
Fixpoint fill (loops : nat) (sc : scanner) : scanner :=
  let '(c, e, src) := read (sc_cap sc - sc_end sc) (sc_src sc) in
  let sc' := MkScanner (sc_cap sc) (sc_start sc) (sc_buf sc ++ c) (sc_err sc) src in
  match e with
  | Some f => set_err (ReadError f) sc'
  | None =>
      if nonempty c then sc'
      else match loops with O => set_err NoProgress sc' | S k => fill k sc' end
  end.
Definition max_empty_reads : nat := 100.

(** Scan and Text *)
Fixpoint scan (fuel : nat) (sc : scanner) : option string * scanner :=
  match scan_lines (sc_buf sc) (is_some (sc_err sc)) with
  | Some (line, rest) =>
      (Some line, MkScanner (sc_cap sc) (sc_end sc - slen rest) rest (sc_err sc) (sc_src sc))
  | None =>
      if is_some (sc_err sc) then (None, sc)
      else match make_room sc with
           | None => (None, set_err TooLong sc)
           | Some sc' => match fuel with O => (None, sc') | S k => scan k (fill max_empty_reads sc') end
           end
  end.

(** tagvalue/reader/reader.go 24-34: the scanning loop *)
Fixpoint scan_all (fuel : nat) (r : tvr) (sc : scanner) : res tvr :=
  match scan fuel sc with
  | (Some line, sc') =>
      let* r' := read_next_line r line in
      match fuel with O => Err "out of fuel" | S k => scan_all k r' sc' end
  | (None, sc') =>
      match sc_err sc' with
      | Some (ReadError Eof) => Ok r
      | Some (ReadError Broken) => Err "read error"
      | Some TooLong => Err "bufio.Scanner: token too long"
      | Some NoProgress => Err "multiple Read calls return no data or error"
      | None => Err "out of fuel"
      end
  end.

(** tagvalue/reader/reader.go 21-50 (ReadTagValues) *)
Definition read_tag_values_from (s : stream) : res (list (string * string)) :=
  let* r := scan_all (S (calls s)) tvr_init (scanner_init s) in finalize r.

(** tagvalue/reader.go 33-71 (ReadInto), [to] being the version of the document read into *)
Definition tagvalue_read_from (dz : bool) (to : version) (s : stream) : res gval :=
  let* pairs := read_tag_values_from s in
  let* (from, d) :=
    match pairs with
    | [] => Err "no tag values found"
    | _ =>
        let ver := first_version pairs in
        if String.eqb ver "SPDX-2.1" then let* d := parse_tag_values V21 pairs in Ok (V21, d)
        else if String.eqb ver "SPDX-2.2" then let* d := parse_tag_values V22 pairs in Ok (V22, d)
        else if String.eqb ver "SPDX-2.3" then let* d := parse_tag_values V23 pairs in Ok (V23, d)
        else Err "unsupported SPDX version"
    end in
  match d with
  | Some d => convert_document dz from to (go_document from d)
  | None => Panic
  end.

(** ** io.Writer: the answer to the n-th call of Write.  [Refuse n] takes the
    first [n] bytes and returns an error. *)
Inductive answer := Accept | Refuse (n : nat).
Definition sink := nat -> answer.

(** The bytes that arrive when the calls are made one after the other, whatever
    they return *)
Fixpoint deliver (k : sink) (i : nat) (texts : list string) : string :=
  match texts with
  | [] => ""
  | t :: r => match k i with Accept => t | Refuse n => take n t end ++ deliver k (S i) r
  end.

(** RenderDocument, spdx/v2/v2_3/tagvalue/writer/save_document.go 19-103 (v2_1
    and v2_2 20-104): one call of fmt.Fprintf for each chunk, hence one call of
    Write, and what it returns is not looked at.  The result is what Write of
    package tagvalue returns, and the bytes that arrived. *)
Definition tagvalue_write_to (k : sink) (so : sorter) (v : version) (d : Document) : res unit * string :=
  match render_document_chunks so v d with
  | Ok l => (Ok tt, deliver k 0 (map chunk_bytes l))
  | Err m => (Err m, "")
  | Panic => (Panic, "")
  end.

(** json/writer.go 27-33 (Write): json.Encoder encodes into a buffer of its own,
    then calls Write once and returns what it returns. *)
Definition json_write_to (k : sink) (v : version) (escape_html : bool) (ind : string) (d : JDocument) : res unit * string :=
  match json_write v escape_html ind d with
  | Ok t => match k 0 with Accept => (Ok tt, t) | Refuse n => (Err "write error", take n t) end
  | Err m => (Err m, "")
  | Panic => (Panic, "")
  end.
