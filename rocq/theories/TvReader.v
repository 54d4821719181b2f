(** * Tag-value tokenizer: /repo/tagvalue/reader/reader.go *)
From Verif Require Import GoStr.

(** bufio.ScanLines drops one trailing carriage return of each line
    (Go standard library, used by reader.go 24-26). *)
Definition drop_cr (s : string) : string := trim_suffix (String CR "") s.

(** bufio.Scanner delivers a final line without newline only if it is not empty. *)
Fixpoint drop_last_empty (l : list string) : list string :=
  match l with
  | [] => []
  | [x] => if nonempty x then [x] else []
  | x :: rest => x :: drop_last_empty rest
  end.
Definition raw_lines (s : string) : list string := drop_last_empty (split_on (byte 10) s).

(** bufio.MaxScanTokenSize: a line of 65536 bytes or more (without its newline)
    makes Scan stop with ErrTooLong. *)
Definition fits (line : string) : bool := (N.of_nat (String.length line) <? 65536)%N.

(** /repo/tagvalue/reader/reader.go 57-63 (tvReader); currentLine is only used in
    messages of other versions and is left out. *)
Record tvr := MkTvr {
  tv_midtext : bool;
  tv_list : list (string * string);
  tv_tag : string;
  tv_value : string
}.
Definition tvr_init : tvr := MkTvr false [] "" "".

(** reader.go 82-139 (readNextLineFromReady) *)
Definition read_ready (r : tvr) (line : string) : res tvr :=
  let line2 := trim_left line in
  if String.eqb line2 "" then Ok r
  else if has_prefix "#" line2 then Ok r
  else
    match cut ":" line2 with
    | None => Err "no colon found"
    | Some (t, rest) =>
        let tag := trim_space t in
        match cut "<text>" rest with
        | None => Ok (MkTvr false (tv_list r ++ [(tag, trim_space rest)]) "" "")
        | Some (_, rest2) =>
            match cut "</text>" rest2 with
            | Some (v, _) => Ok (MkTvr false (tv_list r ++ [(tag, v)]) "" "")
            | None => Ok (MkTvr true (tv_list r) tag (rest2 ++ LF))
            end
        end
    end.

(** reader.go 141-161 (readNextLineFromMidtext) *)
Definition read_midtext (r : tvr) (line : string) : res tvr :=
  match cut "</text>" line with
  | None => Ok (MkTvr true (tv_list r) (tv_tag r) (tv_value r ++ line ++ LF))
  | Some (x, _) =>
      Ok (MkTvr false (tv_list r ++ [(tv_tag r, tv_value r ++ x)]) "" "")
  end.

(** reader.go 72-80 (readNextLine) *)
Definition read_next_line (r : tvr) (line : string) : res tvr :=
  if tv_midtext r then read_midtext r line else read_ready r line.

(** reader.go 24-34: the scanning loop; a too long line ends the scan and its
    error is reported by scanner.Err after the loop. *)
Fixpoint read_all (r : tvr) (lines : list string) : res tvr :=
  match lines with
  | [] => Ok r
  | l :: rest =>
      if fits l then let* r' := read_next_line r (drop_cr l) in read_all r' rest
      else Err "bufio.Scanner: token too long"
  end.

(** reader.go 65-70 (finalize) *)
Definition finalize (r : tvr) : res (list (string * string)) :=
  if tv_midtext r then Err "finalize called while still midtext" else Ok (tv_list r).

(** reader.go 21-50 (ReadTagValues) *)
Definition read_tag_values (content : string) : res (list (string * string)) :=
  let* r := read_all tvr_init (raw_lines content) in finalize r.
