(** * JSON text: the scanner and the printer of Go's encoding/json, and Read,
    ReadInto and Write of /repo/json on bytes.

    /repo/json/reader.go 29-44 reads the whole input and calls json.Unmarshal
    twice, /repo/json/writer.go 12-33 makes a json.Encoder.  encoding/json (Go
    1.23, see go.mod) is not part of /repo: its scanner (scanner.go checkValid)
    is modelled as a recursive descent parser that produces the value, its
    indentation (indent.go appendIndent) as a printer on values. *)
From Verif Require Import GoStr Types TvUtil TvParser Json JsonSpdx Convert ConvertGo.
Local Open Scope string_scope.

(** ** Scanning (encoding/json scanner.go) *)

(** isSpace *)
Definition is_blank (a : ascii) : bool := is 32 a || is 9 a || is 10 a || is 13 a.
Fixpoint skip (s : string) : string :=
  match s with String a r => if is_blank a then skip r else s | "" => "" end.

Definition is_hex (a : ascii) : bool := match hex_val a with Some _ => true | None => false end.
(** After the backslash of an escape sequence of one letter (stateInStringEsc). *)
Definition is_escape (a : ascii) : bool :=
  is 98 a || is 102 a || is 110 a || is 114 a || is 116 a || is 92 a || is 47 a || is 34 a.
Definition cons_fst (x : string) (r : option (string * string)) : option (string * string) :=
  match r with Some (t, rest) => Some (x ++ t, rest) | None => None end.
(** stateInString: the text up to the closing quotation mark, and what follows it. *)
Fixpoint scan_string (s : string) : option (string * string) :=
  match s with
  | "" => None
  | String a s1 =>
      if is 34 a then Some ("", s1) else
      if is 92 a then
        match s1 with
        | "" => None
        | String e s2 =>
            if is_escape e then cons_fst (String a (String e "")) (scan_string s2) else
            if is 117 e then
              match s2 with
              | String h1 (String h2 (String h3 (String h4 s3))) =>
                  if is_hex h1 && is_hex h2 && is_hex h3 && is_hex h4
                  then cons_fst (String a (String e (String h1 (String h2 (String h3 (String h4 "")))))) (scan_string s3)
                  else None
              | _ => None
              end
            else None
        end
      else if (code a <? 32)%N then None
      else cons_fst (String a "") (scan_string s1)
  end.

Definition is_digit (a : ascii) : bool := between 48 57 a.
Fixpoint scan_digits (s : string) : string * string :=
  match s with
  | String a r => if is_digit a then let (x, y) := scan_digits r in (String a x, y) else ("", s)
  | "" => ("", "")
  end.
(** At least one digit (stateDot, stateE0). *)
Definition scan_digits1 (s : string) : option (string * string) :=
  let (x, y) := scan_digits s in match x with "" => None | _ => Some (x, y) end.
(** stateNeg, state0, state1 *)
Definition scan_int (s : string) : option (string * string) :=
  match s with
  | String a r => if is 48 a then Some ("0", r) else scan_digits1 s
  | "" => None
  end.
(** stateDot, stateDot0 *)
Definition scan_frac (s : string) : option (string * string) :=
  match s with
  | String a r => if is 46 a then cons_fst "." (scan_digits1 r) else Some ("", s)
  | "" => Some ("", "")
  end.
(** stateE, stateESign, stateE0 *)
Definition scan_exp (s : string) : option (string * string) :=
  match s with
  | String a r =>
      if is 101 a || is 69 a then
        match r with
        | String b r' =>
            if is 43 b || is 45 b then cons_fst (String a (String b "")) (scan_digits1 r')
            else cons_fst (String a "") (scan_digits1 r)
        | "" => None
        end
      else Some ("", s)
  | "" => Some ("", "")
  end.
Definition scan_sign (s : string) : string * string :=
  match s with
  | String a r => if is 45 a then ("-", r) else ("", s)
  | "" => ("", "")
  end.
Definition scan_number (s : string) : option (string * string) :=
  let (sg, s1) := scan_sign s in
  match scan_int s1 with
  | None => None
  | Some (i, s2) =>
      match scan_frac s2 with
      | None => None
      | Some (f, s3) =>
          match scan_exp s3 with
          | None => None
          | Some (e, s4) => Some (sg ++ i ++ f ++ e, s4)
          end
      end
  end.

(** The rest of a literal name (stateT, stateTr, ...). *)
Fixpoint expect (w s : string) : option string :=
  match w, s with
  | "", _ => Some s
  | String a w', String b s' => if Ascii.eqb a b then expect w' s' else None
  | _, "" => None
  end.

(** maxNestingDepth *)
Definition max_depth : N := 10000.

(** stateBeginValue and the states of arrays and objects; [d] is the number of
    arrays and objects that are open, [limit] the most that may be.  [fuel]
    bounds the calls: see
    [parse_text]. *)
Fixpoint parse_value (limit : N) (fuel : nat) (d : N) (s : string) {struct fuel} : option (json * string) :=
  match fuel with
  | O => None
  | S fuel =>
      match s with
      | "" => None
      | String a r =>
          if is 123 a then
            if (limit <=? d)%N then None else
            match skip r with
            | "" => None
            | String b r' =>
                if is 125 b then Some (JObj [], r') else
                match parse_members limit fuel (d + 1) (String b r') with
                | Some (ms, rest) => Some (JObj ms, rest)
                | None => None
                end
            end
          else if is 91 a then
            if (limit <=? d)%N then None else
            match skip r with
            | "" => None
            | String b r' =>
                if is 93 b then Some (JArr [], r') else
                match parse_elements limit fuel (d + 1) (String b r') with
                | Some (l, rest) => Some (JArr l, rest)
                | None => None
                end
            end
          else if is 34 a then
            match scan_string r with Some (t, rest) => Some (JStr t, rest) | None => None end
          else if is 110 a then match expect "ull" r with Some rest => Some (JNull, rest) | None => None end
          else if is 116 a then match expect "rue" r with Some rest => Some (JBool true, rest) | None => None end
          else if is 102 a then match expect "alse" r with Some rest => Some (JBool false, rest) | None => None end
          else match scan_number s with Some (t, rest) => Some (JNum t, rest) | None => None end
      end
  end
with parse_elements (limit : N) (fuel : nat) (d : N) (s : string) {struct fuel} : option (list json * string) :=
  match fuel with
  | O => None
  | S fuel =>
      match parse_value limit fuel d s with
      | None => None
      | Some (j, r) =>
          match skip r with
          | "" => None
          | String a r' =>
              if is 93 a then Some ([j], r') else
              if is 44 a then
                match parse_elements limit fuel d (skip r') with
                | Some (l, rest) => Some (j :: l, rest)
                | None => None
                end
              else None
          end
      end
  end
with parse_members (limit : N) (fuel : nat) (d : N) (s : string) {struct fuel} : option (list (string * json) * string) :=
  match fuel with
  | O => None
  | S fuel =>
      match s with
      | "" => None
      | String q s1 =>
          if negb (is 34 q) then None else
          match scan_string s1 with
          | None => None
          | Some (k, s2) =>
              match skip s2 with
              | "" => None
              | String c s3 =>
                  if negb (is 58 c) then None else
                  match parse_value limit fuel d (skip s3) with
                  | None => None
                  | Some (j, r) =>
                      match skip r with
                      | "" => None
                      | String a r' =>
                          if is 125 a then Some ([(k, j)], r') else
                          if is 44 a then
                            match parse_members limit fuel d (skip r') with
                            | Some (ms, rest) => Some ((k, j) :: ms, rest)
                            | None => None
                            end
                          else None
                      end
                  end
              end
          end
      end
  end.

(** checkValid: one value with blanks around it and nothing else.  Every second
    call consumes a byte, so the fuel suffices. *)
Definition parse_text_to (limit : N) (s : string) : option json :=
  match parse_value limit (2 * String.length s + 2) 0 (skip s) with
  | Some (j, rest) => match skip rest with "" => Some j | _ => None end
  | None => None
  end.
Definition parse_text : string -> option json := parse_text_to max_depth.

(** ** Numbers as float64 (decode.go convertNumber): the first json.Unmarshal of
    ReadInto turns every number into a float64, and a number too large for one
    is an error.  strconv.ParseFloat is modelled by the value of the decimal: it
    is out of range when it rounds to 2^1024, that is from 2^1024 - 2^970 on.
    (ParseFloat stops reading an exponent after 10000, which makes a difference
    only for a mantissa of thousands of digits.) *)
Definition digits_N (s : string) : N := match read_N s with Some n => n | None => 0%N end.
Definition exp_Z (s : string) : Z :=
  match s with
  | String _ (String b r) =>
      if is 45 b then (- Z.of_N (digits_N r))%Z
      else if is 43 b then Z.of_N (digits_N r) else Z.of_N (digits_N (String b r))
  | _ => 0%Z
  end.
Definition float_limit : Z := (2 ^ 1024 - 2 ^ 970)%Z.
Definition float_ok (t : string) : bool :=
  match scan_int (snd (scan_sign t)) with
  | Some (i, s2) =>
      match scan_frac s2 with
      | Some (f, s3) =>
          let fd := match f with String _ r => r | "" => "" end in
          let m := Z.of_N (digits_N (i ++ fd)) in
          let e := (exp_Z s3 - Z.of_nat (String.length fd))%Z in
          if (0 <=? e)%Z then (m * 10 ^ e <? float_limit)%Z else (m <? float_limit * 10 ^ (- e))%Z
      | None => false
      end
  | None => false
  end.
Fixpoint floats_ok (j : json) : bool :=
  match j with
  | JNum t => float_ok t
  | JArr l => forallb floats_ok l
  | JObj ms => forallb (fun m => floats_ok (snd m)) ms
  | _ => true
  end.

(** ** Printing (indent.go appendIndent) *)
Fixpoint times (n : nat) (s : string) : string := match n with O => "" | S n => s ++ times n s end.
(** appendNewline with an empty prefix *)
Definition newline (ind : string) (d : nat) : string := LF ++ times d ind.
Fixpoint seps (sep : string) (l : list string) : string :=
  match l with [] => "" | [x] => x | x :: r => x ++ sep ++ seps sep r end.
Fixpoint pretty (ind : string) (d : nat) (j : json) : string :=
  match j with
  | JArr ((_ :: _) as l) =>
      "[" ++ newline ind (S d) ++ seps ("," ++ newline ind (S d)) (map (pretty ind (S d)) l)
          ++ newline ind d ++ "]"
  | JObj ((_ :: _) as ms) =>
      "{" ++ newline ind (S d)
          ++ seps ("," ++ newline ind (S d))
               (map (fun m => quoted (fst m) ++ ": " ++ pretty ind (S d) (snd m)) ms)
          ++ newline ind d ++ "}"
  | _ => text j
  end.

(** ** Write, json/writer.go 12-33.  [ind] is the argument of Indent ("" without
    that option), [escape_html] that of EscapeHTML (true without that option).
    Encoder.Encode ends the text with a newline. *)
Definition json_write (v : version) (escape_html : bool) (ind : string) (d : JDocument) : res string :=
  let* j := marshal_document v escape_html d in
  Ok ((match ind with "" => text j | _ => pretty ind 0 j end) ++ LF).

(** ** ReadInto, json/reader.go 29-83, up to the conversion at line 82 *)
Definition json_read_into (content : string) : res (version * JDocument) :=
  match parse_text content with
  | None => Err "invalid JSON"
  | Some j => if floats_ok j then read_value j else Err "number out of range"
  end.

(** A document as the JSON reader makes it, as a Go value: the elements of a
    slice of pointers may be nil (spdx/v2/v2_1/document.go 30-70, v2_2 34-74,
    v2_3 33-73, and likewise the packages and files in it). *)
Definition go_jfile : version -> JFile -> gval := go_file_of (go_ptr go_artifact).
Definition go_jpackage (v : version) : JPackage -> gval := go_package_of (go_ptr (go_jfile v)) (go_ptr go_external_ref) v.
Definition go_jdocument (v : version) : JDocument -> gval :=
  go_document_of (go_ptr (go_jpackage v)) (go_ptr (go_jfile v)) (go_ptr go_license) (go_ptr go_relationship) (go_ptr go_annotation) v.
(** Read and ReadInto, json/reader.go 20-83 ([Read] asks for 2.3) *)
Definition json_read (dz : bool) (to : version) (content : string) : res gval :=
  let* (from, d) := json_read_into content in
  convert_document dz from to (go_jdocument from d).
