(** * Specification of the tag-value token grammar, independent of the reader.

    A file is a list of lines.  Outside a text block a line is skipped if its
    first non-blank byte is [#] or if it is blank; otherwise it must contain a
    colon, and it is either a complete item or opens a text block that runs to
    the first closing mark. *)
From Verif Require Import GoStr.

(** [s] occurs in [t] *)
Definition occurs (s t : string) : Prop := exists x y, t = x ++ s ++ y.

(** [x] is the part of [t] before the first occurrence of [s], [y] the part after it *)
Definition first_cut (s t x y : string) : Prop :=
  t = x ++ s ++ y /\ forall x' y', t = x' ++ s ++ y' -> String.length x <= String.length x'.

(** blank or comment *)
Definition skippable (line : string) : Prop :=
  trim_left line = "" \/ exists r, trim_left line = "#" ++ r.

(** the part of a significant line before the first colon (without surrounding
    white space) and the part after it *)
Definition item (line tag rest : string) : Prop :=
  ~ skippable line /\ exists t, first_cut ":" (trim_left line) t rest /\ tag = trim_space t.

Inductive tokens : list string -> list (string * string) -> Prop :=
| tk_nil : tokens [] []
| tk_skip l ls ps :
    skippable l -> tokens ls ps -> tokens (l :: ls) ps
| tk_plain l tag rest ls ps :              (* Tag: value *)
    item l tag rest -> ~ occurs "<text>" rest ->
    tokens ls ps -> tokens (l :: ls) ((tag, trim_space rest) :: ps)
| tk_text l tag rest before after v junk ls ps :   (* Tag: <text>value</text> on one line *)
    item l tag rest -> first_cut "<text>" rest before after -> first_cut "</text>" after v junk ->
    tokens ls ps -> tokens (l :: ls) ((tag, v) :: ps)
| tk_block l tag rest before v0 mid last v1 junk ls ps :  (* a block over several lines *)
    item l tag rest -> first_cut "<text>" rest before v0 -> ~ occurs "</text>" v0 ->
    Forall (fun m => ~ occurs "</text>" m) mid ->
    first_cut "</text>" last v1 junk ->
    tokens ls ps ->
    tokens (l :: mid ++ last :: ls) ((tag, String.concat LF (v0 :: mid ++ [v1])) :: ps).

(** The lines of a byte stream: separated by line feeds, one carriage return
    before a line feed dropped, no empty line after the last line feed. *)
Fixpoint strip_last_empty (l : list string) : list string :=
  match l with
  | [] => []
  | [x] => if String.eqb x "" then [] else [x]
  | x :: r => x :: strip_last_empty r
  end.
Definition stream_lines (s : string) : list string := strip_last_empty (split_on (byte 10) s).

(** The scanner's limit on the length of a line. *)
Definition short (line : string) : Prop := (N.of_nat (String.length line) < 65536)%N.

(** ** Printing of pairs: the text a writer produces for one item *)
Definition has_newline (v : string) : bool := contains LF v.
Definition print_pair (p : string * string) : string :=
  fst p ++ ": " ++ (if has_newline (snd p) then "<text>" ++ snd p ++ "</text>" else snd p) ++ LF.
Definition print_pairs (l : list (string * string)) : string := String.concat "" (map print_pair l).

(** Tags that can be printed: no colon, no newline, no surrounding white space,
    not a comment mark in front. *)
Definition good_tag (t : string) : Prop :=
  trim_space t = t /\ contains ":" t = false /\ contains LF t = false /\ has_prefix "#" t = false.
(** A one-line value must have no surrounding white space and no opening mark;
    a multi-line value no closing mark and no carriage return before a newline. *)
Definition good_line_value (v : string) : Prop :=
  contains LF v = false /\ trim_space v = v /\ contains "<text>" v = false.
Definition good_text_value (v : string) : Prop :=
  if has_newline v
  then contains "</text>" v = false /\ contains (String CR LF) v = false
  else trim_space v = v /\ contains "<text>" v = false.

(** A text made of complete lines: empty or ending with a line feed. *)
Definition complete_lines (a : string) : Prop := a = "" \/ exists a', a = a' ++ LF.
(** A line: no line feed inside. *)
Definition one_line (l : string) : Prop := contains LF l = false.
