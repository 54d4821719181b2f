(** * Specification: values that cannot disturb the tokenizer, and what is seen of them.

    A printed document is a list of items: a tag with a value on its own line, a
    tag with a value that goes into a text block if it has several lines, and
    literal text (comment headers and blank lines). *)
From Verif Require Import GoStr TvWriter SpecTv.

(** The value of an item has no newline and no opening mark; a value printed in
    a text block has no closing mark. *)
Definition harmless (c : chunk) : Prop :=
  match c with
  | Field _ x => ~ occurs LF x /\ ~ occurs "<text>" x
  | TextField _ x => if has_newline x then ~ occurs "</text>" x else ~ occurs "<text>" x
  | Raw _ => True
  end.

(** Every carriage return before a line feed is dropped. *)
Fixpoint crlf_to_lf (s : string) : string :=
  match s with
  | String a r =>
      match r with
      | String b _ => if Ascii.eqb a CR && Ascii.eqb b (byte 10) then crlf_to_lf r else String a (crlf_to_lf r)
      | "" => s
      end
  | "" => ""
  end.
(** A carriage return at the very end is dropped. *)
Definition chop_cr (s : string) : string := trim_suffix (String CR "") s.

(** What a reader is expected to see of an item: the tag, and the value without
    surrounding white space, or the text of the block. *)
Definition seen (c : chunk) : list (string * string) :=
  match c with
  | Field t x => [(t, trim_space (chop_cr x))]
  | TextField t x => [(t, if has_newline x then crlf_to_lf x else trim_space (chop_cr x))]
  | Raw _ => []
  end.
