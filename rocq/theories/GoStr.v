(** * Go byte strings and the parts of package [strings] the code uses.

    A Go [string] is a Coq [string], i.e. a sequence of bytes.  The functions
    below model Go standard library functions (trusted reading of the Go
    documentation and source, Go 1.x); the places of /repo that call them are
    cited at the call sites. *)

From Coq Require Export Ascii String Bool List Arith NArith ZArith Lia.
Export ListNotations.
Open Scope string_scope.

(** Result of a Go function returning [(T, error)].  [Panic] stands for a run
    time panic (nil dereference, failed type assertion, index out of range).
    Error values carry a fixed label: the formatted message is not modelled. *)
Inductive res (A : Type) : Type :=
| Ok (a : A)
| Err (label : string)
| Panic.
Arguments Ok {A} a.
Arguments Err {A} label.
Arguments Panic {A}.

Definition bindR {A B} (r : res A) (f : A -> res B) : res B :=
  match r with Ok a => f a | Err m => Err m | Panic => Panic end.
Notation "'let*' x ':=' r 'in' k" := (bindR r (fun x => k))
  (at level 200, x pattern, r at level 100, k at level 200, right associativity).

(** A byte given by its number. *)
Definition byte (n : nat) : ascii := ascii_of_nat n.
Definition LF : string := String (byte 10) "".
Definition CR : ascii := byte 13.
Definition dquote : ascii := byte 34.

(** Go [switch tag { case t1: ...; default: ... }] on string constants. *)
Fixpoint switch {A} (tag : string) (cases : list (string * A)) (dflt : A) : A :=
  match cases with
  | [] => dflt
  | (t, a) :: rest => if String.eqb tag t then a else switch tag rest dflt
  end.

(** [strip_prefix p s] is [Some rest] when [s = p ++ rest]. *)
Fixpoint strip_prefix (p s : string) : option string :=
  match p, s with
  | "", _ => Some s
  | String a p', String b s' => if Ascii.eqb a b then strip_prefix p' s' else None
  | String _ _, "" => None
  end.

(** strings.HasPrefix *)
Definition has_prefix (p s : string) : bool :=
  match strip_prefix p s with Some _ => true | None => false end.

(** strings.TrimPrefix *)
Definition trim_prefix (p s : string) : string :=
  match strip_prefix p s with Some r => r | None => s end.

Fixpoint srev_app (s acc : string) : string :=
  match s with "" => acc | String a s' => srev_app s' (String a acc) end.
(** Byte reversal. *)
Definition srev (s : string) : string := srev_app s "".

(** strings.HasSuffix, strings.TrimSuffix *)
Definition has_suffix (p s : string) : bool := has_prefix (srev p) (srev s).
Definition trim_suffix (p s : string) : string :=
  if has_suffix p s then srev (trim_prefix (srev p) (srev s)) else s.

(** First occurrence of [sep]: strings.SplitN(s, sep, 2) has two parts exactly
    when the result is [Some]. *)
Fixpoint cut (sep s : string) : option (string * string) :=
  match strip_prefix sep s with
  | Some rest => Some ("", rest)
  | None =>
      match s with
      | "" => None
      | String a s' =>
          match cut sep s' with
          | Some (x, y) => Some (String a x, y)
          | None => None
          end
      end
  end.

(** strings.Contains *)
Definition contains (sub s : string) : bool :=
  match cut sub s with Some _ => true | None => false end.

(** strings.Split(s, c) for a one-byte separator; never empty. *)
Fixpoint split_on (c : ascii) (s : string) : list string :=
  match s with
  | "" => [""]
  | String a s' =>
      if Ascii.eqb a c then "" :: split_on c s'
      else match split_on c s' with
           | h :: t => String a h :: t
           | [] => [String a ""]
           end
  end.

(** strings.Join *)
Definition join (sep : string) (l : list string) : string := String.concat sep l.

(** ** White space: unicode.IsSpace on UTF-8 bytes.
    One byte: 09 0A 0B 0C 0D 20.  Two bytes: C2 85, C2 A0.  Three bytes:
    E1 9A 80, E2 80 80..8A, E2 80 A8, E2 80 A9, E2 80 AF, E2 81 9F, E3 80 80. *)
Definition code (c : ascii) : N := N_of_ascii c.
Definition is_space1 (a : ascii) : bool :=
  let n := code a in ((9 <=? n) && (n <=? 13) || (n =? 32))%N.
Definition is_space2 (a b : ascii) : bool :=
  ((code a =? 194) && ((code b =? 133) || (code b =? 160)))%N.
Definition is_space3 (a b c : ascii) : bool :=
  let x := code a in let y := code b in let z := code c in
  ((x =? 225) && (y =? 154) && (z =? 128)
   || (x =? 226) && (y =? 128) &&
      ((128 <=? z) && (z <=? 138) || (z =? 168) || (z =? 169) || (z =? 175))
   || (x =? 226) && (y =? 129) && (z =? 159)
   || (x =? 227) && (y =? 128) && (z =? 128))%N.

Section Trim.
  Variable sp2 : ascii -> ascii -> bool.
  Variable sp3 : ascii -> ascii -> ascii -> bool.
  (** Strip leading white-space runes. *)
  Fixpoint trim_gen (s : string) : string :=
    match s with
    | "" => ""
    | String a s1 =>
        if is_space1 a then trim_gen s1
        else match s1 with
             | "" => s
             | String b s2 =>
                 if sp2 a b then trim_gen s2
                 else match s2 with
                      | "" => s
                      | String c s3 => if sp3 a b c then trim_gen s3 else s
                      end
             end
    end.
End Trim.

(** strings.TrimLeftFunc(s, unicode.IsSpace); a byte sequence that is not valid
    UTF-8 decodes to RuneError, which is not a space. *)
Definition trim_left (s : string) : string := trim_gen is_space2 is_space3 s.
(** strings.TrimRightFunc(s, unicode.IsSpace): decode the last rune repeatedly. *)
Definition trim_right (s : string) : string :=
  srev (trim_gen (fun b a => is_space2 a b) (fun c b a => is_space3 a b c) (srev s)).
(** strings.TrimSpace *)
Definition trim_space (s : string) : string := trim_right (trim_left s).

(** strings.Trim(s, cutset) for a one-byte cutset. *)
Fixpoint trim_left_byte (c : ascii) (s : string) : string :=
  match s with
  | "" => ""
  | String a s' => if Ascii.eqb a c then trim_left_byte c s' else s
  end.
Definition trim_byte (c : ascii) (s : string) : string :=
  srev (trim_left_byte c (srev (trim_left_byte c s))).

(** strings.ReplaceAll for one-byte old and new. *)
Fixpoint replace_byte (a b : ascii) (s : string) : string :=
  match s with
  | "" => ""
  | String x s' => String (if Ascii.eqb x a then b else x) (replace_byte a b s')
  end.

(** strings.ReplaceAll(s, old, "") for a one-byte old. *)
Fixpoint remove_byte (a : ascii) (s : string) : string :=
  match s with
  | "" => ""
  | String x s' => if Ascii.eqb x a then remove_byte a s' else String x (remove_byte a s')
  end.

Definition nonempty (s : string) : bool := negb (String.eqb s "").

(** ** Integers: fmt %d and strconv.Atoi *)
Fixpoint digits_aux (fuel : nat) (n : N) (acc : string) : string :=
  match fuel with
  | O => acc
  | S fuel' =>
      let d := String (ascii_of_N (48 + n mod 10)) acc in
      if (n <? 10)%N then d else digits_aux fuel' (n / 10)%N d
  end.
(** Decimal digits of a natural number (fuel: its bit length plus one). *)
Definition show_N (n : N) : string := digits_aux (S (N.to_nat (N.size n))) n "".
(** fmt.Sprintf("%d", z) *)
Definition show_Z (z : Z) : string :=
  if (z <? 0)%Z then "-" ++ show_N (Z.abs_N z) else show_N (Z.abs_N z).

Fixpoint read_digits (s : string) (acc : N) : option N :=
  match s with
  | "" => Some acc
  | String a s' =>
      let n := code a in
      if ((48 <=? n) && (n <=? 57))%N then read_digits s' (acc * 10 + (n - 48))%N
      else None
  end.
Definition read_N (s : string) : option N :=
  match s with "" => None | _ => read_digits s 0%N end.
Definition int_min : Z := (- 9223372036854775808)%Z.
Definition int_max : Z := 9223372036854775807%Z.
Definition in_int (z : Z) : bool := ((int_min <=? z) && (z <=? int_max))%Z.
(** strconv.Atoi on a 64-bit platform: optional sign, at least one decimal
    digit, no underscores (base 10 is explicit), range error outside int64. *)
Definition atoi (s : string) : res Z :=
  let '(neg, body) :=
    match s with
    | String a s' =>
        if Ascii.eqb a "-" then (true, s')
        else if Ascii.eqb a "+" then (false, s') else (false, s)
    | "" => (false, s)
    end in
  match read_N body with
  | None => Err "strconv.Atoi: invalid syntax"
  | Some n =>
      let z := if neg then (- Z.of_N n)%Z else Z.of_N n in
      if in_int z then Ok z else Err "strconv.Atoi: value out of range"
  end.

(** ** Case mapping (strings.ToLower, strings.ToUpper).
    ASCII letters are mapped.  For bytes outside ASCII the model handles the
    code points whose image is ASCII (lower: U+0130, U+212A; upper: U+0131,
    U+017F) and leaves other non-ASCII bytes unchanged; the code only compares
    the result with ASCII constants, for which this is exact. *)
Definition lower_byte (a : ascii) : ascii :=
  let n := code a in if ((65 <=? n) && (n <=? 90))%N then ascii_of_N (n + 32) else a.
Definition upper_byte (a : ascii) : ascii :=
  let n := code a in if ((97 <=? n) && (n <=? 122))%N then ascii_of_N (n - 32) else a.
Fixpoint to_lower (s : string) : string :=
  match s with
  | "" => ""
  | String a s1 =>
      match s1 with
      | String b s2 =>
          if ((code a =? 196) && (code b =? 176))%N then String "i" (to_lower s2)
          else match s2 with
               | String c s3 =>
                   if ((code a =? 226) && (code b =? 132) && (code c =? 170))%N
                   then String "k" (to_lower s3)
                   else String (lower_byte a) (to_lower s1)
               | "" => String (lower_byte a) (to_lower s1)
               end
      | "" => String (lower_byte a) (to_lower s1)
      end
  end.
Fixpoint to_upper (s : string) : string :=
  match s with
  | "" => ""
  | String a s1 =>
      match s1 with
      | String b s2 =>
          if ((code a =? 196) && (code b =? 177))%N then String "I" (to_upper s2)
          else if ((code a =? 197) && (code b =? 191))%N then String "S" (to_upper s2)
          else String (upper_byte a) (to_upper s1)
      | "" => String (upper_byte a) (to_upper s1)
      end
  end.

(** Byte-wise string comparison: Go's [<] on strings. *)
Fixpoint str_ltb (s t : string) : bool :=
  match s, t with
  | _, "" => false
  | "", String _ _ => true
  | String a s', String b t' =>
      if Ascii.eqb a b then str_ltb s' t' else (code a <? code b)%N
  end.
Definition str_leb (s t : string) : bool := negb (str_ltb t s).
