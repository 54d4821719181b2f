(** * JSON: the part of Go's encoding/json the project relies on.

    /repo/json/reader.go 29-83, json/writer.go 12-33, json/marshal/json.go 9-15
    and the struct tags of /repo/spdx/v2 hand every byte to encoding/json (Go
    1.23, see go.mod).  That package is not part of /repo; its documented
    behaviour is modelled here: string quoting, struct and slice encoding,
    omitempty, decoding into an existing value, case-insensitive member names,
    null handling.  Strings and numbers keep their source text, because the
    project's UnmarshalJSON methods look at the raw bytes.

    Simplifications: a method called on an array or object sees the compact text
    of it (white space inside it is lost); a slice member that occurs twice is
    decoded into the elements of the first time, but elements that were there
    before that are forgotten (encoding/json finds those that are left in the
    memory behind a slice that became shorter); the first error is returned
    (encoding/json may return a later one).  The text level, with the limit on
    the nesting depth, is in JsonText.v. *)
From Verif Require Import GoStr.
Local Open Scope string_scope.

(** A JSON value.  [JStr] and the member names of [JObj] hold the text between
    the quotes, [JNum] the text of the number. *)
Inductive json : Type :=
| JNull
| JBool (b : bool)
| JNum (text : string)
| JStr (raw : string)
| JArr (l : list json)
| JObj (ms : list (string * json)).

(** ** UTF-8 (unicode/utf8.DecodeRune) *)
Definition between (lo hi : N) (a : ascii) : bool := ((lo <=? code a) && (code a <=? hi))%N.
Definition cont (a : ascii) : bool := between 128 191 a.
Definition utf8_2 (a b : ascii) : bool := between 194 223 a && cont b.
Definition utf8_3 (a b c : ascii) : bool :=
  ((between 224 224 a && between 160 191 b)
   || (between 225 236 a && cont b)
   || (between 237 237 a && between 128 159 b)
   || (between 238 239 a && cont b)) && cont c.
Definition utf8_4 (a b c d : ascii) : bool :=
  ((between 240 240 a && between 144 191 b)
   || (between 241 243 a && cont b)
   || (between 244 244 a && between 128 143 b)) && cont c && cont d.
(** U+2028 and U+2029. *)
Definition line_sep (a b c : ascii) : bool :=
  between 226 226 a && between 128 128 b && between 168 169 c.

Definition ch (n : N) : ascii := ascii_of_N n.
Definition bslash : ascii := ch 92.
Definition hex_digit (n : N) : ascii := if (n <? 10)%N then ch (48 + n) else ch (87 + n).

(** ** Quoting (encoding/json appendString); [html] is Encoder.SetEscapeHTML. *)
Definition escape_byte (html : bool) (a : ascii) : string :=
  let n := code a in
  if (n =? 34)%N then "\""" else
  if (n =? 92)%N then "\\" else
  if (n =? 8)%N then "\b" else
  if (n =? 12)%N then "\f" else
  if (n =? 10)%N then "\n" else
  if (n =? 13)%N then "\r" else
  if (n =? 9)%N then "\t" else
  if (n <? 32)%N || html && ((n =? 60) || (n =? 62) || (n =? 38))%N
  then "\u00" ++ String (hex_digit (n / 16)) (String (hex_digit (n mod 16)) "")
  else String a "".

Fixpoint escape (html : bool) (s : string) : string :=
  match s with
  | "" => ""
  | String a s1 =>
      if (code a <? 128)%N then escape_byte html a ++ escape html s1 else
      let bad := "\ufffd" ++ escape html s1 in
      match s1 with
      | "" => bad
      | String b s2 =>
          if utf8_2 a b then String a (String b (escape html s2)) else
          match s2 with
          | "" => bad
          | String c s3 =>
              if utf8_3 a b c
              then if line_sep a b c
                   then "\u202" ++ String (hex_digit (code c mod 16)) (escape html s3)
                   else String a (String b (String c (escape html s3))) else
              match s3 with
              | "" => bad
              | String d s4 =>
                  if utf8_4 a b c d
                  then String a (String b (String c (String d (escape html s4))))
                  else bad
              end
          end
      end
  end.

(** ** Unquoting (encoding/json unquoteBytes, utf8.AppendRune) *)
Definition hex_val (a : ascii) : option N :=
  if between 48 57 a then Some (code a - 48)%N else
  if between 97 102 a then Some (code a - 87)%N else
  if between 65 70 a then Some (code a - 55)%N else None.
Definition hex4 (a b c d : ascii) : option N :=
  match hex_val a, hex_val b, hex_val c, hex_val d with
  | Some x, Some y, Some z, Some w => Some (x * 4096 + y * 256 + z * 16 + w)%N
  | _, _, _, _ => None
  end.
(** utf8.AppendRune for a code point that is not a surrogate. *)
Definition utf8 (n : N) : string :=
  (if n <? 128 then String (ch n) ""
   else if n <? 2048 then String (ch (192 + n / 64)) (String (ch (128 + n mod 64)) "")
   else if n <? 65536 then
     String (ch (224 + n / 4096)) (String (ch (128 + n / 64 mod 64)) (String (ch (128 + n mod 64)) ""))
   else String (ch (240 + n / 262144)) (String (ch (128 + n / 4096 mod 64))
          (String (ch (128 + n / 64 mod 64)) (String (ch (128 + n mod 64)) ""))))%N.
Definition rune_error : string := utf8 65533.
Definition surrogate (n : N) : bool := ((55296 <=? n) && (n <? 57344))%N.
(** unicode/utf16.DecodeRune *)
Definition surrogate_pair (n m : N) : option N :=
  if ((55296 <=? n) && (n <? 56320) && (56320 <=? m) && (m <? 57344))%N
  then Some ((n - 55296) * 1024 + (m - 56320) + 65536)%N else None.

Definition is (n : N) (a : ascii) : bool := (code a =? n)%N.

Fixpoint unescape (s : string) : option string :=
  let put x r := match r with Some t => Some (x ++ t) | None => None end in
  match s with
  | "" => Some ""
  | String a s1 =>
      if is 92 a then
        match s1 with
        | "" => None
        | String e s2 =>
            if is 34 e || is 92 e || is 47 e then put (String e "") (unescape s2)
            else if is 98 e then put (String (ch 8) "") (unescape s2)
            else if is 102 e then put (String (ch 12) "") (unescape s2)
            else if is 110 e then put (String (ch 10) "") (unescape s2)
            else if is 114 e then put (String (ch 13) "") (unescape s2)
            else if is 116 e then put (String (ch 9) "") (unescape s2)
            else if is 117 e then
              match s2 with
              | String h1 (String h2 (String h3 (String h4 s3))) =>
                  match hex4 h1 h2 h3 h4 with
                  | None => None
                  | Some n =>
                      if surrogate n then
                        match s3 with
                        | String x (String y (String g1 (String g2 (String g3 (String g4 s4))))) =>
                            if is 92 x && is 117 y then
                              match hex4 g1 g2 g3 g4 with
                              | Some m =>
                                  match surrogate_pair n m with
                                  | Some k => put (utf8 k) (unescape s4)
                                  | None => put rune_error (unescape s3)
                                  end
                              | None => put rune_error (unescape s3)
                              end
                            else put rune_error (unescape s3)
                        | _ => put rune_error (unescape s3)
                        end
                      else put (utf8 n) (unescape s3)
                  end
              | _ => None
              end
            else None
        end
      else if is 34 a || (code a <? 32)%N then None
      else if (code a <? 128)%N then put (String a "") (unescape s1)
      else
        let bad := put rune_error (unescape s1) in
        match s1 with
        | "" => bad
        | String b s2 =>
            if utf8_2 a b then put (String a (String b "")) (unescape s2) else
            match s2 with
            | "" => bad
            | String c s3 =>
                if utf8_3 a b c then put (String a (String b (String c ""))) (unescape s3) else
                match s3 with
                | "" => bad
                | String d s4 =>
                    if utf8_4 a b c d
                    then put (String a (String b (String c (String d "")))) (unescape s4)
                    else bad
                end
            end
        end
  end.

(** ** HTML escaping of finished text (encoding/json appendCompact): applied by
    an Encoder with SetEscapeHTML(true), the default, to what MarshalJSON
    methods return. *)
Fixpoint html_raw (s : string) : string :=
  match s with
  | "" => ""
  | String a r =>
      (if is 60 a || is 62 a || is 38 a
       then "\u00" ++ String (hex_digit (code a / 16)) (String (hex_digit (code a mod 16)) "")
       else String a "") ++ html_raw r
  end.
Fixpoint html (j : json) : json :=
  match j with
  | JStr r => JStr (html_raw r)
  | JArr l => JArr (map html l)
  | JObj ms => JObj (map (fun m => (html_raw (fst m), html (snd m))) ms)
  | _ => j
  end.

(** ** Text of a value (encoding/json compact form) *)
Definition quoted (raw : string) : string := String dquote (raw ++ String dquote "").
Fixpoint commas (l : list string) : string :=
  match l with [] => "" | [x] => x | x :: r => x ++ "," ++ commas r end.
Fixpoint text (j : json) : string :=
  match j with
  | JNull => "null"
  | JBool b => if b then "true" else "false"
  | JNum t => t
  | JStr r => quoted r
  | JArr l => "[" ++ commas (map text l) ++ "]"
  | JObj ms => "{" ++ commas (map (fun m => quoted (fst m) ++ ":" ++ text (snd m)) ms) ++ "}"
  end.

(** ** Typed encoding and decoding *)

(** What encoding/json does for a Go type: marshal, unmarshal into an existing
    value, and the emptiness test of omitempty. *)
Record codec (X : Type) := Codec {
  enc : X -> res json;
  dec : json -> X -> res X;
  is_empty : X -> bool
}.
Arguments Codec {X} enc dec is_empty.
Arguments enc {X} c.
Arguments dec {X} c.
Arguments is_empty {X} c.

(** string *)
Definition c_string : codec string :=
  Codec (fun s => Ok (JStr (escape false s)))
        (fun j old => match j with
                      | JStr r => match unescape r with Some s => Ok s | None => Err "string" end
                      | JNull => Ok old
                      | _ => Err "type"
                      end)
        (fun s => String.eqb s "").
(** bool *)
Definition c_bool : codec bool :=
  Codec (fun b => Ok (JBool b))
        (fun j old => match j with JBool b => Ok b | JNull => Ok old | _ => Err "type" end)
        negb.
(** int *)
Definition c_int : codec Z :=
  Codec (fun z => Ok (JNum (show_Z z)))
        (fun j old => match j with JNum t => atoi t | JNull => Ok old | _ => Err "type" end)
        (Z.eqb 0).

Fixpoint mapR {A B} (f : A -> res B) (l : list A) : res (list B) :=
  match l with
  | [] => Ok []
  | a :: r => let* b := f a in let* bs := mapR f r in Ok (b :: bs)
  end.

(** The elements of an array decoded into those of an old slice, as far as there
    are any (encoding/json decode.go, array). *)
Fixpoint dec_elements {X} (d : json -> X -> res X) (zero : X) (l : list json) (old : list X) : res (list X) :=
  match l with
  | [] => Ok []
  | j :: r =>
      let* x := d j (match old with o :: _ => o | [] => zero end) in
      let* xs := dec_elements d zero r (tl old) in
      Ok (x :: xs)
  end.
(** []T.  A nil slice is null; nil and empty slices are identified. *)
Definition c_slice {X} (c : codec X) (zero : X) : codec (list X) :=
  Codec (fun l => match l with
                  | [] => Ok JNull
                  | _ => let* js := mapR (enc c) l in Ok (JArr js)
                  end)
        (fun j old => match j with
                      | JArr l => dec_elements (dec c) zero l old
                      | JNull => Ok []
                      | _ => Err "type"
                      end)
        (fun l => match l with [] => true | _ => false end).
(** *T *)
Definition c_ptr {X} (c : codec X) (zero : X) : codec (option X) :=
  Codec (fun o => match o with None => Ok JNull | Some x => enc c x end)
        (fun j old => match j with
                      | JNull => Ok None
                      | _ => let* x := dec c j (match old with Some o => o | None => zero end) in
                             Ok (Some x)
                      end)
        (fun o => match o with None => true | Some _ => false end).

(** A struct field with its tag: the codec of its Go type, the omitempty flag,
    and how it is read from and stored in the struct. *)
Record field (A : Type) := Field {
  f_type : Type;
  f_name : string;
  f_omit : bool;
  f_codec : codec f_type;
  f_get : A -> f_type;
  f_set : f_type -> A -> A
}.
Arguments Field {A} f_type f_name f_omit f_codec f_get f_set.
Arguments f_type {A} f.
Arguments f_name {A} f.
Arguments f_omit {A} f.
Arguments f_codec {A} f.
Arguments f_get {A} f.
Arguments f_set {A} f.

(** `json:"name"` *)
Definition req {A X} (name : string) (c : codec X) (get : A -> X) (set : X -> A -> A) : field A :=
  Field X name false c get set.
(** `json:"name,omitempty"` *)
Definition opt {A X} (name : string) (c : codec X) (get : A -> X) (set : X -> A -> A) : field A :=
  Field X name true c get set.

Definition f_enc {A} (f : field A) (a : A) : res (option json) :=
  if f_omit f && is_empty (f_codec f) (f_get f a) then Ok None
  else let* j := enc (f_codec f) (f_get f a) in Ok (Some j).
Definition f_dec {A} (f : field A) (j : json) (a : A) : res A :=
  let* x := dec (f_codec f) j (f_get f a) in Ok (f_set f x a).

Fixpoint enc_fields {A} (fs : list (field A)) (a : A) : res (list (string * json)) :=
  match fs with
  | [] => Ok []
  | f :: r =>
      let* o := f_enc f a in
      let* ms := enc_fields r a in
      Ok (match o with Some j => (escape false (f_name f), j) :: ms | None => ms end)
  end.

(** Member names match exactly, else up to case (encoding/json foldName: ASCII
    case, U+017F is S and U+212A is K; other non-ASCII letters never fold to the
    ASCII names used as tags). *)
Fixpoint fold_name (s : string) : string :=
  match s with
  | "" => ""
  | String a s1 =>
      let plain := String (upper_byte a) (fold_name s1) in
      match s1 with
      | "" => plain
      | String b s2 =>
          if is 197 a && is 191 b then String "S" (fold_name s2) else
          match s2 with
          | "" => plain
          | String c s3 =>
              if is 226 a && is 132 b && is 170 c then String "K" (fold_name s3) else plain
          end
      end
  end.
Fixpoint find_exact {A} (fs : list (field A)) (k : string) : option (field A) :=
  match fs with
  | [] => None
  | f :: r => if String.eqb (f_name f) k then Some f else find_exact r k
  end.
Fixpoint find_folded {A} (fs : list (field A)) (k : string) : option (field A) :=
  match fs with
  | [] => None
  | f :: r => if String.eqb (fold_name (f_name f)) (fold_name k) then Some f else find_folded r k
  end.
Definition find_field {A} (fs : list (field A)) (k : string) : option (field A) :=
  match find_exact fs k with Some f => Some f | None => find_folded fs k end.

(** One object member; unknown members are skipped. *)
Definition dec_member {A} (fs : list (field A)) (m : string * json) (a : A) : res A :=
  match unescape (fst m) with
  | None => Err "string"
  | Some k => match find_field fs k with
              | Some f => f_dec f (snd m) a
              | None => Ok a
              end
  end.
Fixpoint dec_members {A} (fs : list (field A)) (ms : list (string * json)) (a : A) : res A :=
  match ms with
  | [] => Ok a
  | m :: r => let* a' := dec_member fs m a in dec_members fs r a'
  end.

(** A struct. *)
Definition c_struct {A} (fs : list (field A)) : codec A :=
  Codec (fun a => let* ms := enc_fields fs a in Ok (JObj ms))
        (fun j a => match j with
                    | JObj ms => dec_members fs ms a
                    | JNull => Ok a
                    | _ => Err "type"
                    end)
        (fun _ => false).

(** A type with MarshalJSON and UnmarshalJSON methods that produce and look at
    text.  [m x = Err] stands for an error or for output that is no JSON. *)
Definition c_text {X} (m : X -> res string) (u : string -> X -> res X) : codec X :=
  Codec (fun x => let* s := m x in Ok (JStr (escape false s)))
        (fun j x => u (text j) x)
        (fun _ => false).

(** json.Unmarshal into an interface{} followed by marshal.JSON: objects become
    maps (the last of equal names wins) and are written sorted by name.  Numbers
    pass through float64, which is not modelled. *)
Fixpoint put_sorted {V} (k : string) (v : V) (l : list (string * V)) : list (string * V) :=
  match l with
  | [] => [(k, v)]
  | (k', v') :: r =>
      if String.eqb k k' then (k, v) :: r
      else if str_ltb k k' then (k, v) :: l
      else (k', v') :: put_sorted k v r
  end.
Definition requote (raw : string) : string :=
  match unescape raw with Some s => s | None => "" end.
Fixpoint through_any (j : json) : json :=
  match j with
  | JStr r => JStr (escape false (requote r))
  | JArr l => JArr (map through_any l)
  | JObj ms =>
      JObj (map (fun m => (escape false (fst m), snd m))
              (fold_left (fun acc m => put_sorted (fst m) (snd m) acc)
                 (map (fun m => (requote (fst m), through_any (snd m))) ms) []))
  | _ => j
  end.
Definition delete_member (k : string) (j : json) : json :=
  match j with
  | JObj ms => JObj (filter (fun m => negb (String.eqb (requote (fst m)) k)) ms)
  | _ => j
  end.
