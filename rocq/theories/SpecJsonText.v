(** * JSON text (RFC 8259): which bytes are a JSON text, for which value.

    Independent of the scanner and the printer of the model. *)
From Verif Require Import GoStr Types TvUtil Json.
Local Open Scope string_scope.

(** ** Bytes *)
Fixpoint bytes (s : string) : list N := match s with "" => [] | String a r => code a :: bytes r end.
(** White space of RFC 8259, section 2. *)
Definition blank (w : string) : Prop := Forall (fun n => In n [32; 9; 10; 13]%N) (bytes w).

(** ** Strings (RFC 8259, section 7) *)
Definition lower_hex : string := "0123456789abcdef".
Definition upper_hex : string := "0123456789ABCDEF".
Definition hexadecimal (a : ascii) (n : N) : Prop :=
  get (N.to_nat n) lower_hex = Some a \/ get (N.to_nat n) upper_hex = Some a.
(** Four hexadecimal digits. *)
Definition hexadecimal4 (h : string) (n : N) : Prop :=
  exists a b c d x y z w, h = String a (String b (String c (String d ""))) /\
    hexadecimal a x /\ hexadecimal b y /\ hexadecimal c z /\ hexadecimal d w /\
    n = (x * 4096 + y * 256 + z * 16 + w)%N.
(** The escape sequences of one letter and what they stand for. *)
Definition letter_escapes : list (string * N) :=
  [("""", 34); ("\", 92); ("/", 47); ("b", 8); ("f", 12); ("n", 10); ("r", 13); ("t", 9)]%N.
(** The text between the quotation marks of a string. *)
Inductive chars : string -> Prop :=
| chars_nil : chars ""
| chars_plain a s : (32 <= code a)%N -> ~ In (code a) [34; 92]%N -> chars s -> chars (String a s)
| chars_escape e n s : In (e, n) letter_escapes -> chars s -> chars ("\" ++ e ++ s)
| chars_hex h n s : hexadecimal4 h n -> chars s -> chars (String bslash ("u" ++ h ++ s)).

(** The UTF-8 encoding of a code point (Unicode 3.9, table 3-6); surrogates have none. *)
Definition byte (n : N) : ascii := ascii_of_N n.
Inductive encoding : N -> string -> Prop :=
| encoding_1 n : (n < 128)%N -> encoding n (String (byte n) "")
| encoding_2 n : (128 <= n < 2048)%N ->
    encoding n (String (byte (192 + n / 64)) (String (byte (128 + n mod 64)) ""))
| encoding_3 n : (2048 <= n < 65536)%N -> ~ (55296 <= n < 57344)%N ->
    encoding n (String (byte (224 + n / 4096)) (String (byte (128 + n / 64 mod 64)) (String (byte (128 + n mod 64)) "")))
| encoding_4 n : (65536 <= n < 1114112)%N ->
    encoding n (String (byte (240 + n / 262144)) (String (byte (128 + n / 4096 mod 64))
                 (String (byte (128 + n / 64 mod 64)) (String (byte (128 + n mod 64)) "")))).
Definition replacement : string := String (byte 239) (String (byte 191) (String (byte 189) "")).
(** A second \u escape that completes the surrogate pair begun by [n]. *)
Definition completes_pair (n : N) (s : string) (k : N) (rest : string) : Prop :=
  exists h m, s = String bslash ("u" ++ h ++ rest) /\ hexadecimal4 h m /\
    (55296 <= n < 56320)%N /\ (56320 <= m < 57344)%N /\ k = (65536 + (n - 55296) * 1024 + (m - 56320))%N.
(** [means r s]: the literal [r] stands for the text [s].  Bytes that are not UTF-8
    and surrogates without a partner stand for U+FFFD. *)
Inductive means : string -> string -> Prop :=
| means_nil : means "" ""
| means_char n w r s : encoding n w -> (32 <= n)%N -> ~ In n [34; 92]%N -> means r s -> means (w ++ r) (w ++ s)
| means_bad a r s : (128 <= code a)%N -> ~ (exists n w t, encoding n w /\ String a r = w ++ t) ->
    means r s -> means (String a r) (replacement ++ s)
| means_letter e n r s : In (e, n) letter_escapes -> means r s -> means ("\" ++ e ++ r) (String (byte n) s)
| means_hex h n w r s : hexadecimal4 h n -> encoding n w -> means r s ->
    means (String bslash ("u" ++ h ++ r)) (w ++ s)
| means_pair h n r k rest w s : hexadecimal4 h n -> completes_pair n r k rest -> encoding k w -> means rest s ->
    means (String bslash ("u" ++ h ++ r)) (w ++ s)
| means_lone h n r s : hexadecimal4 h n -> (55296 <= n < 57344)%N -> ~ (exists k rest, completes_pair n r k rest) ->
    means r s -> means (String bslash ("u" ++ h ++ r)) (replacement ++ s).

(** ** Numbers (RFC 8259, section 6) *)
Definition digit (a : ascii) (d : N) : Prop := code a = (48 + d)%N /\ (d < 10)%N.
(** A run of digits and the number it stands for. *)
Inductive decimal : string -> N -> Prop :=
| decimal_one a d : digit a d -> decimal (String a "") d
| decimal_more s n a d : decimal s n -> digit a d -> decimal (s ++ String a "") (10 * n + d).
Definition sign_part (s : string) : Prop := s = "" \/ s = "-".
Definition int_part (s : string) : Prop :=
  s = "0" \/ (exists n, decimal s n) /\ ~ (exists r, s = "0" ++ r).
Definition frac_part (s digits : string) : Prop :=
  (s = "" /\ digits = "") \/ (s = "." ++ digits /\ exists n, decimal digits n).
Definition exp_part (s : string) (k : Z) : Prop :=
  (s = "" /\ k = 0%Z) \/
  (exists e t n, In e ["e"; "E"] /\ decimal t n /\
     ((s = e ++ t /\ k = Z.of_N n) \/ (s = e ++ "+" ++ t /\ k = Z.of_N n) \/ (s = e ++ "-" ++ t /\ k = (- Z.of_N n)%Z))).
(** [number t m k]: the number [t] is, up to its sign, [m * 10 ^ k]. *)
Definition number (t : string) (m : N) (k : Z) : Prop :=
  exists sg i f fd x k', t = sg ++ i ++ f ++ x /\ sign_part sg /\ int_part i /\ frac_part f fd /\ exp_part x k' /\
    decimal (i ++ fd) m /\ k = (k' - Z.of_nat (String.length fd))%Z.
Definition is_number (t : string) : Prop := exists m k, number t m k.
(** The number does not round to more than the largest float64, (2^53 - 1) * 2^971. *)
Definition fits_float (t : string) : Prop :=
  exists m k a b, number t m k /\ (0 <= a)%Z /\ (0 <= b)%Z /\ k = (a - b)%Z /\
    (Z.of_N m * 10 ^ a < ((2 ^ 53 - 1) * 2 ^ 971 + 2 ^ 970) * 10 ^ b)%Z.
(** A 64-bit integer in decimal notation. *)
Definition integer (t : string) (z : Z) : Prop :=
  (exists s n, decimal s n /\
     ((t = s /\ z = Z.of_N n) \/ (t = "+" ++ s /\ z = Z.of_N n) \/ (t = "-" ++ s /\ z = (- Z.of_N n)%Z))) /\
  (- 2 ^ 63 <= z < 2 ^ 63)%Z.

(** ** Values (RFC 8259, sections 2 to 5) *)
Inductive value : json -> string -> Prop :=
| value_null : value JNull "null"
| value_true : value (JBool true) "true"
| value_false : value (JBool false) "false"
| value_number t : is_number t -> value (JNum t) t
| value_string r : chars r -> value (JStr r) (String dquote (r ++ String dquote ""))
| value_no_elements w : blank w -> value (JArr []) ("[" ++ w ++ "]")
| value_array l s : elements l s -> value (JArr l) ("[" ++ s ++ "]")
| value_no_members w : blank w -> value (JObj []) ("{" ++ w ++ "}")
| value_object ms s : members ms s -> value (JObj ms) ("{" ++ s ++ "}")
with elements : list json -> string -> Prop :=
| elements_one w j s w' : blank w -> value j s -> blank w' -> elements [j] (w ++ s ++ w')
| elements_more w j s w' l r : blank w -> value j s -> blank w' -> elements l r ->
    elements (j :: l) (w ++ s ++ w' ++ "," ++ r)
with members : list (string * json) -> string -> Prop :=
| members_one k j s : member k j s -> members [(k, j)] s
| members_more k j s ms r : member k j s -> members ms r -> members ((k, j) :: ms) (s ++ "," ++ r)
with member : string -> json -> string -> Prop :=
| member_of w1 k w2 w3 j t w4 : blank w1 -> chars k -> blank w2 -> blank w3 -> value j t -> blank w4 ->
    member k j (w1 ++ String dquote (k ++ String dquote "") ++ w2 ++ ":" ++ w3 ++ t ++ w4).
Definition json_text (j : json) (s : string) : Prop :=
  exists w t w', s = w ++ t ++ w' /\ blank w /\ value j t /\ blank w'.

(** How deep arrays and objects are nested. *)
Fixpoint nesting (j : json) : N :=
  match j with
  | JArr l => 1 + fold_right N.max 0%N (map nesting l)
  | JObj ms => 1 + fold_right N.max 0%N (map (fun m => nesting (snd m)) ms)
  | _ => 0
  end.
(** Every number in the value fits a float64. *)
Inductive all_fit : json -> Prop :=
| all_fit_null : all_fit JNull
| all_fit_bool b : all_fit (JBool b)
| all_fit_string r : all_fit (JStr r)
| all_fit_number t : fits_float t -> all_fit (JNum t)
| all_fit_array l : Forall all_fit l -> all_fit (JArr l)
| all_fit_object ms : Forall (fun m => all_fit (snd m)) ms -> all_fit (JObj ms).

(** ** Member names (encoding/json): letters match in either case, and so do
    U+017F and S, U+212A and K. *)
Definition same_letter (a b : ascii) : Prop :=
  a = b \/ (65 <= code a <= 90 /\ code b = code a + 32)%N \/ (65 <= code b <= 90 /\ code a = code b + 32)%N.
Definition long_s : string := String (byte 197) (String (byte 191) "").
Definition kelvin : string := String (byte 226) (String (byte 132) (String (byte 170) "")).
Inductive same_name : string -> string -> Prop :=
| same_name_nil : same_name "" ""
| same_name_letter a b s t : same_letter a b -> same_name s t -> same_name (String a s) (String b t)
| same_name_s a s t : In a ["s"; "S"]%char -> same_name s t -> same_name (String a s) (long_s ++ t)
| same_name_k a s t : In a ["k"; "K"]%char -> same_name s t -> same_name (String a s) (kelvin ++ t).

(** ** Indented text: lines, each indented by its depth and ended by a newline.
    [rows d lead j tail] are the lines of the value [j] at depth [d], after [lead]
    on its first line and before [tail] on its last. *)
Fixpoint copies (n : nat) (s : string) : string := match n with O => "" | S n => s ++ copies n s end.
Fixpoint rows (d : nat) (lead : string) (j : json) (tail : string) : list (nat * string) :=
  match j with
  | JArr ((_ :: _) as l) =>
      (d, lead ++ "[")
      :: ((fix items (l : list json) :=
             match l with
             | [] => []
             | [x] => rows (S d) "" x ""
             | x :: r => rows (S d) "" x "," ++ items r
             end) l ++ [(d, ("]" ++ tail)%string)])%list
  | JObj ((_ :: _) as ms) =>
      (d, lead ++ "{")
      :: ((fix items (l : list (string * json)) :=
             match l with
             | [] => []
             | [(k, x)] => rows (S d) (String dquote (k ++ String dquote ": ")) x ""
             | (k, x) :: r => rows (S d) (String dquote (k ++ String dquote ": ")) x "," ++ items r
             end) ms ++ [(d, ("}" ++ tail)%string)])%list
  | _ => [(d, lead ++ text j ++ tail)]
  end.
Fixpoint page (ind : string) (l : list (nat * string)) : string :=
  match l with [] => "" | (d, s) :: r => copies d ind ++ s ++ LF ++ page ind r end.
