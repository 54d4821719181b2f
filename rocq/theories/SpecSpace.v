(** * White space, in terms of Unicode characters rather than of bytes. *)
From Verif Require Import GoStr.

(** the UTF-8 form of a character below U+10000 *)
Definition utf8_form (n : N) : string :=
  (if n <? 128 then String (ascii_of_N n) ""
   else if n <? 2048 then String (ascii_of_N (192 + n / 64)) (String (ascii_of_N (128 + n mod 64)) "")
   else String (ascii_of_N (224 + n / 4096))
          (String (ascii_of_N (128 + (n / 64) mod 64)) (String (ascii_of_N (128 + n mod 64)) "")))%N.

(** The characters with Unicode's White_Space property: tab, line feed, vertical
    tab, form feed, carriage return, space, next line, no-break space, ogham
    space, en quad to hair space, line and paragraph separator, narrow no-break
    space, medium mathematical space, ideographic space. *)
Definition white_space : list N :=
  [9; 10; 11; 12; 13; 32; 133; 160; 5760; 8192; 8193; 8194; 8195; 8196; 8197; 8198; 8199; 8200; 8201; 8202;
   8232; 8233; 8239; 8287; 12288]%N.

Definition blank (w : string) : Prop := exists n, In n white_space /\ w = utf8_form n.

Inductive blanks : string -> Prop :=
| bl_nil : blanks ""
| bl_more w r : blank w -> blanks r -> blanks (w ++ r).

(** [t] is [s] without the white space at its two ends *)
Definition stripped (s t : string) : Prop :=
  exists p q, s = p ++ t ++ q /\ blanks p /\ blanks q /\
    (forall w r, blank w -> t <> w ++ r) /\ (forall r w, blank w -> t <> r ++ w).
