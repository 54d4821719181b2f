(** What can be passed as a document, for property C53. *)
From Verif Require Import GoStr Types Json Args.
Local Open Scope string_scope.

(** [a] is [n] pointers, each to the next, and the last to [x]; [a] is [x] for 0. *)
Inductive points (x : aval) : nat -> aval -> Prop :=
| points_here : points x 0 x
| points_next n t y : points x n y -> points x (S n) (PtrV t (Some y)).
(** pointers that end in nil, or no value at all *)
Definition dangling (a : option aval) : Prop :=
  match a with None => True | Some a => exists n t, points (PtrV t None) n a end.
(** pointers point to values of their type *)
Fixpoint typed (a : aval) : Prop :=
  match a with
  | PtrV t (Some y) => type_of y = t /\ typed y
  | AnyV (Some y) => typed y
  | _ => True
  end.
Definition is_pointer (a : aval) : Prop := exists t x, a = PtrV t x.

(** A character in UTF-8 *)
Definition character (c : string) : Prop :=
  match c with
  | String a "" => (code a < 128)%N
  | String a (String b "") => utf8_2 a b = true
  | String a (String b (String c "")) => utf8_3 a b c = true
  | String a (String b (String c (String d ""))) => utf8_4 a b c d = true
  | _ => False
  end.
Definition text_of (cs : list string) : string := String.concat "" cs.

(** What a value is called: the path of its package, a dot, a star for each pointer
    to it and the name of its type. *)
Fixpoint stars (n : nat) : string := match n with O => "" | S n => String "*" (stars n) end.
Definition called (x : aval) (path name : string) : Prop :=
  match x with
  | DocV TvUtil.V21 _ => path = "github.com/spdx/tools-golang/spdx/v2/v2_1" /\ name = "Document"
  | DocV TvUtil.V22 _ => path = "github.com/spdx/tools-golang/spdx/v2/v2_2" /\ name = "Document"
  | DocV TvUtil.V23 _ => path = "github.com/spdx/tools-golang/spdx/v2/v2_3" /\ name = "Document"
  | OtherV p n _ => path = p /\ name = n
  | _ => False
  end.
