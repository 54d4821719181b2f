(** What the pieces of a stream amount to, for the properties about reading
    piece by piece. *)
From Verif Require Import GoStr Stream.

(** all bytes that arrive before the stream ends *)
Fixpoint content (s : stream) : string :=
  match s with
  | Give c next => c ++ content next
  | Stop c _ => c
  end.

(** how it ends *)
Fixpoint ends (s : stream) : fate :=
  match s with
  | Give _ next => ends next
  | Stop _ f => f
  end.

(** [patient n s]: nowhere are there more than 100 calls in succession that
    deliver nothing; at the beginning not more than [n] *)
Fixpoint patient (n : nat) (s : stream) : Prop :=
  match s with
  | Give c next =>
      match c, n with
      | "", O => False
      | "", S n => patient n next
      | _, _ => patient 100 next
      end
  | Stop _ _ => True
  end.
Definition lively (s : stream) : Prop := patient 100 s.

(** The text does not end in a line of exactly 65536 bytes without a newline. *)
Definition no_full_last_line (text : string) : Prop :=
  forall before line, (text = line \/ text = before ++ LF ++ line) ->
  (forall a b, line <> a ++ LF ++ b) -> N.of_nat (String.length line) <> 65536%N.
