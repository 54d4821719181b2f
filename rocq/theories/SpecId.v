(** * Specification of identifiers and one-line sub-formats. *)
From Verif Require Import GoStr Types TvUtil SpecTv.

(** The part of an identifier after its prefix: non-empty, no colon. *)
Definition id_ok (x : string) : Prop := x <> "" /\ ~ occurs ":" x.

(** An ordinary reference: an element of this document or of an external one. *)
Definition plain_ref (d : DocElementID) : Prop :=
  de_SpecialID d = "" /\ id_ok (de_ElementRefID d) /\
  (de_DocumentRefID d = "" \/ id_ok (de_DocumentRefID d)).
(** One of the special values. *)
Definition special_ref (permitted : list string) (d : DocElementID) : Prop :=
  de_DocumentRefID d = "" /\ de_ElementRefID d = "" /\ In (de_SpecialID d) permitted.

(** The text of a reference. *)
Definition ref_text (d : DocElementID) (s : string) : Prop :=
  (de_DocumentRefID d = "" /\ s = "SPDXRef-" ++ de_ElementRefID d) \/
  (de_DocumentRefID d <> "" /\ s = "DocumentRef-" ++ de_DocumentRefID d ++ ":SPDXRef-" ++ de_ElementRefID d).

(** Surrounding white space absent. *)
Definition trimmed (s : string) : Prop := trim_space s = s.
(** A word: non-empty, no blank inside, no surrounding white space. *)
Definition word (s : string) : Prop := s <> "" /\ ~ occurs " " s /\ trimmed s.
