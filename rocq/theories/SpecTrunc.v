(** What is left of a document when the end of its text is missing. *)
From Verif Require Import GoStr Types TvUtil SpecRead.

(** [beginning R xs ys]: [xs] are the first elements of [ys], unchanged except
    that of the last one only [R] is known. *)
Inductive beginning {A : Type} (R : A -> A -> Prop) : list A -> list A -> Prop :=
| beginning_nil ys : beginning R [] ys
| beginning_last x y ys : R x y -> beginning R [x] (y :: ys)
| beginning_cons x xs ys : beginning R xs ys -> beginning R (x :: xs) (x :: ys).

Definition anything {A : Type} (x y : A) : Prop := True.

(** A file that has been cut off has only the first of its snippets; a package
    only the first of its files, and so on. *)
Definition file_cut (f g : File) : Prop := beginning anything (f_Snippets f) (f_Snippets g).
Definition package_cut (p q : Package) : Prop := beginning file_cut (p_Files p) (p_Files q).
Record document_cut (d e : Document) : Prop := {
  cut_edrs : beginning anything (d_ExternalDocumentReferences d) (d_ExternalDocumentReferences e);
  cut_packages : beginning package_cut (d_Packages d) (d_Packages e);
  cut_files : beginning file_cut (d_Files d) (d_Files e);
  cut_licenses : beginning anything (d_OtherLicenses d) (d_OtherLicenses e);
  cut_rels : beginning anything (d_Relationships d) (d_Relationships e);
  cut_anns : beginning anything (d_Annotations d) (d_Annotations e);
  cut_reviews : beginning anything (d_Reviews d) (d_Reviews e);
  cut_files_later : d_Packages d <> [] -> d_Files d = d_Files e
}.
