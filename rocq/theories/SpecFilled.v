(** * Documents in which no part is empty. *)
From Verif Require Import GoStr Types.
Local Open Scope string_scope.
Local Open Scope list_scope.
Import ListNotations.

(** No part that may be empty is: the creation information, the other licenses,
    the external references, the projects files are taken from. *)
Definition nothing_empty (d : Document) : Prop :=
  d_CreationInfo d <> Some (MkCI "" [] "" "") /\
  ~ In (MkOL "" "" "" [] "") (d_OtherLicenses d) /\
  (forall p, In p (d_Packages d) -> ~ In (MkER "" "" "" "") (p_ExternalReferences p)) /\
  (forall f, (In f (d_Files d) \/ exists p, In p (d_Packages d) /\ In f (p_Files p)) -> ~ In (MkArtifact "" "" "") (f_Artifacts f)).
