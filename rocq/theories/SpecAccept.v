(** * Which lists of (tag, value) pairs form an SPDX document.

    The order of the sections, the form of the values, the entries that must
    come before others and the identifiers that must be present. *)
From Verif Require Import GoStr Types TvUtil SpecTv SpecId SpecDoc SpecRead.
From Verif Require SpecTags.
Import SpecTags.

(** ** Order of sections *)
Inductive section := Header | Creation | PackageSec | FileSec | SnippetSec | LicenseSec | ReviewSec.

(** The tags allowed in a section, by the section they lead to. *)
Definition moves (v : version) (sec : section) : list (list string * section) :=
  let package := (["PackageName"], PackageSec) in
  let file := (["FileName"], FileSec) in
  let license := (["LicenseID"], LicenseSec) in
  let review := (["Reviewer"], ReviewSec) in
  match sec with
  | Header =>
      [(header_tags, Header); ((creation_tags ++ SpecTags.relation_tags)%list, Creation); package; file; license; review]
  | Creation =>
      [((creation_tags ++ SpecTags.relation_tags)%list, Creation);
       ("ExternalDocumentRef" :: match v with V21 => [] | _ => ["DocumentComment"] end, Header);
       package; file; license; review]
  | PackageSec => [((package_tags v ++ SpecTags.relation_tags)%list, PackageSec); file; license; review]
  | FileSec =>
      [((file_tags v ++ SpecTags.relation_tags)%list, FileSec); package; (["SnippetSPDXID"], SnippetSec); license; review]
  | SnippetSec => [((snippet_tags v ++ SpecTags.relation_tags)%list, SnippetSec); package; file; license; review]
  | LicenseSec => [((license_tags ++ SpecTags.relation_tags)%list, LicenseSec); review]
  | ReviewSec => [((review_tags ++ SpecTags.relation_tags)%list, ReviewSec)]
  end.
Definition leads (v : version) (sec : section) (t : string) (sec' : section) : Prop :=
  exists ts, In (ts, sec') (moves v sec) /\ In t ts.
(** The tags lead from section to section. *)
Inductive ordered (v : version) : section -> list string -> Prop :=
| or_end sec : ordered v sec []
| or_tag sec t sec' r : leads v sec t sec' -> ordered v sec' r -> ordered v sec (t :: r).

(** ** Form of the values *)
Definition readable (v : version) (t x : string) : Prop :=
  (In t ["SPDXID"; "SnippetSPDXID"] -> exists id, x = "SPDXRef-" ++ id /\ id_ok id) /\
  (In t ["SPDXREF"; "SnippetFromFileSPDXID"] -> exists d, plain_ref d /\ ref_text d x) /\
  (In t ["Creator"; "Annotator"; "Reviewer"] -> exists k n, actor_text actor3 x k n) /\
  (In t ["PackageSupplier"; "PackageOriginator"] -> x = "NOASSERTION" \/ exists k n, actor_text actor2 x k n) /\
  (In t ["PackageChecksum"; "FileChecksum"] -> exists c, checksum_text v x c) /\
  (In t ["SnippetByteRange"; "SnippetLineRange"] -> exists a b, range_text x a b) /\
  (In t ["Relationship"] -> exists r, relationship_text v x r) /\
  (In t ["ExternalDocumentRef"] -> exists e, edr_text x e) /\
  (In t ["ExternalRef"] -> exists c k l, words x = [c; k; l]).

(** ** What must come before *)
Definition artifact_fields : list string := ["ArtifactOfProjectHomePage"; "ArtifactOfProjectURI"].
Definition in_context (h : pairs) (t : string) : Prop :=
  (In t ["RelationshipComment"] -> In "Relationship" (map fst h)) /\
  (In t ["AnnotationDate"; "AnnotationType"; "SPDXREF"; "AnnotationComment"] -> In "Annotator" (map fst h)) /\
  (In t ["ExternalRefComment"] -> exists h' x, h = (h' ++ [("ExternalRef", x)])%list) /\
  (In t artifact_fields ->
     exists h1 x h2, h = (h1 ++ ("ArtifactOfProjectName", x) :: h2)%list /\
                     Forall (fun p => In (fst p) artifact_fields) h2).

(** ** Identifiers *)
Definition every_file (l : pairs) : list (string * pairs) :=
  (parts_of "FileName" (head_of "PackageName" l)
   ++ concat (map (fun g => parts_of "FileName" (snd g)) (parts_of "PackageName" l)))%list.
(** an identifier before the first file of the package *)
Definition package_identified (g : string * pairs) : Prop := values "SPDXID" (head_of "FileName" (snd g)) <> [].
(** an identifier before the first snippet of the file *)
Definition file_identified (g : string * pairs) : Prop := values "SPDXID" (head_of "SnippetSPDXID" (snd g)) <> [].

Record acceptable (v : version) (l : pairs) : Prop := {
  ac_order : ordered v Header (map fst l);
  ac_values : Forall (fun p => readable v (fst p) (snd p)) l;
  ac_context : forall h t x r, l = (h ++ (t, x) :: r)%list -> in_context h t;
  ac_packages : Forall package_identified (parts_of "PackageName" l);
  ac_files : Forall file_identified (every_file l)
}.
