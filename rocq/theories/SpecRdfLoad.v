(** * Specification of the RDF reader: which nodes a document is made of. *)
From Coq Require Import Permutation.
From Verif Require Import GoStr Types TvUtil RdfConst Rdf SpecTv SpecId SpecDoc SpecRdf SpecRdfDoc.

(** The document node and the snippet nodes are root nodes of the graph. *)
Definition document_node (g : graph) (d : node) : Prop := In d (g_roots g) /\ typed_node g d "SpdxDocument".
Definition snippet_node (g : graph) (n : node) : Prop :=
  exists root t, In root (g_roots g) /\
    filter (fun u => String.eqb (t_pred u) rdf_type) (about g (n_id root)) = [t] /\
    n_id (t_obj t) = spdx "Snippet" /\ t_subj t = n.

(** What a node is read as *)
Inductive role := RFile | RPackage | RRelationship | RLicense.

(** The nodes one comes to: from the document node and the snippets to packages,
    files, relationships and licenses, and on from those.  The other end of a
    relationship is followed if it is a file or a package. *)
Inductive reached (g : graph) : role -> node -> Prop :=
| rc_document_package d o : document_node g d -> In o (objects (spdx "describesPackage") (of_node g d)) -> reached g RPackage o
| rc_document_relationship d o : document_node g d -> In o (objects (spdx "relationship") (of_node g d)) -> reached g RRelationship o
| rc_document_license d o : document_node g d -> In o (objects (spdx "dataLicense") (of_node g d)) -> reached g RLicense o
| rc_snippet_file n o : snippet_node g n -> In o (objects (spdx "snippetFromFile") (of_node g n)) -> reached g RFile o
| rc_snippet_range n r p q o : snippet_node g n -> In r (objects (spdx "range") (of_node g n)) ->
    In q [ptr_term "startPointer"; ptr_term "endPointer"] -> In p (objects q (of_node g r)) ->
    In o (objects (ptr_term "reference") (of_node g p)) -> about g (n_id o) <> [] -> reached g RFile o
| rc_snippet_license n q o : snippet_node g n -> In q [spdx "licenseConcluded"; spdx "licenseInfoInSnippet"] ->
    In o (objects q (of_node g n)) -> reached g RLicense o
| rc_package_file n o : reached g RPackage n -> In o (objects (spdx "hasFile") (of_node g n)) -> reached g RFile o
| rc_package_relationship n o : reached g RPackage n -> In o (objects (spdx "relationship") (of_node g n)) -> reached g RRelationship o
| rc_package_license n q o : reached g RPackage n -> In q [spdx "licenseConcluded"; spdx "licenseDeclared"] ->
    In o (objects q (of_node g n)) -> reached g RLicense o
| rc_file_dependency n o : reached g RFile n -> In o (objects (spdx "fileDependency") (of_node g n)) -> reached g RFile o
| rc_file_relationship n o : reached g RFile n -> In o (objects (spdx "relationship") (of_node g n)) -> reached g RRelationship o
| rc_file_license n q o : reached g RFile n -> In q [spdx "licenseConcluded"; spdx "licenseInfoInFile"] ->
    In o (objects q (of_node g n)) -> reached g RLicense o
| rc_related_file n o : reached g RRelationship n -> In o (objects (spdx "relatedSpdxElement") (of_node g n)) ->
    typed_node g o "File" -> reached g RFile o
| rc_related_package n o : reached g RRelationship n -> In o (objects (spdx "relatedSpdxElement") (of_node g n)) ->
    typed_node g o "Package" -> reached g RPackage o
| rc_member n m : reached g RLicense n -> member_of g n m -> reached g RLicense m.

(** An ID is reached in two roles *)
Definition role_conflict (g : graph) : Prop :=
  exists r n r' n', reached g r n /\ reached g r' n' /\ n_id n = n_id n' /\ r <> r'.
(** A root node without a type *)
Definition untyped_root (g : graph) : Prop := exists root, In root (g_roots g) /\ texts rdf_type (of_node g root) = [].
(** The order in which a Go map is walked: any *)
Definition shuffle (iter : list (string * nat) -> list (string * nat)) : Prop := forall m, Permutation (iter m) m.

(** ** Graphs whose identifiers tell the elements apart *)
Record consistent (g : graph) : Prop := {
  cn_roles : ~ role_conflict g;
  cn_file : forall n m id, reached g RFile n -> reached g RFile m -> file_id n id -> file_id m id -> n = m;
  cn_package : forall n m id, reached g RPackage n -> reached g RPackage m -> package_id n id -> package_id m id -> n = m;
  cn_relationship : forall n m, reached g RRelationship n -> reached g RRelationship m -> n_id n = n_id m -> n = m;
  cn_document : forall n m, document_node g n -> document_node g m -> n_id n = n_id m -> n = m
}.
(** the statements of a node that was read several times *)
Fixpoint again (k : nat) (ts : list triple) : list triple :=
  match k with O => [] | S k => (again k ts ++ ts)%list end.
(** a statement of the document, a file or a package *)
Definition statement (g : graph) (p : string) (t : triple) : Prop :=
  In t (of_node g (t_subj t)) /\ t_pred t = p /\
  (document_node g (t_subj t) \/ reached g RFile (t_subj t) \/ reached g RPackage (t_subj t)).
