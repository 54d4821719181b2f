(** * Specification of the RDF reader: the ways in which one comes to a node. *)
From Verif Require Import GoStr Types TvUtil RdfConst Rdf SpecTv SpecId SpecDoc SpecRdf SpecRdfDoc SpecRdfLoad SpecRdfContent.

(** What one is at *)
Inductive stage := AtDocument | AtSnippet | AtRange | AtPointer | AtFile | AtPackage | AtRelationship | AtAnnotation.

(** The statements that lead on from there, and to what *)
Inductive follows (g : graph) : stage -> triple -> stage -> Prop :=
| fo_describes t : t_pred t = spdx "describesPackage" -> follows g AtDocument t AtPackage
| fo_from t : t_pred t = spdx "snippetFromFile" -> follows g AtSnippet t AtFile
| fo_range t : t_pred t = spdx "range" -> follows g AtSnippet t AtRange
| fo_pointer t : In (t_pred t) [ptr_term "startPointer"; ptr_term "endPointer"] -> follows g AtRange t AtPointer
| fo_reference t : t_pred t = ptr_term "reference" -> about g (n_id (t_obj t)) <> [] -> follows g AtPointer t AtFile
| fo_dependency t : t_pred t = spdx "fileDependency" -> follows g AtFile t AtFile
| fo_has_file t : t_pred t = spdx "hasFile" -> follows g AtPackage t AtFile
| fo_relationship st t : In st [AtDocument; AtFile; AtPackage] -> t_pred t = spdx "relationship" -> follows g st t AtRelationship
| fo_annotation st t : In st [AtDocument; AtFile; AtPackage] -> t_pred t = spdx "annotation" -> follows g st t AtAnnotation
| fo_related_file t : t_pred t = spdx "relatedSpdxElement" -> typed_node g (t_obj t) "File" -> follows g AtRelationship t AtFile
| fo_related_package t : t_pred t = spdx "relatedSpdxElement" -> typed_node g (t_obj t) "Package" -> follows g AtRelationship t AtPackage.

(** A way: the statements followed from the document node or from a snippet, the
    last one first, to the node [n].  It enters no file, package or relationship
    twice; [open] are the IDs of those it has entered. *)
Inductive way (g : graph) : list triple -> list string -> stage -> node -> Prop :=
| way_document d : document_node g d -> way g [] [] AtDocument d
| way_snippet n : snippet_node g n -> way g [] [] AtSnippet n
| way_pass p open st n t st' : way g p open st n -> In t (of_node g n) -> follows g st t st' ->
    In st' [AtRange; AtPointer; AtAnnotation] -> way g (t :: p) open st' (t_obj t)
| way_enter p open st n t st' : way g p open st n -> In t (of_node g n) -> follows g st t st' ->
    In st' [AtFile; AtPackage; AtRelationship] -> ~ In (n_id (t_obj t)) open ->
    way g (t :: p) (n_id (t_obj t) :: open) st' (t_obj t).
Definition way_to (g : graph) (st : stage) (n : node) (p : list triple) : Prop := exists open, way g p open st n.

(** A list of all there is, each once *)
Definition listing {A} (P : A -> Prop) (l : list A) : Prop := NoDup l /\ forall x, In x l <-> P x.

(** A graph without repeated statements and root nodes *)
Definition no_repeats (g : graph) : Prop := NoDup (g_triples g) /\ NoDup (map n_id (g_roots g)).

(** As often as there are ways to a node, so often its statements have been read;
    for each way to a relationship or an annotation there is one entry. *)
Definition file_times (v : version) (g : graph) (n : node) (f : File) : Prop :=
  exists ws, listing (way_to g AtFile n) ws /\ ws <> [] /\ file_says v g n (again (List.length ws) (of_node g n)) f.
Definition package_times (v : version) (g : graph) (n : node) (p : Package) : Prop :=
  exists ws, listing (way_to g AtPackage n) ws /\ ws <> [] /\ package_says v g (file_times v g) n (again (List.length ws) (of_node g n)) p.
Record read_by_ways (v : version) (g : graph) (d : Document) : Prop := {
  bw_files : Forall (fun f => exists n, reached g RFile n /\ file_times v g n f) (all_files d);
  bw_all_files : forall n, reached g RFile n -> Exists (file_times v g n) (all_files d);
  bw_packages : Forall (fun p => exists n, reached g RPackage n /\ package_times v g n p) (d_Packages d);
  bw_all_packages : forall n, reached g RPackage n -> Exists (package_times v g n) (d_Packages d);
  bw_relationships : exists ws,
    listing (fun p => exists n, way_to g AtRelationship n p) ws /\
    Forall2 (fun p r => exists t q, p = t :: q /\ relationship_says g t (of_node g (t_obj t)) r) ws (d_Relationships d);
  bw_annotations : exists ws,
    listing (fun p => exists n, way_to g AtAnnotation n p) ws /\
    Forall2 (fun p a => exists t q, p = t :: q /\ annotation_says (of_node g (t_obj t)) a) ws (d_Annotations d)
}.
