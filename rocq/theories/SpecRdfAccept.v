(** * Specification of the RDF reader: the graphs that can be read. *)
From Verif Require Import GoStr Types TvUtil RdfConst Rdf SpecTv SpecId SpecDoc SpecRdf SpecRdfDoc SpecRdfLoad SpecRdfContent.

(** Every range of a snippet can be read, not only the last one, which counts. *)
Definition readable_range (g : graph) (n : node) : Prop := exists file r, range_says g (of_node g n) file r.

(** Each node, taken by itself, says something: nothing is asked of the order of
    the statements, of the way to a node or of how often it is met. *)
Record readable (v : version) (g : graph) : Prop := {
  (* every root node has one type *)
  rd_roots : forall n, In n (g_roots g) ->
    exists ty, texts rdf_type (of_node g n) = [ty] /\ texts rdf_type (about g (n_id n)) = [ty];
  (* there is one document node *)
  rd_a_document : exists n, document_node g n;
  rd_one_document : forall n m, document_node g n -> document_node g m -> n_id n = n_id m;
  rd_document : forall n, document_node g n -> exists d : Document, document_says g n (of_node g n) d;
  rd_file : forall n, reached g RFile n -> exists f : File, file_says v g n (of_node g n) f;
  rd_package : forall n, reached g RPackage n ->
    exists p : Package, package_says v g (fun o f => file_id o (f_SPDXIdentifier f)) n (of_node g n) p;
  rd_relationship : forall t, statement g (spdx "relationship") t ->
    exists r, relationship_says g t (of_node g (t_obj t)) r;
  rd_annotation : forall t, statement g (spdx "annotation") t -> exists a, annotation_says (of_node g (t_obj t)) a;
  rd_snippet : forall n, snippet_node g n -> exists s, snippet_says v g n (of_node g n) s;
  rd_ranges : forall n, snippet_node g n -> Forall (readable_range g) (objects (spdx "range") (of_node g n));
  (* a snippet is from a file, the last one it names, and calls it by its identifier *)
  rd_from : forall n, snippet_node g n -> exists l o x,
    objects (spdx "snippetFromFile") (of_node g n) = (l ++ [o])%list /\ from_term v o x /\ file_id o x
}.
