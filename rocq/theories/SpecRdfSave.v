(** * Specification: RDF graphs whose documents can be saved as JSON. *)
From Verif Require Import GoStr Types TvUtil RdfConst Rdf SpecTv SpecId SpecDoc SpecRdf SpecRdfDoc SpecRdfLoad.

(** "kind: name" with a name *)
Definition named (x : string) : Prop := exists k n, kind_name ":" x k n /\ n <> "".
(** ... or NOASSERTION *)
Definition agent_named (x : string) : Prop := to_upper (trim_space x) = "NOASSERTION" \/ named (trim_space x).

Record json_ready (g : graph) : Prop := {
  (* every creator has a name *)
  jr_creators : forall n c x, document_node g n -> In c (objects (spdx "creationInfo") (of_node g n)) ->
    In x (texts (spdx "creator") (of_node g c)) -> named x;
  (* every annotation has an annotator with a name *)
  jr_annotators : forall t, statement g (spdx "annotation") t -> named (last_text (spdx "annotator") (of_node g (t_obj t)));
  (* every relationship has another end *)
  jr_related : forall n, reached g RRelationship n -> objects (spdx "relatedSpdxElement") (of_node g n) <> [];
  (* suppliers and originators have a name or are NOASSERTION *)
  jr_agents : forall n q, reached g RPackage n -> In q [spdx "supplier"; spdx "originator"] ->
    texts q (of_node g n) <> [] -> agent_named (last_text q (of_node g n))
}.

(** A document all of whose creators, annotators, suppliers and originators have
    names. *)
Definition some_name {X} (name : X -> string) (o : option X) : Prop := forall x, o = Some x -> name x <> "".
Definition names_given (d : Document) : Prop :=
  (forall c x, d_CreationInfo d = Some c -> In x (ci_Creators c) -> cr_Creator x <> "") /\
  (forall a, In a (d_Annotations d) -> an_Annotator (a_Annotator a) <> "") /\
  (forall p, In p (d_Packages d) -> some_name su_Supplier (p_Supplier p) /\ some_name or_Originator (p_Originator p)).
