(** * Properties of the RDF reader: whole documents (C28, C34). *)
From Coq Require Import Permutation.
From Verif Require Import GoStr GoStrFacts Types TvUtil TvParser RdfConst Rdf RdfReader SpecTv SpecId SpecDoc SpecRdf SpecRdfDoc SpecRdfLoad
  TvReaderFacts RdfFacts RdfLicenseFacts RdfHelperFacts RdfNodeFacts RdfStepFacts RdfWalkFacts RdfLoadFacts PropsRdf.

(** ** C34 *)
(** Reading any graph ends: the bound on the recursion in the model, which Go does
    not have, is never reached. *)
Theorem C34_terminates : forall v g iter, load v g iter <> Err out_of_fuel.
Proof. exact load_ends. Qed.
Print Assumptions C34_terminates.
(** It panics only if a root node has no type or an ID is met in two roles. *)
Theorem C34_panic : forall v g iter, load v g iter = Panic -> role_conflict g \/ untyped_root g.
Proof. exact load_panic. Qed.
Print Assumptions C34_panic.
(** The order in which Go walks its map of files decides neither on success nor on
    anything but the order of the unpackaged files. *)
Theorem C34_order : forall v g iter iter', shuffle iter -> shuffle iter' ->
  match load v g iter, load v g iter' with
  | Ok d, Ok d' => Permutation (d_Files d) (d_Files d') /\ set_d_Files [] d = set_d_Files [] d'
  | Err e, Err e' => e = e'
  | Panic, Panic => True
  | _, _ => False
  end.
Proof.
  intros v g iter iter' P P'. destruct (load_same v g iter iter') as (A & B & C). destruct (load_same v g iter' iter) as (A' & B' & C').
  destruct (load v g iter) as [d|e|] eqn:E.
  - destruct (A d eq_refl) as (d' & E'). rewrite E'. exact (load_order v g iter iter' d d' P P' E E').
  - now rewrite (B e eq_refl).
  - now rewrite (C eq_refl).
Qed.
Print Assumptions C34_order.

(** ** C28 *)
(** No two unpackaged files have the same identifier. *)
Theorem C28_files_distinct : forall v g iter d, shuffle iter -> load v g iter = Ok d -> NoDup (map f_SPDXIdentifier (d_Files d)).
Proof. exact load_files_distinct. Qed.
Print Assumptions C28_files_distinct.
(** No unpackaged file has the identifier of a file in a package. *)
Theorem C28_files_apart : forall v g iter d p f f', shuffle iter -> load v g iter = Ok d ->
  In p (d_Packages d) -> In f (p_Files p) -> In f' (d_Files d) -> f_SPDXIdentifier f <> f_SPDXIdentifier f'.
Proof. exact load_files_apart. Qed.
Print Assumptions C28_files_apart.

(** A document: a package with a file, which depends on another file. *)
Definition ref (x : string) : node := iri ("SPDXRef-" ++ x).
Definition d_stmts : list triple :=
  [st (ref "DOCUMENT") rdf_type (term "SpdxDocument"); st (ref "DOCUMENT") (spdx "specVersion") (lit "SPDX-2.3")].
Definition d_graph (more : list triple) : graph := MkGraph (d_stmts ++ more) [ref "DOCUMENT"] (fun _ => true).
Definition one_package : list triple :=
  [st (ref "DOCUMENT") (spdx "relationship") (iri "r");
   st (iri "r") rdf_type (term "Relationship"); st (iri "r") (spdx "relationshipType") (term "relationshipType_describes");
   st (iri "r") (spdx "relatedSpdxElement") (ref "P");
   st (ref "P") rdf_type (term "Package"); st (ref "P") (spdx "name") (lit "p"); st (ref "P") (spdx "hasFile") (ref "F");
   st (ref "F") rdf_type (term "File"); st (ref "F") (spdx "fileName") (lit "f"); st (ref "F") (spdx "fileDependency") (ref "G");
   st (ref "F") (spdx "fileContributor") (lit "c");
   st (ref "G") rdf_type (term "File"); st (ref "G") (spdx "fileName") (lit "g")].
Definition ids_of (r : res Document) : option (list string * list (string * list string)) :=
  match r with
  | Ok d => Some (map f_SPDXIdentifier (d_Files d), map (fun p => (p_SPDXIdentifier p, map f_SPDXIdentifier (p_Files p))) (d_Packages d))
  | _ => None
  end.
Example C28_witness : shuffle (fun m => m) /\ shuffle (@rev _) /\
  ids_of (load V23 (d_graph one_package) (fun m => m)) = Some (["G"], [("P", ["F"])]).
Proof. split; [intros m; reflexivity|]. split; [intros m; symmetry; apply Permutation_rev|vm_compute; reflexivity]. Qed.

(** The statement that every package is listed once is false: a package named by
    describesPackage is listed twice. *)
Theorem C28_packages_once_refuted :
  ~ forall v g d, load v g (fun m => m) = Ok d -> NoDup (map p_SPDXIdentifier (d_Packages d)).
Proof.
  intros H.
  set (g := d_graph (st (ref "DOCUMENT") (spdx "describesPackage") (ref "P") :: skipn 4 one_package)).
  assert (E : ids_of (load V23 g (fun m => m)) = Some (["G"], [("P", ["F"]); ("P", ["F"])])) by (vm_compute; reflexivity).
  destruct (load V23 g (fun m => m)) as [d| |] eqn:L; try discriminate E. pose proof (H _ _ _ L) as N.
  injection E as _ E. apply (f_equal (map fst)) in E. rewrite map_map in E. cbn [fst map] in E. change (map p_SPDXIdentifier (d_Packages d) = ["P"; "P"]) in E. rewrite E in N.
  inversion N as [|? ? N1 N2]; subst. apply N1. now left.
Qed.
Print Assumptions C28_packages_once_refuted.

(** So is the statement that the statements of a node are read once: a file that is
    met again is read again and its lists are doubled. *)
Definition file_twice : list triple :=
  [st (ref "DOCUMENT") (spdx "relationship") (iri "r");
   st (iri "r") rdf_type (term "Relationship"); st (iri "r") (spdx "relationshipType") (term "relationshipType_describes");
   st (iri "r") (spdx "relatedSpdxElement") (ref "F");
   st (ref "DOCUMENT") (spdx "relationship") (iri "q");
   st (iri "q") rdf_type (term "Relationship"); st (iri "q") (spdx "relationshipType") (term "relationshipType_contains");
   st (iri "q") (spdx "relatedSpdxElement") (ref "F");
   st (ref "F") rdf_type (term "File"); st (ref "F") (spdx "fileName") (lit "f"); st (ref "F") (spdx "fileContributor") (lit "c")].
Theorem C28_read_once_refuted :
  ~ forall v g d f n, load v g (fun m => m) = Ok d -> In f (d_Files d) -> file_id n (f_SPDXIdentifier f) ->
      f_Contributors f = texts (spdx "fileContributor") (of_node g n).
Proof.
  intros H.
  assert (E : match load V23 (d_graph file_twice) (fun m => m) with
              | Ok d => map (fun f => (f_SPDXIdentifier f, f_Contributors f)) (d_Files d)
              | _ => [] end = [("F", ["c"; "c"])]) by (vm_compute; reflexivity).
  destruct (load V23 (d_graph file_twice) (fun m => m)) as [d| |] eqn:L; try discriminate E.
  destruct (d_Files d) as [|f [|f' l]] eqn:F; try discriminate E. injection E as E3 E4.
  assert (X : f_Contributors f = texts (spdx "fileContributor") (of_node (d_graph file_twice) (ref "F"))).
  { apply (H V23 (d_graph file_twice) d f (ref "F") L); [rewrite F; now left|]. rewrite E3. apply file_identifier_spec. vm_compute. reflexivity. }
  rewrite E4 in X. vm_compute in X. discriminate X.
Qed.
Print Assumptions C28_read_once_refuted.

(** Both causes of a panic are real: a root without a type, and a file that is met
    while its ID is read as a package. *)
Theorem C34_no_panic_refuted : ~ forall v g iter, load v g iter <> Panic.
Proof.
  intros H. apply (H V23 (d_graph [st (ref "DOCUMENT") (spdx "describesPackage") (ref "P"); st (ref "P") (spdx "hasFile") (ref "P")]) (fun m => m)).
  vm_compute. reflexivity.
Qed.
Print Assumptions C34_no_panic_refuted.
Theorem C34_untyped_root_panics : forall v g iter root, g_roots g = [root] -> texts rdf_type (of_node g root) = [] ->
  load v g iter = Panic.
Proof.
  intros v g iter root R T. unfold load, load_state, get_doc_node. rewrite R. cbn [for_each]. unfold doc_node_step. cbv zeta.
  rewrite triples_of_node. rewrite select_texts in T. now destruct (select (n_id root) RDF_TYPE (of_node g root)).
Qed.
Print Assumptions C34_untyped_root_panics.
Example C34_witness :
  load V23 (d_graph one_package) (fun m => m) <> Panic /\
  untyped_root (MkGraph [] [ref "DOCUMENT"] (fun _ => true)) /\
  role_conflict (d_graph [st (ref "DOCUMENT") (spdx "describesPackage") (ref "P"); st (ref "P") (spdx "hasFile") (ref "P")]).
Proof.
  split; [vm_compute; discriminate|]. split; [exists (ref "DOCUMENT"); split; [now left|reflexivity]|].
  set (g := d_graph _).
  assert (D : document_node g (ref "DOCUMENT")) by (split; [now left|reflexivity]).
  assert (P : reached g RPackage (ref "P")) by (apply rc_document_package with (ref "DOCUMENT"); [exact D|now left]).
  exists RPackage, (ref "P"), RFile, (ref "P"). split; [exact P|]. split; [|split; [reflexivity|discriminate]].
  apply rc_package_file with (ref "P"); [exact P|now left].
Qed.
