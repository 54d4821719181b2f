(** * Properties of the RDF reader: licenses (C26) and values (C27). *)
From Verif Require Import GoStr GoStrFacts Types TvUtil TvParser RdfConst Rdf RdfReader SpecTv SpecId SpecDoc SpecRdf
  TvReaderFacts TvUtilFacts RdfFacts RdfLicenseFacts RdfHelperFacts.

(** ** C26 *)
(** Reading a license always ends, without a panic: the bound on the recursion in
    the model is never reached and any larger bound gives the same result. *)
Theorem C26_terminates : forall g n c,
  get_any_license g n c <> Panic /\ get_any_license g n c <> Err out_of_fuel /\
  forall k, enough g <= k -> any_license g k n c = get_any_license g n c.
Proof.
  intros g n c. pose proof (get_any_license_fine g n c) as F. split; [|split].
  - intros E. now rewrite E in F.
  - now apply fine_fuel.
  - intros k. apply any_license_more.
Qed.
Print Assumptions C26_terminates.

(** The text returned is exactly the text of the node in the graph; [above] are
    the nodes being read, none for a license read on its own. *)
Theorem C26_exact : forall g n c above s, in_progress c above ->
  ((exists l c', get_any_license g n c = Ok (l, c') /\ license_string l = s) <-> license_text g above n s).
Proof. exact get_any_license_spec. Qed.
Print Assumptions C26_exact.

(** It is an error exactly when some node reached along member edges is not a
    license node by itself, or has the ID of a node passed on the way. *)
Theorem C26_accepts : forall g n c above, in_progress c above ->
  ((exists l c', get_any_license g n c = Ok (l, c')) <->
   forall path m, chain g n path m -> sound_node g m /\ ~ In (n_id m) (above ++ map n_id path)).
Proof. exact get_any_license_accepts. Qed.
Print Assumptions C26_accepts.

(** A license set reachable from itself is an error, whatever has been read before. *)
Theorem C26_cycle : forall g n path m c l c',
  chain g n path m -> In (n_id m) (map n_id path) -> get_any_license g n c <> Ok (l, c').
Proof.
  intros g n path m c l c' C I E. destruct (in_progress_exists c) as (above & A).
  destruct (proj1 (C26_accepts g n c above A) (ex_intro _ l (ex_intro _ c' E)) path m C) as [_ N].
  apply N, in_or_app. now right.
Qed.
Print Assumptions C26_cycle.

(** What is being read is the same after a license as before it, so that licenses
    can be read one after another and shared. *)
Theorem C26_restores : forall g n c above l c',
  in_progress c above -> get_any_license g n c = Ok (l, c') -> in_progress c' above.
Proof.
  intros g n c above l c' A E. apply (in_progress_ext c); [|exact A].
  exact (any_license_grey _ _ _ _ _ _ E).
Qed.
Print Assumptions C26_restores.

(** The text of a node is unique. *)
Theorem C26_deterministic : forall g above above' n s s',
  license_text g above n s -> license_text g above' n s' -> s = s'.
Proof. exact license_text_fun. Qed.
Print Assumptions C26_deterministic.

(** A small graph: n1 = (A OR B) AND C, n2 = A OR (B AND C), n3 = GPL-2.0 or
    later, n4 has itself as a member. *)
Definition iri (x : string) : node := MkNode NIri ("http://e.org#" ++ x).
Definition st (s : node) (p : string) (o : node) : triple := MkTriple s p o.
Definition lit (x : string) : node := MkNode (NOther "LITERAL") x.
Definition term (x : string) : node := MkNode NIri (spdx x).
Definition listed (x : string) : node := MkNode NIri ("http://spdx.org/licenses/" ++ x).
Definition w_graph : graph := MkGraph
  [st (iri "n1") rdf_type (term "ConjunctiveLicenseSet"); st (iri "n1") (spdx "member") (iri "d");
   st (iri "n1") (spdx "member") (listed "Zlib");
   st (iri "d") rdf_type (term "DisjunctiveLicenseSet"); st (iri "d") (spdx "member") (listed "MIT");
   st (iri "d") (spdx "member") (iri "x");
   st (iri "x") rdf_type (term "ExtractedLicensingInfo"); st (iri "x") (spdx "licenseId") (lit "LicenseRef-1");
   st (iri "x") (spdx "extractedText") (lit "text");
   st (iri "n2") rdf_type (term "DisjunctiveLicenseSet"); st (iri "n2") (spdx "member") (listed "MIT");
   st (iri "n2") (spdx "member") (iri "c");
   st (iri "c") rdf_type (term "ConjunctiveLicenseSet"); st (iri "c") (spdx "member") (iri "x");
   st (iri "c") (spdx "member") (listed "Zlib");
   st (iri "n3") rdf_type (term "OrLaterOperator"); st (iri "n3") (spdx "member") (iri "g");
   st (iri "g") rdf_type (term "SimpleLicensingInfo"); st (iri "g") (spdx "licenseId") (lit "GPL-2.0");
   st (iri "n4") rdf_type (term "ConjunctiveLicenseSet"); st (iri "n4") (spdx "member") (iri "n5");
   st (iri "n5") rdf_type (term "DisjunctiveLicenseSet"); st (iri "n5") (spdx "member") (iri "n4")]
  [] (fun _ => true).

Lemma w_text n s : (exists l c', get_any_license w_graph n [] = Ok (l, c') /\ license_string l = s) ->
  license_text w_graph [] n s.
Proof. apply C26_exact. apply in_progress_nil. Qed.
Example C26_witness :
  license_text w_graph [] (iri "n1") "MIT OR LicenseRef-1 AND Zlib" /\
  license_text w_graph [] (listed "MIT") "MIT" /\
  (forall l c', get_any_license w_graph (iri "n4") [] <> Ok (l, c')) /\
  In (n_id (iri "n4")) (map n_id [iri "n4"; iri "n5"]) /\ chain w_graph (iri "n4") [iri "n4"; iri "n5"] (iri "n4").
Proof.
  split; [apply w_text; eexists _, _; split; reflexivity|]. split; [apply w_text; eexists _, _; split; reflexivity|].
  split; [intros l c'; vm_compute; discriminate|]. split; [now left|].
  apply ch_step with (k := iri "n5"). { split; [left; reflexivity|now left]. }
  apply ch_step with (k := iri "n4"). { split; [right; reflexivity|now left]. }
  apply ch_here.
Qed.

(** Nested sets are written without brackets: a conjunction of a disjunction and a
    disjunction of a conjunction read as the same text. *)
Theorem C26_brackets_refuted :
  ~ forall g n n' s, license_text g [] n s -> license_text g [] n' s ->
      has_type g n "ConjunctiveLicenseSet" -> has_type g n' "ConjunctiveLicenseSet".
Proof.
  intros H. assert (T : has_type w_graph (iri "n2") "ConjunctiveLicenseSet").
  { apply (H w_graph (iri "n1") (iri "n2") "MIT OR LicenseRef-1 AND Zlib").
    - apply w_text; eexists _, _; split; reflexivity.
    - apply w_text; eexists _, _; split; reflexivity.
    - reflexivity. }
  vm_compute in T. discriminate T.
Qed.
Print Assumptions C26_brackets_refuted.

(** The operators lose what they add to their member. *)
Theorem C26_operators : forall g above n m s,
  has_type g n "OrLaterOperator" \/ has_type g n "WithExceptionOperator" ->
  objects (spdx "member") (about g (n_id n)) = [m] ->
  license_text g above n s -> s = last_text (spdx "licenseId") (about g (n_id m)).
Proof.
  intros g above n m s T M L.
  assert (A : forall ty, has_type g n ty -> ty = "OrLaterOperator" \/ ty = "WithExceptionOperator").
  { intros ty H. unfold has_type in *. destruct T as [T|T]; rewrite T in H; injection H as H; auto. }
  inversion L as [? ? ? N E S|? ? ? N F|? ? ? N H|? ? ? N H]; subst.
  - rewrite E in M. discriminate M.
  - inversion F as [H|H|ty I H|m' H O X M' V|H O X|m' H O M' V]; subst.
    + destruct (A _ H); discriminate.
    + destruct (A _ H); discriminate.
    + destruct (A _ H) as [->| ->]; destruct I as [I|[I|[]]]; discriminate.
    + rewrite M in M'. now injection M' as ->.
    + exfalso. assert (I : In m (objects (spdx "member") (about g (n_id n)))) by (rewrite M; now left).
      apply in_objects in I as (t & I & P & _). pose proof (proj1 (Forall_forall _ _) O t I) as J. cbv beta in J. rewrite P in J.
      destruct J as [J|[J|[]]]; discriminate J.
    + rewrite M in M'. now injection M' as ->.
  - destruct (A _ H); discriminate.
  - destruct (A _ H); discriminate.
Qed.
Print Assumptions C26_operators.
Example C26_operators_witness :
  has_type w_graph (iri "n3") "OrLaterOperator" /\ license_text w_graph [] (iri "n3") "GPL-2.0".
Proof. split; [reflexivity|]. apply w_text; eexists _, _; split; reflexivity. Qed.

(** ** C27 *)
Theorem C27_last_part : forall uri s, last_part uri = s <-> last_piece uri s.
Proof. exact last_part_spec. Qed.
Print Assumptions C27_last_part.
Theorem C27_relationship_type : forall uri x, relationship_type_from_uri uri = Ok x <-> relationship_term uri x.
Proof. exact relationship_type_spec. Qed.
Print Assumptions C27_relationship_type.
Theorem C27_algorithm : forall uri a, algorithm_from_uri uri = Ok a <-> algorithm_term uri a.
Proof. exact algorithm_spec. Qed.
Print Assumptions C27_algorithm.
Theorem C27_file_type : forall uri x, file_type_from_uri uri = Ok x <-> file_type_term uri x.
Proof. exact file_type_spec. Qed.
Print Assumptions C27_file_type.
Theorem C27_bool : forall x b, bool_from_string x = Ok b <-> bool_term x b.
Proof. exact bool_spec. Qed.
Print Assumptions C27_bool.
Theorem C27_purpose : forall p x, primary_purpose p = x <-> purpose_term p x.
Proof. exact purpose_spec. Qed.
Print Assumptions C27_purpose.
Theorem C27_reference : forall uri d, reference_from_uri uri = Ok d <-> reference_term uri d.
Proof. exact reference_spec. Qed.
Print Assumptions C27_reference.
Theorem C27_license_name : forall uri s, license_string_from_uri uri = s <-> license_name uri s.
Proof. exact license_name_spec. Qed.
Print Assumptions C27_license_name.
Theorem C27_kind_name : forall sep x k v, extract_subs_sep x sep = Ok (k, v) <-> kind_name sep x k v.
Proof. exact kind_name_spec. Qed.
Print Assumptions C27_kind_name.
Theorem C27_package_actor : forall x k v, package_actor x = Ok (k, v) <-> package_actor_term x k v.
Proof. exact package_actor_spec. Qed.
Print Assumptions C27_package_actor.
Theorem C27_location : forall g x l, location_from_uri g x = Ok l <-> location_term g x l.
Proof. exact location_spec. Qed.
Print Assumptions C27_location.
Theorem C27_annotation_type : forall x ty, annotation_type x = Ok ty <-> annotation_type_term x ty.
Proof. exact annotation_type_spec. Qed.
Print Assumptions C27_annotation_type.
Theorem C27_file_identifier : forall uri id, file_identifier uri = Ok id <-> element_term (trim_space uri) id.
Proof. exact file_identifier_spec. Qed.
Print Assumptions C27_file_identifier.

Example C27_witness :
  last_piece "http://e.org/a#b/c" "b/c" /\ last_piece "http://e.org/a" "a" /\
  relationship_term "http://spdx.org/rdf/terms#relationshipType_contains" "contains" /\
  algorithm_term (spdx "checksumAlgorithm_sha1") "SHA1" /\ file_type_term (spdx "fileType_source") "source" /\
  bool_term "True" true /\ purpose_term "packagePurpose_operating_system" "OPERATING-SYSTEM" /\
  reference_term "http://e.org#SPDXRef-1" (MkDEID "" "1" "") /\ reference_term (spdx "noassertion") (MkDEID "" "NOASSERTION" "") /\
  reference_term "http://e.org#DocumentRef-x:SPDXRef-1" (MkDEID "x" "1" "") /\
  license_name (spdx "none") "NONE" /\ kind_name ":" " Person : Jane: Doe" "Person" "Jane: Doe" /\
  package_actor_term "Organization: X" "Organization" "X" /\ package_actor_term " NoAssertion " "" "NOASSERTION" /\
  location_term w_graph (spdx "NONE") "NONE" /\ annotation_type_term (spdx "annotationType_review") "REVIEW" /\
  element_term (trim_space " http://e.org#SPDXRef-f ") "f".
Proof.
  rewrite <- !last_part_spec, <- relationship_type_spec, <- algorithm_spec, <- file_type_spec, <- bool_spec, <- purpose_spec,
    <- !reference_spec, <- license_name_spec, <- kind_name_spec, <- !package_actor_spec, <- location_spec,
    <- annotation_type_spec, <- element_spec.
  repeat match goal with |- _ /\ _ => split end; reflexivity.
Qed.

(** A purpose written as a term of the vocabulary, as the specification asks for,
    is lost: the prefix is removed but not the namespace. *)
Theorem C27_purpose_uri_refuted : forall y, primary_purpose (spdx y) = "".
Proof. exact purpose_uri_lost. Qed.
Print Assumptions C27_purpose_uri_refuted.

(** NONE and NOASSERTION as the end of a relationship become an ordinary element
    ID, not the special value the model of references has for them. *)
Theorem C27_special_reference_refuted : forall uri d, reference_from_uri uri = Ok d -> de_SpecialID d = "".
Proof.
  intros uri d H. apply reference_spec in H as (f & _ & [[_ ->]|(_ & (H & _) & _)]); [reflexivity|exact H].
Qed.
Print Assumptions C27_special_reference_refuted.

(** The algorithms that 2.3 added are not read. *)
Theorem C27_new_algorithms_refuted :
  ~ forall a, In a (algorithms V23) -> exists uri, algorithm_from_uri uri = Ok a.
Proof.
  intros H. destruct (H "BLAKE3") as (uri & E); [cbv; tauto|]. apply algorithm_spec in E as (y & _ & I & _).
  repeat (destruct I as [I|I]; [discriminate I|]). destruct I.
Qed.
Print Assumptions C27_new_algorithms_refuted.
