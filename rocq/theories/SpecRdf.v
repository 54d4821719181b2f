(** * Specification of the RDF reader: what a graph says, independent of the
    traversal, the cache and the parsing functions. *)
From Verif Require Import GoStr Types TvUtil RdfConst Rdf SpecTv SpecId SpecDoc.

(** ** Vocabulary *)
Definition spdx (x : string) : string := "http://spdx.org/rdf/terms#" ++ x.
Definition rdf_type : string := "http://www.w3.org/1999/02/22-rdf-syntax-ns#type".
Definition rdfs (x : string) : string := "http://www.w3.org/2000/01/rdf-schema#" ++ x.
Definition doap (x : string) : string := "http://usefulinc.com/ns/doap#" ++ x.
Definition ptr_term (x : string) : string := "http://www.w3.org/2009/pointers#" ++ x.

(** ** Statements of a graph *)
(** with a given subject ID, or with a given node (ID and type) as subject *)
Definition about (g : graph) (id : string) : list triple :=
  filter (fun t => String.eqb (n_id (t_subj t)) id) (g_triples g).
Definition same_kind (a b : node_type) : bool :=
  match a, b with
  | NIri, NIri => true
  | NOther x, NOther y => String.eqb x y
  | _, _ => false
  end.
Definition of_node (g : graph) (n : node) : list triple :=
  filter (fun t => same_kind (n_type (t_subj t)) (n_type n) && String.eqb (n_id (t_subj t)) (n_id n)) (g_triples g).
(** the objects of one predicate, in order; their IDs; the last one *)
Definition objects (p : string) (ts : list triple) : list node :=
  map t_obj (filter (fun t => String.eqb (t_pred t) p) ts).
Definition texts (p : string) (ts : list triple) : list string := map n_id (objects p ts).
Definition last_text (p : string) (ts : list triple) : string := last (texts p ts) "".
(** only predicates of a vocabulary *)
Definition only (ps : list string) (ts : list triple) : Prop := Forall (fun t => In (t_pred t) ps) ts.

(** ** Pieces of a URI *)
(** after the last [#]; without one, after the last [/]; without either, all *)
Definition after_last (c uri s : string) : Prop := (exists p, uri = p ++ c ++ s) /\ ~ occurs c s.
Definition last_piece (uri s : string) : Prop :=
  after_last "#" uri s \/
  (~ occurs "#" uri /\ (after_last "/" uri s \/ (~ occurs "/" uri /\ s = uri))).

(** ** Licenses *)
Definition truth (x : string) : Prop := In (to_lower x) ["true"; "false"].
Definition simple_predicates : list string :=
  [rdfs "comment"; spdx "licenseId"; spdx "name"; rdfs "seeAlso"; spdx "example"; rdf_type].
Definition valid_see_also (g : graph) (ts : list triple) : Prop :=
  Forall (fun x => g_valid_uri g x = true) (texts (rdfs "seeAlso") ts).
Definition simple_info (g : graph) (ts : list triple) : Prop :=
  only simple_predicates ts /\ valid_see_also g ts.
Definition license_predicates : list string :=
  (simple_predicates ++
   [spdx "isOsiApproved"; spdx "licenseText"; spdx "standardLicenseHeader"; spdx "standardLicenseTemplate";
    spdx "standardLicenseHeaderTemplate"; spdx "isDeprecatedLicenseId"; spdx "isFsfLibre"])%list.
Definition exception_info (g : graph) (ts : list triple) : Prop :=
  only [rdf_type; spdx "licenseExceptionId"; spdx "licenseExceptionText"; rdfs "seeAlso"; spdx "name";
        spdx "example"; rdfs "comment"] ts /\ valid_see_also g ts.

(** A URI that stands for a license by itself. *)
Definition special_name (uri s : string) : Prop :=
  let u := trim_space uri in
  if existsb (String.eqb u) [spdx "NONE"; spdx "none"] then s = "NONE"
  else if existsb (String.eqb u) [spdx "NOASSERTION"; spdx "noassertion"] then s = "NOASSERTION"
  else last_piece u s /\ In s all_standard_license_ids.

(** The single type of a node. *)
Definition has_type (g : graph) (n : node) (ty : string) : Prop :=
  texts rdf_type (about g (n_id n)) = [spdx ty].

(** A license that is not a set: its identifier. *)
Inductive leaf_text (g : graph) (n : node) : string -> Prop :=
| lf_simple :
    has_type g n "SimpleLicensingInfo" -> simple_info g (about g (n_id n)) ->
    leaf_text g n (last_text (spdx "licenseId") (about g (n_id n)))
| lf_extracted :
    has_type g n "ExtractedLicensingInfo" ->
    only (spdx "extractedText" :: simple_predicates) (about g (n_id n)) ->
    valid_see_also g (about g (n_id n)) ->
    leaf_text g n (last_text (spdx "licenseId") (about g (n_id n)))
| lf_license ty :
    In ty ["License"; "ListedLicense"] -> has_type g n ty ->
    only license_predicates (about g (n_id n)) -> valid_see_also g (about g (n_id n)) ->
    (forall p, In p ["isOsiApproved"; "isDeprecatedLicenseId"; "isFsfLibre"] ->
       Forall truth (texts (spdx p) (about g (n_id n)))) ->
    leaf_text g n (last_text (spdx "licenseId") (about g (n_id n)))
| lf_with_exception m :
    has_type g n "WithExceptionOperator" ->
    only [rdf_type; spdx "member"; spdx "licenseException"] (about g (n_id n)) ->
    Forall (fun e => exception_info g (about g (n_id e))) (objects (spdx "licenseException") (about g (n_id n))) ->
    objects (spdx "member") (about g (n_id n)) = [m] -> simple_info g (about g (n_id m)) ->
    leaf_text g n (last_text (spdx "licenseId") (about g (n_id m)))
| lf_with_nothing :                        (* a missing member is accepted and reads as "" *)
    has_type g n "WithExceptionOperator" ->
    only [rdf_type; spdx "licenseException"] (about g (n_id n)) ->
    Forall (fun e => exception_info g (about g (n_id e))) (objects (spdx "licenseException") (about g (n_id n))) ->
    leaf_text g n ""
| lf_or_later m :
    has_type g n "OrLaterOperator" ->
    only [rdf_type; spdx "member"] (about g (n_id n)) ->
    objects (spdx "member") (about g (n_id n)) = [m] -> simple_info g (about g (n_id m)) ->
    leaf_text g n (last_text (spdx "licenseId") (about g (n_id m))).

(** The text of a license node.  [above] are the IDs of the sets it is a member
    of: a license may be used several times, but not inside itself.  A
    conjunctive set has nothing but its type and its members; a disjunctive set
    may have further statements, which are ignored. *)
Inductive license_text (g : graph) : list string -> node -> string -> Prop :=
| lt_special above n s :
    ~ In (n_id n) above -> about g (n_id n) = [] -> special_name (n_id n) s ->
    license_text g above n s
| lt_leaf above n s :
    ~ In (n_id n) above -> leaf_text g n s -> license_text g above n s
| lt_and above n ss :
    ~ In (n_id n) above -> has_type g n "ConjunctiveLicenseSet" ->
    only [rdf_type; spdx "member"] (of_node g n) ->
    Forall2 (license_text g (n_id n :: above)) (objects (spdx "member") (of_node g n)) ss ->
    license_text g above n (join " AND " ss)
| lt_or above n ss :
    ~ In (n_id n) above -> has_type g n "DisjunctiveLicenseSet" ->
    Forall2 (license_text g (n_id n :: above)) (objects (spdx "member") (of_node g n)) ss ->
    license_text g above n (join " OR " ss).

(** ** Member chains: the nodes one comes through from a license set *)
Definition member_of (g : graph) (a b : node) : Prop :=
  (has_type g a "ConjunctiveLicenseSet" \/ has_type g a "DisjunctiveLicenseSet") /\
  In b (objects (spdx "member") (of_node g a)).
(** [chain g n l m]: from [n] through the nodes [l] ([n] included) to [m] *)
Inductive chain (g : graph) : node -> list node -> node -> Prop :=
| ch_here n : chain g n [] n
| ch_step n k l m : member_of g n k -> chain g k l m -> chain g n (n :: l) m.
(** A node that can be read if its members can. *)
Definition sound_node (g : graph) (n : node) : Prop :=
  (about g (n_id n) = [] /\ exists s, special_name (n_id n) s) \/ (exists s, leaf_text g n s) \/
  (has_type g n "ConjunctiveLicenseSet" /\ only [rdf_type; spdx "member"] (of_node g n)) \/
  has_type g n "DisjunctiveLicenseSet".

(** The IDs being read at the moment, according to a cache. *)
Definition in_progress (c : cache) (ids : list string) : Prop :=
  forall id, In id ids <-> exists o, lookup id c = Some (o, GREY).

(** ** Values *)
(** the text with all occurrences of [sep] taken out, from left to right *)
Inductive without (sep : string) : string -> string -> Prop :=
| wo_none s : ~ occurs sep s -> without sep s s
| wo_cut s x y r : first_cut sep s x y -> without sep y r -> without sep s (x ++ r).
Definition relationship_terms : list string :=
  ["describes"; "describedBy"; "contains"; "containedBy"; "dependsOn"; "dependencyOf"; "dependencyManifestOf";
   "buildDependencyOf"; "devDependencyOf"; "optionalDependencyOf"; "providedDependencyOf"; "testDependencyOf";
   "runtimeDependencyOf"; "exampleOf"; "generates"; "generatedFrom"; "ancestorOf"; "descendantOf"; "variantOf";
   "distributionArtifact"; "patchFor"; "patchApplied"; "copyOf"; "fileAdded"; "fileDeleted"; "fileModified";
   "expandedFromArchive"; "dynamicLink"; "staticLink"; "dataFileOf"; "dataFile"; "testcaseOf"; "buildToolOf"; "devToolOf";
   "testOf"; "testToolOf"; "documentation"; "optionalComponentOf"; "metafileOf"; "packageOf"; "amendment";
   "prerequisiteFor"; "hasPrerequisite"; "other"].
Definition relationship_term (uri x : string) : Prop :=
  exists y, last_piece (trim_space uri) ("relationshipType_" ++ y) /\ x = trim_space y /\ In x relationship_terms.
Definition rdf_algorithms : list string :=
  ["SHA1"; "SHA224"; "SHA256"; "SHA384"; "SHA512"; "MD2"; "MD4"; "MD5"; "MD6"].
Definition algorithm_term (uri a : string) : Prop :=
  exists y, last_piece uri ("checksumAlgorithm_" ++ y) /\ In a rdf_algorithms /\ to_lower (trim_space y) = to_lower a.
Definition file_type_term (uri x : string) : Prop := last_piece uri ("fileType_" ++ x).
Definition bool_term (x : string) (b : bool) : Prop := to_lower x = if b then "true" else "false".
Definition purposes : list string :=
  ["APPLICATION"; "FRAMEWORK"; "LIBRARY"; "CONTAINER"; "OPERATING-SYSTEM"; "DEVICE"; "FIRMWARE"; "SOURCE";
   "ARCHIVE"; "FILE"; "INSTALL"; "OTHER"].
(** upper case, without the prefix, with dashes; "" for anything unknown *)
Definition purpose_term (p x : string) : Prop :=
  exists r, without "packagePurpose_" p r /\
    let u := to_upper (String.concat "-" (split_on "_" r)) in (In u purposes /\ x = u \/ ~ In u purposes /\ x = "").
Definition special_value (f : string) : Prop := In (to_lower (trim_space f)) ["none"; "noassertion"].
Definition reference_term (uri : string) (d : DocElementID) : Prop :=
  exists f, last_piece uri f /\
    ((special_value f /\ d = MkDEID "" (to_upper f) "") \/ (~ special_value f /\ plain_ref d /\ ref_text d f)).
Definition license_name (uri s : string) : Prop :=
  exists f, last_piece uri f /\
    ((special_value f /\ s = to_upper (trim_space f)) \/ (~ special_value f /\ s = trim_space f)).
(** "kind: name" *)
Definition kind_name (sep x k v : string) : Prop :=
  exists a b, first_cut sep x a b /\ k = trim_space a /\ v = trim_space b.
Definition package_actor_term (x k v : string) : Prop :=
  let u := trim_space x in
  (to_upper u = "NOASSERTION" /\ k = "" /\ v = "NOASSERTION") \/
  (to_upper u <> "NOASSERTION" /\ kind_name ":" u k v /\ In k actor2).
Definition location_term (g : graph) (x l : string) : Prop :=
  (In x [spdx "NOASSERTION"; spdx "noassertion"] /\ l = "NOASSERTION") \/
  (In x [spdx "NONE"; spdx "none"] /\ l = "NONE") \/
  (~ In x [spdx "NOASSERTION"; spdx "noassertion"; spdx "NONE"; spdx "none"] /\ g_valid_uri g x = true /\ l = x).
Definition annotation_type_term (x ty : string) : Prop :=
  (x = spdx "annotationType_other" /\ ty = "OTHER") \/ (x = spdx "annotationType_review" /\ ty = "REVIEW").
Definition category_term (x c : string) : Prop :=
  (x = spdx "referenceCategory_security" /\ c = "SECURITY") \/
  (x = spdx "referenceCategory_packageManager" /\ c = "PACKAGE-MANAGER") \/
  (x = spdx "referenceCategory_other" /\ c = "OTHER").
Definition element_term (uri id : string) : Prop := last_piece uri ("SPDXRef-" ++ id) /\ id_ok id.
