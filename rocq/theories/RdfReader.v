(** * RDF reader, part 2: files, packages, relationships, snippets, documents.
    /repo/spdx/v2/v2_3/rdf/reader and /repo/rdf/reader.go (files cited relative to
    the former; v2_2/rdf/reader is the same code except where noted).

    Files and packages are shared by pointer between the document, the parser's
    maps and the cache; the model keeps them in arenas and a pointer is an index.
    A nil PackageVerificationCode is [None] (v2_2 stores the zero value). *)
From Verif Require Import GoStr Types TvUtil TvParser RdfConst Rdf.

(** types.go 11-26 (rdfParser2_3): the arenas, the files map, assocWithPackage
    (the keys mapped to true), the cache and the document *)
Record rstate := MkState {
  rs_files : list File;
  rs_pkgs : list PackageArena;
  rs_map : list (string * nat);
  rs_assoc : list string;
  rs_cache : cache;
  rs_doc : DocumentArena
}.
Definition set_rs_files v s := MkState v (rs_pkgs s) (rs_map s) (rs_assoc s) (rs_cache s) (rs_doc s).
Definition set_rs_pkgs v s := MkState (rs_files s) v (rs_map s) (rs_assoc s) (rs_cache s) (rs_doc s).
Definition set_rs_map v s := MkState (rs_files s) (rs_pkgs s) v (rs_assoc s) (rs_cache s) (rs_doc s).
Definition set_rs_assoc v s := MkState (rs_files s) (rs_pkgs s) (rs_map s) v (rs_cache s) (rs_doc s).
Definition set_rs_cache v s := MkState (rs_files s) (rs_pkgs s) (rs_map s) (rs_assoc s) v (rs_doc s).
Definition set_rs_doc v s := MkState (rs_files s) (rs_pkgs s) (rs_map s) (rs_assoc s) (rs_cache s) v.
Definition on_doc (f : DocumentArena -> DocumentArena) (s : rstate) : rstate := set_rs_doc (f (rs_doc s)) s.

(** parser.go 16-36 (NewParser2_3) *)
Definition init_state : rstate :=
  MkState [] [] [] [] [] (set_d_CreationInfo (Some zero_CreationInfo) zero_DocumentOf).

(** writes through a pointer *)
Definition on_file (a : nat) (f : File -> res File) (s : rstate) : res rstate :=
  match nth_error (rs_files s) a with
  | None => Panic
  | Some x => let* y := f x in
              match update_nth a (fun _ => y) (rs_files s) with
              | Some l => Ok (set_rs_files l s)
              | None => Panic
              end
  end.
Definition on_pkg (a : nat) (f : PackageArena -> res PackageArena) (s : rstate) : res rstate :=
  match nth_error (rs_pkgs s) a with
  | None => Panic
  | Some x => let* y := f x in
              match update_nth a (fun _ => y) (rs_pkgs s) with
              | Some l => Ok (set_rs_pkgs l s)
              | None => Panic
              end
  end.
(** a license read in the middle of another element: the cache is shared *)
Definition with_license (g : graph) (n : node) (s : rstate) : res (string * rstate) :=
  let* (l, c) := get_any_license g n (rs_cache s) in
  Ok (license_string l, set_rs_cache c s).

(** ** parse_annotation.go *)
(** 71-81 (setAnnotationType) *)
Definition annotation_type (uri : string) : res string :=
  if String.eqb uri SPDX_ANNOTATION_TYPE_OTHER then Ok "OTHER"
  else if String.eqb uri SPDX_ANNOTATION_TYPE_REVIEW then Ok "REVIEW"
  else Err "unknown annotation type".
(** 57-68 (setAnnotatorFromString) and 16-43 (parseAnnotationFromNode), one triple *)
Definition annotation_step (t : triple) (a : Annotation) : res Annotation :=
  let v := n_id (t_obj t) in
  switch (t_pred t)
    [(SPDX_ANNOTATOR,
        let* (k, x) := extract_subs_sep v ":" in
        if mem k ["Person"; "Organization"; "Tool"] then Ok (set_a_Annotator (MkAnnotator x k) a)
        else Err "unrecognized Annotator type while parsing annotation");
     (SPDX_ANNOTATION_DATE, Ok (set_a_Date v a));
     (RDFS_COMMENT, Ok (set_a_Comment v a));
     (SPDX_ANNOTATION_TYPE, let* ty := annotation_type v in Ok (set_a_Type ty a));
     (RDF_TYPE, Ok a)]
    (Err "unknown predicate while parsing annotation").
Definition annotation_from_node (g : graph) (n : node) : res Annotation :=
  for_each annotation_step (triples_of g n) zero_Annotation.
(** 16-54 (parseAnnotationFromNode, setAnnotationToParser) *)
Definition parse_annotation (g : graph) (n : node) (s : rstate) : res rstate :=
  let* a := annotation_from_node g n in
  Ok (on_doc (fun d => set_d_Annotations (d_Annotations d ++ [a])%list d) s).

(** ** parse_creation_info.go *)
(** 14-58 (parseCreationInfoFromNode, setCreator) *)
Definition creation_info_step (t : triple) (c : CreationInfo) : res CreationInfo :=
  let v := n_id (t_obj t) in
  switch (t_pred t)
    [(SPDX_LICENSE_LIST_VERSION, Ok (set_ci_LicenseListVersion v c));
     (SPDX_CREATOR,
        let* (k, x) := extract_subs_sep v ":" in
        if mem k ["Person"; "Organization"; "Tool"]
        then Ok (set_ci_Creators (ci_Creators c ++ [MkCreator x k])%list c)
        else Err "unknown creatorType in a creation info");
     (SPDX_CREATED, Ok (set_ci_Created v c));
     (RDFS_COMMENT, Ok (set_ci_CreatorComment v c));
     (RDF_TYPE, Ok c)]
    (Err "unknown predicate while parsing a creation info").

(** ** parse_review.go 12-38 (setReviewFromNode) *)
Definition review_step (t : triple) (r : Review) : res Review :=
  let v := n_id (t_obj t) in
  switch (t_pred t)
    [(RDF_TYPE, Ok r);
     (RDFS_COMMENT, Ok (set_rv_Comment v r));
     (SPDX_REVIEW_DATE, Ok (set_rv_Date v r));
     (SPDX_REVIEWER,
        let* (k, x) := extract_subs_sep v ":" in
        Ok (set_rv_Reviewer x (set_rv_ReviewerType k r)))]
    (Err "unknown predicate for review triples").
Definition review_from_node (g : graph) (n : node) : res Review :=
  for_each review_step (triples_of g n) zero_Review.

(** ** parse_relationship.go *)
(** 128-138 (getReferenceFromURI) *)
Definition reference_from_uri (uri : string) : res DocElementID :=
  let fragment := last_part uri in
  let l := to_lower (trim_space fragment) in
  if String.eqb l "noassertion" || String.eqb l "none" then Ok (MkDEID "" (to_upper fragment) "")
  else extract_doc_element_id fragment.
(** 141-156 (getRelationshipTypeFromURI) *)
Definition relationship_type_from_uri (uri : string) : res string :=
  let lp := last_part (trim_space uri) in
  if negb (has_prefix PREFIX_RELATIONSHIP_TYPE lp) then Err "relationshipType must start with relationshipType_"
  else
    let x := trim_space (trim_prefix PREFIX_RELATIONSHIP_TYPE lp) in
    if mem x all_relationship_types then Ok x else Err "unknown relationshipType".

(** ** parse_file.go, the parts that do not recurse *)
(** 206-214 (setFileIdentifier) *)
Definition file_identifier (uri : string) : res string := extract_element_id (last_part (trim_space uri)).
(** 186-193 (getFileTypeFromUri) *)
Definition file_type_from_uri (uri : string) : res string :=
  let lp := last_part uri in
  if negb (has_prefix "fileType_" lp) then Err "fileType Uri must begin with fileType_"
  else Ok (trim_prefix "fileType_" lp).
(** 216-223 (getNoticeTextFromNode) *)
Definition notice_text (n : node) : string :=
  if String.eqb (n_id n) SPDX_NOASSERTION_CAPS || String.eqb (n_id n) SPDX_NOASSERTION_SMALL
  then "NOASSERTION" else n_id n.
(** 129-162 (setFileChecksumFromNode) and parse_package.go 349-380
    (setPackageChecksum): the accepted algorithms are those of the version,
    everything else (the empty one included) is an error *)
Definition element_checksum (v : version) (g : graph) (n : node) : res Checksum :=
  let* c := checksum_from_node g n in
  if mem (ck_Algorithm c) (algs v) then Ok c else Err "unknown checksumAlgorithm".
(** 164-183 (getArtifactFromNode) *)
Definition artifact_step (t : triple) (a : Artifact) : res Artifact :=
  let v := n_id (t_obj t) in
  switch (t_pred t)
    [(RDF_TYPE, Ok a);
     (DOAP_HOMEPAGE, Ok (set_ar_HomePage v a));
     (DOAP_NAME, Ok (set_ar_Name v a))]
    (Err "error parsing artifactOf predicate").
Definition artifact_from_node (g : graph) (n : node) : res Artifact :=
  for_each artifact_step (triples_of g n)
    (match n_type n with NIri => set_ar_URI (n_id n) zero_Artifact | NOther _ => zero_Artifact end).

(** ** parse_package.go, the parts that do not recurse *)
(** 182-219 (getPackageExternalRef) *)
Definition external_ref_step (t : triple) (e : ExternalRef) : res ExternalRef :=
  let v := n_id (t_obj t) in
  switch (t_pred t)
    [(SPDX_REFERENCE_CATEGORY,
        switch v
          [(SPDX_REFERENCE_CATEGORY_SECURITY, Ok (set_er_Category "SECURITY" e));
           (SPDX_REFERENCE_CATEGORY_PACKAGE_MANAGER, Ok (set_er_Category "PACKAGE-MANAGER" e));
           (SPDX_REFERENCE_CATEGORY_OTHER, Ok (set_er_Category "OTHER" e))]
          (Err "unknown packageManager uri"));
     (RDF_TYPE, Ok e);
     (SPDX_REFERENCE_TYPE, Ok (set_er_RefType v e));
     (SPDX_REFERENCE_LOCATOR, Ok (set_er_Locator v e));
     (RDFS_COMMENT, Ok (set_er_Comment v e))]
    (Err "unknown package external reference predicate id").
Definition external_ref_from_node (g : graph) (n : node) : res ExternalRef :=
  for_each external_ref_step (triples_of g n) zero_ExternalRef.

(** strings.ReplaceAll(s, old, "") for a non-empty [old]: cut at every occurrence *)
Fixpoint remove_all_fuel (fuel : nat) (old s : string) : string :=
  match fuel with
  | O => s
  | S k => match cut old s with None => s | Some (x, y) => x ++ remove_all_fuel k old y end
  end.
Definition remove_all (old s : string) : string := remove_all_fuel (String.length s) old s.
(** 221-231 (getPrimaryPackagePurpose) *)
Definition primary_purpose (purpose : string) : string :=
  let value := to_upper (replace_byte "_" "-" (remove_all "packagePurpose_" purpose)) in
  if mem value ["APPLICATION"; "FRAMEWORK"; "LIBRARY"; "CONTAINER"; "OPERATING-SYSTEM"; "DEVICE";
                "FIRMWARE"; "SOURCE"; "ARCHIVE"; "FILE"; "INSTALL"; "OTHER"] then value else "".

(** 233-253 (setPackageVerificationCode): an existing code is extended *)
Definition verification_step (t : triple) (c : VerificationCode) : res VerificationCode :=
  let v := n_id (t_obj t) in
  switch (t_pred t)
    [(SPDX_PACKAGE_VERIFICATION_CODE_VALUE, Ok (set_vc_Value v c));
     (SPDX_PACKAGE_VERIFICATION_CODE_EXCLUDED_FILE, Ok (set_vc_ExcludedFiles (vc_ExcludedFiles c ++ [v])%list c));
     (RDF_TYPE, Ok c)]
    (Err "unparsed predicate").
Definition verification_from_node (g : graph) (n : node) (old : option VerificationCode) : res VerificationCode :=
  for_each verification_step (triples_of g n)
    (match old with Some c => c | None => zero_VerificationCode end).

(** 269-323 (setPackageSupplier, setPackageOriginator): type and name *)
Definition package_actor (value : string) : res (string * string) :=
  let value := trim_space value in
  if String.eqb (to_upper value) "NOASSERTION" then Ok ("", "NOASSERTION")
  else
    let* (k, x) := extract_subs_sep value ":" in
    if mem k ["Person"; "Organization"] then Ok (k, x) else Err "unknown supplier".

(** 326-339 (setDocumentLocationFromURI) *)
Definition location_from_uri (g : graph) (uri : string) : res string :=
  if String.eqb uri SPDX_NOASSERTION_CAPS || String.eqb uri SPDX_NOASSERTION_SMALL then Ok "NOASSERTION"
  else if String.eqb uri SPDX_NONE_CAPS || String.eqb uri SPDX_NONE_SMALL then Ok "NONE"
  else if g_valid_uri g uri then Ok uri else Err "not a valid uri".

(** 46-52: the package of the document with a given identifier *)
Fixpoint find_package (s : rstate) (id : string) (l : list nat) : option nat :=
  match l with
  | [] => None
  | a :: r => match nth_error (rs_pkgs s) a with
              | Some p => if String.eqb (p_SPDXIdentifier p) id then Some a else find_package s id r
              | None => find_package s id r
              end
  end.

(** ** The mutually recursive functions: parsing a file, a package, a relationship *)
Record parsers := MkParsers {
  go_file : node -> rstate -> res (nat * rstate);
  go_pkg : node -> rstate -> res (nat * rstate);
  go_rel : triple -> rstate -> res rstate
}.

(** parse_file.go 46-124: one triple of a file node; [a] is the file *)
Definition file_step (v : version) (g : graph) (rec : parsers) (a : nat) (t : triple) (s : rstate) : res rstate :=
  let o := t_obj t in
  let x := n_id o in
  switch (t_pred t)
    [(SPDX_FILE_NAME, on_file a (fun f => Ok (set_f_FileName x f)) s);
     (SPDX_NAME, Ok s);
     (RDF_TYPE, Ok s);
     (SPDX_FILE_TYPE,
        on_file a (fun f => let* ty := file_type_from_uri x in Ok (set_f_FileTypes (f_FileTypes f ++ [ty])%list f)) s);
     (SPDX_CHECKSUM,
        on_file a (fun f => let* c := element_checksum v g o in Ok (set_f_Checksums (f_Checksums f ++ [c])%list f)) s);
     (SPDX_LICENSE_CONCLUDED,
        let* (l, s1) := with_license g o s in
        on_file a (fun f => Ok (set_f_LicenseConcluded l f)) s1);
     (SPDX_LICENSE_INFO_IN_FILE,
        let* (l, s1) := with_license g o s in
        on_file a (fun f => Ok (set_f_LicenseInfoInFiles (f_LicenseInfoInFiles f ++ [l])%list f)) s1);
     (SPDX_LICENSE_COMMENTS, on_file a (fun f => Ok (set_f_LicenseComments x f)) s);
     (SPDX_COPYRIGHT_TEXT, on_file a (fun f => Ok (set_f_CopyrightText x f)) s);
     (SPDX_LICENSE_INFO_FROM_FILES, Ok s);
     (SPDX_ARTIFACT_OF,
        on_file a (fun f => let* r := artifact_from_node g o in Ok (set_f_Artifacts (f_Artifacts f ++ [r])%list f)) s);
     (RDFS_COMMENT, on_file a (fun f => Ok (set_f_Comment x f)) s);
     (SPDX_NOTICE_TEXT, on_file a (fun f => Ok (set_f_Notice (notice_text o) f)) s);
     (SPDX_FILE_CONTRIBUTOR, on_file a (fun f => Ok (set_f_Contributors (f_Contributors f ++ [x])%list f)) s);
     (SPDX_FILE_DEPENDENCY,
        let* (b, s1) := go_file rec o s in
        match nth_error (rs_files s1) b with
        | None => Panic
        | Some fb => on_file a (fun f => Ok (set_f_Dependencies (f_Dependencies f ++ [f_SPDXIdentifier fb])%list f)) s1
        end);
     (SPDX_ATTRIBUTION_TEXT, on_file a (fun f => Ok (set_f_AttributionTexts (f_AttributionTexts f ++ [x])%list f)) s);
     (SPDX_ANNOTATION, parse_annotation g o s);
     (SPDX_RELATIONSHIP, go_rel rec t s)]
    (Err "unknown triple predicate id").

(** parse_file.go 15-127 (getFileFromNode) *)
Definition file_body (v : version) (g : graph) (rec : parsers) (n : node) (s : rstate) : res (nat * rstate) :=
  if is_grey (rs_cache s) (n_id n) then
    match lookup (n_id n) (rs_cache s) with
    | Some (CFile a, _) => Ok (a, s)
    | _ => Panic                          (* currState.object.( *spdx.File ) *)
    end
  else
    let new := List.length (rs_files s) in
    let* id := file_identifier (n_id n) in
    let s1 := set_rs_cache (enter (n_id n) (CFile new) (rs_cache s))
                (set_rs_files (rs_files s ++ [set_f_SPDXIdentifier id zero_FileOf])%list s) in
    let a := match lookup id (rs_map s1) with Some b => b | None => new end in
    let* s2 := for_each (file_step v g rec a) (triples_of g n) s1 in
    match nth_error (rs_files s2) a with
    | None => Panic
    | Some f =>
        Ok (a, set_rs_cache (leave (n_id n) (rs_cache s2))
                 (set_rs_map (assign (f_SPDXIdentifier f) a (rs_map s2)) s2))
    end.

(** parse_package.go 55-170: one triple of a package node *)
Definition pkg_step (v : version) (g : graph) (rec : parsers) (a : nat) (t : triple) (s : rstate) : res rstate :=
  let o := t_obj t in
  let x := n_id o in
  switch (t_pred t)
    ([(RDF_TYPE, Ok s);
     (SPDX_NAME, on_pkg a (fun p => Ok (set_p_PackageName x p)) s);
     (SPDX_VERSION_INFO, on_pkg a (fun p => Ok (set_p_Version x p)) s);
     (SPDX_PACKAGE_FILE_NAME, on_pkg a (fun p => Ok (set_p_FileName x p)) s);
     (SPDX_SUPPLIER,
        on_pkg a (fun p => let* (k, y) := package_actor x in Ok (set_p_Supplier (Some (MkSupplier y k)) p)) s);
     (SPDX_ORIGINATOR,
        on_pkg a (fun p => let* (k, y) := package_actor x in Ok (set_p_Originator (Some (MkOriginator y k)) p)) s);
     (SPDX_DOWNLOAD_LOCATION,
        on_pkg a (fun p => let* l := location_from_uri g x in Ok (set_p_DownloadLocation l p)) s);
     (SPDX_FILES_ANALYZED,                 (* 343-347 (setFilesAnalyzed) *)
        on_pkg a (fun p => let* b := bool_from_string x in
                           Ok (set_p_FilesAnalyzed b (set_p_IsFilesAnalyzedTagPresent true p))) s);
     (SPDX_PACKAGE_VERIFICATION_CODE,
        on_pkg a (fun p => let* c := verification_from_node g o (p_VerificationCode p) in
                           Ok (set_p_VerificationCode (Some c) p)) s);
     (SPDX_CHECKSUM,
        on_pkg a (fun p => let* c := element_checksum v g o in Ok (set_p_Checksums (p_Checksums p ++ [c])%list p)) s);
     (DOAP_HOMEPAGE,
        if g_valid_uri g x then on_pkg a (fun p => Ok (set_p_HomePage x p)) s
        else Err "invalid uri while parsing doap_homepage in a package");
     (SPDX_SOURCE_INFO, on_pkg a (fun p => Ok (set_p_SourceInfo x p)) s);
     (SPDX_LICENSE_CONCLUDED,
        let* (l, s1) := with_license g o s in
        on_pkg a (fun p => Ok (set_p_LicenseConcluded l p)) s1);
     (SPDX_LICENSE_INFO_FROM_FILES,
        on_pkg a (fun p => Ok (set_p_LicenseInfoFromFiles (p_LicenseInfoFromFiles p ++ [license_string_from_uri x])%list p)) s);
     (SPDX_LICENSE_DECLARED,
        let* (l, s1) := with_license g o s in
        on_pkg a (fun p => Ok (set_p_LicenseDeclared l p)) s1);
     (SPDX_LICENSE_COMMENTS, on_pkg a (fun p => Ok (set_p_LicenseComments x p)) s);
     (SPDX_COPYRIGHT_TEXT, on_pkg a (fun p => Ok (set_p_CopyrightText x p)) s);
     (SPDX_SUMMARY, on_pkg a (fun p => Ok (set_p_Summary x p)) s);
     (SPDX_DESCRIPTION, on_pkg a (fun p => Ok (set_p_Description x p)) s);
     (RDFS_COMMENT, on_pkg a (fun p => Ok (set_p_Comment x p)) s);
     (SPDX_EXTERNAL_REF,
        on_pkg a (fun p => let* e := external_ref_from_node g o in
                           Ok (set_p_ExternalReferences (p_ExternalReferences p ++ [e])%list p)) s);
     (SPDX_HAS_FILE,                       (* with 257-263 (setFileToPackage) *)
        let* (b, s1) := go_file rec o s in
        match nth_error (rs_files s1) b with
        | None => Panic
        | Some fb =>
            let* s2 := on_pkg a (fun p => Ok (set_p_Files (p_Files p ++ [b])%list p)) s1 in
            Ok (set_rs_assoc (f_SPDXIdentifier fb :: rs_assoc s2) s2)
        end);
     (SPDX_RELATIONSHIP, go_rel rec t s);
     (SPDX_ATTRIBUTION_TEXT, on_pkg a (fun p => Ok (set_p_AttributionTexts (p_AttributionTexts p ++ [x])%list p)) s);
     (SPDX_ANNOTATION, parse_annotation g o s)]
    ++ match v with
       | V23 =>
         [(SPDX_PRIMARY_PACKAGE_PURPOSE, on_pkg a (fun p => Ok (set_p_PrimaryPackagePurpose (primary_purpose x) p)) s);
          (SPDX_RELEASE_DATE, on_pkg a (fun p => Ok (set_p_ReleaseDate x p)) s);
          (SPDX_BUILT_DATE, on_pkg a (fun p => Ok (set_p_BuiltDate x p)) s);
          (SPDX_VALID_UNTIL_DATE, on_pkg a (fun p => Ok (set_p_ValidUntilDate x p)) s)]
       | _ => []                           (* unknown to v2_2 *)
       end)%list
    (Err "unknown predicate id while parsing a package").

(** parse_package.go 14-179 (getPackageFromNode).  At the end an existing package
    is stored back into the slot it was found in, which holds it already. *)
Definition pkg_body (v : version) (g : graph) (rec : parsers) (n : node) (s : rstate) : res (nat * rstate) :=
  if is_grey (rs_cache s) (n_id n) then
    match lookup (n_id n) (rs_cache s) with
    | Some (CPackage a, _) => Ok (a, s)
    | _ => Panic                          (* currState.object.( *spdx.Package ) *)
    end
  else
    let new := List.length (rs_pkgs s) in
    let* id := extract_element_id (last_part (n_id n)) in
    let s1 := set_rs_cache (enter (n_id n) (CPackage new) (rs_cache s))
                (set_rs_pkgs (rs_pkgs s ++ [set_p_SPDXIdentifier id zero_PackageOf])%list s) in
    let existing := find_package s1 id (d_Packages (rs_doc s1)) in
    let a := match existing with Some b => b | None => new end in
    let* s2 := for_each (pkg_step v g rec a) (triples_of g n) s1 in
    let s3 := match existing with
              | Some _ => s2
              | None => on_doc (fun d => set_d_Packages (d_Packages d ++ [a])%list d) s2
              end in
    Ok (a, set_rs_cache (leave (n_id n) (rs_cache s3)) s3).

(** parse_relationship.go 90-125 (parseRelatedElementFromTriple) *)
Definition related_element (rec : parsers) (t : triple) (r : Relationship) (s : rstate) : res (Relationship * rstate) :=
  let ty := n_id (t_obj t) in
  if String.eqb ty SPDX_FILE then
    let* (b, s1) := go_file rec (t_subj t) s in
    match nth_error (rs_files s1) b with
    | None => Panic
    | Some f => Ok (set_r_RefB (MkDEID "" (f_SPDXIdentifier f) "") r, s1)
    end
  else if String.eqb ty SPDX_PACKAGE then
    let* (b, s1) := go_pkg rec (t_subj t) s in
    match nth_error (rs_pkgs s1) b with
    | None => Panic
    | Some p => Ok (set_r_RefB (MkDEID "" (p_SPDXIdentifier p) "") r, s1)
    end
  else if String.eqb ty SPDX_SPDX_ELEMENT then
    let* d := extract_doc_element_id (last_part (n_id (t_subj t))) in
    Ok (set_r_RefB d r, s)
  else Err "undefined relatedElement found while parsing relationship".

(** parse_relationship.go 48-85: one triple of a relationship node *)
Definition rel_step (g : graph) (rec : parsers) (t : triple) (rs : Relationship * rstate) : res (Relationship * rstate) :=
  let (r, s) := rs in
  let o := t_obj t in
  switch (t_pred t)
    [(SPDX_RELATIONSHIP_TYPE, let* ty := relationship_type_from_uri (n_id o) in Ok (set_r_Relationship ty r, s));
     (RDF_TYPE, Ok (r, s));
     (SPDX_RELATED_SPDX_ELEMENT,
        let* d := reference_from_uri (n_id o) in
        let r1 := set_r_RefB d r in
        match triples_of g o with
        | [] => Ok (r1, s)
        | ts => match select (n_id o) RDF_TYPE ts with
                | [ty] => related_element rec ty r1 s
                | _ => Err "expected to have exactly one rdf:type triple"
                end
        end);
     (RDFS_COMMENT, Ok (set_r_Comment (n_id o) r, s))]
    (Err "unexpected predicate id").

(** parse_relationship.go 19-88 (parseRelationship) *)
Definition rel_body (g : graph) (rec : parsers) (t : triple) (s : rstate) : res rstate :=
  let* ra := reference_from_uri (n_id (t_subj t)) in
  let id := n_id (t_obj t) in
  if is_grey (rs_cache s) id then Ok s
  else
    let s1 := set_rs_cache (enter id CRelationship (rs_cache s)) s in
    let* (r, s2) := for_each (rel_step g rec) (triples_of g (t_obj t)) (set_r_RefA ra zero_Relationship, s1) in
    let s3 := on_doc (fun d => set_d_Relationships (d_Relationships d ++ [r])%list d) s2 in
    Ok (set_rs_cache (leave id (rs_cache s3)) s3).

(** the recursion, bounded by [fuel] *)
Fixpoint go (v : version) (g : graph) (fuel : nat) : parsers :=
  match fuel with
  | O => MkParsers (fun _ _ => Err out_of_fuel) (fun _ _ => Err out_of_fuel) (fun _ _ => Err out_of_fuel)
  | S k => let rec := go v g k in
           MkParsers (file_body v g rec) (pkg_body v g rec) (rel_body g rec)
  end.
Definition get_file (v : version) (g : graph) := go_file (go v g (enough g)).
Definition get_package (v : version) (g : graph) := go_pkg (go v g (enough g)).
Definition parse_relationship (v : version) (g : graph) := go_rel (go v g (enough g)).

(** ** parse_snippet_info.go *)
Inductive range_type := ByteRange | LineRange.
(** 177-190 (parseRangeReference) *)
Definition range_reference (v : version) (g : graph) (n : node) (s : rstate) : res rstate :=
  match triples_with_id g (n_id n) with
  | [] => Ok s
  | _ => let* (_, s1) := get_file v g n s in Ok s1
  end.
(** 152-175 (getPointerFromNode); the range type "" is [None] *)
Definition pointer_step (v : version) (g : graph) (t : triple)
    (x : option range_type * Z * rstate) : res (option range_type * Z * rstate) :=
  let '(rt, k, s) := x in
  let o := t_obj t in
  switch (t_pred t)
    [(RDF_TYPE, Ok x);
     (PTR_REFERENCE, let* s1 := range_reference v g o s in Ok (rt, k, s1));
     (PTR_OFFSET, let* z := atoi (n_id o) in Ok (Some ByteRange, z, s));
     (PTR_LINE_NUMBER, let* z := atoi (n_id o) in Ok (Some LineRange, z, s))]
    (Err "undefined predicate for a pointer").
Definition pointer_from_node (v : version) (g : graph) (n : node) (s : rstate) : res (range_type * Z * rstate) :=
  let* x := for_each (pointer_step v g) (triples_of g n) (None, 0%Z, s) in
  let '(rt, k, s1) := x in
  match rt with
  | None => Err "range type not defined for a pointer"
  | Some r => Ok (r, k, s1)
  end.
(** 93-150 (setSnippetRangeFromNode) *)
Definition range_from_node (v : version) (g : graph) (n : node) (from_file : string) (s : rstate)
    : res (SnippetRange * rstate) :=
  let ts := triples_of g n in
  if negb (Nat.eqb (List.length ts) 3) then Err "range should be associated with exactly 3 triples"
  else if negb (Nat.eqb (List.length (select (n_id n) RDF_TYPE ts)) 1)
  then Err "every object node must be associated with exactly one rdf:type triple"
  else
    match select (n_id n) PTR_START_POINTER ts with
    | [ta] =>
        let* (rta, a, s1) := pointer_from_node v g (t_obj ta) s in
        match select (n_id n) PTR_END_POINTER ts with
        | [tb] =>
            let* (rtb, b, s2) := pointer_from_node v g (t_obj tb) s1 in
            match rta, rtb with
            | LineRange, LineRange => Ok (MkRange (MkRP 0 a from_file) (MkRP 0 b from_file), s2)
            | ByteRange, ByteRange => Ok (MkRange (MkRP a 0 from_file) (MkRP b 0 from_file), s2)
            | _, _ => Err "start and end range type doesn't match"
            end
        | _ => Err "range object must be associated with exactly 1 endPointer"
        end
    | _ => Err "range object must be associated with exactly 1 startPointer"
    end.
(** 25-72: one triple of a snippet node.  In v2_3 the error of
    ExtractDocElementID is assigned to a shadowed variable and lost; the v2_2
    reader returns it. *)
Definition snippet_step (v : version) (g : graph) (t : triple) (x : Snippet * rstate) : res (Snippet * rstate) :=
  let (si, s) := x in
  let o := t_obj t in
  let w := n_id o in
  switch (t_pred t)
    [(RDF_TYPE, Ok x);
     (SPDX_SNIPPET_FROM_FILE,
        let* (_, s1) := get_file v g o s in
        match extract_doc_element_id (last_part w) with
        | Ok d => Ok (set_s_FromFile (de_ElementRefID d) si, s1)
        | Err e => match v with V23 => Ok (set_s_FromFile "" si, s1) | _ => Err e end
        | Panic => Panic
        end);
     (SPDX_RANGE,
        let* (r, s1) := range_from_node v g o (s_FromFile si) s in
        Ok (set_s_Ranges [r] si, s1));
     (SPDX_LICENSE_INFO_IN_SNIPPET,
        let* (l, s1) := with_license g o s in
        Ok (set_s_LicenseInfoInSnippet (s_LicenseInfoInSnippet si ++ [l])%list si, s1));
     (SPDX_NAME, Ok (set_s_Name w si, s));
     (SPDX_COPYRIGHT_TEXT, Ok (set_s_CopyrightText w si, s));
     (SPDX_LICENSE_COMMENTS, Ok (set_s_LicenseComments w si, s));
     (RDFS_COMMENT, Ok (set_s_Comment w si, s));
     (SPDX_LICENSE_CONCLUDED,
        let* (l, s1) := with_license g o s in
        Ok (set_s_LicenseConcluded l si, s1))]
    (Err "unknown predicate").
(** 17-74 and 192-199 (getSnippetInformationFromNode2_3, setSnippetID) *)
Definition snippet_from_node (v : version) (g : graph) (n : node) (s : rstate) : res (Snippet * rstate) :=
  let* id := extract_element_id (last_part (n_id n)) in
  for_each (snippet_step v g) (triples_of g n) (set_s_SPDXIdentifier id zero_Snippet, s).
(** 77-91 (setSnippetToFileWithID) *)
Definition set_snippet_to_file (si : Snippet) (s : rstate) : res rstate :=
  match lookup (s_FromFile si) (rs_map s) with
  | None => Err "snippet refers to an undefined file"
  | Some a => on_file a (fun f => Ok (set_f_Snippets (map_put (s_SPDXIdentifier si) si (f_Snippets f)) f)) s
  end.

(** ** parse_spdx_document.go *)
(** 94-120 (getExternalDocumentRefFromNode) *)
Definition external_document_step (g : graph) (t : triple) (e : ExternalDocumentRef) : res ExternalDocumentRef :=
  let v := n_id (t_obj t) in
  switch (t_pred t)
    [(SPDX_EXTERNAL_DOCUMENT_ID, Ok (set_edr_DocumentRefID v e));
     (SPDX_SPDX_DOCUMENT, Ok (set_edr_URI v e));
     (SPDX_CHECKSUM, let* c := checksum_from_node g (t_obj t) in Ok (set_edr_Checksum c e));
     (RDF_TYPE, Ok e)]
    (Err "unknown predicate ID while parsing externalDocumentReference").
Definition external_document_from_node (g : graph) (n : node) : res ExternalDocumentRef :=
  for_each (external_document_step g) (triples_of g n) zero_ExternalDocumentRef.

(** 27-90: one triple of the document node *)
Definition document_step (v : version) (g : graph) (t : triple) (s : rstate) : res rstate :=
  let o := t_obj t in
  let x := n_id o in
  switch (t_pred t)
    [(RDF_TYPE, Ok s);
     (SPDX_SPEC_VERSION, Ok (on_doc (set_d_SPDXVersion x) s));
     (SPDX_DATA_LICENSE,
        let* (l, s1) := with_license g o s in Ok (on_doc (set_d_DataLicense l) s1));
     (SPDX_NAME, Ok (on_doc (set_d_DocumentName x) s));
     (SPDX_EXTERNAL_DOCUMENT_REF,
        let* e := external_document_from_node g o in
        Ok (on_doc (fun d => set_d_ExternalDocumentReferences (d_ExternalDocumentReferences d ++ [e])%list d) s));
     (SPDX_CREATION_INFO,
        match d_CreationInfo (rs_doc s) with
        | None => Panic
        | Some c => let* c' := for_each creation_info_step (triples_of g o) c in
                    Ok (on_doc (set_d_CreationInfo (Some c')) s)
        end);
     (RDFS_COMMENT, Ok (on_doc (set_d_DocumentComment x) s));
     (SPDX_REVIEWED,
        let* r := review_from_node g o in
        Ok (on_doc (fun d => set_d_Reviews (d_Reviews d ++ [r])%list d) s));
     (SPDX_DESCRIBES_PACKAGE,
        let* (a, s1) := get_package v g o s in
        Ok (on_doc (fun d => set_d_Packages (d_Packages d ++ [a])%list d) s1));
     (SPDX_HAS_EXTRACTED_LICENSING_INFO,
        let* (l, text) := extracted_from_node g o in
        Ok (on_doc (fun d => set_d_OtherLicenses (d_OtherLicenses d ++ [other_license l text])%list d) s));
     (SPDX_RELATIONSHIP, parse_relationship v g t s);
     (SPDX_ANNOTATION, parse_annotation g o s)]
    (Err "invalid predicate while parsing SpdxDocument").
(** 13-92 (parseSpdxDocumentNode) *)
Definition parse_document_node (v : version) (g : graph) (n : node) (s : rstate) : res rstate :=
  let* (base, offset) := extract_subs_sep (n_id n) "#" in
  for_each (document_step v g) (triples_of g n)
    (on_doc (fun d => set_d_SPDXIdentifier offset (set_d_DocumentNamespace base d)) s).

(** ** parser.go *)
(** 93-133 (getSpdxDocNode): one root node *)
Definition doc_node_step (g : graph) (root : node) (found : option node) : res (option node) :=
  let ts := select (n_id root) RDF_TYPE (triples_of g root) in
  match ts with
  | [] => Panic                            (* typeTriples[0] *)
  | t :: _ =>
      if String.eqb (n_id (t_obj t)) SPDX_SPDX_DOCUMENT_CAPITALIZED then
        if negb (Nat.eqb (List.length ts) 1) then Err "rootNode must be associated with exactly one triple of predicate rdf:type"
        else match found with
             | Some m => if String.eqb (n_id m) (n_id (t_subj t)) then Ok (Some (t_subj t))
                         else Err "found more than one SpdxDocument Node"
             | None => Ok (Some (t_subj t))
             end
      else Ok found
  end.
Definition get_doc_node (g : graph) : res node :=
  let* found := for_each (doc_node_step g) (g_roots g) None in
  match found with
  | None => Err "RDF files must be associated with a SpdxDocument tag. No tag found"
  | Some n => Ok n
  end.

(** 56-82: one of the other root elements *)
Definition root_step (v : version) (g : graph) (root : node) (s : rstate) : res rstate :=
  match select (n_id root) RDF_TYPE (g_triples g) with
  | [t] =>
      if String.eqb (n_id (t_obj t)) SPDX_SPDX_DOCUMENT_CAPITALIZED then Ok s
      else if String.eqb (n_id (t_obj t)) SPDX_SNIPPET then
        let* (si, s1) := snippet_from_node v g (t_subj t) s in
        set_snippet_to_file si s1
      else Ok s
  | _ => Err "every node must be associated with exactly 1 type Triple"
  end.

(** parse_file.go 198-204 (setUnpackagedFiles): Go iterates over the files map in
    an arbitrary order, here given by [iter] *)
Definition unpackaged (iter : list (string * nat) -> list (string * nat)) (s : rstate) : list nat :=
  map snd (filter (fun kv => negb (mem (fst kv) (rs_assoc s))) (iter (rs_map s))).

(** 39-89 (LoadFromGoRDFParser): the final state, document in it *)
Definition load_state (v : version) (g : graph) (iter : list (string * nat) -> list (string * nat)) : res rstate :=
  let* n := get_doc_node g in
  let* s1 := parse_document_node v g n init_state in
  let* s2 := for_each (root_step v g) (g_roots g) s1 in
  Ok (on_doc (fun d => set_d_Files (d_Files d ++ unpackaged iter s2)%list d) s2).

(** dereferencing the pointers of the final document *)
Definition deref_files (s : rstate) (l : list nat) : list File :=
  flat_map (fun a => match nth_error (rs_files s) a with Some f => [f] | None => [] end) l.
Definition deref_pkg (s : rstate) (p : PackageArena) : Package :=
  MkPackage (p_IsUnpackaged p) (p_PackageName p) (p_SPDXIdentifier p) (p_Version p) (p_FileName p)
    (p_Supplier p) (p_Originator p) (p_DownloadLocation p) (p_FilesAnalyzed p)
    (p_IsFilesAnalyzedTagPresent p) (p_VerificationCode p) (p_Checksums p) (p_HomePage p)
    (p_SourceInfo p) (p_LicenseConcluded p) (p_LicenseInfoFromFiles p) (p_LicenseDeclared p)
    (p_LicenseComments p) (p_CopyrightText p) (p_Summary p) (p_Description p) (p_Comment p)
    (p_ExternalReferences p) (p_AttributionTexts p) (p_PrimaryPackagePurpose p) (p_ReleaseDate p)
    (p_BuiltDate p) (p_ValidUntilDate p) (deref_files s (p_Files p)) (p_Annotations p).
Definition deref_pkgs (s : rstate) (l : list nat) : list Package :=
  flat_map (fun a => match nth_error (rs_pkgs s) a with Some p => [deref_pkg s p] | None => [] end) l.
Definition deref_doc (s : rstate) : Document :=
  let d := rs_doc s in
  MkDoc (d_SPDXVersion d) (d_DataLicense d) (d_SPDXIdentifier d) (d_DocumentName d)
    (d_DocumentNamespace d) (d_ExternalDocumentReferences d) (d_DocumentComment d) (d_CreationInfo d)
    (deref_pkgs s (d_Packages d)) (deref_files s (d_Files d)) (d_OtherLicenses d) (d_Relationships d)
    (d_Annotations d) (d_Snippets d) (d_Reviews d).
Definition load (v : version) (g : graph) (iter : list (string * nat) -> list (string * nat)) : res Document :=
  let* s := load_state v g iter in Ok (deref_doc s).

(** ** /repo/rdf/reader.go *)
(** 62-74 (getSpdxVersion) *)
Fixpoint spec_version (ts : list triple) : string :=
  match ts with
  | [] => ""
  | t :: r => if String.eqb (t_pred t) "http://spdx.org/rdf/terms#specVersion" then n_id (t_obj t) else spec_version r
  end.
(** 31-60 (ReadInto) after the RDF/XML parser and before the conversion to the
    caller's document type *)
Definition rdf_read (g : graph) (iter : list (string * nat) -> list (string * nat)) : res (version * Document) :=
  let sv := spec_version (g_triples g) in
  if String.eqb sv "" then Err "unable to determine version from RDF document"
  else if String.eqb sv "SPDX-2.2" then let* d := load V22 g iter in Ok (V22, d)
  else if String.eqb sv "SPDX-2.3" then let* d := load V23 g iter in Ok (V23, d)
  else Err "unsupported SPDX version".
