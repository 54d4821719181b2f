(** * RDF reader, part 1: graph, value helpers, license nodes.
    /repo/spdx/v2/v2_3/rdf/reader (files cited below relative to it; the v2_2
    reader is the same code except where noted).

    The RDF/XML parser and the graph utilities are the external library gordf.
    The model starts from its result: the list of triples, the list of root
    nodes (GetRootNodes) and the URI check (urilib.NewURIRef), all three taken
    as given and unconstrained. *)
From Verif Require Import GoStr Types TvUtil RdfConst.

(** gordf parser.Node: a type and an ID; only the type IRI is ever inspected
    here (parse_file.go 167). *)
Inductive node_type := NIri | NOther (t : string).
Record node := MkNode { n_type : node_type; n_id : string }.
(** gordf parser.Triple; of the predicate only the ID is used. *)
Record triple := MkTriple { t_subj : node; t_pred : string; t_obj : node }.
Record graph := MkGraph {
  g_triples : list triple;          (* gordfParser.Parser.Triples *)
  g_roots : list node;              (* gordfWriter.GetRootNodes(triples) *)
  g_valid_uri : string -> bool      (* urilib.NewURIRef(uri) has no error *)
}.
Definition same_type (a b : node_type) : bool :=
  match a, b with
  | NIri, NIri => true
  | NOther x, NOther y => String.eqb x y
  | _, _ => false
  end.
Definition same_node (a b : node) : bool := same_type (n_type a) (n_type b) && String.eqb (n_id a) (n_id b).

(** utils.go 47-52 (nodeToTriples) on the map of gordf's GetNodeToTriples, whose
    key Node.String() shows type and ID *)
Definition triples_of (g : graph) (n : node) : list triple :=
  filter (fun t => same_node (t_subj t) n) (g_triples g).
(** gordf FilterTriples(Triples, &id, nil, nil) *)
Definition with_subject (id : string) (ts : list triple) : list triple :=
  filter (fun t => String.eqb (n_id (t_subj t)) id) ts.
Definition triples_with_id (g : graph) (id : string) : list triple := with_subject id (g_triples g).
(** gordf FilterTriples(ts, &id, &pred, nil) *)
Definition select (id pred : string) (ts : list triple) : list triple :=
  filter (fun t => String.eqb (t_pred t) pred) (with_subject id ts).

(** [for _, t := range ts { s, err = f(t, s) }] with return on error *)
Fixpoint for_each {A S} (f : A -> S -> res S) (l : list A) (s : S) : res S :=
  match l with
  | [] => Ok s
  | x :: r => let* s' := f x s in for_each f r s'
  end.

(** ** utils.go *)
(** utils.go 17-24 (getLastPartOfURI) *)
Definition last_part (uri : string) : string :=
  if contains "#" uri then last (split_on "#" uri) "" else last (split_on "/" uri) "".

(** utils.go 31-45 (getNodeTypeFromTriples), node not nil *)
Definition node_type_of (ts : list triple) (n : node) : res string :=
  match select (n_id n) RDF_TYPE ts with
  | [] => Err "node not associated with any type triple"
  | [t] => Ok (n_id (t_obj t))
  | _ => Err "node is associated with more than one type triples"
  end.

(** utils.go 56-65 (boolFromString) *)
Definition bool_from_string (s : string) : res bool :=
  if String.eqb (to_lower s) "true" then Ok true
  else if String.eqb (to_lower s) "false" then Ok false
  else Err "boolean string can be either true/false".

(** utils.go 71-112 (ExtractDocElementID) and 117-136 (ExtractElementID) are the
    functions of the tag-value reader: [extract_doc_element_id] and
    [extract_element_id] of TvUtil.  utils.go 140-155 (ExtractSubs) *)
Definition extract_subs_sep (value sep : string) : res (string * string) :=
  match cut sep value with
  | None => Err "invalid subvalue format"
  | Some (k, v) => Ok (trim_space k, trim_space v)
  end.

(** ** license_utils.go *)
(** license_utils.go 18-25 (getLicenseStringFromURI) *)
Definition license_string_from_uri (uri : string) : string :=
  let e := trim_space (last_part uri) in
  let l := to_lower e in
  if String.eqb l "none" || String.eqb l "noassertion" then to_upper e else e.

(** license_utils.go 53-69 (getAlgorithmFromURI) *)
Definition algorithm_from_uri (uri : string) : res string :=
  let fragment := last_part uri in
  if negb (has_prefix "checksumAlgorithm_" fragment) then Err "checksum algorithm uri must begin with checksumAlgorithm_"
  else
    let a := to_lower (trim_space (trim_prefix "checksumAlgorithm_" fragment)) in
    if mem a ["md2"; "md4"; "md5"; "md6"; "sha1"; "sha224"; "sha256"; "sha384"; "sha512"]
    then Ok (to_upper a) else Err "unknown checksum algorithm".

(** license_utils.go 30-51 (getChecksumFromNode): one triple, then the loop *)
Definition checksum_step (t : triple) (s : Checksum) : res Checksum :=
  switch (t_pred t)
    [(RDF_TYPE, Ok s);
     (SPDX_CHECKSUM_VALUE, Ok (set_ck_Value (trim_space (n_id (t_obj t))) s));
     (SPDX_ALGORITHM, let* a := algorithm_from_uri (n_id (t_obj t)) in Ok (set_ck_Algorithm a s))]
    (Err "unknown predicate while parsing checksum node").
Definition checksum_from_node (g : graph) (n : node) : res Checksum :=
  for_each checksum_step (triples_of g n) zero_Checksum.

(** ** Licenses: types.go 43-116 *)
Record simple := MkSimple {
  sl_comment : string; sl_licenseID : string; sl_name : string;
  sl_seeAlso : list string; sl_example : string
}.
Definition zero_simple : simple := MkSimple "" "" "" [] "".
Record license_info := MkLicenseInfo {
  li_isOsiApproved : bool; li_licenseText : string; li_header : string;
  li_template : string; li_headerTemplate : string; li_isDeprecated : bool; li_isFsfLibre : bool
}.
Definition zero_license_info : license_info := MkLicenseInfo false "" "" "" "" false false.
Record exception := MkException {
  ex_id : string; ex_text : string; ex_seeAlso : string;
  ex_name : string; ex_example : string; ex_comment : string
}.
Definition zero_exception : exception := MkException "" "" "" "" "" "".
(** the implementations of AnyLicenseInfo that the reader creates *)
Inductive license :=
| LSpecial (value : string)
| LSimple (s : simple)
| LExtracted (s : simple) (text : string)
| LLicense (s : simple) (i : license_info)
| LOrLater (member : simple)
| LWithException (member : simple) (e : exception)
| LConjunctive (members : list license)
| LDisjunctive (members : list license).

(** license_utils.go 73-119: the ToLicenseString methods (and mapLicensesToStrings) *)
Fixpoint license_string (l : license) : string :=
  match l with
  | LSpecial v => v
  | LSimple s => sl_licenseID s
  | LExtracted s _ => sl_licenseID s
  | LLicense s _ => sl_licenseID s
  | LOrLater s => sl_licenseID s
  | LWithException s _ => sl_licenseID s
  | LConjunctive ms => join " AND " (map license_string ms)
  | LDisjunctive ms => join " OR " (map license_string ms)
  end.

(** parse_license.go 228-251 (getSimpleLicensingInfoFromTriples) *)
Definition simple_step (g : graph) (t : triple) (s : simple) : res simple :=
  let v := n_id (t_obj t) in
  switch (t_pred t)
    [(RDFS_COMMENT, Ok (MkSimple v (sl_licenseID s) (sl_name s) (sl_seeAlso s) (sl_example s)));
     (SPDX_LICENSE_ID, Ok (MkSimple (sl_comment s) v (sl_name s) (sl_seeAlso s) (sl_example s)));
     (SPDX_NAME, Ok (MkSimple (sl_comment s) (sl_licenseID s) v (sl_seeAlso s) (sl_example s)));
     (RDFS_SEE_ALSO,
        if g_valid_uri g v
        then Ok (MkSimple (sl_comment s) (sl_licenseID s) (sl_name s) (sl_seeAlso s ++ [v])%list (sl_example s))
        else Err "not a valid uri for seeAlso attribute of a License");
     (SPDX_EXAMPLE, Ok (MkSimple (sl_comment s) (sl_licenseID s) (sl_name s) (sl_seeAlso s) v));
     (RDF_TYPE, Ok s)]
    (Err "unknown predicate for simple licensing info").
Definition simple_from_triples (g : graph) (ts : list triple) : res simple :=
  for_each (simple_step g) ts zero_simple.
(** parse_license.go 102-105 (getSimpleLicensingInfoFromNode) *)
Definition simple_from_node (g : graph) (n : node) : res simple :=
  simple_from_triples g (triples_with_id g (n_id n)).

(** parse_other_license_info.go 13-29 (getExtractedLicensingInfoFromNode): the
    extracted text is taken out first, the other triples are read as simple
    licensing information *)
Definition text_of (ts : list triple) : string :=
  fold_left (fun x t => if String.eqb (t_pred t) SPDX_EXTRACTED_TEXT then n_id (t_obj t) else x) ts "".
Definition extracted_from_node (g : graph) (n : node) : res (simple * string) :=
  let ts := triples_with_id g (n_id n) in
  let* s := simple_from_triples g
              (filter (fun t => negb (String.eqb (t_pred t) SPDX_EXTRACTED_TEXT)) ts) in
  Ok (s, text_of ts).

(** parse_other_license_info.go 31-38 (extractedLicenseToOtherLicense) *)
Definition other_license (s : simple) (text : string) : OtherLicense :=
  MkOL (sl_licenseID s) text (sl_name s) (sl_seeAlso s) (sl_comment s).

(** parse_license.go 253-291 (getLicenseFromNode): the loop collects the rest *)
Definition license_step (t : triple) (s : license_info * list triple) : res (license_info * list triple) :=
  let (i, rest) := s in
  let v := n_id (t_obj t) in
  switch (t_pred t)
    [(SPDX_IS_OSI_APPROVED,
        let* b := bool_from_string v in
        Ok (MkLicenseInfo b (li_licenseText i) (li_header i) (li_template i) (li_headerTemplate i) (li_isDeprecated i) (li_isFsfLibre i), rest));
     (SPDX_LICENSE_TEXT,
        Ok (MkLicenseInfo (li_isOsiApproved i) v (li_header i) (li_template i) (li_headerTemplate i) (li_isDeprecated i) (li_isFsfLibre i), rest));
     (SPDX_STANDARD_LICENSE_HEADER,
        Ok (MkLicenseInfo (li_isOsiApproved i) (li_licenseText i) v (li_template i) (li_headerTemplate i) (li_isDeprecated i) (li_isFsfLibre i), rest));
     (SPDX_STANDARD_LICENSE_TEMPLATE,
        Ok (MkLicenseInfo (li_isOsiApproved i) (li_licenseText i) (li_header i) v (li_headerTemplate i) (li_isDeprecated i) (li_isFsfLibre i), rest));
     (SPDX_STANDARD_LICENSE_HEADER_TEMPLATE,
        Ok (MkLicenseInfo (li_isOsiApproved i) (li_licenseText i) (li_header i) (li_template i) v (li_isDeprecated i) (li_isFsfLibre i), rest));
     (SPDX_IS_DEPRECATED_LICENSE_ID,
        let* b := bool_from_string v in
        Ok (MkLicenseInfo (li_isOsiApproved i) (li_licenseText i) (li_header i) (li_template i) (li_headerTemplate i) b (li_isFsfLibre i), rest));
     (SPDX_IS_FSF_LIBRE,
        let* b := bool_from_string v in
        Ok (MkLicenseInfo (li_isOsiApproved i) (li_licenseText i) (li_header i) (li_template i) (li_headerTemplate i) (li_isDeprecated i) b, rest))]
    (Ok (i, (rest ++ [t])%list)).
Definition license_from_node (g : graph) (n : node) : res (simple * license_info) :=
  let* (i, rest) := for_each license_step (triples_with_id g (n_id n)) (zero_license_info, []) in
  let* s := simple_from_triples g rest in
  Ok (s, i).

(** parse_license.go 73-100 (getLicenseExceptionFromNode) *)
Definition exception_step (g : graph) (t : triple) (e : exception) : res exception :=
  let v := n_id (t_obj t) in
  switch (t_pred t)
    [(RDF_TYPE, Ok e);
     (SPDX_LICENSE_EXCEPTION_ID, Ok (MkException v (ex_text e) (ex_seeAlso e) (ex_name e) (ex_example e) (ex_comment e)));
     (SPDX_LICENSE_EXCEPTION_TEXT, Ok (MkException (ex_id e) v (ex_seeAlso e) (ex_name e) (ex_example e) (ex_comment e)));
     (RDFS_SEE_ALSO,
        if g_valid_uri g v
        then Ok (MkException (ex_id e) (ex_text e) v (ex_name e) (ex_example e) (ex_comment e))
        else Err "invalid uri for seeAlso attribute of LicenseException");
     (SPDX_NAME, Ok (MkException (ex_id e) (ex_text e) (ex_seeAlso e) v (ex_example e) (ex_comment e)));
     (SPDX_EXAMPLE, Ok (MkException (ex_id e) (ex_text e) (ex_seeAlso e) (ex_name e) v (ex_comment e)));
     (RDFS_COMMENT, Ok (MkException (ex_id e) (ex_text e) (ex_seeAlso e) (ex_name e) (ex_example e) v))]
    (Err "invalid predicate for LicenseException").
Definition exception_from_node (g : graph) (n : node) : res exception :=
  for_each (exception_step g) (triples_with_id g (n_id n)) zero_exception.

(** parse_license.go 107-135 (getWithExceptionOperatorFromNode) *)
Definition with_exception_step (g : graph) (t : triple) (s : bool * simple * exception) : res (bool * simple * exception) :=
  let '(found, m, e) := s in
  switch (t_pred t)
    [(RDF_TYPE, Ok s);
     (SPDX_MEMBER,
        if found then Err "more than one member found in the WithExceptionOperator"
        else let* m' := simple_from_node g (t_obj t) in Ok (true, m', e));
     (SPDX_LICENSE_EXCEPTION, let* e' := exception_from_node g (t_obj t) in Ok (found, m, e'))]
    (Err "unknown predicate for a WithExceptionOperator").
Definition with_exception_from_node (g : graph) (n : node) : res (simple * exception) :=
  let* s := for_each (with_exception_step g) (triples_with_id g (n_id n)) (false, zero_simple, zero_exception) in
  let '(_, m, e) := s in Ok (m, e).

(** parse_license.go 137-157 (getOrLaterOperatorFromNode) *)
Definition or_later_step (g : graph) (t : triple) (m : simple) : res simple :=
  switch (t_pred t)
    [(RDF_TYPE, Ok m); (SPDX_MEMBER, simple_from_node g (t_obj t))]
    (Err "unknown predicate").
Definition or_later_from_node (g : graph) (n : node) : res simple :=
  let ts := triples_with_id g (n_id n) in
  if negb (Nat.eqb (List.length ts) 2) then Err "orLaterOperator must be associated with exactly one tag"
  else for_each (or_later_step g) ts zero_simple.

(** parse_license.go 162-186 (getSpecialLicenseFromNode) *)
Definition special_license (n : node) : res string :=
  let uri := trim_space (n_id n) in
  if String.eqb uri SPDX_NONE_CAPS || String.eqb uri SPDX_NONE_SMALL then Ok "NONE"
  else if String.eqb uri SPDX_NOASSERTION_SMALL || String.eqb uri SPDX_NOASSERTION_CAPS then Ok "NOASSERTION"
  else if mem (last_part uri) all_standard_license_ids then Ok (last_part uri)
  else Err "found a custom license uri without any associated fields".

(** ** The cache: types.go 24-40.  One entry per node ID: the object stored when
    the entry was created and a colour.  WHITE is left at once for GREY in the
    same function, so only GREY and BLACK are kept. *)
Inductive color := GREY | BLACK.
Inductive cached := CNil | CFile (a : nat) | CPackage (a : nat) | CRelationship.
Definition cache := list (string * (cached * color)).
Fixpoint lookup {A} (k : string) (m : list (string * A)) : option A :=
  match m with
  | [] => None
  | (k', x) :: r => if String.eqb k k' then Some x else lookup k r
  end.
Fixpoint assign {A} (k : string) (x : A) (m : list (string * A)) : list (string * A) :=
  match m with
  | [] => [(k, x)]
  | (k', y) :: r => if String.eqb k k' then (k, x) :: r else (k', y) :: assign k x r
  end.
Definition is_grey (c : cache) (id : string) : bool :=
  match lookup id c with Some (_, GREY) => true | _ => false end.
(** the entry is created with [obj], or keeps its object; the colour becomes GREY *)
Definition enter (id : string) (obj : cached) (c : cache) : cache :=
  match lookup id c with
  | None => assign id (obj, GREY) c
  | Some (o, _) => assign id (o, GREY) c
  end.
(** the deferred [cache[id].Color = BLACK] *)
Definition leave (id : string) (c : cache) : cache :=
  match lookup id c with
  | None => c
  | Some (o, _) => assign id (o, BLACK) c
  end.

Definition out_of_fuel : string := "out of fuel".

(** parse_license.go 188-205 and 207-226: the member loops of the two license
    sets.  Other predicates are skipped in a disjunctive set and rejected in a
    conjunctive one. *)
Definition members_step (any : node -> cache -> res (license * cache)) (strict : bool)
    (t : triple) (s : list license * cache) : res (list license * cache) :=
  let (ms, c) := s in
  switch (t_pred t)
    [(RDF_TYPE, Ok s);
     (SPDX_MEMBER, let* (m, c') := any (t_obj t) c in Ok ((ms ++ [m])%list, c'))]
    (if strict then Err "unknown subTag for ConjunctiveLicenseSet" else Ok s).

(** parse_license.go 20-71 (getAnyLicenseFromNode), the recursion bounded by [fuel] *)
Fixpoint any_license (g : graph) (fuel : nat) (n : node) (c : cache) : res (license * cache) :=
  match fuel with
  | O => Err out_of_fuel
  | S k =>
      if is_grey c (n_id n) then Err "found a cyclic dependency"
      else
        let c1 := enter (n_id n) CNil c in
        let ts := triples_with_id g (n_id n) in
        let* (l, c2) :=
          match ts with
          | [] => let* s := special_license n in Ok (LSpecial s, c1)
          | _ =>
              let* ty := node_type_of ts n in
              switch ty
                [(SPDX_DISJUNCTIVE_LICENSE_SET,
                    let* (ms, c2) := for_each (members_step (any_license g k) false) (triples_of g n) ([], c1) in
                    Ok (LDisjunctive ms, c2));
                 (SPDX_CONJUNCTIVE_LICENSE_SET,
                    let* (ms, c2) := for_each (members_step (any_license g k) true) (triples_of g n) ([], c1) in
                    Ok (LConjunctive ms, c2));
                 (SPDX_EXTRACTED_LICENSING_INFO,
                    let* (s, x) := extracted_from_node g n in Ok (LExtracted s x, c1));
                 (SPDX_LISTED_LICENSE, let* (s, i) := license_from_node g n in Ok (LLicense s i, c1));
                 (SPDX_LICENSE, let* (s, i) := license_from_node g n in Ok (LLicense s i, c1));
                 (SPDX_WITH_EXCEPTION_OPERATOR,
                    let* (s, e) := with_exception_from_node g n in Ok (LWithException s e, c1));
                 (SPDX_OR_LATER_OPERATOR, let* s := or_later_from_node g n in Ok (LOrLater s, c1));
                 (SPDX_SIMPLE_LICENSING_INFO, let* s := simple_from_node g n in Ok (LSimple s, c1))]
                (Err "Unknown subTag found while parsing AnyLicense")
          end in
        Ok (l, leave (n_id n) c2)
  end.
(** enough fuel for any graph (proved in RdfLicenseFacts) *)
Definition enough (g : graph) : nat := S (S (List.length (g_triples g))).
Definition get_any_license (g : graph) (n : node) (c : cache) : res (license * cache) :=
  any_license g (enough g) n c.
