(** * Package spdxlib: /repo/spdxlib/*.go *)
From Verif Require Import GoStr Sorting Types.

(** /repo/spdx/v2/common/identifier.go 185-190 (MakeDocElementID) *)
Definition make_doc_element_id (doc_ref elt_ref : string) : DocElementID := MkDEID doc_ref elt_ref "".
(** /repo/spdx/v2/common/identifier.go 196-198 (MakeDocElementSpecial) *)
Definition make_doc_element_special (special : string) : DocElementID := MkDEID "" "" special.

(** Go's == on DocElementID values *)
Definition deid_eqb (a b : DocElementID) : bool :=
  String.eqb (de_DocumentRefID a) (de_DocumentRefID b)
  && String.eqb (de_ElementRefID a) (de_ElementRefID b)
  && String.eqb (de_SpecialID a) (de_SpecialID b).

(** /repo/spdxlib/relationships.go 12-22 (FilterRelationships) *)
Fixpoint filter_relationships (rlns : list Relationship) (f : Relationship -> option string)
  : list string :=
  match rlns with
  | [] => []
  | r :: rest =>
      match f r with
      | Some id => id :: filter_relationships rest f
      | None => filter_relationships rest f
      end
  end.

(** /repo/spdxlib/described_elements.go 40-50: the filter *)
Definition described_end (r : Relationship) : option string :=
  let ref_document := make_doc_element_id "" "DOCUMENT" in
  if String.eqb (r_Relationship r) "DESCRIBES" && deid_eqb (r_RefA r) ref_document
  then Some (de_ElementRefID (r_RefB r))
  else if String.eqb (r_Relationship r) "DESCRIBED_BY" && deid_eqb (r_RefB r) ref_document
  then Some (de_ElementRefID (r_RefA r))
  else None.

(** /repo/spdxlib/element_ids.go 12-18 (SortElementIDs) *)
Definition sort_element_ids (srt : sorter) (ids : list string) : list string :=
  sort_by srt (fun x => x) ids.

(** /repo/spdxlib/described_elements.go 18-62 (GetDescribedPackageIDs).  A nil
    slice and an empty one are the same list; both are errors in the code. *)
Definition get_described_package_ids (srt : sorter) (doc : Document) : res (list string) :=
  match d_Packages doc with
  | [] => Err "no Packages in Document"
  | [pkg] => Ok [p_SPDXIdentifier pkg]
  | _ =>
      match d_Relationships doc with
      | [] => Err "Relationships slice is nil"
      | rlns =>
          match filter_relationships rlns described_end with
          | [] => Err "no DESCRIBES or DESCRIBED_BY relationships found for this Document"
          | ids => Ok (sort_element_ids srt ids)
          end
      end
  end.

(** /repo/spdxlib/documents.go 14-39 (ValidateDocument); the map
    validElementIDs is the list of its keys. *)
Definition valid_element_ids (doc : Document) : list string :=
  (map p_SPDXIdentifier (d_Packages doc) ++ map f_SPDXIdentifier (d_Files doc)
   ++ [de_ElementRefID (make_doc_element_id "" "DOCUMENT")])%list.
Fixpoint check_relationships (valid : list string) (rlns : list Relationship) : res unit :=
  match rlns with
  | [] => Ok tt
  | r :: rest =>
      if negb (existsb (String.eqb (de_ElementRefID (r_RefA r))) valid)
      then Err (de_ElementRefID (r_RefA r) ++ " used in relationship but no such package exists")
      else if negb (existsb (String.eqb (de_ElementRefID (r_RefB r))) valid)
      then Err (de_ElementRefID (r_RefB r) ++ " used in relationship but no such package exists")
      else check_relationships valid rest
  end.
Definition validate_document (doc : Document) : res unit :=
  check_relationships (valid_element_ids doc) (d_Relationships doc).
