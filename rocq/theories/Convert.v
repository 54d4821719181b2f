(** * Conversion between document versions: /repo/convert/chain.go.

    The conversion copies structures by reflection with the library
    github.com/anchore/go-struct-converter, whose source is not part of /repo.
    The model of the library ([conv]) is its documented behaviour: fields are
    matched by name, structures, slices and maps are copied element by element,
    pointers are added or removed as the target needs, nil stays the zero value.
    Whether a pointer to a zero value counts as nil is left open: it is the
    argument [dz], and the theorems hold for both answers unless they say so. *)
From Verif Require Import GoStr Types TvUtil TvParser.

(** ** Go types and values, as far as the documents use them *)
Inductive gty :=
| TStr | TBool | TInt
| TPtr (t : gty)
| TSlice (t : gty)
| TMap (t : gty)                              (* keys are strings *)
| TStruct (fs : list (string * gty)).
Inductive gval :=
| VStr (s : string) | VBool (b : bool) | VInt (n : Z)
| VNil                                        (* nil pointer, slice or map *)
| VPtr (v : gval)
| VSlice (l : list gval)
| VMap (m : list (string * gval))
| VStruct (fs : list (string * gval)).

(** a field by name, a map entry by key *)
Fixpoint assoc {A} (k : string) (l : list (string * A)) : option A :=
  match l with
  | [] => None
  | (n, x) :: r => if String.eqb n k then Some x else assoc k r
  end.
(** setting a field *)
Fixpoint put {A} (k : string) (y : A) (l : list (string * A)) : list (string * A) :=
  match l with
  | [] => []
  | (n, x) :: r => if String.eqb n k then (n, y) :: r else (n, x) :: put k y r
  end.
(** the zero value of a type *)
Fixpoint zero (t : gty) : gval :=
  match t with
  | TStr => VStr ""
  | TBool => VBool false
  | TInt => VInt 0
  | TPtr _ | TSlice _ | TMap _ => VNil
  | TStruct fs => VStruct ((fix go (fs : list (string * gty)) :=
      match fs with [] => [] | (n, t) :: r => (n, zero t) :: go r end) fs)
  end.
(** reflect.Value.IsZero *)
Fixpoint is_zero (v : gval) : bool :=
  match v with
  | VStr s => String.eqb s ""
  | VBool b => negb b
  | VInt n => Z.eqb n 0
  | VNil => true
  | VPtr _ | VSlice _ | VMap _ => false
  | VStruct fs => (fix go (fs : list (string * gval)) :=
      match fs with [] => true | (_, x) :: r => is_zero x && go r end) fs
  end.

(** ** The library *)
(** the type pointed to, the value or a pointer to it (go-struct-converter) *)
Definition base (t : gty) : gty := match t with TPtr u => u | _ => t end.
Definition wrap (t : gty) (v : gval) : gval := match t with TPtr _ => VPtr v | _ => v end.

Section Conv.
  Variable dz : bool. (* a pointer to a zero value counts as nil *)
  (** The value of type [t] made from [v]; [None] when there is nothing to set.
      Conversions between different scalar kinds, and between slices and single
      values, do not occur between the documents and are errors here. *)
  Fixpoint conv (t : gty) (v : gval) {struct v} : res (option gval) :=
    match v with
    | VNil => Ok None
    | VPtr w => if dz && is_zero w then Ok None else conv t w
    | VStr _ => match base t with TStr => Ok (Some (wrap t v)) | _ => Err "unable to convert" end
    | VBool _ => match base t with TBool => Ok (Some (wrap t v)) | _ => Err "unable to convert" end
    | VInt _ => match base t with TInt => Ok (Some (wrap t v)) | _ => Err "unable to convert" end
    | VSlice l =>
        match base t with
        | TSlice te =>
            let* l' := (fix go (l : list gval) : res (list gval) :=
              match l with
              | [] => Ok []
              | x :: r => let* y := conv te x in
                          let* r' := go r in
                          Ok (match y with Some z => z | None => zero te end :: r')
              end) l in
            Ok (Some (wrap t (VSlice l')))
        | _ => Err "unable to convert"
        end
    | VMap m =>
        match base t with
        | TMap te =>
            let* m' := (fix go (m : list (string * gval)) : res (list (string * gval)) :=
              match m with
              | [] => Ok []
              | (k, x) :: r => let* y := conv te x in
                               let* r' := go r in
                               Ok (match y with Some z => (k, z) :: r' | None => r' end)
              end) m in
            Ok (Some (wrap t (VMap m')))
        | _ => Err "unable to convert"
        end
    | VStruct fs =>
        match base t with
        | TStruct ts =>
            let* out := (fix go (fs : list (string * gval)) (acc : list (string * gval)) : res (list (string * gval)) :=
              match fs with
              | [] => Ok acc
              | (n, x) :: r =>
                  match assoc n ts with
                  | None => go r acc
                  | Some tf => let* y := conv tf x in
                               go r (match y with Some z => put n z acc | None => acc end)
                  end
              end) fs (map (fun f => (fst f, zero (snd f))) ts) in
            Ok (Some (wrap t (VStruct out)))
        | _ => Err "unable to convert"
        end
    end.
End Conv.

(** ** The document types *)
Local Notation str n := (n, TStr).
Local Notation strs n := (n, TSlice TStr).
(** common/identifier.go 118-122 *)
Definition T_DocElementID : gty := TStruct [str "DocumentRefID"; str "ElementRefID"; str "SpecialID"].
(** common/checksum.go 31-34 *)
Definition T_Checksum : gty := TStruct [str "Algorithm"; str "Value"].
(** common/creation_info.go 14-18 *)
Definition T_Creator : gty := TStruct [str "Creator"; str "CreatorType"].
(** common/annotation.go 12-16 *)
Definition T_Annotator : gty := TStruct [str "Annotator"; str "AnnotatorType"].
(** common/package.go 12-17 *)
Definition T_Supplier : gty := TStruct [str "Supplier"; str "SupplierType"].
(** common/package.go 55-60 *)
Definition T_Originator : gty := TStruct [str "Originator"; str "OriginatorType"].
(** common/package.go 96-104 *)
Definition T_VerificationCode : gty := TStruct [str "Value"; strs "ExcludedFiles"].
(** common/snippet.go 5-15 *)
Definition T_RangePointer : gty := TStruct [("Offset", TInt); ("LineNumber", TInt); str "FileSPDXIdentifier"].
(** common/snippet.go 17-20 *)
Definition T_Range : gty := TStruct [("StartPointer", T_RangePointer); ("EndPointer", T_RangePointer)].
(** v2_{1,2,3}/annotation.go 10-31 *)
Definition T_Annotation : gty :=
  TStruct [("Annotator", T_Annotator); str "AnnotationDate"; str "AnnotationType";
           ("AnnotationSPDXIdentifier", T_DocElementID); str "AnnotationComment"].
(** v2_{1,2}/creation_info.go 11-28, v2_3/creation_info.go 10-27 *)
Definition T_CreationInfo : gty :=
  TStruct [str "LicenseListVersion"; ("Creators", TSlice T_Creator); str "Created"; str "CreatorComment"].
(** v2_1/document.go 15-26, v2_2/document.go 19-30, v2_3/document.go 18-29 *)
Definition T_ExternalDocumentRef : gty := TStruct [str "DocumentRefID"; str "URI"; ("Checksum", T_Checksum)].
(** v2_{1,2}/other_license.go 7-31, v2_3/other_license.go 6-30 *)
Definition T_OtherLicense : gty :=
  TStruct [str "LicenseIdentifier"; str "ExtractedText"; str "LicenseName"; strs "LicenseCrossReferences"; str "LicenseComment"].
(** v2_{1,2}/relationship.go 11-25, v2_3/relationship.go 10-24 *)
Definition T_Relationship : gty :=
  TStruct [("RefA", T_DocElementID); ("RefB", T_DocElementID); str "Relationship"; str "RelationshipComment"].
(** v2_{1,2,3}/review.go 7-25 *)
Definition T_Review : gty := TStruct [str "Reviewer"; str "ReviewerType"; str "ReviewDate"; str "ReviewComment"].
(** v2_1/file.go 76-92, v2_2/file.go 80-96, v2_3/file.go 82-98 *)
Definition T_Artifact : gty := TStruct [str "Name"; str "HomePage"; str "URI"].
(** v2_1/package.go 107-122, v2_2/package.go 187-202, v2_3/package.go 179-194 *)
Definition T_ExternalRef : gty := TStruct [str "Category"; str "RefType"; str "Locator"; str "ExternalRefComment"].
(** v2_1/snippet.go 10-46, v2_{2,3}/snippet.go 10-50 *)
Definition T_Snippet (v : version) : gty :=
  TStruct ([str "SnippetSPDXIdentifier"; str "SnippetFromFileSPDXIdentifier"; ("Ranges", TSlice T_Range);
            str "SnippetLicenseConcluded"; strs "LicenseInfoInSnippet"; str "SnippetLicenseComments";
            str "SnippetCopyrightText"; str "SnippetComment"; str "SnippetName"]
           ++ match v with V21 => [] | _ => [strs "SnippetAttributionTexts"] end).
(** v2_1/file.go 10-72, v2_{2,3}/file.go 10-76 *)
Definition T_File (v : version) : gty :=
  TStruct ([str "FileName"; str "FileSPDXIdentifier"; strs "FileTypes"; ("Checksums", TSlice T_Checksum);
            str "LicenseConcluded"; strs "LicenseInfoInFiles"; str "LicenseComments"; str "FileCopyrightText";
            ("ArtifactOfProjects", TSlice (TPtr T_Artifact)); str "FileComment"; str "FileNotice"; strs "FileContributors"]
           ++ match v with V21 => [] | _ => [strs "FileAttributionTexts"] end
           ++ [strs "FileDependencies"; ("Snippets", TMap (TPtr (T_Snippet v))); ("Annotations", TSlice T_Annotation)]).
(** v2_1/package.go 10-103, v2_2/package.go 14-124, v2_3/package.go 14-142;
    without the unexported hasFiles, which is nil outside UnmarshalJSON *)
Definition T_Package (v : version) : gty :=
  TStruct (match v with V21 => [] | _ => [("IsUnpackaged", TBool)] end
           ++ [str "PackageName"; str "PackageSPDXIdentifier"; str "PackageVersion"; str "PackageFileName";
               ("PackageSupplier", TPtr T_Supplier); ("PackageOriginator", TPtr T_Originator);
               str "PackageDownloadLocation"; ("FilesAnalyzed", TBool); ("IsFilesAnalyzedTagPresent", TBool);
               ("PackageVerificationCode", match v with V23 => TPtr T_VerificationCode | _ => T_VerificationCode end);
               ("PackageChecksums", TSlice T_Checksum); str "PackageHomePage"; str "PackageSourceInfo";
               str "PackageLicenseConcluded"; strs "PackageLicenseInfoFromFiles"; str "PackageLicenseDeclared";
               str "PackageLicenseComments"; str "PackageCopyrightText"; str "PackageSummary"; str "PackageDescription";
               str "PackageComment"; ("PackageExternalReferences", TSlice (TPtr T_ExternalRef))]
           ++ match v with V21 => [] | _ => [strs "PackageAttributionTexts"] end
           ++ match v with V23 => [str "PrimaryPackagePurpose"; str "ReleaseDate"; str "BuiltDate"; str "ValidUntilDate"] | _ => [] end
           ++ [("Files", TSlice (TPtr (T_File v))); ("Annotations", TSlice T_Annotation)]).
(** v2_1/document.go 30-70, v2_2/document.go 34-74, v2_3/document.go 33-73 *)
Definition T_Document (v : version) : gty :=
  TStruct [str "SPDXVersion"; str "DataLicense"; str "SPDXIdentifier"; str "DocumentName"; str "DocumentNamespace";
           ("ExternalDocumentReferences", TSlice T_ExternalDocumentRef); str "DocumentComment";
           ("CreationInfo", TPtr T_CreationInfo); ("Packages", TSlice (TPtr (T_Package v)));
           ("Files", TSlice (TPtr (T_File v))); ("OtherLicenses", TSlice (TPtr T_OtherLicense));
           ("Relationships", TSlice (TPtr T_Relationship)); ("Annotations", TSlice (TPtr T_Annotation));
           ("Snippets", TSlice (T_Snippet v)); ("Reviews", TSlice (TPtr T_Review))].

(** ** chain.go *)
(** v2_2/document.go 76-82 (From_v2_1, To_v2_1), v2_3/document.go 75-81 (From_v2_2, To_v2_2) *)
Definition set_version (v : version) (d : gval) : gval :=
  match d with VStruct fs => VStruct (put "SPDXVersion" (VStr (version_string v)) fs) | _ => d end.
(** chain.go 16-22: one step of the chain, the fields by reflection, then the function *)
Definition convert_step (dz : bool) (to : version) (d : gval) : res gval :=
  let* y := conv dz (T_Document to) d in
  Ok (set_version to (match y with Some z => z | None => zero (T_Document to) end)).
(** 16-22 (DocumentChain): the versions to go through *)
Definition route (from to : version) : list version :=
  match from, to with
  | V21, V21 | V22, V22 | V23, V23 => []
  | V21, V22 | V23, V22 => [V22]
  | V22, V21 => [V21]
  | V22, V23 => [V23]
  | V21, V23 => [V22; V23]
  | V23, V21 => [V22; V21]
  end.
(** chain.go 39 (FuncChain.Convert) *)
Fixpoint follow (dz : bool) (path : list version) (d : gval) : res gval :=
  match path with
  | [] => Ok d
  | v :: r => let* d' := convert_step dz v d in follow dz r d'
  end.
(** 30-40 (Document): equal types are assigned, other ones go through the chain.
    The check that the target is a pointer is left out. *)
Definition convert_document (dz : bool) (from to : version) (d : gval) : res gval := follow dz (route from to) d.
