(** * Package builder: /repo/builder/*.go *)
From Verif Require Import GoStr Sorting Types Utils SpdxLib.

(** /repo/builder/build.go 17-42 (Config).  [bc_Created] is the time stamp the
    document gets: the test value if one is given, otherwise the current time
    (build_creation_info.go 35-40); the clock is not modelled. *)
Record BuildConfig := MkBC {
  bc_NamespacePrefix : string;
  bc_CreatorType : string;
  bc_Creator : string;
  bc_PathsIgnored : option (list string);
  bc_Created : string
}.

Section Builder.
  Variable srt : sorter.
  Variable h : hashes.
  Variable tree : node.   (* what is stored under dirRoot *)
  Variable root : string. (* the absolute path of dirRoot *)

  (** /repo/builder/build_file.go 19-56 (BuildFileSection) *)
  Definition build_file_section (file_path : string) (file_number : N) : res File :=
    let* (s1, s256, m5) := get_hashes_for_file_path h tree file_path in
    let i := "File" ++ show_N file_number in
    Ok (MkFile file_path i []
          [MkChecksum "SHA1" s1; MkChecksum "SHA256" s256; MkChecksum "MD5" m5]
          "NOASSERTION" ["NOASSERTION"] "" "NOASSERTION" [] "" "" [] [] [] [] []).

  (** /repo/builder/build_package.go 29-39 *)
  Fixpoint build_files (short_paths : list string) (file_number : N) : res (list File) :=
    match short_paths with
    | [] => Ok []
    | p :: rest =>
        let* f := build_file_section ("." ++ p) file_number in
        let* fs := build_files rest (file_number + 1)%N in
        Ok (f :: fs)
    end.

  (** /repo/builder/build_package.go 18-63 (BuildPackageSection) *)
  Definition build_package_section (package_name : string) (paths_ignore : option (list string))
    : res Package :=
    let* short_paths := get_all_file_paths srt root tree paths_ignore in
    let* files := build_files short_paths 0 in
    let* code := get_verification_code srt (h_sha1 h) (map Some files) "" in
    Ok (MkPackage false package_name ("Package-" ++ package_name) "" "" None None "NOASSERTION"
          true true (Some code) [] "" "" "NOASSERTION" [] "NOASSERTION" "" "NOASSERTION" "" "" ""
          [] [] "" "" "" "" files []).

  (** /repo/builder/build_creation_info.go 20-47 (BuildCreationInfoSection) *)
  Definition build_creation_info (cfg : BuildConfig) : CreationInfo :=
    MkCI "" [MkCreator "github.com/spdx/tools-golang/builder" "Tool";
             MkCreator (bc_Creator cfg) (bc_CreatorType cfg)] (bc_Created cfg) "".

  (** /repo/builder/build_relationship.go 16-24 (BuildRelationshipSection) *)
  Definition build_relationship (package_name : string) : Relationship :=
    MkRln (make_doc_element_id "" "DOCUMENT")
          (make_doc_element_id "" ("Package-" ++ package_name)) "DESCRIBES" "".

  (** fmt's %s on a PackageVerificationCode value (build.go 78) *)
  Definition show_code (c : VerificationCode) : string :=
    "{" ++ vc_Value c ++ " [" ++ join " " (vc_ExcludedFiles c) ++ "]}".

  (** /repo/builder/build.go 49-85 (Build) *)
  Definition build (package_name : string) (cfg : BuildConfig) : res Document :=
    let* pkg := build_package_section package_name (bc_PathsIgnored cfg) in
    let code := match p_VerificationCode pkg with Some c => c | None => zero_VerificationCode end in
    Ok (MkDoc "SPDX-2.3" "CC0-1.0" "DOCUMENT" package_name
          (bc_NamespacePrefix cfg ++ package_name ++ "-" ++ show_code code) [] ""
          (Some (build_creation_info cfg)) [pkg] [] [] [build_relationship package_name] [] [] []).
End Builder.
