(** * The tag vocabulary of each SPDX version, by section of a document. *)
From Verif Require Import GoStr Types TvUtil.

Definition header_tags : list string :=
  ["SPDXVersion"; "DataLicense"; "SPDXID"; "DocumentName"; "DocumentNamespace"; "ExternalDocumentRef";
   "DocumentComment"].
Definition creation_tags : list string := ["LicenseListVersion"; "Creator"; "Created"; "CreatorComment"].
Definition package_tags (v : version) : list string :=
  ["PackageName"; "SPDXID"; "PackageVersion"; "PackageFileName"; "PackageSupplier"; "PackageOriginator";
   "PackageDownloadLocation"; "FilesAnalyzed"; "PackageVerificationCode"; "PackageChecksum"; "PackageHomePage";
   "PackageSourceInfo"; "PackageLicenseConcluded"; "PackageLicenseInfoFromFiles"; "PackageLicenseDeclared";
   "PackageLicenseComments"; "PackageCopyrightText"; "PackageSummary"; "PackageDescription"; "PackageComment";
   "ExternalRef"; "ExternalRefComment"] ++
  match v with V21 => [] | _ => ["PackageAttributionText"] end ++
  match v with V23 => ["PrimaryPackagePurpose"; "ReleaseDate"; "BuiltDate"; "ValidUntilDate"] | _ => [] end.
Definition file_tags (v : version) : list string :=
  ["FileName"; "SPDXID"; "FileType"; "FileChecksum"; "LicenseConcluded"; "LicenseInfoInFile"; "LicenseComments";
   "FileCopyrightText"; "ArtifactOfProjectName"; "ArtifactOfProjectHomePage"; "ArtifactOfProjectURI";
   "FileComment"; "FileNotice"; "FileContributor"; "FileDependency"] ++
  match v with V21 => [] | _ => ["FileAttributionText"] end.
Definition snippet_tags (v : version) : list string :=
  ["SnippetSPDXID"; "SnippetFromFileSPDXID"; "SnippetByteRange"; "SnippetLineRange"; "SnippetLicenseConcluded";
   "LicenseInfoInSnippet"; "SnippetLicenseComments"; "SnippetCopyrightText"; "SnippetComment"; "SnippetName"] ++
  match v with V21 => [] | _ => ["SnippetAttributionText"] end.
Definition license_tags : list string :=
  ["LicenseID"; "ExtractedText"; "LicenseName"; "LicenseCrossReference"; "LicenseComment"].
Definition review_tags : list string := ["Reviewer"; "ReviewDate"; "ReviewComment"].
(** usable in every section but the header *)
Definition relation_tags : list string :=
  ["Relationship"; "RelationshipComment"; "Annotator"; "AnnotationDate"; "AnnotationType"; "SPDXREF";
   "AnnotationComment"].

Definition vocabulary (v : version) : list string :=
  header_tags ++ creation_tags ++ package_tags v ++ file_tags v ++ snippet_tags v ++ license_tags ++
  review_tags ++ relation_tags.
