(** * What is expected of the programs that load and print *)
From Verif Require Import GoStr Types TvUtil TvState SpecTools.
Local Open Scope string_scope.

(** ** The attributes of a document *)
Definition attribute_lines (name license namespace version : string) : string :=
  "================================================================================" ++ LF ++
  "Some Attributes of the Document:" ++ LF ++
  "Document Name:         " ++ name ++ LF ++
  "DataLicense:           " ++ license ++ LF ++
  "Document Namespace:    " ++ namespace ++ LF ++
  "SPDX Version:          " ++ version ++ LF ++
  "================================================================================" ++ LF.

(** ** The packages of a document *)
(** A document describes its only package; of two or more packages, those whose
    identifiers are in a relationship with it that says so. *)
Definition describes (d : Document) (p : Package) : Prop :=
  d_Packages d = [p] \/ (2 <= List.length (d_Packages d) /\ described d (p_SPDXIdentifier p)).
(** Something is described; not necessarily a package. *)
Definition describes_something (d : Document) : Prop :=
  List.length (d_Packages d) = 1 \/ (2 <= List.length (d_Packages d) /\ exists id, described d id).

Definition file_lines (number : N) (f : File) : string :=
  "- File " ++ show_N number ++ ": " ++ f_FileName f ++ LF ++
  "    License from file: [" ++ String.concat " " (f_LicenseInfoInFiles f) ++ "]" ++ LF ++
  "    License concluded: " ++ f_LicenseConcluded f ++ LF.
Fixpoint numbered (number : N) (fs : list File) : string :=
  match fs with [] => "" | f :: rest => file_lines number f ++ numbered (number + 1) rest end.
Definition title (p : Package) : string := "Package " ++ p_SPDXIdentifier p ++ " (" ++ p_PackageName p ++ ")".
(** What is printed for a package of a document. *)
Inductive shown_as (d : Document) (p : Package) : string -> Prop :=
| not_described : ~ describes d p -> shown_as d p ""
| not_analyzed : describes d p -> p_FilesAnalyzed p = false -> shown_as d p (title p ++ " had FilesAnalyzed: false" ++ LF)
| without_files : describes d p -> p_FilesAnalyzed p = true -> p_Files p = [] -> shown_as d p (title p ++ " has no Files" ++ LF)
| with_files : describes d p -> p_FilesAnalyzed p = true -> p_Files p <> [] ->
    shown_as d p ("============================" ++ LF ++ title p ++ LF ++ "File info (up to first 50):" ++ LF ++ numbered 1 (firstn 50 (p_Files p))).
(** What is printed first. *)
Definition heading (path info : string) : string :=
  "Successfully loaded " ++ path ++ LF ++ LF ++ "==============" ++ LF ++ "Creation info:" ++ LF ++ "==============" ++ LF ++ info ++ LF ++ LF.
