(** * The example programs that load a document and print a portion of it.

    examples/1-load, 7-rdfloader, 10-jsonloader and 13-yamlloader.  The texts of
    errors and of the creation information (printed with %#v) are left out, as is
    the RDF/XML parser. *)
From Verif Require Import GoStr Sorting Types TvUtil TvReader TvParser TvState SpdxLib Convert ConvertGo Json JsonSpdx JsonText Formats Stream Yaml Rdf RdfReader RdfRead Transfer.
Local Open Scope string_scope.

(** How a run ends, with what was printed before that. *)
Inductive load_run :=
| UsageShown
| NotOpened (path : string)
| NotLoaded (path : string)
| NoneDescribed (text : string)
| Shown (text : string)
| BrokenOff (text : string).

(** ** A text that may break off *)
Record shown := MkShown { printed : string; broke : bool }.
Definition and_then (a : shown) (b : shown) : shown :=
  if broke a then a else MkShown (printed a ++ printed b) (broke b).

(** examples/1-load/example_load.go 102-114: the loop over the files, with its
    counter; [%v] of a slice of strings is the strings between brackets *)
Fixpoint show_files (i : N) (fs : list (option JFile)) : shown :=
  match fs with
  | [] => MkShown "" false
  | None :: _ => MkShown "" true
  | Some f :: rest =>
      let text := "- File " ++ show_N i ++ ": " ++ f_FileName f ++ LF
               ++ "    License from file: [" ++ String.concat " " (f_LicenseInfoInFiles f) ++ "]" ++ LF
               ++ "    License concluded: " ++ f_LicenseConcluded f ++ LF in
      if (50 <? i + 1)%N then MkShown text false else and_then (MkShown text false) (show_files (i + 1) rest)
  end.
(** example_load.go 69-115: one round of the loop over the packages *)
Definition show_package (ids : list string) (o : option JPackage) : shown :=
  match o with
  | None => MkShown "" true
  | Some p =>
      if negb (existsb (String.eqb (p_SPDXIdentifier p)) ids) then MkShown "" false
      else if negb (p_FilesAnalyzed p) then
        MkShown ("Package " ++ p_SPDXIdentifier p ++ " (" ++ p_PackageName p ++ ") had FilesAnalyzed: false" ++ LF) false
      else match p_Files p with
           | [] => MkShown ("Package " ++ p_SPDXIdentifier p ++ " (" ++ p_PackageName p ++ ") has no Files" ++ LF) false
           | fs => and_then (MkShown ("============================" ++ LF
                              ++ "Package " ++ p_SPDXIdentifier p ++ " (" ++ p_PackageName p ++ ")" ++ LF
                              ++ "File info (up to first 50):" ++ LF) false) (show_files 1 fs)
           end
  end.
Fixpoint show_packages (ids : list string) (ps : list (option JPackage)) : shown :=
  match ps with
  | [] => MkShown "" false
  | p :: rest => and_then (show_package ids p) (show_packages ids rest)
  end.

(** spdxlib/described_elements.go 18-62 for documents with nil pointers; the
    function given to FilterRelationships dereferences every relationship *)
Fixpoint all_there {A} (l : list (option A)) : option (list A) :=
  match l with
  | [] => Some []
  | None :: _ => None
  | Some x :: rest => option_map (cons x) (all_there rest)
  end.
Definition described_ids (srt : sorter) (d : JDocument) : res (list string) :=
  match d_Packages d with
  | [] => Err "no Packages in Document"
  | [None] => Panic
  | [Some p] => Ok [p_SPDXIdentifier p]
  | _ =>
      match d_Relationships d with
      | [] => Err "Relationships slice is nil"
      | rs =>
          match all_there rs with
          | None => Panic
          | Some rlns =>
              match filter_relationships rlns described_end with
              | [] => Err "no DESCRIBES or DESCRIBED_BY relationships found for this Document"
              | ids => Ok (sort_element_ids srt ids)
              end
          end
      end
  end.

(** example_load.go 19-116; [info] is the text of the creation information *)
Definition load_program (info : option CreationInfo -> string) (srt : sorter) (dz : bool) (h : host) (args : list string) : load_run :=
  match args with
  | [_; path] =>
      match opens h path with
      | None => NotOpened path
      | Some s =>
          match tagvalue_read_from dz V23 s with
          | Err _ => NotLoaded path
          | Panic => BrokenOff ""
          | Ok g =>
              match of_document g with
              | None => BrokenOff ""
              | Some d =>
                  let text := "Successfully loaded " ++ path ++ LF ++ LF
                           ++ "==============" ++ LF ++ "Creation info:" ++ LF ++ "==============" ++ LF
                           ++ info (d_CreationInfo d) ++ LF ++ LF in
                  match described_ids srt d with
                  | Err _ => NoneDescribed text
                  | Panic => BrokenOff text
                  | Ok [] => Shown text
                  | Ok ids =>
                      let t := and_then (MkShown text false) (show_packages ids (d_Packages d)) in
                      if broke t then BrokenOff (printed t) else Shown (printed t)
                  end
              end
          end
      end
  | _ => UsageShown
  end.

(** ** The programs that print attributes *)
Fixpoint repeat_string (s : string) (n : nat) : string :=
  match n with O => "" | S n => s ++ repeat_string s n end.
(** a field of a document that is a string *)
Definition attribute (name : string) (g : gval) : string :=
  match g with
  | VStruct fs => match assoc name fs with Some (VStr s) => s | _ => "" end
  | _ => ""
  end.
(** examples/10-jsonloader/example_json_loader.go 48-54, 13-yamlloader/exampleYAMLLoader.go
    48-54, 7-rdfloader/exampleRDFLoader.go 42-48 *)
Definition show_attributes (g : gval) : string :=
  repeat_string "=" 80 ++ LF
  ++ "Some Attributes of the Document:" ++ LF
  ++ "Document Name:         " ++ attribute "DocumentName" g ++ LF
  ++ "DataLicense:           " ++ attribute "DataLicense" g ++ LF
  ++ "Document Namespace:    " ++ attribute "DocumentNamespace" g ++ LF
  ++ "SPDX Version:          " ++ attribute "SPDXVersion" g ++ LF
  ++ repeat_string "=" 80 ++ LF.
Definition show_loaded (load : stream -> res gval) (h : host) (path first : string) : load_run :=
  match opens h path with
  | None => NotOpened path
  | Some s =>
      match load s with
      | Err _ => NotLoaded path
      | Panic => BrokenOff ""
      | Ok g => Shown (first ++ show_attributes g)
      end
  end.
(** example_json_loader.go 18-55 *)
Definition json_loader (room : N -> N) (dz : bool) (h : host) (args : list string) : load_run :=
  match args with
  | [_; path] => show_loaded (json_read_from room dz V23) h path ("Successfully loaded " ++ path ++ LF)
  | _ => UsageShown
  end.
(** exampleYAMLLoader.go 18-55 *)
Definition yaml_loader (to_json : option version -> string -> res string) (room : N -> N) (dz : bool) (h : host) (args : list string) : load_run :=
  match args with
  | [_; path] => show_loaded (yaml_read_from to_json room dz V23) h path ("Successfully loaded " ++ path ++ LF)
  | _ => UsageShown
  end.
(** exampleRDFLoader.go 13-49: what follows the first argument is ignored.
    [parse]: the RDF/XML parser; [iter]: the order of a map *)
Definition rdf_loader (parse : stream -> res graph) (iter : list (string * nat) -> list (string * nat)) (dz : bool) (h : host) (args : list string) : load_run :=
  match args with
  | _ :: path :: _ => show_loaded (fun s => let* g := parse s in rdf_read_to dz V23 g iter) h path ""
  | _ => UsageShown
  end.
