(** * The example programs that load a document from one file and save it to another.

    examples/2-load-save, 8-jsontotv, 9-tvtojson, 11-yamltotv and 12-tvtoyaml: the
    arguments, the two files, the messages, the conversion to 2.3 by Read, and
    Write.  The texts of errors in the messages are left out. *)
From Verif Require Import GoStr Sorting Types TvUtil TvReader TvParser Convert ConvertGo Json JsonSpdx JsonText TvWriter Formats Stream Yaml.

Definition obind {A B} (o : option A) (k : A -> option B) : option B := match o with Some x => k x | None => None end.
Local Notation "'let?' x := o 'in' k" := (obind o (fun x => k)) (at level 200, x name, o at level 100, k at level 200, right associativity).

(** ** A 2.3 document as a record
    What Read returns is a Go value ([Convert.v], [ConvertGo.v]); the writers are
    modelled on records.  These functions are the way back; they model nothing of
    the code.  A nil element of a list of reviews, or of a map of snippets, has no
    record; the readers return none. *)
Fixpoint every {A B} (f : A -> option B) (l : list A) : option (list B) :=
  match l with
  | [] => Some []
  | x :: r => let? y := f x in let? r := every f r in Some (y :: r)
  end.
Definition of_str (v : gval) : option string := match v with VStr s => Some s | _ => None end.
Definition of_list {A} (f : gval -> option A) (v : gval) : option (list A) :=
  match v with VNil => Some [] | VSlice l => every f l | _ => None end.
Definition of_ptr {A} (f : gval -> option A) (v : gval) : option (option A) :=
  match v with VNil => Some None | VPtr w => option_map Some (f w) | _ => None end.
Definition of_map {A} (f : gval -> option A) (v : gval) : option (list (string * A)) :=
  match v with
  | VNil => Some []
  | VMap m => every (fun e => match snd e with VPtr w => let? x := f w in Some (fst e, x) | _ => None end) m
  | _ => None
  end.
Definition of_strs : gval -> option (list string) := of_list of_str.
Definition the {A} (f : gval -> option A) (v : gval) : option A := match v with VPtr w => f w | _ => None end.
Definition of_ref (v : gval) : option DocElementID :=
  match v with VStruct [(_, VStr a); (_, VStr b); (_, VStr c)] => Some (MkDEID a b c) | _ => None end.
Definition of_checksum (v : gval) : option Checksum :=
  match v with VStruct [(_, VStr a); (_, VStr b)] => Some (MkChecksum a b) | _ => None end.
Definition of_creator (v : gval) : option Creator :=
  match v with VStruct [(_, VStr a); (_, VStr b)] => Some (MkCreator a b) | _ => None end.
Definition of_annotator (v : gval) : option Annotator :=
  match v with VStruct [(_, VStr a); (_, VStr b)] => Some (MkAnnotator a b) | _ => None end.
Definition of_supplier (v : gval) : option Supplier :=
  match v with VStruct [(_, VStr a); (_, VStr b)] => Some (MkSupplier a b) | _ => None end.
Definition of_originator (v : gval) : option Originator :=
  match v with VStruct [(_, VStr a); (_, VStr b)] => Some (MkOriginator a b) | _ => None end.
Definition of_code (v : gval) : option VerificationCode :=
  match v with VStruct [(_, VStr a); (_, l)] => let? l := of_strs l in Some (MkVC a l) | _ => None end.
Definition of_pointer (v : gval) : option RangePointer :=
  match v with VStruct [(_, VInt a); (_, VInt b); (_, VStr c)] => Some (MkRP a b c) | _ => None end.
Definition of_range (v : gval) : option SnippetRange :=
  match v with VStruct [(_, a); (_, b)] => let? a := of_pointer a in let? b := of_pointer b in Some (MkRange a b) | _ => None end.
Definition of_annotation (v : gval) : option Annotation :=
  match v with
  | VStruct [(_, a); (_, VStr b); (_, VStr c); (_, d); (_, VStr e)] =>
      let? a := of_annotator a in let? d := of_ref d in Some (MkAnn a b c d e)
  | _ => None
  end.
Definition of_creation_info (v : gval) : option CreationInfo :=
  match v with
  | VStruct [(_, VStr a); (_, b); (_, VStr c); (_, VStr d)] => let? b := of_list of_creator b in Some (MkCI a b c d)
  | _ => None
  end.
Definition of_external_document (v : gval) : option ExternalDocumentRef :=
  match v with
  | VStruct [(_, VStr a); (_, VStr b); (_, c)] => let? c := of_checksum c in Some (MkEDR a b c)
  | _ => None
  end.
Definition of_license (v : gval) : option OtherLicense :=
  match v with
  | VStruct [(_, VStr a); (_, VStr b); (_, VStr c); (_, d); (_, VStr e)] => let? d := of_strs d in Some (MkOL a b c d e)
  | _ => None
  end.
Definition of_relationship (v : gval) : option Relationship :=
  match v with
  | VStruct [(_, a); (_, b); (_, VStr c); (_, VStr d)] => let? a := of_ref a in let? b := of_ref b in Some (MkRln a b c d)
  | _ => None
  end.
Definition of_review (v : gval) : option Review :=
  match v with VStruct [(_, VStr a); (_, VStr b); (_, VStr c); (_, VStr d)] => Some (MkRev a b c d) | _ => None end.
Definition of_artifact (v : gval) : option Artifact :=
  match v with VStruct [(_, VStr a); (_, VStr b); (_, VStr c)] => Some (MkArtifact a b c) | _ => None end.
Definition of_external_ref (v : gval) : option ExternalRef :=
  match v with VStruct [(_, VStr a); (_, VStr b); (_, VStr c); (_, VStr d)] => Some (MkER a b c d) | _ => None end.
Definition of_snippet (v : gval) : option Snippet :=
  match v with
  | VStruct [(_, VStr id); (_, VStr from); (_, ranges); (_, VStr lic); (_, lics); (_, VStr com); (_, VStr copy); (_, VStr comment);
             (_, VStr name); (_, attr)] =>
      let? ranges := of_list of_range ranges in let? lics := of_strs lics in let? attr := of_strs attr in
      Some (MkSnippet id from ranges lic lics com copy comment name attr)
  | _ => None
  end.
Definition of_file (v : gval) : option JFile :=
  match v with
  | VStruct [(_, VStr name); (_, VStr id); (_, types); (_, sums); (_, VStr lic); (_, lics); (_, VStr com); (_, VStr copy); (_, arts);
             (_, VStr comment); (_, VStr notice); (_, contribs); (_, attr); (_, deps); (_, snips); (_, anns)] =>
      let? types := of_strs types in let? sums := of_list of_checksum sums in let? lics := of_strs lics in
      let? arts := of_list (of_ptr of_artifact) arts in let? contribs := of_strs contribs in let? attr := of_strs attr in
      let? deps := of_strs deps in let? snips := of_map of_snippet snips in let? anns := of_list of_annotation anns in
      Some (MkFile name id types sums lic lics com copy arts comment notice contribs attr deps snips anns)
  | _ => None
  end.
Definition of_package (v : gval) : option JPackage :=
  match v with
  | VStruct [(_, VBool unp); (_, VStr name); (_, VStr id); (_, VStr ver); (_, VStr fname); (_, sup); (_, orig); (_, VStr down);
             (_, VBool fa); (_, VBool fat); (_, code); (_, sums); (_, VStr home); (_, VStr src); (_, VStr lic); (_, lics);
             (_, VStr decl); (_, VStr com); (_, VStr copy); (_, VStr summ); (_, VStr desc); (_, VStr comment); (_, refs); (_, attr);
             (_, VStr purpose); (_, VStr rel); (_, VStr built); (_, VStr valid); (_, files); (_, anns)] =>
      let? sup := of_ptr of_supplier sup in let? orig := of_ptr of_originator orig in let? code := of_ptr of_code code in
      let? sums := of_list of_checksum sums in let? lics := of_strs lics in let? refs := of_list (of_ptr of_external_ref) refs in
      let? attr := of_strs attr in let? files := of_list (of_ptr of_file) files in let? anns := of_list of_annotation anns in
      Some (MkPackage unp name id ver fname sup orig down fa fat code sums home src lic lics decl com copy summ desc comment refs attr
              purpose rel built valid files anns)
  | _ => None
  end.
Definition of_document (v : gval) : option JDocument :=
  match v with
  | VStruct [(_, VStr ver); (_, VStr data); (_, VStr id); (_, VStr name); (_, VStr ns); (_, refs); (_, VStr comment); (_, ci); (_, pkgs);
             (_, files); (_, lics); (_, rels); (_, anns); (_, snips); (_, revs)] =>
      let? refs := of_list of_external_document refs in let? ci := of_ptr of_creation_info ci in
      let? pkgs := of_list (of_ptr of_package) pkgs in let? files := of_list (of_ptr of_file) files in
      let? lics := of_list (of_ptr of_license) lics in let? rels := of_list (of_ptr of_relationship) rels in
      let? anns := of_list (of_ptr of_annotation) anns in let? snips := of_list of_snippet snips in
      let? revs := of_list (the of_review) revs in
      Some (MkDoc ver data id name ns refs comment ci pkgs files lics rels anns snips revs)
  | _ => None
  end.

(** ** The writers *)
(** tagvalue/writer.go 23-34 (Write) to a file: what it returns, and the bytes that
    arrive.  With a nil pointer it panics ([Formats.v], tagvalue_write), and what
    was printed before is not modelled. *)
Definition save_tag (so : sorter) (k : sink) (d : JDocument) : res unit * option string :=
  match d_CreationInfo d, plain_document d with
  | None, _ => (Err "Document had nil CreationInfo section", Some "")
  | Some _, None => (Panic, None)
  | Some _, Some e => let (r, t) := tagvalue_write_to k so V23 e in (r, Some t)
  end.
(** json/writer.go 27-33 (Write) without options *)
Definition save_json (k : sink) (d : JDocument) : res unit * option string :=
  let (r, t) := json_write_to k V23 true "" d in (r, Some t).
(** yaml/writer.go 14-26 (Write) *)
Definition save_yaml (to_yaml : string -> res string) (k : sink) (d : JDocument) : res unit * option string :=
  let (r, t) := yaml_write_to to_yaml k V23 d in (r, Some t).

(** ** The programs *)
Inductive message :=
| Usage
| CannotOpen (path : string)
| CannotParse (path : string)
| Loaded (path : string)
| CannotCreate (path : string)
| CannotSave (path : string)
| Saved (path : string).
(** What a run leaves: the messages, in order; the file it created, if any, with its
    content if that is modelled; and whether it panicked. *)
Record run := MkRun { said : list message; made : option (string * option string); panicked : bool }.
(** The files there are to open, the paths at which a file can be created, and how
    the created file takes what is written to it. *)
Record host := MkHost { opens : string -> option stream; creates : string -> bool; takes : sink }.

(** examples/2-load-save/example_load_save.go 18-68, 8-jsontotv/examplejsontotv.go
    18-68, 9-tvtojson/exampletvtojson.go 18-76, 11-yamltotv/exampleyamltotv.go
    19-69, 12-tvtoyaml/exampletvtoyaml.go 18-68: the same program with another
    Read and another Write.  os.Create empties the file if there is one. *)
Definition transfer (load : stream -> res gval) (save : sink -> JDocument -> res unit * option string)
    (h : host) (args : list string) : run :=
  match args with
  | [_; i; o] =>
      match opens h i with
      | None => MkRun [CannotOpen i] None false
      | Some s =>
          match load s with
          | Err _ => MkRun [CannotParse i] None false
          | Panic => MkRun [] None true
          | Ok g =>
              if creates h o then
                match of_document g with
                | None => MkRun [Loaded i] (Some (o, None)) true
                | Some d =>
                    let (r, t) := save (takes h) d in
                    match r with
                    | Ok _ => MkRun [Loaded i; Saved o] (Some (o, t)) false
                    | Err _ => MkRun [Loaded i; CannotSave o] (Some (o, t)) false
                    | Panic => MkRun [Loaded i] (Some (o, t)) true
                    end
                end
              else MkRun [Loaded i; CannotCreate o] None false
          end
      end
  | _ => MkRun [Usage] None false
  end.

Definition load_save (so : sorter) (dz : bool) : host -> list string -> run :=
  transfer (tagvalue_read_from dz V23) (save_tag so).
Definition json_to_tag (so : sorter) (room : N -> N) (dz : bool) : host -> list string -> run :=
  transfer (json_read_from room dz V23) (save_tag so).
Definition tag_to_json (dz : bool) : host -> list string -> run :=
  transfer (tagvalue_read_from dz V23) save_json.
Definition yaml_to_tag (to_json : option version -> string -> res string) (so : sorter) (room : N -> N) (dz : bool) : host -> list string -> run :=
  transfer (yaml_read_from to_json room dz V23) (save_tag so).
Definition tag_to_yaml (to_yaml : string -> res string) (dz : bool) : host -> list string -> run :=
  transfer (tagvalue_read_from dz V23) (save_yaml to_yaml).
