(** * Package yaml

    YAML is converted to JSON by sigs.k8s.io/yaml, a library outside /repo, and
    then handled like JSON.  The two conversions are parameters here:
    [to_json target y] is the JSON text for the YAML text [y], which may depend on
    the Go type it is meant for ([None]: interface{}, [Some v]: the Document of
    version [v]), and [to_yaml t] the YAML text for the JSON text [t]. *)
From Verif Require Import GoStr Types TvUtil TvParser Convert ConvertGo Json JsonSpdx JsonText Stream.
Local Open Scope string_scope.

(** yaml/reader.go 47-58, 65, 72: the version that selects the struct *)
Definition yaml_version (j : json) : res version :=
  match j with
  | JObj ms =>
      match last_member "spdxVersion" ms with
      | None => Err "no spdxVersion"
      | Some (JStr r) =>
          let ver := requote r in
          if String.eqb ver (version_string V21) then Ok V21
          else if String.eqb ver (version_string V22) then Ok V22
          else if String.eqb ver (version_string V23) then Ok V23
          else Err "unsupported version"
      | Some _ => Err "unsupported version"
      end
  | _ => Err "not an object"
  end.

(** ReadInto, yaml/reader.go 41-81, up to the conversion at line 83.  The first
    yaml.Unmarshal fills an interface{}, hence converts every number to float64;
    the second one fills a Document. *)
Definition yaml_read_into (to_json : option version -> string -> res string) (y : string) : res (version * JDocument) :=
  let* t := to_json None y in
  match parse_text t with
  | None => Err "invalid JSON"
  | Some j =>
      if floats_ok j then
        let* v := yaml_version j in
        let* t' := to_json (Some v) y in
        match parse_text t' with
        | None => Err "invalid JSON"
        | Some j' => let* d := unmarshal_document v j' in Ok (v, d)
        end
      else Err "number out of range"
  end.

(** Read and ReadInto, yaml/reader.go 22-84 ([Read] asks for 2.3), for a pointer
    to a Document of version [to] *)
Definition yaml_read (to_json : option version -> string -> res string) (dz : bool) (to : version) (y : string) : res gval :=
  let* (from, d) := yaml_read_into to_json y in
  convert_document dz from to (go_jdocument from d).
(** ... with bytes.Buffer.ReadFrom, yaml/reader.go 35-39 *)
Definition yaml_read_from (to_json : option version -> string -> res string) (room : N -> N) (dz : bool) (to : version) (s : stream) : res gval :=
  let* content := read_from (calls s) room "" s in yaml_read to_json dz to content.

(** Write, yaml/writer.go 14-26: yaml.Marshal is json.Marshal, which escapes HTML
    and adds no newline, and then the conversion *)
Definition yaml_write (to_yaml : string -> res string) (v : version) (d : JDocument) : res string :=
  let* j := marshal_document v true d in to_yaml (text j).
(** ... with a single call of Write, yaml/writer.go 20-25 *)
Definition yaml_write_to (to_yaml : string -> res string) (k : sink) (v : version) (d : JDocument) : res unit * string :=
  match yaml_write to_yaml v d with
  | Ok t => match k 0 with Accept => (Ok tt, t) | Refuse n => (Err "write error", take n t) end
  | Err m => (Err m, "")
  | Panic => (Panic, "")
  end.
