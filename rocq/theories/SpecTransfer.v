(** * What is expected of the programs that load and save *)
From Verif Require Import GoStr Sorting Types TvUtil TvParser Convert ConvertGo Stream SpecStream SpecUpgrade SpecConvert Transfer.

(** The five programs.  Reading JSON and YAML goes through a buffer that has some
    room at every call; the conversions between YAML and JSON are those of a
    library, which returns errors and does not panic. *)
Inductive program : (host -> list string -> run) -> Prop :=
| a_load_save so dz : program (load_save so dz)
| a_json_to_tag so room dz : (forall n, (512 <= room n)%N) -> program (json_to_tag so room dz)
| a_tag_to_json dz : program (tag_to_json dz)
| a_yaml_to_tag to_json so room dz : (forall n, (512 <= room n)%N) -> (forall target y, to_json target y <> Panic) ->
    program (yaml_to_tag to_json so room dz)
| a_tag_to_yaml to_yaml dz : (forall t, to_yaml t <> Panic) -> program (tag_to_yaml to_yaml dz).

(** How a run of such a program with the paths [i] and [o] can end. *)
Inductive ending (i o : string) : run -> Prop :=
| no_input : ending i o (MkRun [CannotOpen i] None false)
| no_document : ending i o (MkRun [CannotParse i] None false)
| no_output : ending i o (MkRun [Loaded i; CannotCreate o] None false)
| not_saved t : ending i o (MkRun [Loaded i; CannotSave o] (Some (o, Some t)) false)
| saved t : ending i o (MkRun [Loaded i; Saved o] (Some (o, Some t)) false)
| broke_off : ending i o (MkRun [Loaded i] (Some (o, None)) true).

(** The file at [path] has the bytes [text]; they arrive in any pieces. *)
Definition holds_text (h : host) (path text : string) : Prop :=
  exists s, opens h path = Some s /\ ends s = Eof /\ content s = text.
(** ... and can be read line by line *)
Definition holds_lines (h : host) (path text : string) : Prop :=
  exists s, opens h path = Some s /\ ends s = Eof /\ content s = text /\ lively s /\ no_full_last_line text.
(** A file can be created at [path], and it takes all that is written to it. *)
Definition accepts (h : host) (path : string) : Prop := creates h path = true /\ forall call, takes h call = Accept.
(** Nothing of a document of version [v] is dropped because it is empty, when it
    becomes a document of version 2.3. *)
Definition comes_along (v : version) (d : Document) : Prop := v = V23 \/ solid (go_document v d).
(** A run that loads, saves and says so, and leaves [text]. *)
Definition leaves (i o text : string) : run := MkRun [Loaded i; Saved o] (Some (o, Some text)) false.
