(** * The example programs that build a document from a directory.

    examples/3-build and 4-search: the arguments, the configuration, the messages,
    the output.  The texts of errors in the messages are left out. *)
From Verif Require Import GoStr Sorting Types TvUtil TvParser TvWriter Utils Builder IdSearcher Stream.

Inductive build_message :=
| BuildUsage
| CannotBuild
| Built (name : string)
| CannotCreateOutput (path : string)
| CannotSaveOutput (path : string)
| SavedOutput (path : string).
(** What a run leaves: the messages, in order; the file it created, if any, with
    its content; and whether it panicked. *)
Record build_run := MkBuildRun { told : list build_message; output : option (string * string); crashed : bool }.
(** The absolute path of a directory and what is stored there, at the beginning of
    the run; the paths at which a file can be created, and how the created file
    takes what is written to it; and the clock. *)
Record machine := MkMachine {
  abs : string -> string;
  stored : string -> node;
  creatable : string -> bool;
  disk : sink;
  clock : string
}.

(** examples/3-build/example_build.go 40-83 (config) *)
Definition build_config (now : string) : BuildConfig :=
  MkBC "https://example.com/whatever/testdata-" "Person" "Jane Doe"
    (Some ["/.git/"; "**/__pycache__/"; "/.ignorefile"; "**/.DS_Store"]) now.
(** examples/4-search/example_search.go 43-102 (config) *)
Definition search_config (now : string) : IdConfig :=
  MkIC "https://example.com/whatever/testdata-"
    (Some ["/.git/"; "**/__pycache__/"; "/.ignorefile"; "**/.DS_Store"])
    ["/Documentation/process/license-rules.rst"; "/LICENSES/"] now.

(** examples/3-build/example_build.go 20-118, examples/4-search/example_search.go
    22-148: the same program with another way to make the document *)
Definition build_to (make : machine -> string -> string -> res Document) (so : sorter) (m : machine) (args : list string) : build_run :=
  match args with
  | [_; name; root; out] =>
      match make m root name with
      | Err _ => MkBuildRun [CannotBuild] None false
      | Panic => MkBuildRun [] None true
      | Ok d =>
          if creatable m out then
            let (r, t) := tagvalue_write_to (disk m) so V23 d in
            match r with
            | Ok _ => MkBuildRun [Built name; SavedOutput out] (Some (out, t)) false
            | Err _ => MkBuildRun [Built name; CannotSaveOutput out] (Some (out, t)) false
            | Panic => MkBuildRun [Built name] (Some (out, t)) true
            end
          else MkBuildRun [Built name; CannotCreateOutput out] None false
      end
  | _ => MkBuildRun [BuildUsage] None false
  end.
Definition build_made (srt : sorter) (h : hashes) (m : machine) (root name : string) : res Document :=
  build srt h (stored m root) (abs m root) name (build_config (clock m)).
Definition search_made (srt : sorter) (h : hashes) (m : machine) (root name : string) : res Document :=
  build_ids_document srt h (stored m root) (abs m root) (search_config (clock m)) name.
Definition build_program (srt so : sorter) (h : hashes) : machine -> list string -> build_run := build_to (build_made srt h) so.
Definition search_program (srt so : sorter) (h : hashes) : machine -> list string -> build_run := build_to (search_made srt h) so.
