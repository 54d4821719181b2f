(** * State of the tag-value parser (generated by tools/gen_types.py).

    The Go parser holds pointers to the objects it is filling, and the same
    objects are reachable from the document.  The model keeps packages, files
    and snippets in arenas (lists of all objects ever created); a Go pointer is
    an index into the arena and nil is [None].  Relationships, annotations,
    other licenses and reviews are appended to the document when they are
    created, so the document's own list is their arena.  Pointers to an
    external reference and to an ArtifactOfProject are pairs (index of the owner,
    index in the owner's list). *)
From Verif Require Import GoStr Types.

(** /repo/spdx/v2/v2_3/tagvalue/reader/types.go 32-55 (tvParserState) *)
Inductive pst := PsStart | PsCreationInfo | PsPackage | PsFile | PsSnippet | PsOtherLicense | PsReview.

(** /repo/spdx/v2/v2_3/tagvalue/reader/types.go 10-29 (tvParser) *)
Record pstate := MkPstate {
  ps_doc : option DocumentArena;
  ps_st : pst;
  ps_pkgs : list PackageArena;
  ps_files : list FileArena;
  ps_snips : list Snippet;
  ps_pkg : option nat;
  ps_extref : option (nat * nat);
  ps_file : option nat;
  ps_aop : option (nat * nat);
  ps_snip : option nat;
  ps_lic : option nat;
  ps_rln : option nat;
  ps_ann : option nat;
  ps_rev : option nat
}.
Definition zero_pstate : pstate :=
  MkPstate None PsStart [] [] [] None None None None None None None None None.
Definition set_ps_doc (v : option DocumentArena) (r : pstate) : pstate :=
  MkPstate v (ps_st r) (ps_pkgs r) (ps_files r) (ps_snips r) (ps_pkg r) (ps_extref r) (ps_file r) (ps_aop r) (ps_snip r) (ps_lic r) (ps_rln r) (ps_ann r) (ps_rev r).
Definition set_ps_st (v : pst) (r : pstate) : pstate :=
  MkPstate (ps_doc r) v (ps_pkgs r) (ps_files r) (ps_snips r) (ps_pkg r) (ps_extref r) (ps_file r) (ps_aop r) (ps_snip r) (ps_lic r) (ps_rln r) (ps_ann r) (ps_rev r).
Definition set_ps_pkgs (v : list PackageArena) (r : pstate) : pstate :=
  MkPstate (ps_doc r) (ps_st r) v (ps_files r) (ps_snips r) (ps_pkg r) (ps_extref r) (ps_file r) (ps_aop r) (ps_snip r) (ps_lic r) (ps_rln r) (ps_ann r) (ps_rev r).
Definition set_ps_files (v : list FileArena) (r : pstate) : pstate :=
  MkPstate (ps_doc r) (ps_st r) (ps_pkgs r) v (ps_snips r) (ps_pkg r) (ps_extref r) (ps_file r) (ps_aop r) (ps_snip r) (ps_lic r) (ps_rln r) (ps_ann r) (ps_rev r).
Definition set_ps_snips (v : list Snippet) (r : pstate) : pstate :=
  MkPstate (ps_doc r) (ps_st r) (ps_pkgs r) (ps_files r) v (ps_pkg r) (ps_extref r) (ps_file r) (ps_aop r) (ps_snip r) (ps_lic r) (ps_rln r) (ps_ann r) (ps_rev r).
Definition set_ps_pkg (v : option nat) (r : pstate) : pstate :=
  MkPstate (ps_doc r) (ps_st r) (ps_pkgs r) (ps_files r) (ps_snips r) v (ps_extref r) (ps_file r) (ps_aop r) (ps_snip r) (ps_lic r) (ps_rln r) (ps_ann r) (ps_rev r).
Definition set_ps_extref (v : option (nat * nat)) (r : pstate) : pstate :=
  MkPstate (ps_doc r) (ps_st r) (ps_pkgs r) (ps_files r) (ps_snips r) (ps_pkg r) v (ps_file r) (ps_aop r) (ps_snip r) (ps_lic r) (ps_rln r) (ps_ann r) (ps_rev r).
Definition set_ps_file (v : option nat) (r : pstate) : pstate :=
  MkPstate (ps_doc r) (ps_st r) (ps_pkgs r) (ps_files r) (ps_snips r) (ps_pkg r) (ps_extref r) v (ps_aop r) (ps_snip r) (ps_lic r) (ps_rln r) (ps_ann r) (ps_rev r).
Definition set_ps_aop (v : option (nat * nat)) (r : pstate) : pstate :=
  MkPstate (ps_doc r) (ps_st r) (ps_pkgs r) (ps_files r) (ps_snips r) (ps_pkg r) (ps_extref r) (ps_file r) v (ps_snip r) (ps_lic r) (ps_rln r) (ps_ann r) (ps_rev r).
Definition set_ps_snip (v : option nat) (r : pstate) : pstate :=
  MkPstate (ps_doc r) (ps_st r) (ps_pkgs r) (ps_files r) (ps_snips r) (ps_pkg r) (ps_extref r) (ps_file r) (ps_aop r) v (ps_lic r) (ps_rln r) (ps_ann r) (ps_rev r).
Definition set_ps_lic (v : option nat) (r : pstate) : pstate :=
  MkPstate (ps_doc r) (ps_st r) (ps_pkgs r) (ps_files r) (ps_snips r) (ps_pkg r) (ps_extref r) (ps_file r) (ps_aop r) (ps_snip r) v (ps_rln r) (ps_ann r) (ps_rev r).
Definition set_ps_rln (v : option nat) (r : pstate) : pstate :=
  MkPstate (ps_doc r) (ps_st r) (ps_pkgs r) (ps_files r) (ps_snips r) (ps_pkg r) (ps_extref r) (ps_file r) (ps_aop r) (ps_snip r) (ps_lic r) v (ps_ann r) (ps_rev r).
Definition set_ps_ann (v : option nat) (r : pstate) : pstate :=
  MkPstate (ps_doc r) (ps_st r) (ps_pkgs r) (ps_files r) (ps_snips r) (ps_pkg r) (ps_extref r) (ps_file r) (ps_aop r) (ps_snip r) (ps_lic r) (ps_rln r) v (ps_rev r).
Definition set_ps_rev (v : option nat) (r : pstate) : pstate :=
  MkPstate (ps_doc r) (ps_st r) (ps_pkgs r) (ps_files r) (ps_snips r) (ps_pkg r) (ps_extref r) (ps_file r) (ps_aop r) (ps_snip r) (ps_lic r) (ps_rln r) (ps_ann r) v.
