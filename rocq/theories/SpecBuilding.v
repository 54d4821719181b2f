(** * What is expected of the programs that build a document from a directory *)
From Verif Require Import GoStr Sorting Types TvReader TvUtil TvParser Utils SpecTv SpecId SpecUtils SpecTools SpecWrite SpecSave Builder IdSearcher Stream Building.

(** The files that are left out, by the names on the way to them: what is in the
    directory .git at the root, or in a directory __pycache__ anywhere; the file
    .ignorefile at the root, and the files .DS_Store anywhere. *)
Definition left_out (names : list string) : Prop :=
  exists (dirs : list string) (file : string), names = (dirs ++ [file])%list /\
    ((exists below, dirs = ".git" :: below) \/ In "__pycache__" dirs \/ (dirs = [] /\ file = ".ignorefile") \/ file = ".DS_Store").

(** How a run with three arguments can end. *)
Inductive build_ending (name out : string) : build_run -> Prop :=
| not_built : build_ending name out (MkBuildRun [CannotBuild] None false)
| no_place : build_ending name out (MkBuildRun [Built name; CannotCreateOutput out] None false)
| built t : build_ending name out (MkBuildRun [Built name; SavedOutput out] (Some (out, t)) false).

(** The directory can be walked and all files in it that are not left out can be read. *)
Definition can_read (tree : node) : Prop := ~ bad_at tree /\ forall names, file_at tree names None -> left_out names.
(** A file can be created at [path], and it takes all that is written to it. *)
Definition takes_output (m : machine) (path : string) : Prop := creatable m path = true /\ forall call, disk m call = Accept.
(** Under the names [files] gives, and no others, are the files of the directory
    that are not left out; their checksums are those of their contents. *)
Definition inventory (h : hashes) (tree : node) (files : list File) : Prop :=
  forall name sums,
    (exists f, In f files /\ f_FileName f = name /\ f_Checksums f = sums) <->
    (exists names content, file_at tree names (Some content) /\ ~ left_out names /\ name = "." ++ rooted names /\
       sums = [MkChecksum "SHA1" (h_sha1 h content); MkChecksum "SHA256" (h_sha256 h content); MkChecksum "MD5" (h_md5 h content)]).
(** What a program is given so that its output can be read back: a package name
    that is fit to be an identifier, and a clock and names of files that fit on
    one line. *)
Definition fit_to_save (m : machine) (root name : string) : Prop :=
  ident_ok name /\ line_ok ("https://example.com/whatever/testdata-" ++ name) /\ line_ok (clock m) /\
  forall names x, file_at (stored m root) names x -> ~ left_out names -> line_ok ("." ++ rooted names).
(** No license comment in the files that are not left out is empty or leaves white
    space at its ends. *)
Definition clear_comments (tree : node) : Prop :=
  forall names content line lid, file_at tree names (Some content) -> ~ left_out names ->
    searched_line content line -> line_mentions line lid -> lid <> "" /\ trimmed lid.
(** Each file states the licenses that are mentioned in it. *)
Definition licenses_stated (tree : node) (files : list File) : Prop :=
  forall f, In f files -> exists names content, file_at tree names (Some content) /\ f_FileName f = "." ++ rooted names /\
    set_or_noassertion (fun lic => exists line lid, searched_line content line /\ line_mentions line lid /\ individual lid lic) (f_LicenseInfoInFiles f).
