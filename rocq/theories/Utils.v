(** * Package utils: /repo/utils/filesystem.go and /repo/utils/verification.go *)
From Verif Require Import GoStr Sorting Types.

(** ** Paths *)

(** path.Split (Go standard library): the directory part up to and including
    the last slash, and the rest. *)
Fixpoint path_split (s : string) : string * string :=
  match s with
  | "" => ("", "")
  | String a s' =>
      let '(d, f) := path_split s' in
      if Ascii.eqb a "/" then (String a d, f)
      else match d with
           | "" => ("", String a f)
           | _ => (String a d, f)
           end
  end.

(** /repo/utils/filesystem.go 99-131: the body of the loop over the patterns *)
Definition pattern_ignores (fdirs ffile pattern : string) : bool :=
  let '(pd0, pf) := path_split pattern in
  let stars := has_prefix "**" pd0 in
  let pd := if stars then trim_prefix "**" pd0 else pd0 in
  (negb stars && String.eqb pd fdirs && nonempty pf && String.eqb pf ffile)
  || (negb stars && has_prefix pd fdirs && String.eqb pf "")
  || (stars && String.eqb pd "/" && nonempty pf && String.eqb pf ffile)
  || (stars && contains pd fdirs && nonempty pf && String.eqb pf ffile)
  || (stars && contains pd fdirs && String.eqb pf "").

(** /repo/utils/filesystem.go 96-136 (ShouldIgnore) *)
Definition should_ignore (file_name : string) (paths_ignored : list string) : bool :=
  let '(fdirs, ffile) := path_split file_name in
  existsb (pattern_ignores fdirs ffile) paths_ignored.

(** ** Directory trees

    What filepath.Walk and os.Open see below the root.  [NFile None] is a file
    that cannot be opened or read, [NBad] an entry whose Lstat or directory
    listing fails.  Everything that is neither a directory nor a symbolic link
    (also devices, sockets and pipes) counts as a file, as in the code. *)
Inductive node : Type :=
| NFile (content : option string)
| NLink
| NBad
| NDir (entries : list (string * node)).

(** filepath.Join(p, name) for a clean absolute p and an entry name. *)
Definition join_path (p name : string) : string :=
  if String.eqb p "/" then "/" ++ name else p ++ "/" ++ name.

(** /repo/utils/filesystem.go 34-62: the callback on a file, with [prefix] from
    line 32; [None] is a nil pathsIgnored slice. *)
Definition visit_file (prefix : string) (ignored : option (list string)) (path : string)
  : list string :=
  let short0 := trim_prefix prefix path in
  let short := if has_prefix "/" short0 then short0 else "/" ++ short0 in
  if match ignored with Some pats => should_ignore short pats | None => false end
  then [] else [short].

(** Results of successive callbacks, the first error ending the walk. *)
Fixpoint gather (l : list (res (list string))) : res (list string) :=
  match l with
  | [] => Ok []
  | r :: rest => let* x := r in let* y := gather rest in Ok (x ++ y)%list
  end.

Section Walk.
  Variable srt : sorter.
  Variable prefix : string.
  Variable ignored : option (list string).
  (** filepath.Walk (Go standard library) with the callback of filesystem.go
      34-62.  The entries of a directory are visited in increasing order of
      name; here they are sorted after the (pure) recursive calls. *)
  Fixpoint walk (n : node) (path : string) : res (list string) :=
    match n with
    | NFile _ => Ok (visit_file prefix ignored path)
    | NLink => Ok []
    | NBad => Err "walk"
    | NDir entries =>
        gather (map snd (sort_by srt fst
          (map (fun e => (fst e, walk (snd e) (join_path path (fst e)))) entries)))
    end.
End Walk.

(** /repo/utils/filesystem.go 22-65 (GetAllFilePaths).  [root] is the absolute
    path of the root (filepath.Abs; its error is not modelled).  On an error Go
    also returns the paths found so far; the model returns only the error. *)
Definition get_all_file_paths (srt : sorter) (root : string) (tree : node)
           (ignored : option (list string)) : res (list string) :=
  walk srt (trim_suffix "/" root) ignored tree root.

(** os.Open and io.Copy on a path below the root: follow the components, where
    empty components and "." stay in place (filepath.Join, filepath.Clean).
    Symbolic links are not followed: the code never opens one it enumerated. *)
Fixpoint find_entry (name : string) (entries : list (string * node)) : option node :=
  match entries with
  | [] => None
  | (k, n) :: rest => if String.eqb k name then Some n else find_entry name rest
  end.
Fixpoint open_at (comps : list string) (n : node) : option string :=
  match comps with
  | [] => match n with NFile c => c | _ => None end
  | c :: rest =>
      if String.eqb c "" || String.eqb c "." then open_at rest n
      else match n with
           | NDir entries =>
               match find_entry c entries with
               | Some n' => open_at rest n'
               | None => None
               end
           | _ => None
           end
  end.
Definition open_file (tree : node) (path : string) : option string :=
  open_at (split_on "/" path) tree.

(** The hash functions of crypto/sha1, crypto/sha256 and crypto/md5 composed
    with fmt's %x: arbitrary functions from contents to strings. *)
Record hashes := MkHashes {
  h_sha1 : string -> string;
  h_sha256 : string -> string;
  h_md5 : string -> string
}.

(** /repo/utils/filesystem.go 69-91 (GetHashesForFilePath) *)
Definition get_hashes_for_file_path (h : hashes) (tree : node) (p : string)
  : res (string * string * string) :=
  match open_file tree p with
  | None => Err "open"
  | Some c => Ok (h_sha1 h c, h_sha256 h c, h_md5 h c)
  end.

(** ** Package verification code *)

(** /repo/utils/verification.go 21-35: the SHA1 values of the files that are
    not excluded; a nil file is an error. *)
Fixpoint collect_shas (files : list (option File)) (exclude : string)
  : res (list string) :=
  match files with
  | [] => Ok []
  | None :: _ => Err "got nil file for identifier"
  | Some f :: rest =>
      let* r := collect_shas rest exclude in
      Ok ((if String.eqb (f_FileName f) exclude then []
           else map ck_Value (filter (fun c => String.eqb (ck_Algorithm c) "SHA1") (f_Checksums f)))
          ++ r)%list
  end.

(** /repo/utils/verification.go 19-58 (GetVerificationCode) *)
Definition get_verification_code (srt : sorter) (sha1 : string -> string)
           (files : list (option File)) (exclude : string) : res VerificationCode :=
  let* shas := collect_shas files exclude in
  let concat := join "" (sort_by srt (fun x => x) shas) in
  Ok (MkVC (sha1 concat) (if nonempty exclude then [exclude] else [])).
