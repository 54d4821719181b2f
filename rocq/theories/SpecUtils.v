(** * Specification of path patterns, of file enumeration and of the package
    verification code, independent of the code of package utils. *)
From Verif Require Import GoStr Sorting Types Utils.
Local Open Scope string_scope.

Definition no_slash (s : string) : Prop := ~ exists x y, s = x ++ "/" ++ y.
Definition ends_in_slash (s : string) : Prop := exists d, s = d ++ "/".

(** ** Ignore patterns

    A pattern whose directory part starts with two stars floats: the rest of
    the directory part may occur anywhere in the directories of the path.
    Other patterns are anchored. *)
Definition floating (p : string) : Prop := exists d f, p = "**" ++ d ++ "/" ++ f.

Inductive matches : string -> string -> Prop :=
| m_file p d f :                       (* an anchored file *)
    ~ floating p -> p = d ++ f -> (d = "" \/ ends_in_slash d) -> f <> "" -> no_slash f ->
    matches p p
| m_dir p r :                          (* everything below an anchored directory *)
    ~ floating p -> (p = "" \/ ends_in_slash p) ->
    matches p (p ++ r)
| m_any_file f d :                     (* that file in any directory *)
    f <> "" -> no_slash f -> (d = "" \/ ends_in_slash d) ->
    matches ("**/" ++ f) (d ++ f)
| m_float_file d f a b :               (* that file somewhere below a directory *)
    ends_in_slash d -> f <> "" -> no_slash f -> (b = "" \/ ends_in_slash b) ->
    matches ("**" ++ d ++ f) (a ++ d ++ b ++ f)
| m_float_dir d a b :                  (* everything below a directory of that name *)
    ends_in_slash d ->
    matches ("**" ++ d) (a ++ d ++ b).

(** ** Directory trees *)

(** [file_at t comps c]: following the names [comps] from [t] leads to a file
    with content [c] (through directories only, never through a link). *)
Inductive file_at : node -> list string -> option string -> Prop :=
| fa_here c : file_at (NFile c) [] c
| fa_dir entries name n comps c :
    In (name, n) entries -> file_at n comps c -> file_at (NDir entries) (name :: comps) c.

(** an entry that cannot be examined is reachable *)
Inductive bad_at : node -> Prop :=
| ba_here : bad_at NBad
| ba_dir entries name n : In (name, n) entries -> bad_at n -> bad_at (NDir entries).

(** names of a directory are distinct, and are names *)
Inductive wf_tree : node -> Prop :=
| wt_file c : wf_tree (NFile c)
| wt_link : wf_tree NLink
| wt_bad : wf_tree NBad
| wt_dir entries :
    NoDup (map fst entries) ->
    (forall name n, In (name, n) entries ->
       name <> "" /\ name <> "." /\ no_slash name /\ wf_tree n) ->
    wf_tree (NDir entries).

(** the path of a file relative to the root *)
Definition rooted (comps : list string) : string := "/" ++ String.concat "/" comps.

(** order of a tree walk: by the first component that differs *)
Inductive walk_before : list string -> list string -> Prop :=
| wb_here x y xs ys : str_ltb x y = true -> walk_before (x :: xs) (y :: ys)
| wb_deeper x xs ys : walk_before xs ys -> walk_before (x :: xs) (x :: ys).

(** an absolute path in clean form *)
Definition clean_root (r : string) : Prop := r = "/" \/ ~ ends_in_slash r.

(** ** Package verification code *)

(** the SHA1 values a file contributes *)
Definition sha1_values (f : File) : list string :=
  flat_map (fun c => if String.eqb (ck_Algorithm c) "SHA1" then [ck_Value c] else []) (f_Checksums f).

(** The value digested for a list of files: the SHA1 values of the files other
    than the excluded one, in increasing order, one after the other. *)
Definition digest_input (files : list File) (exclude : string) (text : string) : Prop :=
  exists l,
    Permutation l (flat_map sha1_values
                     (filter (fun f => negb (String.eqb (f_FileName f) exclude)) files)) /\
    ordered (fun x => x) l /\ text = String.concat "" l.
