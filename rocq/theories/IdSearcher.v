(** * Package idsearcher: /repo/idsearcher/idsearcher.go *)
From Verif Require Import GoStr Sorting Types TvReader Utils Builder.

(** strings.EqualFold with an ASCII constant whose letters have no non-ASCII
    case variants (AND, OR, WITH): byte-wise comparison of lower case forms. *)
Fixpoint lower_bytes (s : string) : string :=
  match s with "" => "" | String a r => String (lower_byte a) (lower_bytes r) end.
Definition equal_fold (s t : string) : bool := String.eqb (lower_bytes s) (lower_bytes t).

(** A Go map used as a set, read out and sorted: the keys without repetition. *)
Definition sorted_set (srt : sorter) (l : list string) : list string :=
  sort_by srt (fun x => x) (nodup string_dec l).

(** idsearcher.go 195-198 (stripTrash): the expression removes every maximal
    run of characters other than word characters, white space, dot, dash, plus
    and parentheses.  \s is [\t\n\f\r ]; bytes outside ASCII never belong to
    the class, so the removal is byte-wise. *)
Definition kept (a : ascii) : bool :=
  let n := code a in
  ((48 <=? n) && (n <=? 57) || (65 <=? n) && (n <=? 90) || (97 <=? n) && (n <=? 122)
   || (n =? 95) || (n =? 9) || (n =? 10) || (n =? 12) || (n =? 13) || (n =? 32)
   || (n =? 46) || (n =? 45) || (n =? 43) || (n =? 40) || (n =? 41))%N.
Fixpoint strip_trash (s : string) : string :=
  match s with
  | "" => ""
  | String a r => if kept a then String a (strip_trash r) else strip_trash r
  end.

(** idsearcher.go 200-206 (makeElement) *)
Definition make_element (lic : string) : string :=
  if contains " AND " lic || contains " OR " lic then "(" ++ lic ++ ")" else lic.

(** idsearcher.go 208-231 (getIndividualLicenses) *)
Definition get_individual_licenses (srt : sorter) (lic : string) : list string :=
  let lic1 := replace_byte "(" " " lic in
  let lic2 := replace_byte ")" " " lic1 in
  let lic3 := replace_byte "+" " " lic2 in
  let elements := map trim_space (split_on " " lic3) in
  sort_by srt (fun x => x)
    (filter (fun elt => negb (String.eqb elt "" || equal_fold elt "AND"
                              || equal_fold elt "OR" || equal_fold elt "WITH")) elements).

(** The lines bufio.Scanner delivers: it stops silently before the first line
    that does not fit its buffer. *)
Fixpoint until_too_long (lines : list string) : list string :=
  match lines with
  | [] => []
  | l :: rest => if fits l then drop_cr l :: until_too_long rest else []
  end.

(** idsearcher.go 157-174: what one line contributes *)
Definition line_id (line : string) : list string :=
  match cut "SPDX-License-Identifier:" line with
  | None => []
  | Some (before, after) =>
      if (5 <? String.length (strip_trash before))%nat then []
      else
        let lid := match cut "*/" after with Some (x, _) => x | None => after end in
        [strip_trash (trim_space lid)]
  end.
(** idsearcher.go 144-193 (searchFileIDs) on the contents of a file *)
Definition search_file_ids (srt : sorter) (content : string) : list string :=
  sorted_set srt (flat_map line_id (until_too_long (raw_lines content))).

(** idsearcher.go 24-42 (Config) and 51-58 *)
Record IdConfig := MkIC {
  ic_NamespacePrefix : string;
  ic_BuilderPathsIgnored : option (list string);
  ic_SearcherPathsIgnored : list string;
  ic_Created : string
}.

Section IdSearcher.
  Variable srt : sorter.
  Variable h : hashes.
  Variable tree : node.
  Variable root : string.
  Variable cfg : IdConfig.

  (** idsearcher.go 87-94: the identifiers found in a file; a file that cannot
      be opened yields none. *)
  Definition ids_of_file (f : File) : list string :=
    if should_ignore (f_FileName f) (ic_SearcherPathsIgnored cfg) then []
    else match open_file tree (f_FileName f) with
         | Some c => search_file_ids srt c
         | None => []
         end.
  (** idsearcher.go 102-108: the individual licenses *)
  Definition elements_of_file (f : File) : list string :=
    flat_map (get_individual_licenses srt) (ids_of_file f).

  (** idsearcher.go 82-127: the body of the loop over the files *)
  Definition fill_file (f : File) : File :=
    let f0 := set_f_LicenseConcluded "NOASSERTION" (set_f_LicenseInfoInFiles ["NOASSERTION"] f) in
    let ids := ids_of_file f in
    match elements_of_file f with
    | [] => f0
    | elements =>
        let concluded := match ids with
                         | [id] => id
                         | _ => join " AND " (map make_element ids)
                         end in
        set_f_LicenseConcluded concluded
          (set_f_LicenseInfoInFiles (sorted_set srt elements) f0)
    end.

  (** idsearcher.go 74-138 *)
  Definition fill_package (pkg : Package) : Package :=
    let elements := flat_map elements_of_file (p_Files pkg) in
    set_p_LicenseInfoFromFiles
      (match elements with [] => ["NOASSERTION"] | _ => sorted_set srt elements end)
      (set_p_Files (map fill_file (p_Files pkg)) pkg).

  (** idsearcher.go 51-141 (BuildIDsDocument) *)
  Definition build_ids_document (package_name : string) : res Document :=
    let bcfg := MkBC (ic_NamespacePrefix cfg) "Tool" "github.com/spdx/tools-golang/idsearcher"
                     (ic_BuilderPathsIgnored cfg) (ic_Created cfg) in
    let* doc := build srt h tree root package_name bcfg in
    match d_Packages doc with
    | [pkg] => Ok (set_d_Packages [fill_package pkg] doc)
    | _ => Err "builder returned wrong number of Packages"
    end.
End IdSearcher.
