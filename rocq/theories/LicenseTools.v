(** * Packages licensediff and reporter *)
From Verif Require Import GoStr Sorting Types TvUtil TvState TvParser.

(** ** /repo/licensediff/licensediff.go

    Go maps are association lists with distinct keys; [map_put] is the
    assignment m[k] = x, [map_get] the lookup. *)
Fixpoint map_get {A} (k : string) (m : list (string * A)) : option A :=
  match m with
  | [] => None
  | (k', x) :: r => if String.eqb k k' then Some x else map_get k r
  end.

(** licensediff.go 12-15 (LicensePair) *)
Record LicensePair := MkLP { lp_First : string; lp_Second : string }.

(** licensediff.go 23-26 *)
Definition add_first (pairs : list (string * LicensePair)) (f : File) : list (string * LicensePair) :=
  map_put (f_FileName f) (MkLP (f_LicenseConcluded f) "") pairs.
(** licensediff.go 30-40 *)
Definition add_second (pairs : list (string * LicensePair)) (f : File) : list (string * LicensePair) :=
  let first_lic := match map_get (f_FileName f) pairs with Some p => lp_First p | None => "" end in
  map_put (f_FileName f) (MkLP first_lic (f_LicenseConcluded f)) pairs.
(** licensediff.go 19-43 (MakePairs); the error is always nil *)
Definition make_pairs (p1 p2 : Package) : list (string * LicensePair) :=
  fold_left add_second (p_Files p2) (fold_left add_first (p_Files p1) []).

(** licensediff.go 48-53 (LicenseDiff) *)
Record LicenseDiff := MkLD {
  ld_InBothChanged : list (string * LicensePair);
  ld_InBothSame : list (string * string);
  ld_InFirstOnly : list (string * string);
  ld_InSecondOnly : list (string * string)
}.
(** licensediff.go 66-78: one step of the loop *)
Definition classify (d : LicenseDiff) (e : string * LicensePair) : LicenseDiff :=
  let '(filename, lp) := e in
  let 'MkLD changed same first second := d in
  if String.eqb (lp_First lp) (lp_Second lp)
  then MkLD changed (map_put filename (lp_First lp) same) first second
  else if String.eqb (lp_First lp) ""
  then MkLD changed same first (map_put filename (lp_Second lp) second)
  else if String.eqb (lp_Second lp) ""
  then MkLD changed same (map_put filename (lp_First lp) first) second
  else MkLD (map_put filename lp changed) same first second.
(** licensediff.go 57-81 (MakeResults); [pairs] lists the map in the order in
    which range visits it, which Go leaves open. *)
Definition make_results (pairs : list (string * LicensePair)) : LicenseDiff :=
  fold_left classify pairs (MkLD [] [] [] []).

(** ** /repo/reporter/reporter.go *)

(** foundCounts[lic]++ *)
Definition bump (lic : string) (m : list (string * N)) : list (string * N) :=
  map_put lic (match map_get lic m with Some n => n + 1 | None => 1 end)%N m.

(** reporter.go 65-72: one step of the loop (int overflow is not modelled) *)
Definition count_file (acc : N * N * list (string * N)) (f : File) : N * N * list (string * N) :=
  let '(found, not_found, counts) := acc in
  let lic := f_LicenseConcluded f in
  if String.eqb lic "" || String.eqb lic "NOASSERTION"
  then (found, (not_found + 1)%N, counts)
  else ((found + 1)%N, not_found, bump lic counts).
(** reporter.go 57-75 (countLicenses); a nil Files slice is the empty list *)
Definition count_licenses (pkg : Package) : N * N * list (string * N) :=
  fold_left count_file (p_Files pkg) (0%N, 0%N, []).

(** reporter.go 36-46: the entries in the unspecified order of a map iteration,
    then sort.Slice by decreasing count (not stable).  Together: an arbitrary
    function returning a permutation with decreasing counts. *)
Record count_sorter := MkCountSorter {
  by_count : list (string * N) -> list (string * N);
  by_count_perm : forall l, Permutation (by_count l) l;
  by_count_desc : forall l, StronglySorted (fun a b => (snd b <= snd a)%N) (by_count l)
}.

(** One line of the report before tabwriter aligns the columns. *)
Inductive row := Row (count : N) (label : string) | Blank.

(** reporter.go 19-55 (Generate): the lines given to the tabwriter.  The column
    alignment of text/tabwriter and write errors are modelled in Report.v. *)
Definition generate (cs : count_sorter) (pkg : Package) : res (list row) :=
  if negb (p_FilesAnalyzed pkg) then Err "Package FilesAnalyzed is false"
  else
    let '(found, not_found, counts) := count_licenses pkg in
    Ok ([Row found "License found"; Row not_found "License not found";
         Row (found + not_found) "TOTAL"; Blank]
        ++ map (fun e => Row (snd e) (fst e)) (by_count cs counts)
        ++ [Row found "TOTAL FOUND"])%list.
