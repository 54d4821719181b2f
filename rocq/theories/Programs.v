(** * Two of the programs in /repo/examples, from the loaded documents on.

    Reading the files and the messages about that are left out; what is printed
    to standard output is a string. *)
From Verif Require Import GoStr Sorting Types TvUtil TvState SpdxLib LicenseTools Stream TabWriter Report.
Local Open Scope string_scope.

(** examples/6-licensediff/example_licensediff.go 92-98, 106-112, 144-150,
    157-162: the first package with an identifier *)
Definition package_with (id : string) (doc : Document) : option Package :=
  find (fun p => String.eqb (p_SPDXIdentifier p) id) (d_Packages doc).
Definition rule : string := "================================" ++ LF.

(** example_licensediff.go 87-137: one round of the first loop.  [iter]: the
    order in which MakeResults visits its map; neither MakePairs nor MakeResults returns an
    error. *)
Definition diff_first (iter : list (string * LicensePair) -> list (string * LicensePair)) (d1 d2 : Document) (id : string) : string :=
  rule ++
  match package_with id d1 with
  | None => "Package " ++ id ++ " has described relationship in first document but ID not found" ++ LF
  | Some p1 =>
      "Package " ++ id ++ " (" ++ p_PackageName p1 ++ ")" ++ LF ++
      match package_with id d2 with
      | None => "  Found in first document, not found in second" ++ LF
      | Some p2 =>
          let r := make_results (iter (make_pairs p1 p2)) in
          "  Files in first only: " ++ show_N (N.of_nat (List.length (ld_InFirstOnly r))) ++ LF ++
          "  Files in second only: " ++ show_N (N.of_nat (List.length (ld_InSecondOnly r))) ++ LF ++
          "  Files in both with different licenses: " ++ show_N (N.of_nat (List.length (ld_InBothChanged r))) ++ LF ++
          "  Files in both with same licenses: " ++ show_N (N.of_nat (List.length (ld_InBothSame r))) ++ LF
      end
  end.
(** example_licensediff.go 141-168: one round of the second loop *)
Definition diff_second (d1 d2 : Document) (id : string) : string :=
  match package_with id d2 with
  | None => rule ++ "Package " ++ id ++ " has described relationship in second document but ID not found" ++ LF
  | Some p2 =>
      match package_with id d1 with
      | Some _ => ""
      | None => rule ++ "Package " ++ id ++ " (" ++ p_PackageName p2 ++ ")" ++ LF ++ "  Found in second document, not found in first" ++ LF
      end
  end.
(** example_licensediff.go 51-56, 76-80 and 85-168; where there is nothing
    described the program prints a message and ends *)
Definition license_diff (srt : sorter) iter (d1 d2 : Document) : res string :=
  let* ids1 := get_described_package_ids srt d1 in
  let* ids2 := get_described_package_ids srt d2 in
  Ok (String.concat "" (map (diff_first iter d1 d2) ids1) ++ String.concat "" (map (diff_second d1 d2) ids2)).

(** examples/5-report/example_report.go 62-98: the loop over the packages, with
    os.Stdout accepting everything; it ends at the first described package
    without analyzed files *)
Fixpoint report_packages (cs : count_sorter) (ids : list string) (pkgs : list Package) : res string :=
  match pkgs with
  | [] => Ok ""
  | p :: rest =>
      if existsb (String.eqb (p_SPDXIdentifier p)) ids then
        if negb (p_FilesAnalyzed p) then
          Ok ("Package " ++ p_SPDXIdentifier p ++ " (" ++ p_PackageName p ++ ") had FilesAnalyzed: false" ++ LF)
        else match p_Files p with
        | [] => Ok ("Package " ++ p_SPDXIdentifier p ++ " (" ++ p_PackageName p ++ ") has no Files" ++ LF)
        | _ =>
            let (e, t) := generate_to (fun _ => Accept) cs p in
            let* msg := match e with
                        | Ok _ => Ok ""
                        | Err m => Ok ("Error while generating report: " ++ m ++ LF)
                        | Panic => Panic
                        end in
            let* u := report_packages cs ids rest in
            Ok ("============================" ++ LF ++ "Package " ++ p_SPDXIdentifier p ++ " (" ++ p_PackageName p ++ ")" ++ LF ++ t ++ msg ++ u)
        end
      else report_packages cs ids rest
  end.
(** example_report.go 50-98; there is always a described identifier at 57 *)
Definition report_program (srt : sorter) (cs : count_sorter) (doc : Document) : res string :=
  let* ids := get_described_package_ids srt doc in
  report_packages cs ids (d_Packages doc).
