(** * /repo/reporter/reporter.go: the text of a report *)
From Verif Require Import GoStr Types LicenseTools Stream TabWriter.
Local Open Scope string_scope.

(** reporter.go 27-30, 49, 51: the text one fmt.Fprintf hands to the tabwriter *)
Definition TAB : string := String (ascii_of_nat 9) "".
Definition row_text (r : row) : string :=
  match r with
  | Row n label => show_N n ++ TAB ++ "  " ++ label ++ LF
  | Blank => LF
  end.

(** reporter.go 27-30, 48-53: one call of Write for each row, then Flush, and
    what they return is not looked at.  25: tabwriter.NewWriter(w, 0, 0, 2, ' ',
    tabwriter.AlignRight). *)
Fixpoint print_rows (k : sink) (i : nat) (w : tw) (rows : list row) : res unit * string :=
  match rows with
  | [] =>
      match tw_flush 0 2 k i w with
      | (_, t, Crash) => (Panic, t)
      | (_, t, _) => (Ok tt, t)
      end
  | r :: rest =>
      match tw_write 0 2 k i w (row_text r) with
      | (_, t, Crash) => (Panic, t)
      | (j, t, Fine w') | (j, t, Error w') => let (e, u) := print_rows k j w' rest in (e, t ++ u)
      end
  end.

(** reporter.go 19-55 (Generate): its result and the bytes that arrive *)
Definition generate_to (k : sink) (cs : count_sorter) (pkg : Package) : res unit * string :=
  match generate cs pkg with
  | Ok rows => print_rows k 0 tw_reset rows
  | Err m => (Err m, "")
  | Panic => (Panic, "")
  end.
