(** * Writing a document from several goroutines

    RenderDocument (/repo/spdx/v2/v2_3/tagvalue/writer/save_document.go 19-103,
    v2_1 and v2_2 20-104) sorts slices of the document in place.  Here a call is a
    program that reads and writes the elements of these slices one at a time, so
    that several calls can be interleaved.  Memory is sequentially consistent and
    reading or writing one element is atomic (in Go a struct element of
    ExternalDocumentReferences takes several words; the others are pointers).
    Everything else in the document is not written and is taken from [d]. *)
From Verif Require Import GoStr Sorting Types TvUtil TvState TvWriter.
Local Open Scope string_scope.

(** The elements of doc.ExternalDocumentReferences, doc.Files, doc.Packages and
    of the Files of the [k]-th package (by the order before any call). *)
Inductive loc := Edr (i : nat) | Fil (i : nat) | Pkg (i : nat) | PFil (k i : nat).
(** A package is the pointer to it: its number. *)
Inductive elem := EEdr (e : ExternalDocumentRef) | EFile (f : File) | EPkg (k : nat).
Definition mem : Type := loc -> elem.

(** comparison of locations; no code of its own *)
Definition loc_eqb (a b : loc) : bool :=
  match a, b with
  | Edr i, Edr j | Fil i, Fil j | Pkg i, Pkg j => Nat.eqb i j
  | PFil k i, PFil l j => Nat.eqb k l && Nat.eqb i j
  | _, _ => false
  end.
(** one element written, the memory behind save_document.go 40-42, 55-57 and 64-66 and save_package.go 121-123 *)
Definition upd (l : loc) (x : elem) (m : mem) : mem := fun l' => if loc_eqb l l' then x else m l'.

(** What a goroutine has yet to do: read an element, write one, give text to the
    writer (the calls of Fprintf between two sorts), or nothing; the statements of
    save_document.go 19-103 in their order are [write_prog] below *)
Inductive prog :=
| Halt
| Get (l : loc) (k : elem -> prog)
| Put (l : loc) (x : elem) (k : prog)
| Out (c : list chunk) (k : prog).

(** slice elements by index: doc.ExternalDocumentReferences[i], doc.Packages[k], Files[i] *)
Definition nth_edr (d : Document) (i : nat) : ExternalDocumentRef := nth i (d_ExternalDocumentReferences d) (MkEDR "" "" (MkChecksum "" "")).
Definition nth_pkg (d : Document) (k : nat) : Package := nth k (d_Packages d) zero_PackageOf.
Definition nth_file (l : list File) (i : nat) : File := nth i l zero_FileOf.

(** The memory before any call *)
Definition mem_of (d : Document) : mem := fun l =>
  match l with
  | Edr i => EEdr (nth_edr d i)
  | Fil i => EFile (nth_file (d_Files d) i)
  | Pkg i => EPkg i
  | PFil k i => EFile (nth_file (p_Files (nth_pkg d k)) i)
  end.
(** The document a memory stands for *)
Definition as_edr (x : elem) : ExternalDocumentRef := match x with EEdr e => e | _ => MkEDR "" "" (MkChecksum "" "") end.
Definition as_file (x : elem) : File := match x with EFile f => f | _ => zero_FileOf end.
Definition as_pkg (x : elem) : nat := match x with EPkg k => k | _ => 0 end.
Definition cells (at_ : nat -> loc) (n : nat) (m : mem) : list elem := map (fun i => m (at_ i)) (seq 0 n).
Definition pkg_in (d : Document) (m : mem) (k : nat) : Package :=
  set_p_Files (map as_file (cells (PFil k) (length (p_Files (nth_pkg d k))) m)) (nth_pkg d k).
Definition doc_in (d : Document) (m : mem) : Document :=
  set_d_ExternalDocumentReferences (map as_edr (cells Edr (length (d_ExternalDocumentReferences d)) m))
    (set_d_Files (map as_file (cells Fil (length (d_Files d)) m))
      (set_d_Packages (map (fun x => pkg_in d m (as_pkg x)) (cells Pkg (length (d_Packages d)) m)) d)).

Section Writing.
  Variable v : version.
  Variable d : Document.

  (** what the less functions compare: save_document.go 41, 56 and 65, save_package.go 122 *)
  Definition key (x : elem) : string :=
    match x with
    | EEdr e => edr_DocumentRefID e
    | EFile f => f_SPDXIdentifier f
    | EPkg k => p_SPDXIdentifier (nth_pkg d k)
    end.
  Definition less (x y : elem) : bool := str_ltb (key x) (key y).

  (** sort.Slice on at most 12 elements is insertionSort_func:
        for i := a + 1; i < b; i++ {
          for j := i; j > a && less(j, j-1); j-- { swap(j, j-1) } }
      and reflect.Swapper reads both elements and then writes both.  Longer slices
      are sorted by pdqsort_func, which is not modelled. *)
  Definition swap (at_ : nat -> loc) (i j : nat) (k : prog) : prog :=
    Get (at_ i) (fun x => Get (at_ j) (fun y => Put (at_ i) y (Put (at_ j) x k))).
  Fixpoint sift (at_ : nat -> loc) (j : nat) (k : prog) : prog :=
    match j with
    | O => k
    | S i => Get (at_ j) (fun x => Get (at_ i) (fun y => if less x y then swap at_ j i (sift at_ i k) else k))
    end.
  Fixpoint sort_from (at_ : nat -> loc) (i n : nat) (k : prog) : prog :=
    match n with
    | O => k
    | S n => sift at_ i (sort_from at_ (S i) n k)
    end.
  Definition sort_slice (at_ : nat -> loc) (n : nat) (k : prog) : prog := sort_from at_ 1 (n - 1) k.

  (** What sort.Slice does is an argument of the rest. *)
  Variable sorting : (nat -> loc) -> nat -> prog -> prog.

  (** for _, x := range slice { body } *)
  Fixpoint range (at_ : nat -> loc) (i n : nat) (body : elem -> prog -> prog) (k : prog) : prog :=
    match n with
    | O => k
    | S n => Get (at_ i) (fun x => body x (range at_ (S i) n body k))
    end.

  (** save_file.go 14-81; the snippets are sorted in a slice of their own *)
  Definition file_body (x : elem) (k : prog) : prog := Out (render_file insertion_sorter v (as_file x)) k.
  (** save_document.go 68-69 and save_package.go 15-129 *)
  Definition package_body (x : elem) (k : prog) : prog :=
    let p := nth_pkg d (as_pkg x) in
    Out (Raw ("##### Package: " ++ p_PackageName p ++ LF ++ LF) :: render_package_fields v p)
      (sorting (PFil (as_pkg x)) (length (p_Files p))
        (range (PFil (as_pkg x)) 0 (length (p_Files p)) file_body k)).
  (** save_document.go 19-103; [ci] is doc.CreationInfo *)
  Definition write_prog (ci : CreationInfo) : prog :=
    Out (opt "SPDXVersion" (d_SPDXVersion d)
         ++ opt "DataLicense" (d_DataLicense d)
         ++ (if nonempty (d_SPDXIdentifier d) then [Field "SPDXID" (render_element_id (d_SPDXIdentifier d))] else [])
         ++ opt "DocumentName" (d_DocumentName d)
         ++ opt "DocumentNamespace" (d_DocumentNamespace d))
    (sorting Edr (length (d_ExternalDocumentReferences d))
    (range Edr 0 (length (d_ExternalDocumentReferences d)) (fun x => Out (render_edr (as_edr x)))
    (Out (opt_text "DocumentComment" (d_DocumentComment d) ++ render_creation_info ci
          ++ section "Unpackaged files" (d_Files d) [])
    (sorting Fil (length (d_Files d))
    (range Fil 0 (length (d_Files d)) file_body
    (sorting Pkg (length (d_Packages d))
    (range Pkg 0 (length (d_Packages d)) package_body
    (Out (section "Other Licenses" (d_OtherLicenses d) (flat_map render_other_license (d_OtherLicenses d))
          ++ section "Relationships" (d_Relationships d)
               (flat_map render_relationship (d_Relationships d) ++ [Raw LF])
          ++ section "Annotations" (d_Annotations d)
               (flat_map (fun a => (render_annotation a ++ [Raw LF])%list) (d_Annotations d))
          ++ section "Reviews" (d_Reviews d) (flat_map render_review (d_Reviews d)))
     Halt)))))))).
End Writing.

(** ** Running *)

(** alone *)
Fixpoint run (p : prog) (m : mem) : mem * list chunk :=
  match p with
  | Halt => (m, [])
  | Get l k => run (k (m l)) m
  | Put l x k => run k (upd l x m)
  | Out c k => let (m', o) := run k m in (m', c ++ o)%list
  end.

(** A goroutine: what it has yet to do and what it has written *)
Definition thread : Type := prog * list chunk.
Definition step (t : thread) (m : mem) : thread * mem :=
  match t with
  | (Halt, o) => ((Halt, o), m)
  | (Get l k, o) => ((k (m l), o), m)
  | (Put l x k, o) => ((k, o), upd l x m)
  | (Out c k, o) => ((k, o ++ c)%list, m)
  end.
Fixpoint step_nth (i : nat) (ts : list thread) (m : mem) : list thread * mem :=
  match ts, i with
  | [], _ => ([], m)
  | t :: r, O => let (t', m') := step t m in (t' :: r, m')
  | t :: r, S i => let (r', m') := step_nth i r m in (t :: r', m')
  end.
(** A schedule says which goroutine makes the next step. *)
Fixpoint schedule (s : list nat) (ts : list thread) (m : mem) : list thread * mem :=
  match s with
  | [] => (ts, m)
  | i :: s => let (ts', m') := step_nth i ts m in schedule s ts' m'
  end.
Definition start (p : prog) : thread := (p, []).
