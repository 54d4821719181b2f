(** What the text of a license report is, for property C51. *)
From Verif Require Import GoStr Sorting Types SpecTools Stream.
Local Open Scope string_scope.

(** A report consists of tables: lines of a number and a label. *)
Definition entry : Type := N * string.

Fixpoint blanks (n : nat) : string := match n with O => "" | S n => String " " (blanks n) end.
Definition digits (e : entry) : nat := String.length (show_N (fst e)).
(** the number of digits of the longest number *)
Definition widest (entries : list entry) : nat := fold_right Nat.max 0 (map digits entries).
(** the number, ending in column [w], two blanks, the label *)
Definition entry_line (w : nat) (e : entry) : string :=
  blanks (w - digits e) ++ show_N (fst e) ++ "  " ++ snd e ++ LF.
(** the numbers are aligned on the right, the longest after two blanks *)
Definition table (entries : list entry) : string :=
  String.concat "" (map (entry_line (2 + widest entries)) entries).

(** A report: the totals, an empty line, the licenses and their total. *)
Definition report (found not_found : N) (counts : list entry) : string :=
  table [(found, "License found"); (not_found, "License not found"); ((found + not_found)%N, "TOTAL")]
  ++ LF ++ table (counts ++ [(found, "TOTAL FOUND")])%list.

(** [counts] are the licenses the files of the package conclude, with the number
    of files for each, larger numbers first. *)
Definition license_counts (p : Package) (counts : list entry) : Prop :=
  NoDup (map snd counts) /\
  (forall n lic, In (n, lic) counts <-> n = concluding lic p /\ n <> 0%N /\ lic <> "" /\ lic <> "NOASSERTION") /\
  StronglySorted (fun a b => (fst b <= fst a)%N) counts.
Definition unlicensed (p : Package) : N := N.of_nat (length (filter no_license (p_Files p))).
Definition licensed (p : Package) : N := N.of_nat (length (filter (fun f => negb (no_license f)) (p_Files p))).

(** The bytes 0xff of the text come in pairs, and there is no tab, line feed,
    vertical tab or form feed except between the two of a pair. *)
Fixpoint paired (inside : bool) (s : string) : Prop :=
  match s with
  | "" => inside = false
  | String a r =>
      if (N_of_ascii a =? 255)%N then paired (negb inside) r
      else (inside = false -> ~ In (N_of_ascii a) [9; 10; 11; 12]%N) /\ paired inside r
  end.
Definition one_cell (s : string) : Prop := paired false s.
Definition plain_licenses (p : Package) : Prop :=
  Forall (fun f => one_cell (f_LicenseConcluded f)) (p_Files p).

(** From the first call it refuses on, the writer takes nothing any more. *)
Definition gives_up (k : sink) : Prop :=
  forall i n, k i = Refuse n -> forall j, i < j -> k j = Refuse 0.
