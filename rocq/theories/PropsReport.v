(** * Property C51: the text of a license report *)
From Verif Require Import GoStr GoStrFacts Sorting Types TvUtil TvState LicenseTools SpecTools PropsTools Json Stream TabWriter Report SpecReport ReportFacts.
Local Open Scope string_scope.

Lemma licensed_total p : (licensed p + unlicensed p = N.of_nat (length (p_Files p)))%N.
Proof.
  unfold licensed, unlicensed. rewrite <- Nat2N.inj_add. f_equal. induction (p_Files p) as [|f l IH]; [reflexivity|].
  cbn [filter]. destruct (no_license f); cbn [negb length]; lia.
Qed.
(** The rows of C23 as entries *)
Lemma generate_rows cs pkg : p_FilesAnalyzed pkg = true -> exists counts, license_counts pkg counts /\
  licensed pkg = fold_right (fun e n => (fst e + n)%N) 0%N counts /\
  generate cs pkg = Ok (map row_of [(licensed pkg, "License found"); (unlicensed pkg, "License not found"); ((licensed pkg + unlicensed pkg)%N, "TOTAL")]
    ++ Blank :: map row_of (counts ++ [(licensed pkg, "TOTAL FOUND")]))%list.
Proof.
  intros A. destruct (proj1 (proj1 (C23_total cs pkg)) A) as (rows & G). pose proof G as G'.
  apply C23_report in G as (f & n & c & -> & Hn & Ht & Hs & Hd & Hi & Hz).
  assert (n = unlicensed pkg) as -> by exact Hn. assert (f = licensed pkg) as -> by (pose proof (licensed_total pkg); lia).
  exists (map (fun e => (snd e, fst e)) c). split; [split; [|split]|split].
  - rewrite map_map. exact Hd.
  - intros n lic. rewrite <- Hi, in_map_iff. split; [intros ([a b] & E & I); cbn in E; congruence|]. intros I. now exists (lic, n).
  - clear - Hz. induction Hz as [|e l S IH F]; cbn [map]; constructor; [assumption|]. rewrite Forall_map. exact F.
  - rewrite Hs. clear. induction c as [|e c IH]; [reflexivity|]. cbn [map fold_right fst]. now rewrite IH.
  - rewrite G'. f_equal. cbn [map List.app row_of fst snd]. repeat f_equal. rewrite map_app, map_map. reflexivity.
Qed.
Lemma counts_plain pkg counts : plain_licenses pkg -> license_counts pkg counts -> Forall (fun e : entry => one_cell (snd e)) counts.
Proof.
  intros P (_ & I & _). apply Forall_forall. intros [n lic] H. apply I in H as (-> & N & _). cbn [snd].
  unfold concluding in N. destruct (filter (concludes lic) (p_Files pkg)) as [|f l] eqn:E; [contradiction N; reflexivity|].
  assert (In f (filter (concludes lic) (p_Files pkg))) as K by (rewrite E; now left). apply filter_In in K as [K1 K2].
  apply String.eqb_eq in K2. rewrite <- K2. unfold plain_licenses in P. rewrite Forall_forall in P. now apply P.
Qed.
Lemma labels_plain : one_cell "License found" /\ one_cell "License not found" /\ one_cell "TOTAL" /\ one_cell "TOTAL FOUND".
Proof. refine (conj _ (conj _ (conj _ _))); apply simple_one_cell; intros a I; repeat destruct I as [<-|I]; try destruct I; cbn; intuition discriminate. Qed.
Lemma in_sum e (l : list entry) : In e l -> (fst e <= fold_right (fun e n => (fst e + n)%N) 0%N l)%N.
Proof. induction l as [|x l IH]; [intros []|]. cbn [fold_right]. intros [->|I]; [lia|]. specialize (IH I). lia. Qed.
Lemma report_run k cs pkg : p_FilesAnalyzed pkg = true -> plain_licenses pkg ->
  exists counts t, license_counts pkg counts /\ generate_to k cs pkg = (Ok tt, t) /\
    ((forall i, k i = Accept) -> t = report (licensed pkg) (unlicensed pkg) counts) /\
    (gives_up k -> exists u, t ++ u = report (licensed pkg) (unlicensed pkg) counts).
Proof.
  intros A P. destruct (generate_rows cs pkg A) as (counts & L & S & G). exists counts. unfold generate_to. rewrite G.
  destruct labels_plain as (P1 & P2 & P3 & P4).
  destruct (print_report k [(licensed pkg, "License found"); (unlicensed pkg, "License not found"); ((licensed pkg + unlicensed pkg)%N, "TOTAL")]
    (counts ++ [(licensed pkg, "TOTAL FOUND")])) as (t & E & R); [discriminate|now destruct counts|repeat (constructor; [assumption|]); constructor|..].
  - apply Forall_app. split; [now apply (counts_plain pkg)|constructor; [assumption|constructor]].
  - assert (forall e : entry, (fst e <= licensed pkg + unlicensed pkg)%N -> digits e <= 2 +
      widest [(licensed pkg, "License found"); (unlicensed pkg, "License not found"); ((licensed pkg + unlicensed pkg)%N, "TOTAL")]) as W.
    { intros e H. unfold widest, digits at 1. cbn [map fold_right]. unfold digits. cbn [fst]. apply show_N_mono in H. lia. }
    apply Forall_app. split; [|constructor; [apply W; cbn [fst]; lia|constructor]]. apply Forall_forall. intros e I. apply W. apply in_sum in I. lia.
  - exists t. split; [assumption|]. split; [exact E|exact R].
Qed.

(** The report of a package: the number of files with and without a concluded
    license, and a line for each license concluded. *)
Theorem C51_text : forall k cs pkg, (forall i, k i = Accept) -> p_FilesAnalyzed pkg = true -> plain_licenses pkg ->
  exists counts, license_counts pkg counts /\ generate_to k cs pkg = (Ok tt, report (licensed pkg) (unlicensed pkg) counts).
Proof.
  intros k cs pkg K A P. destruct (report_run k cs pkg A P) as (counts & t & L & E & R & _).
  exists counts. split; [assumption|]. now rewrite <- (R K).
Qed.
Print Assumptions C51_text.
Theorem C51_unanalyzed : forall k cs pkg, p_FilesAnalyzed pkg = false -> exists m, generate_to k cs pkg = (Err m, "").
Proof.
  intros k cs pkg A. unfold generate_to. destruct (proj1 (proj2 (C23_total cs pkg)) A) as (m & ->). now exists m.
Qed.
Print Assumptions C51_unanalyzed.

(** From the text one can tell how many files conclude each license. *)
Theorem C51_readable : forall k k' cs cs' pkg pkg' t, (forall i, k i = Accept) -> (forall i, k' i = Accept) ->
  p_FilesAnalyzed pkg = true -> p_FilesAnalyzed pkg' = true -> plain_licenses pkg -> plain_licenses pkg' ->
  generate_to k cs pkg = (Ok tt, t) -> generate_to k' cs' pkg' = (Ok tt, t) ->
  unlicensed pkg = unlicensed pkg' /\
  forall lic, lic <> "" -> lic <> "NOASSERTION" -> concluding lic pkg = concluding lic pkg'.
Proof.
  intros k k' cs cs' pkg pkg' t K K' A A' P P' E E'.
  destruct (C51_text k cs pkg K A P) as (c & L & G). destruct (C51_text k' cs' pkg' K' A' P') as (c' & L' & G').
  rewrite E in G. rewrite E' in G'. injection G as ->. injection G' as G'.
  apply report_cut in G' as (_ & -> & <-); [|now apply (counts_plain pkg)|now apply (counts_plain pkg')].
  split; [reflexivity|]. intros lic N1 N2. destruct L as (D & I & _), L' as (D' & I' & _).
  destruct (N.eq_dec (concluding lic pkg) 0) as [Z|Z], (N.eq_dec (concluding lic pkg') 0) as [Z'|Z'].
  - congruence.
  - pose proof (proj2 (I' (concluding lic pkg') lic) (conj eq_refl (conj Z' (conj N1 N2)))) as H. now apply I in H.
  - pose proof (proj2 (I (concluding lic pkg) lic) (conj eq_refl (conj Z (conj N1 N2)))) as H. now apply I' in H.
  - pose proof (proj2 (I (concluding lic pkg) lic) (conj eq_refl (conj Z (conj N1 N2)))) as H. now apply I' in H.
Qed.
Print Assumptions C51_readable.

(** Whatever the writer answers, Generate reports no error and does not panic ... *)
Theorem C51_silent : forall k cs pkg, p_FilesAnalyzed pkg = true -> plain_licenses pkg -> fst (generate_to k cs pkg) = Ok tt.
Proof. intros k cs pkg A P. destruct (report_run k cs pkg A P) as (counts & t & _ & -> & _). reflexivity. Qed.
Print Assumptions C51_silent.
(** ... and neither does it when the writer accepts everything, whatever the
    licenses are. *)
Theorem C51_accepted : forall k cs pkg, (forall i, k i = Accept) -> p_FilesAnalyzed pkg = true -> fst (generate_to k cs pkg) = Ok tt.
Proof.
  intros k cs pkg K A. unfold generate_to. destruct (proj1 (proj1 (C23_total cs pkg)) A) as (rows & ->). now apply accepted_rows.
Qed.
Print Assumptions C51_accepted.
(** ... and if the writer takes nothing any more once it has refused a call, what
    has arrived is the beginning of the report. *)
Theorem C51_prefix : forall k cs pkg, gives_up k -> p_FilesAnalyzed pkg = true -> plain_licenses pkg ->
  exists counts t u, license_counts pkg counts /\ generate_to k cs pkg = (Ok tt, t) /\ t ++ u = report (licensed pkg) (unlicensed pkg) counts.
Proof.
  intros k cs pkg K A P. destruct (report_run k cs pkg A P) as (counts & t & L & E & _ & R). destruct (R K) as (u & H). now exists counts, t, u.
Qed.
Print Assumptions C51_prefix.

(** ** Witnesses *)
Definition C51_package : Package :=
  set_p_FilesAnalyzed true (set_p_Files
    (map (w_file "x") ["MIT"; "NOASSERTION"; "MIT"; "MIT"; "GPL-2.0-only"; "NOASSERTION"; "GPL-2.0-only"; "GPL-2.0-only"; "MIT";
      "GPL-2.0-only"; "GPL-2.0-only"; "NOASSERTION"]) zero_PackageOf).
(** the package of reporter_test.go *)
Example C51_witness : p_FilesAnalyzed C51_package = true /\ plain_licenses C51_package /\
  generate_to (fun _ => Accept) insertion_count_sorter C51_package = (Ok tt,
    "   9  License found" ++ LF ++ "   3  License not found" ++ LF ++ "  12  TOTAL" ++ LF ++ LF ++
    "  5  GPL-2.0-only" ++ LF ++ "  4  MIT" ++ LF ++ "  9  TOTAL FOUND" ++ LF).
Proof.
  split; [reflexivity|]. split; [|vm_compute; reflexivity].
  unfold plain_licenses. repeat (constructor; [apply simple_one_cell; intros a I; repeat destruct I as [<-|I]; try destruct I; cbn; intuition discriminate|]). constructor.
Qed.
(** a license with a line feed and a tab between two bytes 0xff is printed as it is *)
Example C51_pair_witness : let lic := "A" ++ String (byte 255) (LF ++ "7" ++ TAB ++ "B" ++ String (byte 255) "C") in
  let pkg := set_p_FilesAnalyzed true (set_p_Files (map (w_file "x") [lic; "MIT"; lic]) zero_PackageOf) in
  plain_licenses pkg /\
  generate_to (fun _ => Accept) insertion_count_sorter pkg = (Ok tt,
    "  3  License found" ++ LF ++ "  0  License not found" ++ LF ++ "  3  TOTAL" ++ LF ++ LF ++
    "  2  " ++ lic ++ LF ++ "  1  MIT" ++ LF ++ "  3  TOTAL FOUND" ++ LF).
Proof.
  cbv zeta. split; [|vm_compute; reflexivity].
  unfold plain_licenses. repeat constructor; try discriminate; cbn; intros _ I; repeat destruct I as [I|I]; try discriminate I; try destruct I.
Qed.
Definition quota (n : nat) : sink := fun i => if Nat.ltb i n then Accept else Refuse 0.
Example C51_prefix_witness : gives_up (quota 6) /\
  snd (generate_to (quota 6) insertion_count_sorter C51_package) = "   9  License found" ++ LF ++ "   3".
Proof.
  split; [|vm_compute; reflexivity]. intros i n H j L. unfold quota in *. destruct (Nat.ltb_spec i 6); [discriminate|].
  destruct (Nat.ltb_spec j 6); [lia|reflexivity].
Qed.

(** ** What does not hold *)
Definition of_licenses (l : list string) : Package := set_p_FilesAnalyzed true (set_p_Files (map (w_file "x") l) zero_PackageOf).
(** No error means that the report was written: refuted by a writer that takes nothing. *)
Theorem C51_error_refuted : exists k cs pkg, (forall i, k i = Refuse 0) /\ plain_licenses pkg /\ generate_to k cs pkg = (Ok tt, "").
Proof.
  exists (fun _ => Refuse 0), insertion_count_sorter, C51_package. split; [reflexivity|]. split; [apply C51_witness|]. vm_compute. reflexivity.
Qed.
Print Assumptions C51_error_refuted.
(** C51_readable for all licenses: refuted by a license with a tab. *)
Theorem C51_readable_refuted : exists cs pkg pkg' t lic, let k := fun _ => Accept in
  generate_to k cs pkg = (Ok tt, t) /\ generate_to k cs pkg' = (Ok tt, t) /\ concluding lic pkg = 0%N /\ concluding lic pkg' = 1%N /\
  lic <> "" /\ lic <> "NOASSERTION".
Proof.
  exists insertion_count_sorter, (of_licenses ["A" ++ TAB ++ "B"]), (of_licenses ["  AB"]). eexists. exists "  AB".
  cbn zeta. split; [vm_compute; reflexivity|]. split; [vm_compute; reflexivity|]. split; [reflexivity|]. split; [reflexivity|]. split; discriminate.
Qed.
Print Assumptions C51_readable_refuted.
(** Every line of a report is about a license of a file: refuted by a license
    with a line feed, which adds a line of its own. *)
Theorem C51_lines_refuted : exists (cs : count_sorter) (pkg : Package) (before after : string), (forall f : File, In f (p_Files pkg) -> f_LicenseConcluded f <> "GPL") /\
  generate_to (fun _ => Accept) cs pkg = (Ok tt, before ++ LF ++ "  7  GPL" ++ LF ++ after).
Proof.
  exists insertion_count_sorter, (of_licenses ["MIT" ++ LF ++ "7" ++ TAB ++ "  GPL"]). do 2 eexists. split.
  - intros f [<-|[]]. discriminate.
  - instantiate (2 := "  1  License found" ++ LF ++ "  0  License not found" ++ LF ++ "  1  TOTAL" ++ LF ++ LF ++ "  1  MIT").
    instantiate (1 := "  1  TOTAL FOUND" ++ LF). vm_compute. reflexivity.
Qed.
Print Assumptions C51_lines_refuted.
(** C51_silent for all licenses: refuted by such a license and a writer that
    refuses a single call. *)
Theorem C51_panics_refuted : exists k cs pkg t, (forall i, i <> 3 -> k i = Accept) /\ generate_to k cs pkg = (Panic, t).
Proof.
  exists (fun i => if Nat.eqb i 3 then Refuse 0 else Accept), insertion_count_sorter, (of_licenses ["MIT" ++ LF ++ "1234567" ++ TAB ++ "GPL"]).
  eexists. split; [|vm_compute; reflexivity]. intros i H. apply Nat.eqb_neq in H. now rewrite H.
Qed.
Print Assumptions C51_panics_refuted.
Lemma same_end s : forall t x y, s ++ x = t ++ y -> String.length x = String.length y -> x = y.
Proof.
  induction s as [|a s IH]; intros t x y E L.
  - destruct t as [|b t]; [exact E|]. apply (f_equal String.length) in E. rewrite !app_length_s in E. cbn in E. lia.
  - destruct t as [|b t]; [|injection E as _ E; exact (IH t x y E L)]. apply (f_equal String.length) in E. rewrite !app_length_s in E. cbn in E. lia.
Qed.
(** C51_text for all licenses: refuted by a license with a single byte 0xff, after
    which the lines of the table run on as they were given to the writer. *)
Theorem C51_text_refuted : exists cs pkg, p_FilesAnalyzed pkg = true /\
  (forall counts, generate_to (fun _ => Accept) cs pkg <> (Ok tt, report (licensed pkg) (unlicensed pkg) counts)).
Proof.
  exists insertion_count_sorter, (of_licenses [String (byte 255) "A"; "MIT"]). split; [reflexivity|]. intros counts E.
  assert (exists a, generate_to (fun _ => Accept) insertion_count_sorter (of_licenses [String (byte 255) "A"; "MIT"]) = (Ok tt, a ++ TAB ++ "  TOTAL FOUND" ++ LF)) as (a & G).
  { exists ("  2  License found" ++ LF ++ "  0  License not found" ++ LF ++ "  2  TOTAL" ++ LF ++ LF ++ "  1  " ++ String (byte 255) "A" ++ LF ++ "1" ++ TAB ++ "  MIT" ++ LF ++ "2").
    vm_compute. reflexivity. }
  rewrite G in E. clear G. injection E as E. unfold report in E.
  assert (exists b, table (counts ++ [(licensed (of_licenses [String (byte 255) "A"; "MIT"]), "TOTAL FOUND")]) = b ++ "2" ++ "  TOTAL FOUND" ++ LF) as (b & T).
  { clear E. unfold table. generalize (2 + widest (counts ++ [(licensed (of_licenses [String (byte 255) "A"; "MIT"]), "TOTAL FOUND")])). intros n.
    induction counts as [|c l (b & IH)]; cbn [List.app map].
    - exists (blanks (n - 1)). rewrite concat_cons. cbn [String.concat]. now rewrite app_nil_r_s.
    - exists (entry_line n c ++ b). rewrite concat_cons, IH. now rewrite app_assoc_s. }
  rewrite T in E. match type of E with _ = ?t ++ _ => set (h := t) in E; clearbody h end.
  assert (a ++ (TAB ++ "  TOTAL FOUND" ++ LF) = (h ++ LF ++ b) ++ ("2" ++ "  TOTAL FOUND" ++ LF)) as E' by (etransitivity; [exact E|rewrite !app_assoc_s; reflexivity]).
  apply same_end in E'; [|reflexivity]. discriminate E'.
Qed.
Print Assumptions C51_text_refuted.
