(** * Property C57: the example programs that compare and count licenses *)
From Verif Require Import GoStr GoStrFacts Sorting Types TvUtil TvState TvParser SpdxLib LicenseTools SpecTv SpecUtils SpecTools TvReaderFacts UtilsFacts ToolsFacts PropsTools
  Stream TabWriter Report SpecReport PropsReport Programs SpecPrograms ProgramsFacts.
Local Open Scope string_scope.
Local Lemma bindR_ok {A B} (r : res A) (f : A -> res B) y : bindR r f = Ok y -> exists a, r = Ok a /\ f a = Ok y.
Proof. destruct r; cbn [bindR]; try discriminate. eauto. Qed.

(** ** Comparing two documents *)
(** What the program prints: for each thing the first document is about what
    there is to say of it, then the same for the second, leaving out what has
    been compared. *)
Theorem C57_diff : forall srt iter d1 d2 t, (forall l, Permutation (iter l) l) -> license_diff srt iter d1 d2 = Ok t ->
  exists ids1 ids2 v1 v2, topics d1 ids1 /\ topics d2 ids2 /\ Forall2 (says d1 d2) ids1 v1 /\ Forall2 (says d2 d1) ids2 v2 /\
    t = String.concat "" (map first_text v1) ++ String.concat "" (map second_text v2).
Proof.
  intros srt iter d1 d2 t P H. unfold license_diff in H. apply bindR_ok in H as (ids1 & E1 & H). apply bindR_ok in H as (ids2 & E2 & H). injection H as <-.
  apply topics_iff in E1, E2.
  assert (exists v1, Forall2 (says d1 d2) ids1 v1 /\ map (diff_first iter d1 d2) ids1 = map first_text v1) as (v1 & F1 & ->).
  { clear E1. induction ids1 as [|id ids IH]; [exists []; split; [constructor|reflexivity]|]. destruct IH as (vs & F & E).
    destruct (says_exists iter d1 d2 id P) as (v & S & K). exists (v :: vs). split; [now constructor|]. cbn [map]. congruence. }
  assert (exists v2, Forall2 (says d2 d1) ids2 v2 /\ map (diff_second d1 d2) ids2 = map second_text v2) as (v2 & F2 & ->).
  { clear E2. induction ids2 as [|id ids IH]; [exists []; split; [constructor|reflexivity]|]. destruct IH as (vs & F & E).
    destruct (says_exists iter d2 d1 id P) as (v & S & _). exists (v :: vs). split; [now constructor|]. cbn [map]. rewrite (says_second _ _ _ _ S). congruence. }
  now exists ids1, ids2, v1, v2.
Qed.
Print Assumptions C57_diff.
(** It prints that if and only if both documents are about something. *)
Theorem C57_diff_runs : forall srt iter d1 d2,
  ((exists t, license_diff srt iter d1 d2 = Ok t) <-> (exists ids, topics d1 ids) /\ (exists ids, topics d2 ids)) /\
  license_diff srt iter d1 d2 <> Panic.
Proof.
  intros srt iter d1 d2. unfold license_diff. split.
  - split.
    + intros (t & H). apply bindR_ok in H as (ids1 & E1 & H). apply bindR_ok in H as (ids2 & E2 & H). apply topics_iff in E1, E2. eauto.
    + intros ((ids1 & E1) & (ids2 & E2)). apply (topics_iff srt) in E1, E2. rewrite E1, E2. cbn [bindR]. eauto.
  - assert (forall d, get_described_package_ids srt d <> Panic) as N.
    { intros d. unfold get_described_package_ids. destruct (d_Packages d) as [|p [|q l]]; try discriminate.
      destruct (d_Relationships d); try discriminate. destruct (filter_relationships _ _); discriminate. }
    pose proof (N d1). pose proof (N d2). destruct (get_described_package_ids srt d1); cbn [bindR]; try congruence.
    destruct (get_described_package_ids srt d2); cbn [bindR]; congruence.
Qed.
Print Assumptions C57_diff_runs.
(** The text does not depend on the order in which Go visits a map, nor on how it
    sorts. *)
Theorem C57_diff_determined : forall srt srt' iter iter' d1 d2, (forall l, Permutation (iter l) l) -> (forall l, Permutation (iter' l) l) ->
  license_diff srt iter d1 d2 = license_diff srt' iter' d1 d2.
Proof.
  intros srt srt' iter iter' d1 d2 P P'. unfold license_diff. rewrite (C21_deterministic srt srt' d1), (C21_deterministic srt srt' d2).
  destruct (get_described_package_ids srt' d1) as [ids1| |]; cbn [bindR]; try reflexivity.
  destruct (get_described_package_ids srt' d2) as [ids2| |]; cbn [bindR]; try reflexivity.
  do 3 f_equal. apply map_ext. intros id. destruct (says_exists iter d1 d2 id P) as (v & S & ->), (says_exists iter' d1 d2 id P') as (w & T & ->).
  f_equal. eapply says_inj; eassumption.
Qed.
Print Assumptions C57_diff_determined.

(** The four numbers count every file name of the two packages once. *)
Lemma license_for_total p x : exists a, license_for p x a.
Proof. eexists. now apply license_for_last. Qed.
Lemma license_for_inj p x a b : license_for p x a -> license_for p x b -> a = b.
Proof. rewrite !license_for_last. congruence. Qed.
Lemma number_of_sum P Q n m : number_of P n -> number_of Q m -> (forall x, P x -> Q x -> False) -> number_of (fun x => P x \/ Q x) (n + m).
Proof.
  intros (l & D & I & <-) (l' & D' & I' & <-) N. exists (l ++ l')%list. split; [|split; [|apply app_length]].
  - assert (forall x, In x l -> ~ In x l') as A by (intros x H H'; apply I in H; apply I' in H'; eauto). clear I I' N.
    induction D as [|y l Ny D IH]; [assumption|]. cbn [List.app]. constructor.
    + rewrite in_app_iff. intros [H|H]; [contradiction|]. exact (A y (or_introl eq_refl) H).
    + apply IH. intros x H. apply A. now right.
  - intros x. rewrite in_app_iff, I, I'. reflexivity.
Qed.
Theorem C57_diff_total : forall d1 d2 id name n1 n2 n3 n4, says d1 d2 id (Compared id name n1 n2 n3 n4) ->
  exists p1 p2, is_package d1 id p1 /\ is_package d2 id p2 /\
    number_of (fun x => has_file p1 x \/ has_file p2 x) (n1 + n2 + n3 + n4).
Proof.
  intros d1 d2 id name n1 n2 n3 n4 [(_ & H)|[(p & _ & _ & H)|(p1 & p2 & m1 & m2 & m3 & m4 & K1 & K2 & H & N1 & N2 & N3 & N4)]]; try discriminate.
  injection H as _ -> -> -> ->. exists p1, p2. split; [assumption|]. split; [assumption|].
  assert (forall x a b c d, licensed_as p1 p2 x a b -> licensed_as p1 p2 x c d -> a = c /\ b = d) as U.
  { intros x a b c d (_ & A & B) (_ & C & D). split; eapply license_for_inj; eassumption. }
  eapply number_of_ext; [|refine (number_of_sum _ _ _ _ (number_of_sum _ _ _ _ (number_of_sum _ _ _ _ N1 N2 _) N3 _) N4 _)].
  - intros x. cbn beta. split.
    + intros [[[(a & (H & _) & _)|(b & (H & _) & _)]|(a & b & (H & _) & _)]|(a & H & _)]; exact H.
    + intros H. destruct (license_for_total p1 x) as (a & A), (license_for_total p2 x) as (b & B).
      assert (licensed_as p1 p2 x a b) as L by (repeat split; assumption).
      destruct (String.string_dec a b) as [<-|Nab]; [right; now exists a|left].
      destruct (String.string_dec a "") as [->|Na]; [left; right; exists b; split; [assumption|congruence]|].
      destruct (String.string_dec b "") as [->|Nb]; [left; left; now exists a|]. right. now exists a, b.
  - intros x (a & L & Na) (b & L' & Nb). destruct (U _ _ _ _ _ L L'). congruence.
  - intros x [(a & L & Na)|(b & L & Nb)] (c & d & L' & Nc & Nd & Ncd); destruct (U _ _ _ _ _ L L'); congruence.
  - intros x [[(a & L & Na)|(b & L & Nb)]|(a & b & L & Na & Nb & Nab)] (c & L'); destruct (U _ _ _ _ _ L L'); congruence.
Qed.
Print Assumptions C57_diff_total.
(** Comparing the other way round exchanges first and second. *)
Theorem C57_diff_swap : forall d1 d2 id name n1 n2 n3 n4, says d1 d2 id (Compared id name n1 n2 n3 n4) ->
  exists name', says d2 d1 id (Compared id name' n2 n1 n3 n4).
Proof.
  intros d1 d2 id name n1 n2 n3 n4 [(_ & H)|[(p & _ & _ & H)|(p1 & p2 & m1 & m2 & m3 & m4 & K1 & K2 & H & N1 & N2 & N3 & N4)]]; try discriminate.
  injection H as _ -> -> -> ->. exists (p_PackageName p2). right. right. exists p2, p1, m2, m1, m3, m4.
  split; [assumption|]. split; [assumption|]. split; [reflexivity|].
  assert (forall x a b, licensed_as p1 p2 x a b <-> licensed_as p2 p1 x b a) as E by (intros; unfold licensed_as; tauto).
  split; [|split; [|split]]; eapply number_of_ext; try eassumption; intros x; cbn beta.
  - split; intros (b & H & N); exists b; (split; [now apply E|assumption]).
  - split; intros (b & H & N); exists b; (split; [now apply E|assumption]).
  - split; intros (a & b & H & N1' & N2' & N3'); exists b, a; (split; [now apply E|auto]).
  - split; intros (b & H); exists b; now apply E.
Qed.
Print Assumptions C57_diff_swap.
(** A document compared with itself: nothing is on one side only or different. *)
Theorem C57_diff_self : forall d id v, says d d id v ->
  (no_package d id /\ v = Unknown id) \/
  (exists p n, is_package d id p /\ v = Compared id (p_PackageName p) 0 0 0 n /\ number_of (has_file p) n).
Proof.
  intros d id v [H|[(p & K & N & _)|(p1 & p2 & n1 & n2 & n3 & n4 & K1 & K2 & -> & N1 & N2 & N3 & N4)]]; [now left|exfalso; now apply is_no_package in K|].
  right. pose proof (is_package_inj _ _ _ _ K1 K2) as <-. exists p1, n4. split; [assumption|].
  assert (forall x a b, licensed_as p1 p1 x a b -> a = b) as U by (intros x a b (_ & A & B); eapply license_for_inj; eassumption).
  assert (forall P n, number_of P n -> (forall x, ~ P x) -> n = 0) as Z.
  { intros P n (l & D & I & <-) N. destruct l as [|x l]; [reflexivity|]. exfalso. apply (N x). apply I. now left. }
  apply Z in N1 as ->; [|intros x (a & L & N); apply U in L; congruence].
  apply Z in N2 as ->; [|intros x (a & L & N); apply U in L; congruence].
  apply Z in N3 as ->; [|intros x (a & b & L & _ & _ & N); apply U in L; congruence].
  split; [reflexivity|]. eapply number_of_ext; [|exact N4]. intros x. cbn beta. split.
  - intros (a & [H|H] & _); exact H.
  - intros H. destruct (license_for_total p1 x) as (a & A). exists a. repeat split; [now left|assumption|assumption].
Qed.
Print Assumptions C57_diff_self.

(** ** The report *)
Theorem C57_report : forall srt cs doc ids, topics doc ids -> Forall plain_licenses (d_Packages doc) ->
  exists l, chosen ids (d_Packages doc) l /\
    ((Forall reportable l /\ exists ts, Forall2 chapter l ts /\ report_program srt cs doc = Ok (String.concat "" ts)) \/
     (exists a p b ts, l = (a ++ p :: b)%list /\ Forall reportable a /\ ~ reportable p /\ Forall2 chapter a ts /\
        report_program srt cs doc = Ok (String.concat "" ts ++ complaint p))).
Proof.
  intros srt cs doc ids T P. apply (topics_iff srt) in T. unfold report_program. rewrite T. cbn [bindR]. now apply report_packages_spec.
Qed.
Print Assumptions C57_report.
(** Without anything described there is no report; it never breaks off. *)
Theorem C57_report_runs : forall srt cs doc,
  ((exists t, report_program srt cs doc = Ok t) <-> exists ids, topics doc ids) /\ report_program srt cs doc <> Panic.
Proof.
  intros srt cs doc. assert (R : forall ids l, exists t, report_packages cs ids l = Ok t).
  { intros ids. induction l as [|p l (u & IH)]; cbn [report_packages]; [eauto|]. destruct (existsb _ _); [|eauto]. destruct (p_FilesAnalyzed p) eqn:A; cbn [negb]; [|eauto].
    destruct (p_Files p); [eauto|]. pose proof (C51_accepted (fun _ => Accept) cs p (fun _ => eq_refl) A) as K. destruct (generate_to _ cs p) as [e t]. cbn [fst] in K. subst e.
    cbn [bindR]. rewrite IH. cbn [bindR]. eauto. }
  unfold report_program. destruct (get_described_package_ids srt doc) as [ids|m|] eqn:E; cbn [bindR].
  - pose proof E as T. apply topics_iff in T. destruct (R ids (d_Packages doc)) as (t & ->). split; [|discriminate]. split; eauto.
  - split; [|discriminate]. split; [intros (t & H); discriminate|]. intros (ids & T). apply (topics_iff srt) in T. congruence.
  - exfalso. revert E. unfold get_described_package_ids. destruct (d_Packages doc) as [|p [|q l]]; try discriminate.
    destruct (d_Relationships doc); try discriminate. destruct (filter_relationships _ _); discriminate.
Qed.
Print Assumptions C57_report_runs.

(** ** What does not hold, and witnesses *)
Definition describes (ids : list string) : list Relationship := map (fun id => MkRln the_document (MkDEID "" id "") "DESCRIBES" "") ids.
Definition C57_pkg (name id : string) (files : list File) : Package := set_p_FilesAnalyzed true (set_p_Files files (w_pkg name id)).
Definition C57_doc1 : Document :=
  set_d_Relationships (describes ["b"; "a"; "z"; "c"])
    (set_d_Packages [C57_pkg "A" "a" [w_file "f" "MIT"; w_file "g" "MIT"; w_file "h" "MIT"]; C57_pkg "B" "b" [w_file "f" "X"]; C57_pkg "C" "c" []] zero_DocumentOf).
Definition C57_doc2 : Document :=
  set_d_Relationships (describes ["a"; "d"])
    (set_d_Packages [C57_pkg "A2" "a" [w_file "k" "X"; w_file "g" "GPL"; w_file "h" "MIT"; w_file "l" "X"]; C57_pkg "D" "d" []] zero_DocumentOf).
Example C57_diff_witness : license_diff insertion_sorter (fun l => l) C57_doc1 C57_doc2 = Ok (String.concat LF [
  "================================"; "Package a (A)"; "  Files in first only: 1"; "  Files in second only: 2";
  "  Files in both with different licenses: 1"; "  Files in both with same licenses: 1";
  "================================"; "Package b (B)"; "  Found in first document, not found in second";
  "================================"; "Package c (C)"; "  Found in first document, not found in second";
  "================================"; "Package z has described relationship in first document but ID not found";
  "================================"; "Package d (D)"; "  Found in second document, not found in first"; ""]).
Proof. vm_compute. reflexivity. Qed.
(** A package is not always compared once only: each relationship counts. *)
Theorem C57_once_refuted : ~ forall doc ids, topics doc ids -> NoDup ids.
Proof.
  intros H. assert (topics (set_d_Relationships (describes ["a"; "a"]) C57_doc1) ["a"; "a"]) as T by (now apply (topics_iff insertion_sorter)).
  apply H in T. inversion T as [|? ? N _]. apply N. now left.
Qed.
Print Assumptions C57_once_refuted.
(** The report ends at the first described package without files, and says
    nothing about the described packages after it. *)
Theorem C57_report_all_refuted : ~ forall srt cs doc ids p t, topics doc ids -> In p (d_Packages doc) -> In (p_SPDXIdentifier p) ids ->
  report_program srt cs doc = Ok t -> occurs (p_SPDXIdentifier p) t.
Proof.
  intros H.
  pose (doc := set_d_Relationships (describes ["x"; "y"]) (set_d_Packages [C57_pkg "N" "x" []; C57_pkg "M" "y" [w_file "f" "MIT"]] zero_DocumentOf) : Document).
  assert (topics doc ["x"; "y"]) as T by (now apply (topics_iff insertion_sorter)).
  assert (occurs "y" ("Package x (N) has no Files" ++ LF)) as O.
  { apply (H insertion_sorter insertion_count_sorter doc _ (C57_pkg "M" "y" [w_file "f" "MIT"]) _ T); [right; now left|right; now left|reflexivity]. }
  apply occurs_contains in O. vm_compute in O. discriminate.
Qed.
Print Assumptions C57_report_all_refuted.
Example C57_report_witness : Forall plain_licenses (d_Packages C57_doc1) /\
  report_program insertion_sorter insertion_count_sorter C57_doc1 = Ok (String.concat LF [
    "============================"; "Package a (A)"; "  3  License found"; "  0  License not found"; "  3  TOTAL"; ""; "  3  MIT"; "  3  TOTAL FOUND";
    "============================"; "Package b (B)"; "  1  License found"; "  0  License not found"; "  1  TOTAL"; ""; "  1  X"; "  1  TOTAL FOUND";
    "Package c (C) has no Files"; ""]).
Proof.
  split; [|vm_compute; reflexivity].
  repeat constructor; try (intros _); cbn; intros I; repeat destruct I as [I|I]; try discriminate I; try destruct I.
Qed.
