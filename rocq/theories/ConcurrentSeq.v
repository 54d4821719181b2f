(** * One call of the writer alone, step by step, is the writer of TvWriter.v *)
From Verif Require Import GoStr GoStrFacts Sorting Types TvUtil TvState TvWriter Concurrent SpecConcurrent ConcurrentFacts.
Local Open Scope list_scope.

(** ** Insertion sort in place *)
Section InPlace.
  Context {A : Type} (key : A -> string).
  Fixpoint sink (x : A) (r : list A) : list A :=
    match r with
    | [] => [x]
    | y :: r' => if str_ltb (key x) (key y) then y :: sink x r' else x :: r
    end.
  Fixpoint insert_after (x : A) (l : list A) : list A :=
    match l with
    | [] => [x]
    | y :: l' => if str_ltb (key x) (key y) then x :: l else y :: insert_after x l'
    end.
  Lemma insert_after_last x l z : str_ltb (key x) (key z) = true -> insert_after x (l ++ [z]) = insert_after x l ++ [z].
  Proof.
    intros H. induction l as [|y l IH]; cbn [insert_after List.app]; [now rewrite H|]. destruct (str_ltb (key x) (key y)); [reflexivity|]. now rewrite IH.
  Qed.
  Lemma insert_after_all x l : Forall (fun y => str_ltb (key x) (key y) = false) l -> insert_after x l = l ++ [x].
  Proof. induction 1 as [|y l H F IH]; cbn [insert_after List.app]; [reflexivity|]. now rewrite H, IH. Qed.
  Lemma ordered_last l z : ordered key (l ++ [z]) -> ordered key l /\ Forall (fun y => str_leb (key y) (key z) = true) l.
  Proof.
    unfold ordered. induction l as [|y l IH]; intros H; [split; constructor|]. inversion H as [|? ? H1 H2]; subst. destruct (IH H1) as [I1 I2].
    apply Forall_app in H2 as [H2 H3]. inversion H3; subst. split; constructor; assumption.
  Qed.
  Lemma sink_insert_after x l : ordered key l -> rev (sink x (rev l)) = insert_after x l.
  Proof.
    induction l as [|z l IH] using rev_ind; intros O; [reflexivity|]. apply ordered_last in O as [O F].
    rewrite rev_app_distr. cbn [rev List.app sink]. destruct (str_ltb (key x) (key z)) eqn:E.
    - cbn [rev]. now rewrite (IH O), insert_after_last.
    - cbn [rev]. rewrite rev_involutive. symmetry. apply insert_after_all. apply Forall_app. split; [|repeat constructor; assumption].
      eapply Forall_impl; [|exact F]. cbn. intros y Hy. assert (str_leb (key z) (key x) = true) as Hz by (unfold str_leb; now rewrite E).
      pose proof (str_leb_trans _ _ _ Hy Hz) as H. unfold str_leb in H. now apply negb_true_iff in H.
  Qed.
  Lemma insert_swap a y l : insert key a (insert_after y l) = insert_after y (insert key a l).
  Proof.
    induction l as [|b l IH]; cbn [insert insert_after].
    - unfold str_leb. now destruct (str_ltb (key y) (key a)).
    - destruct (str_ltb (key y) (key b)) eqn:E1, (str_leb (key a) (key b)) eqn:E2; cbn [insert insert_after].
      + unfold str_leb at 1. destruct (str_ltb (key y) (key a)); cbn [negb].
        * now rewrite E2.
        * now rewrite E1.
      + rewrite E1, E2. unfold str_leb in *. apply negb_false_iff in E2. now rewrite (str_ltb_trans _ _ _ E1 E2).
      + rewrite E2, E1. assert (str_leb (key b) (key y) = true) as H by (unfold str_leb; now rewrite E1).
        pose proof (str_leb_trans _ _ _ E2 H) as K. unfold str_leb in K. apply negb_true_iff in K. now rewrite K.
      + now rewrite E2, E1, IH.
  Qed.
  Lemma isort_last l y : isort key (l ++ [y]) = insert_after y (isort key l).
  Proof.
    induction l as [|a l IH]; [reflexivity|]. change (insert key a (isort key (l ++ [y])) = insert_after y (insert key a (isort key l))).
    now rewrite IH, insert_swap.
  Qed.
End InPlace.
Lemma insert_map {A B} (f : A -> B) (key : B -> string) x l : insert key (f x) (map f l) = map f (insert (fun x => key (f x)) x l).
Proof. induction l as [|y l IH]; cbn [insert map]; [reflexivity|]. destruct (str_leb (key (f x)) (key (f y))); [reflexivity|]. cbn [map]. now rewrite IH. Qed.
Lemma isort_map {A B} (f : A -> B) (key : B -> string) l : isort key (map f l) = map f (isort (fun x => key (f x)) l).
Proof.
  induction l as [|x l IH]; [reflexivity|].
  change (insert key (f x) (isort key (map f l)) = map f (insert (fun x => key (f x)) x (isort (fun x => key (f x)) l))). now rewrite IH, insert_map.
Qed.

Definition apart (at_ : nat -> loc) (m m' : mem) : Prop := forall l, (forall i, l <> at_ i) -> m' l = m l.
Definition slice_of (at_ : nat -> loc) : Prop := forall i j, at_ i = at_ j -> i = j.

Lemma loc_eqb_iff a b : loc_eqb a b = true <-> a = b.
Proof.
  destruct a, b; cbn [loc_eqb]; rewrite ?andb_true_iff, ?Nat.eqb_eq; split; intros H; try discriminate; try congruence.
  - now destruct H as [-> ->].
  - injection H as -> ->. now split.
Qed.
Lemma upd_here l x m : upd l x m l = x.
Proof. unfold upd. now rewrite (proj2 (loc_eqb_iff l l) eq_refl). Qed.
Lemma upd_there l l' x m : l <> l' -> upd l x m l' = m l'.
Proof. intros H. unfold upd. destruct (loc_eqb l l') eqn:E; [|reflexivity]. now apply loc_eqb_iff in E. Qed.
Lemma apart_trans at_ m1 m2 m3 : apart at_ m1 m2 -> apart at_ m2 m3 -> apart at_ m1 m3.
Proof. intros H1 H2 l N. now rewrite H2, H1. Qed.
Lemma apart_refl at_ m : apart at_ m m.
Proof. now intros l N. Qed.
Lemma cells_len at_ n m : length (cells at_ n m) = n.
Proof. unfold cells. now rewrite map_length, seq_length. Qed.
Lemma cells_ext at_ n m m' : (forall i, m' (at_ i) = m (at_ i)) -> cells at_ n m' = cells at_ n m.
Proof. intros H. unfold cells. apply map_ext. intros i. apply H. Qed.
Lemma cells_at at_ n m a x b : cells at_ n m = a ++ x :: b -> m (at_ (length a)) = x.
Proof.
  intros E. assert (length a < n) as L by (rewrite <- (cells_len at_ n m), E, app_length; cbn; lia).
  rewrite <- (cells_nth at_ n m (length a) x L), E. now rewrite app_nth2, Nat.sub_diag by lia.
Qed.
Lemma cells_upd at_ n m a x b y : slice_of at_ -> cells at_ n m = a ++ x :: b -> cells at_ n (upd (at_ (length a)) y m) = a ++ y :: b.
Proof.
  intros I E. assert (length a + S (length b) = n) as L by (rewrite <- (cells_len at_ n m), E, app_length; cbn; lia).
  apply nth_ext with (d := y) (d' := y); [rewrite cells_len, app_length; cbn; lia|]. rewrite cells_len. intros i Hi.
  rewrite cells_nth by assumption. destruct (Nat.eq_dec i (length a)) as [->|N].
  - rewrite upd_here, app_nth2, Nat.sub_diag by lia. reflexivity.
  - rewrite upd_there by (intros K; apply I in K; lia).
    rewrite <- (cells_nth at_ n m i y Hi), E. destruct (Nat.lt_ge_cases i (length a)) as [K|K].
    + now rewrite !app_nth1 by assumption.
    + rewrite !app_nth2 by assumption. destruct (i - length a) as [|z] eqn:Z; [lia|reflexivity].
Qed.

Section Slice.
  Variables (d : Document) (at_ : nat -> loc) (n : nat).
  Hypothesis I : slice_of at_.

  Lemma run_sift k r m x b : cells at_ n m = rev r ++ x :: b ->
    exists m', run (sift d at_ (length r) k) m = run k m' /\ cells at_ n m' = rev (sink (key d) x r) ++ b /\ apart at_ m m'.
  Proof.
    revert m x b. induction r as [|y r IH]; intros m x b E.
    - exists m. split; [reflexivity|]. split; [exact E|apply apart_refl].
    - cbn [length sift run sink]. cbn [rev] in E. rewrite <- app_assoc in E. cbn [List.app] in E.
      pose proof (cells_at _ _ _ _ _ _ E) as Y. rewrite rev_length in Y.
      assert (m (at_ (S (length r))) = x) as X.
      { replace (S (length r)) with (length (rev r ++ [y])) by (rewrite app_length, rev_length; cbn; lia). apply (cells_at at_ n m _ x b). now rewrite <- app_assoc. }
      rewrite X, Y. unfold less. destruct (str_ltb (key d x) (key d y)) eqn:L.
      + unfold swap. cbn [run]. rewrite X, Y.
        set (m1 := upd (at_ (length r)) x (upd (at_ (S (length r))) y m)).
        assert (cells at_ n m1 = rev r ++ x :: y :: b) as E1.
        { unfold m1. replace (length r) with (length (rev r)) at 1 by apply rev_length. apply cells_upd with (x := y); [assumption|].
          replace (S (length r)) with (length (rev r ++ [y])) by (rewrite app_length, rev_length; cbn; lia).
          change (y :: y :: b) with ([y] ++ y :: b). rewrite app_assoc. apply cells_upd with (x := x); [assumption|]. rewrite <- app_assoc. exact E. }
        destruct (IH m1 x (y :: b) E1) as (m' & R & C & P). exists m'. split; [exact R|]. split; [cbn [rev]; rewrite <- app_assoc; exact C|].
        intros l N. rewrite (P l N). unfold m1. now rewrite !upd_there by (intros K; symmetry in K; revert K; apply N).
      + exists m. split; [reflexivity|]. split; [|apply apart_refl]. cbn [rev]. rewrite <- !app_assoc. exact E.
  Qed.
  Lemma run_sort_from k a b m : cells at_ n m = isort (key d) a ++ b ->
    exists m', run (sort_from d at_ (length a) (length b) k) m = run k m' /\ cells at_ n m' = isort (key d) (a ++ b) /\ apart at_ m m'.
  Proof.
    revert a m. induction b as [|x b IH]; intros a m E; cbn [length sort_from].
    - exists m. rewrite !app_nil_r in *. split; [reflexivity|]. split; [exact E|apply apart_refl].
    - assert (length a = length (rev (isort (key d) a))) as -> by (rewrite rev_length; symmetry; apply Permutation_length, isort_perm).
      destruct (run_sift (sort_from d at_ (S (length (rev (isort (key d) a)))) (length b) k) (rev (isort (key d) a)) m x b) as (m1 & R1 & C1 & P1); [now rewrite rev_involutive|].
      rewrite sink_insert_after, <- isort_last in C1 by apply isort_ordered.
      destruct (IH (a ++ [x]) m1 C1) as (m2 & R2 & C2 & P2). exists m2. rewrite <- app_assoc in C2. split; [|split; [exact C2|now apply (apart_trans _ _ m1)]].
      rewrite R1, <- R2. rewrite rev_length, (Permutation_length (isort_perm _ (key d) a)), app_length. cbn [length]. now rewrite Nat.add_1_r.
  Qed.
  Lemma run_sort k m : exists m', run (sort_slice d at_ n k) m = run k m' /\ cells at_ n m' = isort (key d) (cells at_ n m) /\ apart at_ m m'.
  Proof.
    unfold sort_slice. destruct (cells at_ n m) as [|x b] eqn:E.
    - assert (n = 0) as N by (rewrite <- (cells_len at_ n m), E; reflexivity). replace (n - 1) with 0 by lia. exists m. split; [reflexivity|]. split; [exact E|apply apart_refl].
    - assert (n = S (length b)) as N by (rewrite <- (cells_len at_ n m), E; reflexivity).
      replace (n - 1) with (length b) by lia. change 1 with (length [x]). apply run_sort_from. exact E.
  Qed.
End Slice.

(** ** The writer *)
Definition andthen (o : list chunk) (r : mem * list chunk) : mem * list chunk := (fst r, o ++ snd r).
Lemma run_out c k m : run (Out c k) m = andthen c (run k m).
Proof. cbn [run]. now destruct (run k m). Qed.
Lemma andthen_twice o o' r : andthen o (andthen o' r) = andthen (o ++ o') r.
Proof. unfold andthen. cbn. now rewrite app_assoc. Qed.
Lemma andthen_nil r : andthen [] r = r.
Proof. now destruct r. Qed.
Lemma run_range at_ (g : elem -> list chunk) i n k m : run (range at_ i n (fun x => Out (g x)) k) m = andthen (flat_map g (map (fun j => m (at_ j)) (seq i n))) (run k m).
Proof.
  revert i. induction n as [|n IH]; intros i; cbn [range run seq map flat_map]; [now rewrite andthen_nil|].
  change (run (Out (g (m (at_ i))) (range at_ (S i) n (fun x => Out (g x)) k)) m = andthen (g (m (at_ i)) ++ flat_map g (map (fun j => m (at_ j)) (seq (S i) n))) (run k m)).
  now rewrite run_out, IH, andthen_twice.
Qed.
Definition pfiles (d : Document) (k : nat) : list File := p_Files (nth_pkg d k).

Section Alone.
  Variables (v : version) (d : Document).

  Lemma run_package i k m : cells (PFil i) (length (pfiles d i)) m = map EFile (pfiles d i) ->
    exists m', run (package_body v d (sort_slice d) (EPkg i) k) m = andthen (package_chunks v d i) (run k m') /\
      cells (PFil i) (length (pfiles d i)) m' = map EFile (isort f_SPDXIdentifier (pfiles d i)) /\ apart (PFil i) m m'.
  Proof.
    intros E. unfold package_body. cbn [as_pkg]. rewrite run_out. fold (pfiles d i).
    destruct (run_sort d (PFil i) (length (pfiles d i))) with (k := range (PFil i) 0 (length (pfiles d i)) (file_body v) k) (m := m) as (m' & R & C & P); [now intros a b [=]|].
    rewrite E, isort_map in C. cbn [key] in C.
    exists m'. split; [|split; assumption]. rewrite R. unfold file_body. rewrite run_range.
    change (map (fun j => m' (PFil i j)) (seq 0 ?n)) with (cells (PFil i) n m'). rewrite C, flat_map_map, andthen_twice. unfold package_chunks, render_package. reflexivity.
  Qed.
  Lemma run_packages k ks i m : map (fun j => m (Pkg j)) (seq i (length ks)) = map EPkg ks -> NoDup ks ->
    (forall q, In q ks -> cells (PFil q) (length (pfiles d q)) m = map EFile (pfiles d q)) ->
    exists m', run (range Pkg i (length ks) (package_body v d (sort_slice d)) k) m = andthen (flat_map (package_chunks v d) ks) (run k m') /\
      (forall l, (forall q j, In q ks -> l <> PFil q j) -> m' l = m l) /\
      (forall q, In q ks -> cells (PFil q) (length (pfiles d q)) m' = map EFile (isort f_SPDXIdentifier (pfiles d q))).
  Proof.
    revert i m. induction ks as [|q ks IH]; intros i m E N F.
    - exists m. cbn [length range flat_map]. rewrite andthen_nil. repeat split. intros q [].
    - cbn [length range run seq map] in *. injection E as E1 E2. inversion N as [|? ? N1 N2]; subst. rewrite E1.
      destruct (run_package q (range Pkg (S i) (length ks) (package_body v d (sort_slice d)) k) m (F q (or_introl eq_refl))) as (m1 & R1 & C1 & P1).
      destruct (IH (S i) m1) as (m2 & R2 & P2 & C2).
      + rewrite <- E2. apply map_ext. intros j. apply P1. discriminate.
      + assumption.
      + intros q' H. rewrite <- (F q' (or_intror H)). apply cells_ext. intros j. apply P1. intros j' [= -> ->]. contradiction.
      + exists m2. split; [now rewrite R1, R2, andthen_twice|]. split.
        * intros l H. rewrite P2 by (intros q' j H'; apply H; now right). apply P1. intros j. apply H. now left.
        * intros q' [<-|H]; [|now apply C2]. rewrite <- C1. apply cells_ext. intros j. apply P2. intros q' j' H [= -> ->]. contradiction.
  Qed.

  Lemma write_alone ci : d_CreationInfo d = Some ci ->
    exists m' o, run (write_prog v d (sort_slice d) ci) (mem_of d) = (m', o) /\
      render_document_chunks insertion_sorter v d = Ok o /\ doc_in d m' = sorted_document insertion_sorter d.
  Proof.
    intros C. unfold write_prog. rewrite run_out.
    destruct (run_sort d Edr (length (d_ExternalDocumentReferences d))) with (m := mem_of d)
      (k := range Edr 0 (length (d_ExternalDocumentReferences d)) (fun x => Out (render_edr (as_edr x)))
        (Out (opt_text "DocumentComment" (d_DocumentComment d) ++ render_creation_info ci ++ section "Unpackaged files" (d_Files d) [])
        (sort_slice d Fil (length (d_Files d)) (range Fil 0 (length (d_Files d)) (file_body v)
        (sort_slice d Pkg (length (d_Packages d)) (range Pkg 0 (length (d_Packages d)) (package_body v d (sort_slice d))
        (Out (section "Other Licenses" (d_OtherLicenses d) (flat_map render_other_license (d_OtherLicenses d))
          ++ section "Relationships" (d_Relationships d) (flat_map render_relationship (d_Relationships d) ++ [Raw LF])
          ++ section "Annotations" (d_Annotations d) (flat_map (fun a => (render_annotation a ++ [Raw LF])%list) (d_Annotations d))
          ++ section "Reviews" (d_Reviews d) (flat_map render_review (d_Reviews d))) Halt))))))) as (m1 & R1 & C1 & P1); [now intros a b [=]|].
    rewrite R1. clear R1. rewrite run_range, run_out.
    match goal with |- context [run (sort_slice d Fil ?n ?k) m1] =>
      destruct (run_sort d Fil n ltac:(now intros a b [=]) k m1) as (m2 & R2 & C2 & P2); rewrite R2; clear R2 end.
    unfold file_body at 1. rewrite run_range.
    match goal with |- context [run (sort_slice d Pkg ?n ?k) m2] =>
      destruct (run_sort d Pkg n ltac:(now intros a b [=]) k m2) as (m3 & R3 & C3 & P3); rewrite R3; clear R3 end.
    set (ks := isort (fun i => p_SPDXIdentifier (nth_pkg d i)) (seq 0 (length (d_Packages d)))).
    assert (length ks = length (d_Packages d)) as Lk by (unfold ks; rewrite (Permutation_length (isort_perm _ _ _)); apply seq_length).
    assert (NoDup ks) as Nk by (eapply Permutation_NoDup; [symmetry; apply isort_perm|apply seq_NoDup]).
    assert (forall l, (forall i, l <> Edr i) -> (forall i, l <> Fil i) -> (forall i, l <> Pkg i) -> m3 l = mem_of d l) as Q.
    { intros l H1 H2 H3. now rewrite P3, P2, P1. }
    assert (cells Edr (length (d_ExternalDocumentReferences d)) m1 = map EEdr (isort edr_DocumentRefID (d_ExternalDocumentReferences d))) as D1.
    { rewrite C1, cells_edr, isort_map. reflexivity. }
    assert (cells Fil (length (d_Files d)) m2 = map EFile (isort f_SPDXIdentifier (d_Files d))) as D2.
    { rewrite C2. rewrite (cells_ext Fil _ (mem_of d) m1) by (intros i; apply P1; discriminate). rewrite cells_fil, isort_map. reflexivity. }
    assert (cells Pkg (length (d_Packages d)) m3 = map EPkg ks) as D3.
    { rewrite C3. rewrite (cells_ext Pkg _ (mem_of d) m2) by (intros i; rewrite P2, P1 by discriminate; reflexivity). rewrite cells_pkg, isort_map. reflexivity. }
    assert (map (nth_pkg d) ks = isort p_SPDXIdentifier (d_Packages d)) as Dk.
    { unfold ks. rewrite <- (isort_map (nth_pkg d) p_SPDXIdentifier), pkgs_seq. reflexivity. }
    match goal with |- context [run (range Pkg 0 ?n _ ?k) m3] => destruct (run_packages k ks 0 m3) as (m4 & R4 & P4 & C4) end.
    - rewrite Lk. exact D3.
    - assumption.
    - intros q _. unfold pfiles; rewrite <- cells_pfil. apply cells_ext. intros i. apply Q; discriminate.
    - rewrite Lk in R4. rewrite R4. clear R4. eexists m4, _. split; [rewrite !andthen_twice; cbn [run andthen fst snd]; unfold andthen; cbn [fst snd]; reflexivity|]. split.
      + unfold render_document_chunks. rewrite C. f_equal. unfold render_header, render_sections. cbn [sort_by insertion_sorter].
        change (map (fun j => m1 (Edr j)) (seq 0 ?n)) with (cells Edr n m1). change (map (fun j => m2 (Fil j)) (seq 0 ?n)) with (cells Fil n m2).
        rewrite D1, D2, !flat_map_map, <- Dk, flat_map_map. rewrite <- !app_assoc. repeat (f_equal; []).
        destruct (d_Files d) as [|f fs]; cbn [section flat_map List.app]; rewrite <- ?app_assoc, app_nil_r; reflexivity.
      + unfold doc_in, sorted_document. cbn [sort_by insertion_sorter].
        assert (forall at_ n m, (forall i l, In l ks -> forall j, at_ i <> PFil l j) -> (forall i, m (at_ i) = m3 (at_ i)) -> cells at_ n m4 = cells at_ n m) as W.
        { intros at_ n m H1 H2. apply cells_ext. intros i. rewrite H2. apply P4. intros q j Hq. now apply H1. }
        rewrite (W Edr _ m1) by (try discriminate; intros i; rewrite P3, P2 by discriminate; reflexivity).
        rewrite (W Fil _ m2) by (try discriminate; intros i; rewrite P3 by discriminate; reflexivity).
        rewrite (W Pkg _ m3) by (try discriminate; reflexivity).
        rewrite D1, D2, D3, !map_map. cbn [as_edr as_file as_pkg]. rewrite !map_id, <- Dk, map_map.
        do 3 f_equal. apply map_ext_in. intros q Hq. unfold pkg_in, sort_package. fold (pfiles d q). rewrite (C4 q Hq), map_map. cbn [as_file]. now rewrite map_id.
  Qed.
End Alone.

Lemma doc_in_start d : doc_in d (mem_of d) = d.
Proof.
  unfold doc_in. rewrite cells_edr, cells_fil, cells_pkg, !map_map. cbn [as_edr as_file as_pkg]. rewrite !map_id.
  assert (map (pkg_in d (mem_of d)) (seq 0 (length (d_Packages d))) = d_Packages d) as E.
  { rewrite <- (pkgs_seq d) at 2. apply map_ext. intros k. unfold pkg_in. rewrite cells_pfil, map_map. cbn [as_file]. rewrite map_id. now destruct (nth_pkg d k). }
  change (fun x : nat => pkg_in d (mem_of d) x) with (pkg_in d (mem_of d)). rewrite E. now destruct d.
Qed.
Lemma sorted_document_sorted d : document_sorted (sorted_document insertion_sorter d).
Proof.
  unfold document_sorted, sorted_document. cbn. repeat split; try apply isort_ordered.
  - apply ordered_map. change (fun x : Package => p_SPDXIdentifier (sort_package insertion_sorter x)) with (fun x : Package => p_SPDXIdentifier x). apply isort_ordered.
  - apply Forall_map. apply Forall_forall. intros p _. apply isort_ordered.
Qed.
