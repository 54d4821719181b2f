(** * Facts about interleaved writing *)
From Verif Require Import GoStr GoStrFacts Sorting Types TvUtil TvState TvWriter Concurrent SpecConcurrent.
Local Open Scope string_scope.

(** ** Any schedule of programs that only read *)
Definition doing (t t' : thread) (m : mem) : Prop :=
  reads_only (fst t') m /\ (snd t' ++ snd (run (fst t') m) = snd t ++ snd (run (fst t) m))%list.
Lemma step_reads t m : reads_only (fst t) m -> snd (step t m) = m /\ doing t (fst (step t m)) m /\ steps (fst (fst (step t m))) m = steps (fst t) m - 1.
Proof.
  destruct t as [[|l k|l x k|c k] o]; cbn [fst snd step reads_only run steps]; intros H.
  - repeat split.
  - repeat split; [assumption|]. cbn [steps]. lia.
  - destruct H.
  - unfold doing. cbn [fst snd]. repeat split; [assumption| |lia]. cbn [run]. destruct (run k m) as [m' o'] eqn:E. cbn [snd]. now rewrite <- app_assoc.
Qed.
Lemma doing_trans t t' t'' m : doing t t' m -> doing t' t'' m -> doing t t'' m.
Proof. intros [_ E] [H E']. split; [assumption|]. now rewrite E'. Qed.

Definition settled (m : mem) (n : nat) (t t' : thread) : Prop := doing t t' m /\ steps (fst t') m = steps (fst t) m - n.
Lemma step_nth_reads i ts m : Forall (fun t => reads_only (fst t) m) ts ->
  snd (step_nth i ts m) = m /\ length (fst (step_nth i ts m)) = length ts /\
  forall j t, nth_error ts j = Some t -> exists t', nth_error (fst (step_nth i ts m)) j = Some t' /\ settled m (if Nat.eq_dec i j then 1 else 0) t t'.
Proof.
  intros H. revert i. induction H as [|t ts H F IH]; intros i.
  - destruct i; repeat split; intros [|j] t E; discriminate.
  - destruct i as [|i]; cbn [step_nth].
    + destruct (step_reads t m H) as (S1 & S2 & S3). destruct (step t m) as [t' m']. cbn [fst snd] in *. subst m'. repeat split.
      intros [|j] u E; cbn [nth_error] in *.
      * injection E as <-. exists t'. split; [reflexivity|]. split; assumption.
      * exists u. split; [assumption|]. destruct (Nat.eq_dec 0 (S j)) as [K|_]; [discriminate|]. split; [|lia]. split; [|reflexivity].
        rewrite Forall_forall in F. apply F. now apply nth_error_In in E.
    + destruct (IH i) as (S1 & S2 & S3). destruct (step_nth i ts m) as [ts' m']. cbn [fst snd] in *. subst m'. repeat split; [cbn; now rewrite S2|].
      intros [|j] u E; cbn [nth_error] in *.
      * injection E as <-. exists t. split; [reflexivity|]. split; [split; [assumption|reflexivity]|]. destruct (Nat.eq_dec (S i) 0) as [K|_]; [discriminate|lia].
      * destruct (S3 j u E) as (u' & E' & D). exists u'. split; [assumption|]. destruct (Nat.eq_dec i j), (Nat.eq_dec (S i) (S j)); try lia; assumption.
Qed.
Lemma schedule_reads s ts m : Forall (fun t => reads_only (fst t) m) ts ->
  snd (schedule s ts m) = m /\
  forall j t, nth_error ts j = Some t -> exists t', nth_error (fst (schedule s ts m)) j = Some t' /\ settled m (turns s j) t t'.
Proof.
  revert ts. induction s as [|i s IH]; intros ts H; cbn [schedule].
  - split; [reflexivity|]. intros j t E. exists t. split; [assumption|]. split; [split; [|reflexivity]|cbn; lia].
    rewrite Forall_forall in H. apply H. now apply nth_error_In in E.
  - destruct (step_nth_reads i ts m H) as (S1 & S2 & S3). destruct (step_nth i ts m) as [ts' m']. cbn [fst snd] in *. subst m'.
    assert (Forall (fun t => reads_only (fst t) m) ts') as H'.
    { apply Forall_forall. intros t' I. apply In_nth_error in I as (j & E). change (@nth_error thread ts' j = Some t') in E.
      assert (j < length ts) as L by (rewrite <- S2; apply (proj1 (@nth_error_Some thread ts' j)); rewrite E; discriminate).
      destruct (nth_error ts j) as [t|] eqn:Et; [|apply nth_error_None in Et; lia]. destruct (S3 j t Et) as (u & E' & [D _] & _). rewrite E in E'; injection E' as <-; exact D. }
    destruct (IH ts' H') as (I1 & I2). split; [assumption|]. intros j t E. destruct (S3 j t E) as (t' & E' & D & N).
    destruct (I2 j t' E') as (t'' & E'' & D' & N'). exists t''. split; [assumption|]. split; [now apply (doing_trans _ t')|].
    rewrite N', N. unfold turns. cbn [count_occ]. destruct (Nat.eq_dec i j); lia.
Qed.
Lemma reads_run p m : reads_only p m -> fst (run p m) = m.
Proof.
  induction p as [|l k IH|l x k IH|c k IH]; cbn [reads_only run]; intros H; [reflexivity|now apply IH|destruct H|].
  specialize (IH H). now destruct (run k m).
Qed.
Lemma done_halt p m : steps p m = 0 -> p = Halt.
Proof. destruct p; cbn; [reflexivity|discriminate..]. Qed.

(** ** Sorted slices *)
Lemma cells_nth at_ n m i x : i < n -> nth i (cells at_ n m) x = m (at_ i).
Proof.
  intros H. unfold cells. rewrite nth_indep with (d' := m (at_ 0)) by now rewrite map_length, seq_length.
  rewrite (map_nth (fun i => m (at_ i))). now rewrite seq_nth.
Qed.
Lemma ordered_nth {A} (key : A -> string) l i x : ordered key l -> S i < length l -> str_leb (key (nth i l x)) (key (nth (S i) l x)) = true.
Proof.
  intros H. revert i. induction H as [|y l S IH F]; intros i L; cbn [length] in *; [lia|].
  destruct i as [|i]; [|apply IH; lia]. rewrite Forall_forall in F. apply F. cbn [nth]. apply nth_In. lia.
Qed.
Lemma sift_sorted d at_ n j k m : ordered (key d) (cells at_ n m) -> j < n -> reads_only k m ->
  reads_only (sift d at_ j k) m /\ snd (run (sift d at_ j k) m) = snd (run k m).
Proof.
  intros O L K. destruct j as [|i]; cbn [sift reads_only run]; [auto|].
  assert (less d (m (at_ (S i))) (m (at_ i)) = false) as ->; [|auto].
  unfold less. pose proof (ordered_nth (key d) (cells at_ n m) i (m (at_ 0)) O) as H.
  rewrite !cells_nth in H by lia. unfold cells in H. rewrite map_length, seq_length in H. specialize (H L). unfold str_leb in H.
  now apply negb_true_iff in H.
Qed.
Lemma sort_from_sorted d at_ n i j k m : ordered (key d) (cells at_ n m) -> i + j <= n -> reads_only k m ->
  reads_only (sort_from d at_ i j k) m /\ snd (run (sort_from d at_ i j k) m) = snd (run k m).
Proof.
  intros O. revert i. induction j as [|j IH]; intros i L K; cbn [sort_from]; [auto|].
  destruct (IH (S i) ltac:(lia) K) as [R1 R2]. destruct (sift_sorted d at_ n i _ m O ltac:(lia) R1) as [S1 S2]. split; [assumption|]. now rewrite S2.
Qed.
Lemma sort_slice_sorted d : leaves_sorted (key d) (sort_slice d).
Proof.
  intros at_ n k m O K. unfold sort_slice. destruct n as [|n]; [cbn; auto|]. apply (sort_from_sorted d at_ (S n)); [assumption|lia|assumption].
Qed.

Lemma range_reads at_ i n body (k : prog) m : (forall j k, i <= j < i + n -> reads_only k m -> reads_only (body (m (at_ j)) k) m) -> reads_only k m -> reads_only (range at_ i n body k) m.
Proof.
  revert i. induction n as [|n IH]; intros i H K; cbn [range reads_only]; [assumption|]. apply H; [lia|]. apply IH; [|assumption]. intros j k' L. apply H. lia.
Qed.
Lemma range_run at_ i n body (g : elem -> list chunk) (k : prog) m :
  (forall j k, i <= j < i + n -> reads_only k m -> reads_only (body (m (at_ j)) k) m /\ snd (run (body (m (at_ j)) k) m) = (g (m (at_ j)) ++ snd (run k m))%list) ->
  reads_only k m -> snd (run (range at_ i n body k) m) = (flat_map g (map (fun j => m (at_ j)) (seq i n)) ++ snd (run k m))%list.
Proof.
  revert i. induction n as [|n IH]; intros i H K; cbn [range run seq map flat_map List.app]; [reflexivity|].
  assert (reads_only (range at_ (S i) n body k) m) as R.
  { apply range_reads; [|assumption]. intros j k' L R. refine (proj1 (H j k' _ R)). lia. }
  rewrite (proj2 (H i _ ltac:(lia) R)).
  rewrite IH; [now rewrite app_assoc| |assumption]. intros j k' L. apply H. lia.
Qed.

(** ** The writer *)
Lemma map_nth_seq {A} (l : list A) x : map (fun i => nth i l x) (seq 0 (length l)) = l.
Proof.
  apply nth_ext with (d := x) (d' := x); [now rewrite map_length, seq_length|]. rewrite map_length, seq_length. intros i H.
  rewrite nth_indep with (d' := nth 0 l x) by now rewrite map_length, seq_length. rewrite (map_nth (fun i => nth i l x)). now rewrite seq_nth.
Qed.
Lemma cells_edr d : cells Edr (length (d_ExternalDocumentReferences d)) (mem_of d) = map EEdr (d_ExternalDocumentReferences d).
Proof. unfold cells. cbn [mem_of]. unfold nth_edr. rewrite <- (map_map (fun i => nth i _ _) EEdr). now rewrite map_nth_seq. Qed.
Lemma cells_fil d : cells Fil (length (d_Files d)) (mem_of d) = map EFile (d_Files d).
Proof. unfold cells. cbn [mem_of]. unfold nth_file. rewrite <- (map_map (fun i => nth i _ _) EFile). now rewrite map_nth_seq. Qed.
Lemma cells_pfil d k : cells (PFil k) (length (p_Files (nth_pkg d k))) (mem_of d) = map EFile (p_Files (nth_pkg d k)).
Proof. unfold cells. cbn [mem_of]. unfold nth_file. rewrite <- (map_map (fun i => nth i _ _) EFile). now rewrite map_nth_seq. Qed.
Lemma cells_pkg d n : cells Pkg n (mem_of d) = map EPkg (seq 0 n).
Proof. reflexivity. Qed.
Lemma pkgs_seq d : map (nth_pkg d) (seq 0 (length (d_Packages d))) = d_Packages d.
Proof. apply map_nth_seq. Qed.
Lemma ordered_map {A B} (f : A -> B) (key : B -> string) l : ordered key (map f l) <-> ordered (fun x => key (f x)) l.
Proof.
  unfold ordered. split.
  - induction l as [|x l IH]; cbn [map]; intros H; [constructor|]. inversion H as [|? ? H1 H2]; subst. constructor; [auto|]. now rewrite Forall_map in H2.
  - induction 1 as [|x l S IH F]; cbn [map]; constructor; [assumption|]. now rewrite Forall_map.
Qed.

Definition file_chunks (v : version) (x : elem) : list chunk := render_file insertion_sorter v (as_file x).
Definition package_chunks (v : version) (d : Document) (k : nat) : list chunk :=
  Raw ("##### Package: " ++ p_PackageName (nth_pkg d k) ++ LF ++ LF) :: render_package insertion_sorter v (nth_pkg d k).

Lemma flat_map_map {A B C} (f : A -> B) (g : B -> list C) l : flat_map g (map f l) = flat_map (fun x => g (f x)) l.
Proof. induction l as [|x l IH]; cbn; [reflexivity|]. now rewrite IH. Qed.

(** a list that is sorted stays as it is *)
Lemma insert_least {A} (key : A -> string) x l : Forall (fun y => str_leb (key x) (key y) = true) l -> insert key x l = x :: l.
Proof. intros H. destruct H as [|y l H F]; cbn [insert]; [reflexivity|]. now rewrite H. Qed.
Lemma isort_sorted {A} (key : A -> string) l : ordered key l -> isort key l = l.
Proof.
  induction 1 as [|x l S IH F]; [reflexivity|]. change (isort key (x :: l)) with (insert key x (isort key l)). rewrite IH. now apply insert_least.
Qed.

Section Sorted.
  Variables (v : version) (d : Document) (sorting : (nat -> loc) -> nat -> prog -> prog).
  Hypothesis L : leaves_sorted (key d) sorting.
  Hypothesis O : document_sorted d.

  Lemma pfil_ordered k : ordered (key d) (cells (PFil k) (length (p_Files (nth_pkg d k))) (mem_of d)).
  Proof.
    rewrite cells_pfil. apply ordered_map. cbn [key]. destruct O as (_ & _ & _ & F). rewrite Forall_forall in F.
    destruct (nth_in_or_default k (d_Packages d) zero_PackageOf) as [I|E]; [now apply F|]. unfold nth_pkg. rewrite E. constructor.
  Qed.
  Lemma file_body_reads x k m : reads_only k m -> reads_only (file_body v x k) m /\ snd (run (file_body v x k) m) = (file_chunks v x ++ snd (run k m))%list.
  Proof. intros K. cbn. split; [assumption|]. now destruct (run k m). Qed.
  Lemma package_body_reads i k : reads_only k (mem_of d) ->
    reads_only (package_body v d sorting (EPkg i) k) (mem_of d) /\
    snd (run (package_body v d sorting (EPkg i) k) (mem_of d)) = (package_chunks v d i ++ snd (run k (mem_of d)))%list.
  Proof.
    intros K. unfold package_body. cbn [as_pkg].
    set (n := length (p_Files (nth_pkg d i))).
    assert (reads_only (range (PFil i) 0 n (file_body v) k) (mem_of d)) as R by (apply range_reads; [intros; now apply file_body_reads|assumption]).
    destruct (L (PFil i) n _ (mem_of d) (pfil_ordered i) R) as [S1 S2]. split; [exact S1|].
    cbn [run]. destruct (run (sorting (PFil i) n _) (mem_of d)) as [m' o] eqn:E. cbn [snd] in *. rewrite S2.
    rewrite (range_run (PFil i) 0 n (file_body v) (file_chunks v)); [|intros; now apply file_body_reads|assumption].
    change (map (fun j => mem_of d (PFil i j)) (seq 0 n)) with (cells (PFil i) n (mem_of d)). unfold n. rewrite cells_pfil, flat_map_map.
    unfold package_chunks, render_package. cbn [sort_by insertion_sorter]. rewrite isort_sorted.
    - cbn [List.app]. f_equal. now rewrite <- app_assoc.
    - pose proof (pfil_ordered i) as P. rewrite cells_pfil in P. exact (proj1 (ordered_map EFile (key d) _) P).
  Qed.
  Lemma write_reads ci : d_CreationInfo d = Some ci ->
    reads_only (write_prog v d sorting ci) (mem_of d) /\
    render_document_chunks insertion_sorter v d = Ok (snd (run (write_prog v d sorting ci) (mem_of d))).
  Proof.
    intros C. unfold render_document_chunks. rewrite C. destruct O as (O1 & O2 & O3 & O4).
    unfold write_prog, render_header, render_sections. cbn [sort_by insertion_sorter]. rewrite !isort_sorted by assumption.
    match goal with |- context [Out ?c Halt] => set (last := c) end.
    set (p5 := Out last Halt).
    assert (reads_only p5 (mem_of d) /\ snd (run p5 (mem_of d)) = last) as [R5 E5] by (split; [exact I|cbn; apply app_nil_r]). clearbody p5.
    set (p4 := range Pkg _ _ _ p5).
    assert (reads_only p4 (mem_of d) /\ snd (run p4 (mem_of d)) = (flat_map (fun p => Raw ("##### Package: " ++ p_PackageName p ++ LF ++ LF) :: render_package insertion_sorter v p) (d_Packages d) ++ last)%list) as [R4 E4].
    { split; [apply range_reads; [intros; now apply package_body_reads|assumption]|]. unfold p4.
      rewrite (range_run Pkg 0 (length (d_Packages d)) (package_body v d sorting) (fun x => package_chunks v d (as_pkg x))); [|intros; now apply package_body_reads|assumption].
      rewrite E5. f_equal. change (map (fun j => mem_of d (Pkg j)) ?l) with (map EPkg l). rewrite flat_map_map. cbn [as_pkg].
      rewrite <- (pkgs_seq d) at 2. rewrite flat_map_map. reflexivity. }
    clearbody p4.
    set (p4' := sorting Pkg _ p4).
    assert (reads_only p4' (mem_of d) /\ snd (run p4' (mem_of d)) = snd (run p4 (mem_of d))) as [R4' E4'].
    { apply L; [|assumption]. rewrite cells_pkg. apply ordered_map. cbn [key]. apply (ordered_map (nth_pkg d)). now rewrite pkgs_seq. }
    clearbody p4'.
    set (p3 := range Fil _ _ _ p4').
    assert (reads_only p3 (mem_of d) /\ snd (run p3 (mem_of d)) = (flat_map (render_file insertion_sorter v) (d_Files d) ++ snd (run p4' (mem_of d)))%list) as [R3 E3].
    { split; [apply range_reads; [intros; now apply file_body_reads|assumption]|]. unfold p3.
      rewrite (range_run Fil 0 (length (d_Files d)) (file_body v) (file_chunks v)); [|intros; now apply file_body_reads|assumption].
      f_equal. change (map (fun j => mem_of d (Fil j)) (seq 0 ?n)) with (cells Fil n (mem_of d)). rewrite cells_fil, flat_map_map. reflexivity. }
    clearbody p3.
    set (p3' := sorting Fil _ p3).
    assert (reads_only p3' (mem_of d) /\ snd (run p3' (mem_of d)) = snd (run p3 (mem_of d))) as [R3' E3'].
    { apply L; [|assumption]. rewrite cells_fil. now apply ordered_map. }
    clearbody p3'.
    set (p2 := range Edr _ _ _ _).
    assert (reads_only p2 (mem_of d) /\ snd (run p2 (mem_of d)) =
      (flat_map render_edr (d_ExternalDocumentReferences d) ++ (opt_text "DocumentComment" (d_DocumentComment d) ++ render_creation_info ci
          ++ section "Unpackaged files" (d_Files d) []) ++ snd (run p3' (mem_of d)))%list) as [R2 E2].
    { split; [apply range_reads; [intros j k _ K; exact K|exact R3']|]. unfold p2.
      rewrite (range_run Edr 0 (length (d_ExternalDocumentReferences d)) _ (fun x => render_edr (as_edr x))); [| |exact R3'].
      - cbn [run]. destruct (run p3' (mem_of d)) as [m' o]. cbn [snd]. f_equal.
        change (map (fun j => mem_of d (Edr j)) (seq 0 ?n)) with (cells Edr n (mem_of d)). rewrite cells_edr, flat_map_map. reflexivity.
      - intros j k _ K. split; [exact K|]. cbn [run]. now destruct (run k (mem_of d)). }
    clearbody p2.
    set (p2' := sorting Edr _ p2).
    assert (reads_only p2' (mem_of d) /\ snd (run p2' (mem_of d)) = snd (run p2 (mem_of d))) as [R2' E2'].
    { apply L; [|assumption]. rewrite cells_edr. now apply ordered_map. }
    clearbody p2'.
    split; [exact R2'|]. cbn [run]. destruct (run p2' (mem_of d)) as [m' o]. cbn [snd] in *. subst o. rewrite E2, E3', E3, E4', E4. subst last.
    f_equal. rewrite <- !app_assoc. repeat (f_equal; []). destruct (d_Files d) as [|f fs]; cbn [section flat_map List.app]; [reflexivity|].
    f_equal.
  Qed.
End Sorted.

Lemma step_nth_length i ts m : length (fst (step_nth i ts m)) = length ts.
Proof.
  revert i. induction ts as [|t ts IH]; intros [|i]; cbn [step_nth]; try reflexivity.
  - now destruct (step t m).
  - specialize (IH i). destruct (step_nth i ts m). cbn [fst length] in *. now rewrite IH.
Qed.
Lemma schedule_length s ts m : length (fst (schedule s ts m)) = length ts.
Proof.
  revert ts m. induction s as [|i s IH]; intros ts m; [reflexivity|]. cbn [schedule]. pose proof (step_nth_length i ts m) as L.
  destruct (step_nth i ts m) as [ts' m']. cbn [fst] in L. now rewrite IH.
Qed.
