(** A graph that is read: each of its nodes can be read by itself. *)
From Verif Require Import GoStr GoStrFacts Types TvUtil TvParser RdfConst Rdf RdfReader SpecTv SpecId SpecDoc SpecRdf SpecRdfDoc SpecRdfLoad
  SpecRdfContent SpecRdfAccept TvReaderFacts TvUtilFacts TvParserFacts RdfFacts RdfLicenseFacts RdfHelperFacts RdfNodeFacts RdfStepFacts RdfWalkFacts
  RdfLoadFacts RdfVisitFacts RdfContentFacts RdfWholeFacts RdfAcceptFacts RdfReadableFacts.

(** ** The last statements about a node can be read alone *)
Lemma suffix_list {A B} (R : A -> B -> Prop) l0 l m : Forall2 R (l0 ++ l) m -> exists m', Forall2 R l m'.
Proof. intros F. apply Forall2_app_inv_l in F as (m0 & m1 & _ & F & _). eauto. Qed.
Lemma suffix_objects {B} (R : node -> B -> Prop) p ts0 ts m : Forall2 R (objects p (ts0 ++ ts)) m -> exists m', Forall2 R (objects p ts) m'.
Proof. rewrite objects_app. apply suffix_list. Qed.
Lemma texts_app p a b : texts p (a ++ b) = (texts p a ++ texts p b)%list.
Proof. unfold texts. now rewrite objects_app, map_app. Qed.
Lemma suffix_texts {B} (R : string -> B -> Prop) p ts0 ts m : Forall2 R (texts p (ts0 ++ ts)) m -> exists m', Forall2 R (texts p ts) m'.
Proof. rewrite texts_app. apply suffix_list. Qed.
Lemma suffix_last {A B} (R : A -> B -> Prop) d l0 l y : last_read R d (l0 ++ l) y -> exists y', last_read R d l y'.
Proof.
  intros [F _]. apply Forall_app in F as [_ F]. destruct l as [|x l] using rev_ind; [exists d; split; [exact F|now left]|].
  pose proof F as G. apply Forall_app in G as [_ G]. inversion G as [|? ? (z & Z) _]; subst. exists z. split; [exact F|]. right. eauto.
Qed.
Lemma suffix_last_objects {B} (R : node -> B -> Prop) d p ts0 ts y : last_read R d (objects p (ts0 ++ ts)) y -> exists y', last_read R d (objects p ts) y'.
Proof. rewrite objects_app. apply suffix_last. Qed.
Lemma suffix_last_texts {B} (R : string -> B -> Prop) d p ts0 ts y : last_read R d (texts p (ts0 ++ ts)) y -> exists y', last_read R d (texts p ts) y'.
Proof. rewrite texts_app. apply suffix_last. Qed.
Lemma suffix_only ps ts0 ts : only ps (ts0 ++ ts) -> only ps ts.
Proof. unfold only. intros F. now apply Forall_app in F. Qed.
Lemma suffix_verification g p ts0 ts c : verification_of g (objects p (ts0 ++ ts)) c -> exists c', verification_of g (objects p ts) c'.
Proof.
  rewrite objects_app. intros H. destruct (objects p ts) as [|o os] eqn:E; [exists None; now left|].
  destruct H as [[H _]|(_ & x & _ & [O _ _])]; [destruct (objects p ts0); discriminate H|].
  rewrite flat_map_app in O. apply suffix_only in O. eexists. right. split; [discriminate|]. eexists (MkVC _ _). split; [reflexivity|]. split; [exact O|reflexivity|reflexivity].
Qed.
Lemma suffix_file v g n ts0 ts (f : File) : file_says v g n (ts0 ++ ts) f -> exists f' : File, file_says v g n ts f'.
Proof.
  intros [A B C D E F G H I J K L M N O P].
  apply suffix_only in A. apply suffix_texts in D as (d & D). apply suffix_objects in E as (e & E). apply suffix_last_objects in F as (x & F).
  apply suffix_objects in G as (y & G). apply suffix_objects in J as (j & J). apply suffix_last_texts in L as (l & L). apply suffix_objects in O as (o & O).
  exists (MkFile (last_text (spdx "fileName") ts) (f_SPDXIdentifier f) d e x y (last_text (spdx "licenseComments") ts) (last_text (spdx "copyrightText") ts) j
    (last_text (rdfs "comment") ts) l (texts (spdx "fileContributor") ts) (texts (spdx "attributionText") ts) o [] []).
  split; try assumption; reflexivity.
Qed.
Lemma suffix_package v g (F : node -> File -> Prop) n ts0 ts (p : Package) : package_says v g F n (ts0 ++ ts) p -> exists p' : Package, package_says v g F n ts p'.
Proof.
  intros [A0 A1 A2 A3 A4 A5 A6 A7 A8 A9 B0 B1 B2 B3 B4 B5 B6 B7 B8 B9 C0 C1 C2 C3 C4 C5 C6 C7 C8 C9 D0 D1].
  apply suffix_only in A0. apply suffix_last_texts in A5 as (a5 & A5). apply suffix_last_texts in A6 as (a6 & A6).
  apply suffix_last_texts in A7 as (a7 & A7). apply suffix_last_texts in A8 as (a8 & A8). apply suffix_verification in B0 as (b0 & B0).
  apply suffix_objects in B1 as (b1 & B1). rewrite texts_app in B2. apply Forall_app in B2 as [_ B2].
  apply suffix_last_objects in B5 as (b5 & B5). apply suffix_texts in B6 as (b6 & B6). apply suffix_last_objects in B7 as (b7 & B7).
  apply suffix_objects in C3 as (c3 & C3). apply suffix_last_texts in C5 as (c5 & C5). apply suffix_objects in C9 as (c9 & C9).
  exists (MkPackage false (last_text (spdx "name") ts) (p_SPDXIdentifier p) (last_text (spdx "versionInfo") ts) (last_text (spdx "packageFileName") ts)
    a5 a6 a7 a8 (match texts (spdx "filesAnalyzed") ts with [] => false | _ => true end) b0 b1 (last_text (doap "homepage") ts)
    (last_text (spdx "sourceInfo") ts) b5 b6 b7 (last_text (spdx "licenseComments") ts) (last_text (spdx "copyrightText") ts)
    (last_text (spdx "summary") ts) (last_text (spdx "description") ts) (last_text (rdfs "comment") ts) c3 (texts (spdx "attributionText") ts)
    c5 (last_text (spdx "releaseDate") ts) (last_text (spdx "builtDate") ts) (last_text (spdx "validUntilDate") ts) c9 []).
  split; try assumption; try reflexivity.
  cbn [p_IsFilesAnalyzedTagPresent]. destruct (texts (spdx "filesAnalyzed") ts); split; intros X; try reflexivity; try discriminate X; try (now destruct X); discriminate.
Qed.

(** ** Every step of the way *)
Lemma root_one_type v g s s' : for_each (root_step v g) (g_roots g) s = Ok s' -> forall n, In n (g_roots g) -> exists ty, texts rdf_type (about g (n_id n)) = [ty].
Proof.
  intros H n I. assert (F : Forall (fun n => exists ty, texts rdf_type (about g (n_id n)) = [ty]) (g_roots g)).
  { refine (for_each_all _ _ _ _ _ _ H). intros root s1 s2 ST. unfold root_step in ST. rewrite select_root in ST.
    unfold texts, objects. rewrite map_map. destruct (filter _ _) as [|t [|u l]]; try discriminate ST. eexists. reflexivity. }
  rewrite Forall_forall in F. now apply F.
Qed.
Lemma root_some_type g d n : get_doc_node g = Ok d -> In n (g_roots g) -> texts rdf_type (of_node g n) <> [].
Proof.
  intros H I. unfold get_doc_node in H. apply bind_ok in H as (x & H & _).
  assert (F : Forall (fun n => texts rdf_type (of_node g n) <> []) (g_roots g)).
  { refine (for_each_all _ _ _ _ _ _ H). intros root s1 s2 ST. unfold doc_node_step in ST. cbv zeta in ST. rewrite triples_of_node in ST.
    rewrite select_texts. destruct (select _ _ _); [discriminate ST|discriminate]. }
  rewrite Forall_forall in F. now apply F.
Qed.
Lemma in_of_about p g n x : In x (texts p (of_node g n)) -> In x (texts p (about g (n_id n))).
Proof.
  unfold texts. intros H. apply in_map_iff in H as (o & <- & H). apply in_map. apply in_objects in H as (t & T & P & E). apply in_objects. exists t. split; [|auto].
  unfold of_node in T. apply filter_In in T as [T Q]. apply filter_In. split; [exact T|].
  apply andb_prop in Q as [_ Q]. exact Q. 
Qed.
Lemma root_types g n ty : texts rdf_type (about g (n_id n)) = [ty] -> texts rdf_type (of_node g n) <> [] -> texts rdf_type (of_node g n) = [ty].
Proof.
  intros A B.
  assert (L : forall l : list triple, (length (texts rdf_type (filter (fun t => same_kind (n_type (t_subj t)) (n_type n) && String.eqb (n_id (t_subj t)) (n_id n)) l)) <= length (texts rdf_type (filter (fun t => String.eqb (n_id (t_subj t)) (n_id n)) l)))%nat).
  { induction l as [|t l IH]; [apply Nat.le_refl|]. cbn [filter]. destruct (String.eqb (n_id (t_subj t)) (n_id n)); [|rewrite andb_false_r; exact IH].
    rewrite andb_true_r. unfold texts, objects in *. destruct (same_kind _ _); cbn [filter]; destruct (t_pred t =? rdf_type); cbn [map length]; lia. }
  specialize (L (g_triples g)). change (filter (fun t => same_kind (n_type (t_subj t)) (n_type n) && String.eqb (n_id (t_subj t)) (n_id n)) (g_triples g)) with (of_node g n) in L.
  change (filter (fun t => String.eqb (n_id (t_subj t)) (n_id n)) (g_triples g)) with (about g (n_id n)) in L. rewrite A in L. cbn [length] in L.
  pose proof (in_of_about rdf_type g n) as I. destruct (texts rdf_type (of_node g n)) as [|x [|y l]]; [now destruct B| |cbn [length] in L; lia].
  specialize (I x (or_introl eq_refl)). rewrite A in I. destruct I as [<-|[]]. reflexivity.
Qed.

(** ** The name of a file in a snippet *)
Lemma trim_gen_clean sp2 sp3 c s : sp_ok sp2 sp3 -> ascii7 c = true -> is_space1 c = false -> exists w, s = w ++ trim_gen sp2 sp3 s /\ has_byte c w = false.
Proof.
  intros [S2 S3] C7 C1. assert (NE : forall a, ascii7 a = false -> Ascii.eqb a c = false) by (intros a H; apply Ascii.eqb_neq; congruence).
  assert (G : forall k s, String.length s <= k -> exists w, s = w ++ trim_gen sp2 sp3 s /\ has_byte c w = false).
  { induction k as [|k IH]; intros [|a s0] L; try (exists ""; split; reflexivity); [cbn in L; lia|]. cbn [trim_gen]. cbn [String.length] in L.
    destruct (is_space1 a) eqn:A.
    { destruct (IH s0) as (w & E & W); [lia|]. exists (String a w). cbn [append has_byte]. split; [now rewrite <- E|].
      rewrite W, orb_false_r. apply Ascii.eqb_neq. congruence. }
    destruct s0 as [|b s1]; [now exists ""|]. cbn [String.length] in L. destruct (sp2 a b) eqn:B.
    { destruct (IH s1) as (w & E & W); [lia|]. exists (String a (String b w)). cbn [append has_byte]. split; [now rewrite <- E|].
      destruct (S2 _ _ B) as [X Y]. now rewrite W, (NE _ X), (NE _ Y). }
    destruct s1 as [|d s2]; [now exists ""|]. cbn [String.length] in L. destruct (sp3 a b d) eqn:D; [|now exists ""].
    destruct (IH s2) as (w & E & W); [lia|]. exists (String a (String b (String d w))). cbn [append has_byte]. split; [now rewrite <- E|].
    destruct (S3 _ _ _ D) as (X & Y & Z). now rewrite W, (NE _ X), (NE _ Y), (NE _ Z). }
  exact (G _ s (Nat.le_refl _)).
Qed.
Lemma app_inj_r (a b t : string) : a ++ t = b ++ t -> a = b.
Proof. intros H. apply srev_inj. apply (f_equal srev) in H. rewrite !srev_app_distr in H. exact (app_inj_l _ _ _ H). Qed.
Lemma trim_left_clean s : exists w, s = w ++ trim_left s /\ has_byte "#" w = false /\ has_byte "/" w = false.
Proof.
  destruct (trim_gen_clean _ _ "#" s sp_ok_fwd eq_refl eq_refl) as (w & E & W). destruct (trim_gen_clean _ _ "/" s sp_ok_fwd eq_refl eq_refl) as (w' & E' & W').
  exists w. split; [exact E|]. split; [exact W|]. fold (trim_left s) in E, E'. rewrite E in E' at 1. apply app_inj_r in E'. now subst w'.
Qed.
Lemma ends_suffix a s : s <> "" -> ends_space (a ++ s) = false -> ends_space s = false.
Proof.
  unfold ends_space. intros N. rewrite srev_app_distr. apply starts_gen_prefix. intros H. apply (proj1 (srev_nil s)) in H. contradiction.
Qed.
Lemma piece_ends uri f : f <> "" -> last_piece uri f -> ends_space uri = ends_space f.
Proof.
  intros N [[(p & ->) _]|[_ [[(p & ->) _]|[_ ->]]]]; [| |reflexivity]; now apply ends_space_app.
Qed.
Lemma from_term_id v o m x id : from_term v o x -> file_id o id -> file_id m x -> x = id.
Proof.
  intros (f & LF & X) [LO OK] [LM [XN _]].
  destruct X as [(d & PD & TD & ->)|(_ & -> & _)]; [|contradiction].
  set (x := de_ElementRefID d) in *.
  assert (EX : ends_space x = false).
  { apply (ends_suffix "SPDXRef-"); [exact XN|]. assert (NE : "SPDXRef-" ++ x <> "") by discriminate. rewrite <- (piece_ends _ _ NE LM). apply (proj2 (proj1 (trim_space_id _) (trim_space_trimmed _))). }
  assert (FS : (exists p, f = p ++ "SPDXRef-" ++ x) /\ starts_space f = false /\ f <> "").
  { destruct TD as [[_ ->]|[_ ->]]; split; [now exists ""|split; [reflexivity|discriminate]| |split; [reflexivity|discriminate]].
    exists ("DocumentRef-" ++ de_DocumentRefID d ++ ":"). now rewrite !app_assoc_s. }
  destruct FS as ((p & FE) & FS & FN).
  assert (EF : ends_space f = false).
  { rewrite FE. change ("SPDXRef-" ++ x) with ("SPDXRef" ++ String "-" x). rewrite <- app_assoc_s. rewrite ends_space_app; [exact EX|exact XN|reflexivity]. }
  assert (EO : ends_space (n_id o) = false) by (rewrite (piece_ends _ _ FN LF); exact EF).
  destruct (trim_left_clean (n_id o)) as (w & W & W1 & W2). unfold trim_space in LO.
  assert (TN : trim_left (n_id o) <> "").
  { intros E. rewrite E in LO. destruct LO as [[(q & Q) _]|[_ [[(q & Q) _]|[_ Q]]]]; [destruct q; discriminate Q|destruct q; discriminate Q|discriminate Q]. }
  assert (ET : trim_right (trim_left (n_id o)) = trim_left (n_id o)) by (apply trim_right_id; apply (ends_suffix w); [exact TN|now rewrite <- W]).
  rewrite ET in LO. clear ET.
  assert (Q : f = "SPDXRef-" ++ id).
  { assert (HW : ~ occurs "#" w /\ ~ occurs "/" w) by (rewrite !not_occurs_byte; auto). destruct HW as [HW1 HW2].
    assert (NO : forall c t, has_byte c w = false -> ~ occurs (String c "") t -> ~ occurs (String c "") (w ++ t)).
    { intros c t A B. rewrite not_occurs_byte in *. now rewrite has_byte_app, A, B. }
    destruct LO as [[(q & Q) O1]|[O1 [[(q & Q) O2]|[O2 Q]]]].
    - apply (last_piece_fun (n_id o)); [exact LF|]. left. split; [exists (w ++ q); rewrite W at 1; now rewrite Q, app_assoc_s|exact O1].
    - apply (last_piece_fun (n_id o)); [exact LF|]. right. split; [rewrite W; now apply NO|]. left. split; [exists (w ++ q); rewrite W at 1; now rewrite Q, app_assoc_s|exact O2].
    - assert (F : f = n_id o).
      { apply (last_piece_fun (n_id o)); [exact LF|]. right. split; [rewrite W; now apply NO|]. right. split; [rewrite W; now apply NO|reflexivity]. }
      rewrite F in FS |- *. rewrite Q. symmetry. now apply trim_left_id. }
  rewrite Q in TD. destruct TD as [[_ E]|[_ E]]; [now apply app_inj_l in E|discriminate E].
Qed.

Section Accepted.
Variables (v : version) (g : graph).
Hypothesis CN : consistent g.
Notation rest := (rest g).

(** every range of a snippet that is read can be read *)
Lemma snippet_ranges n s si s' : rest s -> snippet_node g n -> snippet_from_node v g n s = Ok (si, s') ->
  Forall (readable_range g) (objects (spdx "range") (of_node g n)).
Proof.
  intros R N H. unfold snippet_from_node in H. apply bind_ok in H as (id & _ & H). rewrite triples_of_node in H.
  refine (proj2 (for_each_inv_in (fun done (x : Snippet * rstate) => rest (snd x) /\ Forall (readable_range g) (objects (spdx "range") done)) _ _ _ (si, s') _ _ H)).
  - split; [exact R|constructor].
  - intros done t rst [si1 s1] [si2 s2] TS [R1 K1] ST. cbn [snd] in *. assert (T : In t (of_node g n)) by (rewrite TS; apply in_or_app; right; now left).
    destruct (outcome_ok _ _ _ _ (snippet_step_outcome v g n t si1 s1 R1 N T) ST) as [R2 _]. cbn [snd] in *. split; [exact R2|].
    apply Forall_forall. intros o J. apply in_objects_snoc in J as [J|[P ->]]; [rewrite Forall_forall in K1; now apply K1|].
    unfold snippet_step in ST. cbv zeta in ST. revert ST. symmetry in P. known_pred P. intros ST. symmetry in P. apply bind_ok in ST as ([r s3] & RG & _).
    destruct (range_content v g CN _ _ _ _ _ R1 (fun o => snippet_range_needs g n t o N T P) RG) as [RS _]. eexists _, _. exact RS.
Qed.
Lemma root_snippets s s' : rest s -> for_each (root_step v g) (g_roots g) s = Ok s' -> forall n, snippet_node g n ->
  exists s1 si s2, rest s1 /\ snippet_from_node v g n s1 = Ok (si, s2).
Proof.
  intros R H n N. apply (snippet_listed g) in N. revert N.
  refine (proj2 (for_each_inv_in (fun done s => rest s /\ (In n (flat_map (snippet_of g) done) -> exists s1 si s2, rest s1 /\ snippet_from_node v g n s1 = Ok (si, s2)))
    _ _ _ s' _ _ H)); [split; [exact R|intros []]|].
  intros done root rst s1 s2 TS [R1 K1] ST. assert (IR : In root (g_roots g)) by (rewrite TS; apply in_or_app; right; now left).
  split; [exact (outcome_ok _ _ _ _ (root_outcome v g root s1 R1 IR) ST)|].
  rewrite flat_map_app. cbn [flat_map]. rewrite app_nil_r. intros J. apply in_app_or in J as [J|J]; [auto|].
  unfold root_step in ST. rewrite select_root in ST. unfold snippet_of in J.
  destruct (filter _ _) as [|t [|u l]]; try (now destruct J).
  destruct (String.eqb_spec (n_id (t_obj t)) (spdx "Snippet")) as [E|]; [|destruct J]. destruct J as [<-|[]].
  rewrite E in ST. change (spdx "Snippet" =? SPDX_SPDX_DOCUMENT_CAPITALIZED) with false in ST. change (spdx "Snippet" =? SPDX_SNIPPET) with true in ST. cbv iota in ST.
  apply bind_ok in ST as ([si s3] & H1 & _). eauto.
Qed.
Lemma relationship_refs G s d : ok v g G s -> rest s -> (forall m, document_node g m -> m = d) -> (forall u, In u (of_node g d) -> next_doc g G s u) ->
  (forall n o, In n (flat_map (snippet_of g) (g_roots g)) -> snippet_needs g (of_node g n) o -> exists b, held G s o b) ->
  forall t, statement g (spdx "relationship") t -> exists r, relationship_says g t (of_node g (t_obj t)) r.
Proof.
  intros O R ONE DOC SNIP t (T & P & K). pose proof (reached_met v g G s d O R ONE DOC SNIP) as RM.
  assert (S : seen_from g G s t).
  { destruct K as [K|[K|K]].
    - pose proof (ONE _ K) as E. rewrite E in T. now apply (DOC t T).
    - destruct (RM _ _ K) as (b & X). now apply (held_next v g G s O R _ _ t X T).
    - destruct (RM _ _ K) as (b & X). now apply (held_pkg_next v g G s O R _ _ t X T). }
  destruct S as [S (x & X)]. destruct (seen_list g G s R _ S) as (u & U & E).
  destruct (Forall2_in _ _ _ _ (ok_rel _ _ _ _ O) U) as (r & _ & [A B C D F]). rewrite E in *.
  exists (set_r_RefA x r). split; assumption.
Qed.
Lemma load_accepted iter d : load v g iter = Ok d -> readable v g.
Proof.
  intros H. rewrite load_split in H. apply bind_ok in H as (s & H & _). pose proof H as LD.
  apply bind_ok in LD as (dn & DN & LD). apply bind_ok in LD as (s1 & PD & LD). pose proof (outcome_ok _ _ _ _ (doc_node_outcome g) DN) as DD.
  pose proof (outcome_ok _ _ _ _ (parse_document_outcome v g dn init_state (rest_init g) DD) PD) as R1.
  destruct (roots_content v g CN s H) as (n & D & ONE & [R S (G & sis & O & ND & F2 & HN & SP & _)]).
  assert (SH : shuffle (fun l => l)) by (intros l; apply Permutation.Permutation_refl).
  pose proof (stands v g G s n O R ONE ND HN _ SH sis D S SP F2) as ST.
  split.
  - intros m I. destruct (root_one_type v g _ _ LD m I) as (ty & A). exists ty. split; [|exact A]. exact (root_types g m ty A (root_some_type g dn m DN I)).
  - eauto.
  - intros m m' A B. now rewrite (ONE m A), (ONE m' B).
  - intros m A. rewrite (ONE m A). destruct (sf_document _ _ _ ST) as (n' & A' & X). rewrite (ONE n' A') in X. eauto.
  - intros m A. pose proof (sf_all_files _ _ _ ST m A) as X. apply Exists_exists in X as (f & _ & _ & k & X). cbn [again] in X. exact (suffix_file _ _ _ _ _ _ X).
  - intros m A. pose proof (sf_all_packages _ _ _ ST m A) as X. apply Exists_exists in X as (f & _ & _ & k & X). cbn [again] in X.
    apply suffix_package in X as (p & X). exists p. eapply package_says_weaken; [|exact X]. intros o b (_ & j & Y). exact (fs_id _ _ _ _ _ Y).
  - exact (relationship_refs G s n O R ONE ND HN).
  - intros t A. destruct (sf_annotations _ _ _ ST) as (ts & F & X). destruct (Forall2_in _ _ _ _ F (X t A)) as (a & _ & Y). eauto.
  - intros m A. destruct (Forall2_in _ _ _ _ F2 (snippet_listed g m A)) as (x & X). eauto.
  - intros m A. destruct (root_snippets _ _ R1 LD m A) as (s2 & si & s3 & R2 & X). exact (snippet_ranges m s2 si s3 R2 A X).
  - intros m A. destruct (sf_snippets _ _ _ ST) as (l & F & X & _).
    assert (Y : exists x, In x l /\ snippet_says v g m (of_node g m) x).
    { pose proof (snippet_listed g m A) as I. clear - F I. induction F as [|a b l m' Q F IH]; [destruct I|]. destruct I as [->|I]; [exists b; split; [now left|exact Q]|].
      destruct (IH I) as (x & J & Z). exists x. split; [now right|exact Z]. }
    destruct Y as (x & I & Y). pose proof (X x I) as Z. apply Exists_exists in Z as (f & IF & EF).
    pose proof (sf_files _ _ _ ST) as FF. rewrite Forall_forall in FF. destruct (FF f IF) as (o & _ & k & FS). pose proof (fs_id _ _ _ _ _ FS) as FI. rewrite EF in FI.
    destruct (sn_from _ _ _ _ _ Y) as [_ [[_ Q]|(l' & y & Q & FT)]]; [rewrite Q in FI; destruct FI as [_ [NE _]]; now destruct NE|].
    exists l', y, (s_FromFile x). split; [exact Q|]. split; [exact FT|].
    assert (RY : reached g RFile y) by (apply (rc_snippet_file g m); [exact A|rewrite Q; apply in_or_app; right; now left]).
    pose proof (sf_all_files _ _ _ ST y RY) as W. apply Exists_exists in W as (fy & _ & _ & ky & W). pose proof (fs_id _ _ _ _ _ W) as FY.
    now rewrite (from_term_id _ _ _ _ _ FT FY FI).
Qed.
End Accepted.
