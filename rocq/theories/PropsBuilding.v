(** * Property C59: the example programs that build a document from a directory *)
From Verif Require Import GoStr GoStrFacts Sorting Types TvReader TvUtil TvParser TvWriter SpecTv SpecId SpecDoc SpecWrite SpecUtils SpecTools
  Utils SpdxLib LicenseTools Builder IdSearcher TvReaderFacts TvUtilFacts TvWriterFacts UtilsFacts SpecSave SaveFacts Stream StreamFacts Building SpecBuilding BuildingFacts
  BuilderFacts PropsBuilder PropsSave PropsStream.
Local Open Scope string_scope.

Lemma writes_ok so k d : d_CreationInfo d <> None -> exists t, tagvalue_write_to k so V23 d = (Ok tt, t).
Proof. intros N. destruct (tagvalue_write_to k so V23 d) as [r t] eqn:E. pose proof (C46_tag_silent k so V23 d N) as H. rewrite E in H. cbn in H. subst r. eauto. Qed.
Lemma searched srt h tree root cfg name :
  (exists doc, build_ids_document srt h tree root cfg name = Ok doc /\ d_CreationInfo doc <> None /\ exists b, build srt h tree root name
     (MkBC (ic_NamespacePrefix cfg) "Tool" "github.com/spdx/tools-golang/idsearcher" (ic_BuilderPathsIgnored cfg) (ic_Created cfg)) = Ok b) \/
  (exists m, build_ids_document srt h tree root cfg name = Err m /\ exists m', build srt h tree root name
     (MkBC (ic_NamespacePrefix cfg) "Tool" "github.com/spdx/tools-golang/idsearcher" (ic_BuilderPathsIgnored cfg) (ic_Created cfg)) = Err m') \/
  build srt h tree root name (MkBC (ic_NamespacePrefix cfg) "Tool" "github.com/spdx/tools-golang/idsearcher" (ic_BuilderPathsIgnored cfg) (ic_Created cfg)) = Panic.
Proof.
  unfold build_ids_document. destruct (build srt h tree root name _) as [b|m|] eqn:E; cbn [bindR]; [|right; left; eauto|auto].
  left. unfold build in E. destruct (build_package_section _ _ _ _ _ _) as [pkg| |]; cbn [bindR] in E; try discriminate E. injection E as <-. cbn [d_Packages].
  eexists. split; [reflexivity|]. split; [discriminate|eauto].
Qed.
Lemma build_calm srt h tree root name cfg : clean_root root -> wf_tree tree -> build srt h tree root name cfg <> Panic.
Proof.
  intros R W. unfold build, build_package_section.
  destruct (get_all_spec srt root tree (bc_PathsIgnored cfg) R W) as [[Hb ->]|(Hb & cs & -> & Hs & Hin)]; cbn [bindR]; [discriminate|].
  destruct (build_files_total h tree cs 0 W) as [[[files Hf] Hno]|[[m Hm] (c & Hc & Hx)]]; [intros c Hc; now apply Hin| |].
  - rewrite Hf. cbn [bindR]. destruct (verification_code_ok srt (h_sha1 h) files "") as (t & _ & ->). discriminate.
  - rewrite Hm. discriminate.
Qed.
Lemma build_created srt h tree root name cfg doc : build srt h tree root name cfg = Ok doc -> d_CreationInfo doc <> None.
Proof.
  unfold build. destruct (build_package_section _ _ _ _ _ _); cbn [bindR]; try discriminate. intros E. injection E as <-. discriminate.
Qed.
Lemma ends_as make so m n name root out : (exists d, make m root name = Ok d /\ d_CreationInfo d <> None) \/ (exists e, make m root name = Err e) ->
  build_ending name out (build_to make so m [n; name; root; out]).
Proof.
  unfold build_to. intros [(d & -> & C)|(e & ->)]; [|constructor]. destruct (creatable m out); [|constructor].
  destruct (writes_ok so (disk m) d C) as (t & ->). constructor.
Qed.

(** ** How a run ends *)
(** Nothing is created before the document was built, nothing but the output, and
    neither program panics. *)
Theorem C59_ends : forall srt so h m n name root out, clean_root (abs m root) -> wf_tree (stored m root) ->
  build_ending name out (build_program srt so h m [n; name; root; out]) /\ build_ending name out (search_program srt so h m [n; name; root; out]).
Proof.
  intros srt so h m n name root out R W. split; apply ends_as.
  - unfold build_made. pose proof (build_calm srt h _ _ name (build_config (clock m)) R W) as N.
    destruct (build srt h (stored m root) (abs m root) name (build_config (clock m))) as [d|e|] eqn:E; [left|right; eauto|congruence]. exists d. split; [reflexivity|]. eapply build_created; exact E.
  - unfold search_made. destruct (searched srt h (stored m root) (abs m root) (search_config (clock m)) name) as [(d & E & C & _)|[(e & E & _)|E]]; [left; eauto|right; eauto|].
    exfalso. revert E. now apply build_calm.
Qed.
Print Assumptions C59_ends.
Theorem C59_usage : forall srt so h m args, length args <> 4 ->
  build_program srt so h m args = MkBuildRun [BuildUsage] None false /\ search_program srt so h m args = MkBuildRun [BuildUsage] None false.
Proof.
  intros srt so h m args L. unfold build_program, search_program, build_to.
  destruct args as [|a [|b [|c [|e [|x l]]]]]; [split; reflexivity..|exfalso; now apply L|split; reflexivity].
Qed.
Print Assumptions C59_usage.
(** The document is built exactly if all files that are not left out can be read. *)
Lemma can_read_iff tree : wf_tree tree ->
  can_read tree <-> ~ bad_at tree /\ forall c, file_at tree c None -> exists pats pat, Some patterns = Some pats /\ In pat pats /\ matches pat (rooted c).
Proof.
  intros W. unfold can_read. split; intros [B H]; split; try exact B; intros c A; specialize (H c A); now apply (left_out_ignored tree c None W A).
Qed.
Theorem C59_built : forall srt so h m n name root out, clean_root (abs m root) -> wf_tree (stored m root) ->
  let read r := exists rest, told r = Built name :: rest in
  (can_read (stored m root) -> read (build_program srt so h m [n; name; root; out]) /\ read (search_program srt so h m [n; name; root; out])) /\
  (~ can_read (stored m root) -> build_program srt so h m [n; name; root; out] = MkBuildRun [CannotBuild] None false /\
     search_program srt so h m [n; name; root; out] = MkBuildRun [CannotBuild] None false).
Proof.
  intros srt so h m n name root out R W. cbv zeta.
  assert (T : forall cfg, bc_PathsIgnored cfg = Some patterns ->
    (can_read (stored m root) -> exists doc, build srt h (stored m root) (abs m root) name cfg = Ok doc) /\ (~ can_read (stored m root) -> exists e, build srt h (stored m root) (abs m root) name cfg = Err e)).
  { intros cfg P. pose proof (C24_total srt h (stored m root) (abs m root) name cfg R W) as [T1 T2]. rewrite P in T1, T2. rewrite <- (can_read_iff _ W) in T1, T2. auto. }
  destruct (T (build_config (clock m)) eq_refl) as [T1 T2].
  destruct (T (MkBC (ic_NamespacePrefix (search_config (clock m))) "Tool" "github.com/spdx/tools-golang/idsearcher" (ic_BuilderPathsIgnored (search_config (clock m))) (ic_Created (search_config (clock m)))) eq_refl) as [S1 S2].
  clear T. unfold build_program, search_program, build_to, build_made, search_made.
  pose proof (searched srt h (stored m root) (abs m root) (search_config (clock m)) name) as S. split; intros C.
  - destruct (T1 C) as (d & E). destruct (S1 C) as (b & F). rewrite E. destruct S as [(d' & -> & C' & _)|[(e & _ & m' & X)|X]]; [|congruence..]. split.
    + destruct (creatable m out); [|now eexists]. destruct (writes_ok so (disk m) d (build_created _ _ _ _ _ _ _ E)) as (t & ->). now eexists.
    + destruct (creatable m out); [|now eexists]. destruct (writes_ok so (disk m) d' C') as (t & ->). now eexists.
  - destruct (T2 C) as (e & ->). destruct (S2 C) as (e' & F). destruct S as [(d' & _ & _ & b & X)|[(x & -> & _)|X]]; [congruence|auto|congruence].
Qed.
Print Assumptions C59_built.

(** ** What is saved *)
Lemma both_l {A B} (R : A -> B -> Prop) l m x : Forall2 R l m -> In x l -> exists z, In z m /\ R x z.
Proof. induction 1 as [|a b l m H F IH]; intros I; [destruct I|]. destruct I as [<- |I]; [exists b; split; [now left|exact H]|]. destruct (IH I) as (z & J & K). exists z. split; [now right|exact K]. Qed.
Lemma both_r {A B} (R : A -> B -> Prop) l m z : Forall2 R l m -> In z m -> exists x, In x l /\ R x z.
Proof. induction 1 as [|a b l m H F IH]; intros I; [destruct I|]. destruct I as [<- |I]; [exists a; split; [now left|exact H]|]. destruct (IH I) as (x & J & K). exists x. split; [now right|exact K]. Qed.
Lemma file_once tree c x y : wf_tree tree -> file_at tree c (Some x) -> file_at tree c (Some y) -> x = y.
Proof. intros W A B. apply (open_at_file _ _ _ W) in A, B. congruence. Qed.
Lemma inventory_build srt h tree root name cfg doc : clean_root root -> wf_tree tree -> bc_PathsIgnored cfg = Some patterns ->
  build srt h tree root name cfg = Ok doc -> exists pkg, d_Packages doc = [pkg] /\ p_PackageName pkg = name /\ inventory h tree (p_Files pkg).
Proof.
  intros R W P E. destruct (C24_build srt h tree root name cfg doc R W E) as (pkg & cs & D & N & _ & L & F & _). exists pkg. split; [exact D|]. split; [exact N|].
  intros fname sums. rewrite P in L. split.
  - intros (f & I & <- & <-). destruct (both_r _ _ _ _ F I) as (c & Ic & content & A & -> & ->). exists c, content. split; [exact A|]. split; [|auto].
    apply L in Ic as [_ Ic]. now rewrite <- (left_out_ignored tree c (Some content) W A).
  - intros (c & content & A & X & -> & ->). assert (Ic : In c cs). { apply L. split; [eauto|]. now rewrite (left_out_ignored tree c (Some content) W A). }
    destruct (both_l _ _ _ _ F Ic) as (f & I & content' & A' & N' & S). exists f. split; [exact I|]. split; [exact N'|]. rewrite S.
    rewrite (file_once _ _ _ _ W A A'). reflexivity.
Qed.
Lemma inventory_map h tree fs gs : Forall2 (fun f g => f_FileName f = f_FileName g /\ f_Checksums f = f_Checksums g) fs gs -> inventory h tree fs -> inventory h tree gs.
Proof.
  intros F I name sums. rewrite <- (I name sums). split; intros (f & A & <- & <-).
  - destruct (both_r _ _ _ _ F A) as (g & B & N & S). eauto.
  - destruct (both_l _ _ _ _ F A) as (g & B & N & S). exists g. eauto.
Qed.
Lemma inventory_perm h tree fs gs : Permutation fs gs -> inventory h tree fs -> inventory h tree gs.
Proof. intros P I name sums. rewrite <- (I name sums). split; intros (f & A & B); exists f; split; auto; eapply Permutation_in; try exact A; [now symmetry|exact P]. Qed.
Lemma search_files srt h tree root name cfg doc : clean_root root -> wf_tree tree ->
  (forall p, In p (ic_SearcherPathsIgnored cfg) -> exists r, p = "/" ++ r) ->
  build_ids_document srt h tree root cfg name = Ok doc -> exists pkg, d_Packages doc = [pkg] /\ forall f, In f (p_Files pkg) ->
    exists names content, file_at tree names (Some content) /\ f_FileName f = "." ++ rooted names /\
      set_or_noassertion (fun lic => exists line lid, searched_line content line /\ line_mentions line lid /\ individual lid lic) (f_LicenseInfoInFiles f) /\
      (f_LicenseConcluded f = "NOASSERTION" \/ exists ids, ids <> [] /\ (forall lid, In lid ids -> exists line, searched_line content line /\ line_mentions line lid) /\ conclusion ids (f_LicenseConcluded f)).
Proof.
  intros R W Q E. destruct (C25_document srt h tree root cfg name doc R W E) as (b & p0 & pkg & cs & _ & _ & D & _ & N & F & G & _ & _).
  exists pkg. split; [exact D|]. intros f A. destruct (both_r _ _ _ _ F A) as (c0 & _ & _). revert F G A. generalize (p_Files pkg). clear - N W Q.
  induction N as [|c f0 cs fs [H (content & C)] N IH]; intros gs F G A; inversion F as [|? g ? gs' (F1 & F2 & F3) F4]; subst; [destruct A|].
  inversion G as [|? ? ? ? (i & k & ->) G2]; subst. destruct A as [<- |A]; [|now apply (IH _ F4 G2 A)].
  assert (I : forall p, ~ (In p (ic_SearcherPathsIgnored cfg) /\ matches p ("." ++ rooted c))).
  { intros p [Ip M]. assert (Z := C25_anchored_patterns_inert c (ic_SearcherPathsIgnored cfg) Q).
    enough (should_ignore ("." ++ rooted c) (ic_SearcherPathsIgnored cfg) = true) by congruence. apply should_ignore_spec. eauto. }
  assert (K : forall lic, (exists content0, file_at tree c (Some content0) /\ found_in (ic_SearcherPathsIgnored cfg) ("." ++ rooted c) content0 lic) <->
      exists line lid, searched_line content line /\ line_mentions line lid /\ individual lid lic).
  { intros lic. split.
    - intros (c0 & A1 & lid & (_ & line & X & Y) & V). rewrite (file_once _ _ _ _ W A1 C) in X. eauto.
    - intros (line & lid & X & Y & V). exists content. split; [exact C|]. exists lid. split; [|exact V]. split; [|eauto]. intros (p & Ip). exact (I p Ip). }
  exists c, content. split; [exact C|]. split; [exact H|]. destruct F1 as [(X & O & ND & J)|(X & L)]; split.
  - left. split; [destruct X as (x & X); exists x; now apply K|]. split; [exact O|]. split; [exact ND|]. intros y. rewrite (J y). apply K.
  - right. specialize (F3 X). destruct F3 as (ids & content' & C' & _ & _ & M & Co). exists ids. split; [|split; [|exact Co]].
    + intros ->. destruct X as (x & c1 & A1 & lid & V & _). rewrite (file_once _ _ _ _ W A1 C') in V. now apply (M lid) in V.
    + intros lid L. apply M in L as (_ & line & L1 & L2). rewrite (file_once _ _ _ _ W C' C) in L1. eauto.
  - right. split; [|exact L]. intros y Y. apply (X y). now apply K.
  - left. now apply F2.
Qed.
Lemma inventory_search srt h tree root name cfg doc : clean_root root -> wf_tree tree -> ic_BuilderPathsIgnored cfg = Some patterns ->
  build_ids_document srt h tree root cfg name = Ok doc -> exists pkg, d_Packages doc = [pkg] /\ p_PackageName pkg = name /\ inventory h tree (p_Files pkg).
Proof.
  intros R W P E. destruct (C25_document srt h tree root cfg name doc R W E) as (b & p0 & pkg & cs & Eb & D0 & D & _ & N & F & G & _ & S).
  apply inventory_build in Eb as (q & Dq & Nq & I); [|exact R|exact W|exact P]. rewrite D0 in Dq. injection Dq as <-. exists pkg. split; [exact D|].
  split; [rewrite <- Nq, <- S; reflexivity|].
  eapply inventory_map; [|exact I]. clear - G. induction G as [|f g l m (i & c & ->) G IH]; constructor; [split; reflexivity|exact IH].
Qed.
Lemma starts_ascii sp2 sp3 c s : sp_ok sp2 sp3 -> ascii7 c = true -> is_space1 c = false -> starts_gen sp2 sp3 (String c s) = false.
Proof.
  intros [H2 H3] A S. cbn [starts_gen]. rewrite S. cbn [orb]. destruct s as [|b s]; [reflexivity|]. apply orb_false_iff. split.
  - destruct (sp2 c b) eqn:E; [apply H2 in E; intuition congruence|reflexivity].
  - destruct s as [|d s]; [reflexivity|]. destruct (sp3 c b d) eqn:E; [apply H3 in E; intuition congruence|reflexivity].
Qed.
Lemma conclusion_trimmed ids text : ids <> [] -> (forall lid, In lid ids -> lid <> "" /\ trimmed lid) -> conclusion ids text -> trimmed text.
Proof.
  intros N A [(i & -> & ->)|(_ & parts & -> & F)]; [now apply A; left|].
  assert (B : Forall (fun x => x <> "" /\ starts_space x = false /\ ends_space x = false) parts).
  { clear N. induction F as [|i p ids parts H F IH]; constructor; [|apply IH; intros; apply A; now right].
    destruct (A i (or_introl eq_refl)) as [Ni Ti]. apply trim_space_id in Ti. destruct H as [(_ & ->)|(_ & _ & ->)]; [|tauto].
    split; [discriminate|]. split; [exact (starts_ascii _ _ "(" (i ++ ")") sp_ok_fwd eq_refl eq_refl)|].
    unfold ends_space. rewrite !srev_app_distr, app_assoc_s. exact (starts_ascii _ _ ")" (srev i ++ "(") sp_ok_bwd eq_refl eq_refl). }
  assert (P : parts <> []) by (intros ->; inversion F; subst; congruence). clear - B P. apply trim_space_id.
  induction B as [|x l (X & S & T) B IH]; [congruence|]. destruct l as [|y l]; [now split|].
  change (String.concat " AND " (x :: y :: l)) with (x ++ " AND " ++ String.concat " AND " (y :: l)).
  destruct IH as [_ IH]; [discriminate|].
  change (x ++ " AND " ++ String.concat " AND " (y :: l)) with (x ++ String " " ("AND " ++ String.concat " AND " (y :: l))).
  split; [now rewrite starts_space_app|].
  rewrite ends_space_app by (try discriminate; reflexivity).
  change ("AND " ++ String.concat " AND " (y :: l)) with ("AND" ++ String " " (String.concat " AND " (y :: l))).
  rewrite ends_space_app; [exact IH| |reflexivity]. inversion B as [|? ? [Y _]]; subst. destruct l; [exact Y|]. cbn. destruct y; [congruence|discriminate].
Qed.
Lemma same_package d e pkg : document_same d e -> d_Packages d = [pkg] -> exists files files', d_Packages e = [set_p_Files files' pkg] /\ Permutation (p_Files pkg) files /\ Forall2 file_same files files'.
Proof.
  intros (refs & fs & pkgs & _ & _ & (k & P & F) & ->) D. rewrite D in P. apply Permutation_length_1_inv in P. subst k.
  inversion F as [|? q ? r (fs' & (k & P & G) & ->) F2]; subst. inversion F2; subst. exists k, fs'. split; [reflexivity|]. now split.
Qed.
Lemma same_inventory h tree files k files' : Permutation files k -> Forall2 file_same k files' -> inventory h tree files -> inventory h tree files'.
Proof.
  intros P F I. eapply inventory_map; [|eapply inventory_perm; [exact P|exact I]]. clear - F. induction F as [|f g l m (sn & _ & ->) F IH]; constructor; [now split|exact IH].
Qed.
Lemma same_stated tree files k files' : Permutation files k -> Forall2 file_same k files' -> licenses_stated tree files -> licenses_stated tree files'.
Proof.
  intros P F I g G. destruct (both_r _ _ _ _ F G) as (f & J & sn & _ & ->). apply (I f). eapply Permutation_in; [symmetry; exact P|exact J].
Qed.
Lemma listed_out tree c : wf_tree tree -> listed tree (Some patterns) c -> exists x, file_at tree c x /\ ~ left_out c.
Proof. intros W [(x & A) N]. exists x. split; [exact A|]. now rewrite <- (left_out_ignored tree c x W A). Qed.
Lemma saved_run make so m n name root out d t d' : takes_output m out -> make m root name = Ok d -> render_document so V23 d = Ok (t, d') ->
  build_to make so m [n; name; root; out] = MkBuildRun [Built name; SavedOutput out] (Some (out, t)) false.
Proof. intros [C K] E R. unfold build_to. rewrite E, C, (C46_tag _ _ _ _ _ _ K R). reflexivity. Qed.

(** The output is the text of a document with one package, whose files are those of
    the directory, with their checksums, and whose verification code is that of
    these files. *)
Theorem C59_saved : forall srt so h m n name root out, clean_root (abs m root) -> wf_tree (stored m root) -> hex_hashes h ->
  fit_to_save m root name -> can_read (stored m root) -> takes_output m out ->
  exists t e pkg, build_program srt so h m [n; name; root; out] = MkBuildRun [Built name; SavedOutput out] (Some (out, t)) false /\
    (Forall short (stream_lines t) -> read_into t = Ok (V23, Some e)) /\
    d_DocumentName e = name /\ d_Packages e = [pkg] /\ p_PackageName pkg = name /\ inventory h (stored m root) (p_Files pkg) /\ intact (h_sha1 h) e.
Proof.
  intros srt so h m n name root out R W H (I1 & I2 & I3 & I4) C T.
  destruct (C24_total srt h (stored m root) (abs m root) name (build_config (clock m)) R W) as [T1 _]. specialize (T1 (proj1 (can_read_iff _ W) C)). destruct T1 as (d & E).
  assert (B : build_ok (stored m root) name (build_config (clock m))).
  { split; [exact I1|]. split; [exact I2|]. split; [cbn; tauto|]. split; [split; [discriminate|now apply line_lit]|]. split; [exact I3|].
    intros c L. destruct (listed_out _ _ W L) as (x & A & N). now apply (I4 c x). }
  destruct (C43_build_tag srt so h _ _ name _ d R W H B E) as (t & d' & e & R' & S & In & Rd).
  destruct (inventory_build srt h _ _ name (build_config (clock m)) d R W eq_refl E) as (pkg & D & N & I). destruct (same_package d e pkg S D) as (k & fs & De & P & F).
  exists t, e, (set_p_Files fs pkg). split; [now apply (saved_run _ so m n name root out d t d')|]. split; [intros X; now apply Rd|].
  split. { destruct S as (r & f & p & _ & _ & _ & ->). apply C24_values in E as (_ & _ & _ & E & _). exact E. }
  split; [exact De|]. split; [exact N|]. split; [exact (same_inventory _ _ _ _ _ P F I)|exact In].
Qed.
Print Assumptions C59_saved.
(** For the search, the files also state the licenses mentioned in them, in every
    file, although the program names paths that are not to be searched. *)
Theorem C59_search_saved : forall srt so h m n name root out, clean_root (abs m root) -> wf_tree (stored m root) -> hex_hashes h ->
  fit_to_save m root name -> clear_comments (stored m root) -> can_read (stored m root) -> takes_output m out ->
  exists t e pkg, search_program srt so h m [n; name; root; out] = MkBuildRun [Built name; SavedOutput out] (Some (out, t)) false /\
    (Forall short (stream_lines t) -> read_into t = Ok (V23, Some e)) /\
    d_DocumentName e = name /\ d_Packages e = [pkg] /\ p_PackageName pkg = name /\ inventory h (stored m root) (p_Files pkg) /\ intact (h_sha1 h) e /\
    licenses_stated (stored m root) (p_Files pkg).
Proof.
  intros srt so h m n name root out R W H (I1 & I2 & I3 & I4) CC C T.
  assert (E : exists d, search_made srt h m root name = Ok d).
  { unfold search_made. destruct (searched srt h (stored m root) (abs m root) (search_config (clock m)) name) as [(d & E & _)|[(x & _ & y & E)|E]]; [eauto| |].
    - destruct (proj1 (C24_total srt h (stored m root) (abs m root) name (MkBC (ic_NamespacePrefix (search_config (clock m))) "Tool" "github.com/spdx/tools-golang/idsearcher" (ic_BuilderPathsIgnored (search_config (clock m))) (ic_Created (search_config (clock m)))) R W) (proj1 (can_read_iff _ W) C)) as (z & Z). congruence.
    - exfalso. revert E. now apply build_calm. }
  destruct E as (d & E). unfold search_made in E.
  assert (B : search_ok (stored m root) name (search_config (clock m))).
  { split; [exact I1|]. split; [exact I2|]. split; [exact I3|]. intros c L. destruct (listed_out _ _ W L) as (x & A & N). now apply (I4 c x). }
  assert (Q : forall p, In p (ic_SearcherPathsIgnored (search_config (clock m))) -> exists r, p = "/" ++ r).
  { intros p [<- |[<- |[]]]; [exists "Documentation/process/license-rules.rst"|exists "LICENSES/"]; reflexivity. }
  destruct (search_files srt h _ _ name _ d R W Q E) as (pkg' & D' & SF).
  destruct (inventory_search srt h _ _ name (search_config (clock m)) d R W eq_refl E) as (pkg & D & N & I). rewrite D in D'. injection D' as <-.
  assert (TR : forall p f, In p (d_Packages d) -> In f (p_Files p) -> trimmed (f_LicenseConcluded f)).
  { intros p f Ip If. rewrite D in Ip. destruct Ip as [<- |[]]. destruct (SF f If) as (names & content & A & Fn & _ & [-> |(ids & Ne & M & Co)]); [reflexivity|].
    refine (conclusion_trimmed ids _ Ne _ Co). intros lid L. destruct (M lid L) as (line & L1 & L2). refine (CC names content line lid A _ L1 L2).
    destruct (proj1 (I (f_FileName f) (f_Checksums f))) as (names' & content' & A' & No & N' & _); [eauto|]. rewrite Fn in N'. apply (f_equal (fun s => match s with String _ r => r | _ => s end)) in N'.
    change (rooted names = rooted names') in N'.
    replace names with names'; [exact No|]. symmetry. eapply rooted_inj; [..|exact N']; eapply Forall_impl; try (eapply file_at_names; eassumption); cbn; tauto. }
  destruct (C43_search_tag srt so h _ _ name _ d R W H B E TR) as (t & d' & e & R' & S & In' & Rd).
  destruct (same_package d e pkg S D) as (k & fs & De & P & F).
  exists t, e, (set_p_Files fs pkg). split; [now apply (saved_run _ so m n name root out d t d')|]. split; [intros X; now apply Rd|].
  split.
  { destruct S as (r & f & p & _ & _ & _ & ->). destruct (C25_document _ _ _ _ _ _ _ R W E) as (b & p0 & p1 & cs & Eb & _ & _ & Sd & _). apply C24_values in Eb as (_ & _ & _ & Eb & _).
    rewrite <- Sd in Eb. exact Eb. }
  split; [exact De|]. split; [exact N|]. split; [exact (same_inventory _ _ _ _ _ P F I)|]. split; [exact In'|].
  apply (same_stated _ _ _ _ P F). intros f If. destruct (SF f If) as (names & content & A & Fn & L & _). eauto.
Qed.
Print Assumptions C59_search_saved.

(** ** A directory *)
Definition b_tree : node :=
  NDir [("a.c", NFile (Some ("// SPDX-License-Identifier: MIT" ++ LF)));
        (".git", NDir [("HEAD", NFile None)]);
        ("LICENSES", NDir [("MIT.txt", NFile (Some ("SPDX-License-Identifier: MIT" ++ LF)))]);
        ("sub", NDir [("__pycache__", NDir [("x.pyc", NFile (Some "x"))]); (".DS_Store", NFile (Some "y")); ("b.c", NFile (Some ""))])].
Definition b_machine : machine := MkMachine (fun _ => "/tmp/p") (fun _ => b_tree) (fun _ => true) (fun _ => Accept) "2020-01-01T00:00:00Z".
Ltac wf_step := constructor; [cbn; repeat constructor; cbn; intuition discriminate|]; let H := fresh in intros ? ? H; cbn in H;
  repeat destruct H as [H|H]; try (destruct H; fail); inversion H; subst; clear H; (split; [discriminate|]); (split; [discriminate|]); (split; [apply no_slash_byte; reflexivity|]).
Lemma b_tree_wf : wf_tree b_tree.
Proof. wf_step; [constructor|wf_step; constructor|wf_step; constructor|]. wf_step; [wf_step; constructor|constructor|constructor]. Qed.
Ltac files_step H := inversion H; subst; clear H; repeat match goal with
  | I : In _ _ |- _ => cbn in I; repeat destruct I as [I|I]; try (destruct I; fail); inversion I; subst; clear I
  | A : file_at _ _ _ |- _ => inversion A; subst; clear A
  end.
Lemma b_files names x : file_at b_tree names x ->
  (names, x) = (["a.c"], Some ("// SPDX-License-Identifier: MIT" ++ LF)) \/ (names, x) = ([".git"; "HEAD"], None) \/
  (names, x) = (["LICENSES"; "MIT.txt"], Some ("SPDX-License-Identifier: MIT" ++ LF)) \/ (names, x) = (["sub"; "__pycache__"; "x.pyc"], Some "x") \/
  (names, x) = (["sub"; ".DS_Store"], Some "y") \/ (names, x) = (["sub"; "b.c"], Some "").
Proof. intros H. files_step H; tauto. Qed.
Lemma b_read : can_read b_tree.
Proof.
  split.
  - assert (D : forall es, Forall (fun e => ~ bad_at (snd e)) es -> ~ bad_at (NDir es)).
    { intros es F B. inversion B as [|? k n I X]; subst. rewrite Forall_forall in F. exact (F _ I X). }
    assert (F : forall x, ~ bad_at (NFile x)) by (intros x X; inversion X).
    cbn. apply D. repeat constructor; cbn [snd]; try apply F; apply D; repeat constructor; cbn [snd]; try apply F; apply D; repeat constructor; apply F.
  - intros names H. apply b_files in H as [H|[H|[H|[H|[H|H]]]]]; inversion H. exists [".git"], "HEAD". split; [reflexivity|]. left. now exists [].
Qed.
Definition run_of (r : build_run) : option string := match r with MkBuildRun [Built _; SavedOutput _] (Some (_, t)) false => Some t | _ => None end.
Definition listing (t : string) : list (string * list string) :=
  match read_into t with Ok (V23, Some e) => flat_map (fun p => map (fun f => (f_FileName f, f_LicenseInfoInFiles f)) (p_Files p)) (d_Packages e) | _ => [] end.
Example C59_witness :
  clean_root (abs b_machine ".") /\ wf_tree (stored b_machine ".") /\ hex_hashes s_hashes /\ fit_to_save b_machine "." "demo" /\
  clear_comments (stored b_machine ".") /\ can_read (stored b_machine ".") /\ takes_output b_machine "out.spdx" /\
  option_map listing (run_of (build_program insertion_sorter insertion_sorter s_hashes b_machine ["p"; "demo"; "."; "out.spdx"])) =
    Some [("./LICENSES/MIT.txt", ["NOASSERTION"]); ("./a.c", ["NOASSERTION"]); ("./sub/b.c", ["NOASSERTION"])].
Proof.
  split; [exact root_clean|]. split; [exact b_tree_wf|]. split; [exact s_hashes_hex|].
  split. { split; [exact demo_ident|]. split; [now apply line_lit|]. split; [now apply line_lit|].
    intros names x H _. apply b_files in H as [H|[H|[H|[H|[H|H]]]]]; inversion H; now apply line_lit. }
  split. { intros names content line lid H _ L1 L2. assert (S : In lid (search_file_ids insertion_sorter content)) by (apply search_spec; eauto).
    apply b_files in H as [H|[H|[H|[H|[H|H]]]]]; inversion H; subst; vm_compute in S; intuition (subst; try discriminate; reflexivity). }
  split; [exact b_read|]. split; [split; reflexivity|]. vm_compute. reflexivity.
Qed.

(** ** What does not hold *)
(** The configuration of examples/4-search asks that files in /LICENSES/ are not
    searched.  They are: the names the search compares with begin with a dot. *)
Theorem C59_search_ignored_refuted :
  In "/LICENSES/" (ic_SearcherPathsIgnored (search_config (clock b_machine))) /\ file_at b_tree ["LICENSES"; "MIT.txt"] (Some ("SPDX-License-Identifier: MIT" ++ LF)) /\
  option_map listing (run_of (search_program insertion_sorter insertion_sorter s_hashes b_machine ["p"; "demo"; "."; "out.spdx"])) =
    Some [("./LICENSES/MIT.txt", ["MIT"]); ("./a.c", ["MIT"]); ("./sub/b.c", ["NOASSERTION"])].
Proof.
  split; [cbn; tauto|]. split; [|vm_compute; reflexivity].
  apply (fa_dir _ "LICENSES" (NDir [("MIT.txt", NFile (Some ("SPDX-License-Identifier: MIT" ++ LF)))])); [cbn; tauto|].
  apply (fa_dir _ "MIT.txt" (NFile (Some ("SPDX-License-Identifier: MIT" ++ LF)))); [now left|constructor].
Qed.
Print Assumptions C59_search_ignored_refuted.
(** A program that is run twice with its output in the directory does not leave the
    same output: the second lists the first. *)
Theorem C59_again_refuted :
  exists t t', run_of (build_program insertion_sorter insertion_sorter s_hashes
      (MkMachine (fun _ => "/tmp/p") (fun _ => NDir [("a.c", NFile (Some "x"))]) (fun _ => true) (fun _ => Accept) "now") ["p"; "demo"; "."; "out.spdx"]) = Some t /\
    run_of (build_program insertion_sorter insertion_sorter s_hashes
      (MkMachine (fun _ => "/tmp/p") (fun _ => NDir [("a.c", NFile (Some "x")); ("out.spdx", NFile (Some t))]) (fun _ => true) (fun _ => Accept) "now") ["p"; "demo"; "."; "out.spdx"]) = Some t' /\
    map fst (listing t) = ["./a.c"] /\ map fst (listing t') = ["./a.c"; "./out.spdx"].
Proof. eexists _, _. split; [vm_compute; reflexivity|]. split; [vm_compute; reflexivity|]. vm_compute. split; reflexivity. Qed.
Print Assumptions C59_again_refuted.
