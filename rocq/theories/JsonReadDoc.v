(** * Reading JSON values exactly: packages and whole documents. *)
From Coq Require Import Permutation.
From Verif Require Import GoStr GoStrFacts Types TvUtil TvUtilFacts TvParser SpecTv SpecId SpecDoc Json JsonSpdx SpecJson JsonFacts JsonCodec JsonHooks SpecJsonRead JsonReadFacts JsonReadStruct.
Local Open Scope string_scope.

(** ** External references *)
Definition plain_ref_is (j : json) (r : ExternalRef) : Prop :=
  object_is zero_ExternalRef (fun ms =>
    text_at ms "referenceCategory" (er_Category r) /\
    text_at ms "referenceType" (er_RefType r) /\
    text_at ms "referenceLocator" (er_Locator r) /\
    text_at ms "comment" (er_Comment r)) j r.
Definition c_plain_ref : codec ExternalRef := Eval cbv [external_ref_fields] in c_struct external_ref_fields.
Lemma exactly_plain_ref : exactly c_plain_ref zero_ExternalRef plain_ref_is.
Proof. struct_exact (fun _ : ExternalRef => tt); parts ignored. Qed.
Lemma replaced s : forall t, t = replace_byte underscore dash s <->
  String.length t = String.length s /\
  forall i c, get i s = Some c -> get i t = Some (if Ascii.eqb c "_" then "-"%char else c).
Proof.
  induction s as [|a s IH]; intros t; cbn [replace_byte].
  - split.
    + intros ->. split; [reflexivity|]. intros [|i] c; discriminate.
    + intros (L & _). now destruct t.
  - split.
    + intros ->. destruct (IH (replace_byte underscore dash s)) as ((L & G) & _); [reflexivity|].
      split; [cbn [String.length]; now f_equal|]. intros [|i] c; cbn [get].
      * intros E. injection E as <-. reflexivity.
      * apply G.
    + intros (L & G). destruct t as [|b t]; [discriminate|]. cbn in L. injection L as L.
      pose proof (G 0 a eq_refl) as E. cbn [get] in E. injection E as ->. f_equal.
      apply IH. split; [assumption|]. intros i c Ei. exact (G (S i) c Ei).
Qed.
Lemma exactly_external_ref v : exactly (c_external_ref v) zero_ExternalRef (external_ref_is v).
Proof.
  destruct v.
  - intros j x C. apply (iff_trans (exactly_plain_ref j x C)). unfold plain_ref_is, external_ref_is, object_is. split.
    + intros [H|(ms & -> & N & H1 & H2)]; [now left|right]. exists ms. repeat split; try tauto. exists (er_Category x). split; [assumption|reflexivity].
    + intros [H|(ms & -> & N & (s & H1 & E) & H2)]; [now left|right]. cbn in E. subst s. exists ms. auto.
  - intros j x C. cbn [dec c_external_ref]. rewrite bindR_ok_iff. unfold external_ref_is, object_is. split.
    + intros (r & D & E). injection E as <-. apply (exactly_plain_ref j r C) in D.
      destruct D as [(-> & ->)|(ms & -> & N & H1 & H2)]; [left; auto|right]. exists ms. split; [reflexivity|]. split; [assumption|].
      split; [|exact H2]. exists (er_Category r). split; [assumption|]. now apply replaced.
    + intros [(-> & ->)|(ms & -> & N & (s & H1 & E) & H2)].
      * exists zero_ExternalRef. split; reflexivity.
      * exists (set_er_Category s x). split.
        -- apply (exactly_plain_ref _ _ C). right. exists ms. split; [reflexivity|]. split; [assumption|]. split; [exact H1|exact H2].
        -- apply replaced in E. destruct x. cbn in *. now subst.
  - intros j x C. cbn [dec c_external_ref]. rewrite bindR_ok_iff. unfold external_ref_is, object_is. split.
    + intros (r & D & E). injection E as <-. apply (exactly_plain_ref j r C) in D.
      destruct D as [(-> & ->)|(ms & -> & N & H1 & H2)]; [left; auto|right]. exists ms. split; [reflexivity|]. split; [assumption|].
      split; [|exact H2]. exists (er_Category r). split; [assumption|]. now apply replaced.
    + intros [(-> & ->)|(ms & -> & N & (s & H1 & E) & H2)].
      * exists zero_ExternalRef. split; reflexivity.
      * exists (set_er_Category s x). split.
        -- apply (exactly_plain_ref _ _ C). right. exists ms. split; [reflexivity|]. split; [assumption|]. split; [exact H1|exact H2].
        -- apply replaced in E. destruct x. cbn in *. now subst.
Qed.
Global Hint Resolve exactly_external_ref : exactly.

(** ** Verification codes *)
Definition code_value (c : VerificationCode) (o : option VerificationCode) : Prop :=
  (c = MkVC "" [] -> o = None) /\ (c <> MkVC "" [] -> o = Some c).
Definition old_code_is (j : json) (o : option VerificationCode) : Prop := exists c, code_is j c /\ code_value c o.
Lemma code_value_iff c o : code_value c o <-> o = if zero_code c then None else Some c.
Proof.
  unfold code_value, zero_code. destruct c as [x l]. cbn.
  destruct (String.eqb_spec x "") as [->|N]; destruct l as [|y l]; cbn; split; try (intros ->; split; [reflexivity || congruence|congruence]);
    try (intros (A & B); apply A; reflexivity); try (intros (A & B); apply B; congruence).
Qed.
Lemma exactly_old_code v : v <> V23 -> exactly (c_package_code v) None old_code_is.
Proof.
  intros N j o C. unfold old_code_is.
  assert (dec (c_package_code v) j None = let* c := dec c_verification_code j zero_VerificationCode in
            Ok (if zero_code c then None else Some c)) as -> by (destruct v; [reflexivity|reflexivity|congruence]).
  rewrite bindR_ok_iff. split.
  - intros (c & D & E). exists c. split; [now apply exactly_code|]. apply code_value_iff. congruence.
  - intros (c & D & E). exists c. split; [now apply exactly_code|]. apply code_value_iff in E. congruence.
Qed.
Lemma exactly_code_21 : exactly (c_package_code V21) None old_code_is.
Proof. now apply exactly_old_code. Qed.
Lemma exactly_code_22 : exactly (c_package_code V22) None old_code_is.
Proof. now apply exactly_old_code. Qed.
Lemma exactly_code_23 : exactly (c_package_code V23) None (nullable code_is).
Proof. cbn [c_package_code]. auto with exactly. Qed.
Global Hint Resolve exactly_code_21 exactly_code_22 exactly_code_23 : exactly.
Lemma old_code_member ms k o :
  (exists c, at_member ms k zero_VerificationCode code_is c /\ code_value c o) <-> at_member ms k None old_code_is o.
Proof.
  unfold at_member, old_code_is. split.
  - intros (c & [(A & ->)|(m & Im & Cm & H)] & V).
    + left. split; [assumption|]. now apply V.
    + right. exists m. eauto.
  - intros [(A & ->)|(m & Im & Cm & c & H & V)].
    + exists zero_VerificationCode. split; [now left|]. split; [reflexivity|]. intros K. now destruct K.
    + exists c. split; [|assumption]. right. eauto.
Qed.

(** ** Packages *)
Definition struct_is (v : version) (j : json) (p : JPackage) : Prop :=
  object_is zero_package (fun ms => package_members v ms p /\ flag_at ms "filesAnalyzed" (p_FilesAnalyzed p) /\
    p_IsFilesAnalyzedTagPresent p = false) j p.
Definition c_struct_21 : codec JPackage := Eval cbv [package_fields opt_in_23 app] in c_struct (package_fields V21).
Definition c_struct_22 : codec JPackage := Eval cbv [package_fields opt_in_23 app] in c_struct (package_fields V22).
Definition c_struct_23 : codec JPackage := Eval cbv [package_fields opt_in_23 app] in c_struct (package_fields V23).
Ltac code_member :=
  match goal with
  | |- exists c, at_member ?ms ?k ?z code_is c /\ _ => apply (proj2 (old_code_member ms k _)); member
  end.
Ltac package_part := first [ code_member | ignored ].
Ltac fold_code :=
  match goal with H : exists c, at_member ?ms ?k ?z code_is c /\ _ |- _ => apply (proj1 (old_code_member ms k _)) in H end.
Lemma exactly_struct_21 : exactly c_struct_21 zero_package (struct_is V21).
Proof.
  struct_exact (fun p : JPackage => (p_IsUnpackaged p, p_IsFilesAnalyzedTagPresent p, p_PrimaryPackagePurpose p,
          p_ReleaseDate p, p_BuiltDate p, p_ValidUntilDate p, p_AttributionTexts p)).
  - cbv [package_members]. spec_names. parts package_part.
  - match goal with H : package_members _ _ _ |- _ => cbv [package_members] in H end. spec_names. conj. ignored.
  - match goal with H : package_members _ _ _ |- _ => cbv [package_members] in H end. spec_names. conj. fold_code. parts package_part.
Qed.
Lemma exactly_struct_22 : exactly c_struct_22 zero_package (struct_is V22).
Proof.
  struct_exact (fun p : JPackage => (p_IsUnpackaged p, p_IsFilesAnalyzedTagPresent p, p_PrimaryPackagePurpose p,
          p_ReleaseDate p, p_BuiltDate p, p_ValidUntilDate p)).
  - cbv [package_members]. spec_names. parts package_part.
  - match goal with H : package_members _ _ _ |- _ => cbv [package_members] in H end. spec_names. conj. ignored.
  - match goal with H : package_members _ _ _ |- _ => cbv [package_members] in H end. spec_names. conj. fold_code. parts package_part.
Qed.
Lemma exactly_struct_23 : exactly c_struct_23 zero_package (struct_is V23).
Proof.
  struct_exact (fun p : JPackage => (p_IsUnpackaged p, p_IsFilesAnalyzedTagPresent p)).
  - cbv [package_members]. spec_names. parts package_part.
  - match goal with H : package_members _ _ _ |- _ => cbv [package_members] in H end. spec_names. conj. ignored.
  - match goal with H : package_members _ _ _ |- _ => cbv [package_members] in H end. spec_names. conj. parts package_part.
Qed.
Lemma exactly_package_struct v : exactly (c_struct (package_fields v)) zero_package (struct_is v).
Proof. destruct v; [exact exactly_struct_21|exact exactly_struct_22|exact exactly_struct_23]. Qed.

Definition extras_is (j : json) (e : extras) : Prop :=
  object_is (Extras [] None) (fun ms =>
    list_at ms "hasFiles" reference_is (ex_HasFiles e) /\
    at_member ms "filesAnalyzed" None (nullable flag_is) (ex_FilesAnalyzed e)) j e.
Lemma exactly_extras : exactly c_extras (Extras [] None) extras_is.
Proof. struct_exact (fun _ : extras => tt); parts ignored. Qed.

Lemma called_unique ms k m m' :
  NoDup (map (fun m : string * json => option_map fold_name (unescape (fst m))) ms) ->
  In m ms -> In m' ms -> called k m -> called k m' -> m = m'.
Proof.
  intros N I I' (n & U & E) (n' & U' & E').
  assert (option_map fold_name (unescape (fst m)) = option_map fold_name (unescape (fst m'))) as K.
  { rewrite U, U'. cbn. congruence. }
  clear - N I I' K. induction ms as [|a r IH]; [destruct I|]. cbn [map] in N. inversion N as [|? ? Na Nr]; subst.
  destruct I as [->|I], I' as [->|I']; auto; exfalso; apply Na.
  - rewrite K. now apply (in_map (fun m : string * json => option_map fold_name (unescape (fst m)))).
  - rewrite <- K. now apply (in_map (fun m : string * json => option_map fold_name (unescape (fst m)))).
Qed.
(** The flag and the pointer to it are the same member. *)
Lemma flag_member ms b o :
  NoDup (map (fun m : string * json => option_map fold_name (unescape (fst m))) ms) ->
  flag_at ms "filesAnalyzed" b -> at_member ms "filesAnalyzed" None (nullable flag_is) o ->
  b = match o with Some x => x | None => false end.
Proof.
  intros N [(A & ->)|(m & Im & Cm & Hm)] [(A' & ->)|(m' & Im' & Cm' & Hm')].
  - reflexivity.
  - exfalso. exact (proj1 (Forall_forall _ _) A m' Im' Cm').
  - exfalso. exact (proj1 (Forall_forall _ _) A' m Im Cm).
  - rewrite <- (called_unique ms _ m m' N Im Im' Cm Cm') in Hm'. destruct o as [x|]; cbn [nullable] in Hm'.
    + destruct Hm' as (Nn & [(K & _)|K]); [congruence|]. destruct Hm as [(K' & _)|K']; congruence.
    + destruct Hm as [(_ & E)|K]; [assumption|congruence].
Qed.
Lemma flag_of_member ms o : at_member ms "filesAnalyzed" None (nullable flag_is) o ->
  flag_at ms "filesAnalyzed" (match o with Some x => x | None => false end).
Proof.
  intros [(A & ->)|(m & Im & Cm & H)]; [now left|right]. exists m. split; [assumption|]. split; [assumption|].
  destruct o as [x|]; cbn [nullable] in H; [tauto|]. rewrite H. left. auto.
Qed.

Lemma exactly_package v j p : clear j -> j <> JNull ->
  (dec (c_package v) j zero_jpackage = Ok p <-> package_is v j p).
Proof.
  intros C Nj. destruct p as (p, files). cbn [dec c_package package_is].
  assert (v = V21 \/ v <> V21) as [->|Nv] by (destruct v; [left; reflexivity|right..]; discriminate).
  - rewrite bindR_ok_iff. split.
    + intros (q & D & E). cbn in E. injection E as -> <-. apply (exactly_package_struct V21 _ _ C) in D.
      destruct D as [(K & _)|(ms & -> & N & M & F & T)]; [congruence|]. exists ms. auto 7.
    + intros (ms & -> & N & M & (F & T) & ->). exists p. split; [|reflexivity].
      apply (exactly_package_struct V21 _ _ C). right. exists ms. auto.
  - assert (forall X (a b : X), match v with V21 => a | V22 => b | V23 => b end = b) as Mv by (destruct v; [congruence|reflexivity..]).
    rewrite !Mv. unfold unmarshal_package. rewrite bindR_ok_iff. split.
    + intros (q & D & E). apply bindR_ok_iff in E as (e & De & E). injection E as Ep Ef.
      apply (exactly_package_struct v _ _ C) in D. apply (exactly_extras _ _ C) in De.
      destruct D as [(K & _)|(ms & -> & N & M & F & T)]; [congruence|].
      destruct De as [(K & _)|(ms' & K & _ & H & A)]; [discriminate|]. injection K as <-.
      pose proof (flag_member _ _ _ (proj1 (proj1 (clear_obj ms) C)) F A) as Eb.
      exists ms. split; [reflexivity|]. split; [assumption|]. split; [|split].
      * rewrite <- Ep. destruct (ex_FilesAnalyzed e); exact M.
      * rewrite Mv. exists (ex_FilesAnalyzed e). split; [assumption|]. rewrite <- Ep. destruct (ex_FilesAnalyzed e); auto.
      * rewrite Mv, <- Ef. exact H.
    + intros (ms & -> & N & M & A & H). rewrite Mv in A, H. destruct A as (o & A & Fo).
      exists (set_p_FilesAnalyzed (match o with Some x => x | None => false end) (set_p_IsFilesAnalyzedTagPresent false p)). split.
      * apply (exactly_package_struct v _ _ C). right. exists ms. split; [reflexivity|]. split; [assumption|].
        split; [exact M|]. split; [|reflexivity]. exact (flag_of_member _ _ A).
      * apply bindR_ok_iff. exists (Extras files o). split.
        -- apply (exactly_extras _ _ C). right. exists ms. auto.
        -- cbn [ex_FilesAnalyzed ex_HasFiles]. f_equal. f_equal. destruct o as [b|]; destruct Fo as (F1 & F2);
             destruct p; cbn in *; now subst.
Qed.
Lemma exactly_packages v : exactly (c_slice (c_ptr (c_package v) zero_jpackage) None) [] (list_is (nullable (package_is v))).
Proof.
  apply exactly_list. intros j x C. cbn [dec c_ptr]. unfold nullable.
  assert (j = JNull \/ j <> JNull) as [->|Nj] by (destruct j; [left; reflexivity|right; discriminate..]).
  - split; [intros H; injection H as <-; auto|destruct x as [y|]; [intros (K & _); congruence|reflexivity]].
  - assert (forall X (a b : X), match j with JNull => a | _ => b end = b) as -> by (destruct j; [congruence|reflexivity..]).
    rewrite bindR_ok_iff. split.
    + intros (y & D & K). injection K as <-. split; [assumption|]. now apply exactly_package.
    + destruct x as [y|]; [|congruence]. intros (_ & D). exists y. split; [now apply exactly_package|reflexivity].
Qed.
Global Hint Resolve exactly_packages : exactly.

(** ** Documents *)
Definition jdocument_is (v : version) (j : json) (x : jdocument) : Prop :=
  object_is zero_jdocument (fun ms =>
    text_at ms "spdxVersion" (d_SPDXVersion x) /\
    text_at ms "dataLicense" (d_DataLicense x) /\
    id_at ms "SPDXID" (d_SPDXIdentifier x) /\
    text_at ms "name" (d_DocumentName x) /\
    text_at ms "documentNamespace" (d_DocumentNamespace x) /\
    list_at ms "externalDocumentRefs" external_document_is (d_ExternalDocumentReferences x) /\
    text_at ms "comment" (d_DocumentComment x) /\
    at_member ms "creationInfo" None (nullable creation_is) (d_CreationInfo x) /\
    list_at ms "files" (nullable (file_is v)) (d_Files x) /\
    list_at ms "hasExtractedLicensingInfos" (nullable license_is) (d_OtherLicenses x) /\
    list_at ms "annotations" (nullable annotation_is) (d_Annotations x) /\
    list_at ms "snippets" snippet_is (d_Snippets x) /\
    d_Reviews x = [] /\
    list_at ms "packages" (nullable (package_is v)) (d_Packages x) /\
    list_at ms "relationships" (nullable relationship_is) (d_Relationships x)) j x.
Ltac ext ::= intros [] []; cbn; intros;
  repeat match goal with H : _ /\ _ |- _ => destruct H end;
  repeat match goal with H : (_, _) = (_, _) |- _ => injection H as ? end; subst; reflexivity.
Lemma exactly_document_struct v : exactly (c_document_struct v) zero_jdocument (jdocument_is v).
Proof.
  struct_exact (fun x : jdocument => d_Reviews x); parts ignored.
Qed.

Lemma exactly_describes j l : clear j ->
  (dec c_describes j [] = Ok l <-> object_is [] (fun ms => list_at ms "documentDescribes" reference_is l) j l).
Proof.
  intros C. unfold c_describes.
  apply (iff_trans (struct_said (fun _ : list DocElementID => tt)
    [req "documentDescribes" (c_slice c_doc_element_id zero_DocElementID) (fun x => x) (fun x _ => x)] []
    ltac:(lens) ltac:(names) ltac:(intros a b _ (H & _); exact H) j l C)).
  unfold object_is. spec_names. cbn [map fold_right]. cbv [req].
  split; intros [H|(ms & -> & H)].
  - now left.
  - right. exists ms. conj. split; [reflexivity|]. split; [assumption|]. member.
  - now left.
  - right. exists ms. conj. assert (Forall (fun m => clear (snd m)) ms) by (now apply clear_obj in C).
    split; [reflexivity|]. split; [assumption|]. split; [assumption|]. split; [reflexivity|]. split; [member|exact I].
Qed.

(** ** Completion *)
Lemma written_key r : serialize_rel r = written r.
Proof. rewrite key_of. unfold written. now destruct (statement_of r) as ((a, t), b). Qed.
Lemma adds_all wanted : forall known seen,
  (forall k, In k seen <-> exists r, In r known /\ serialize_rel r = k) ->
  exists added, adds known wanted added /\ fst (fold_left add_rel wanted (known, seen)) = (known ++ added)%list.
Proof.
  induction wanted as [|r w IH]; intros known seen Inv.
  - exists []. split; [constructor|]. cbn. now rewrite app_nil_r.
  - cbn [fold_left]. unfold add_rel at 2. cbn [fst snd].
    destruct (existsb (String.eqb (serialize_rel r)) seen) eqn:E.
    + apply existsb_exists in E as (k & Ik & Ek). apply String.eqb_eq in Ek. subst k.
      apply Inv in Ik as (k & Ik & Ek).
      destruct (IH known seen Inv) as (added & A & F). exists added. split; [|exact F].
      apply adds_known; [|assumption]. exists k. split; [assumption|]. now rewrite <- !written_key.
    + destruct (IH (known ++ [r])%list (serialize_rel r :: seen)) as (added & A & F).
      { intros k. cbn [In]. rewrite Inv. split.
        - intros [<-|(q & Iq & Eq)]; [exists r|exists q]; rewrite in_app_iff; cbn; auto.
        - intros (q & Iq & Eq). apply in_app_iff in Iq as [Iq|[->|[]]]; eauto. }
      exists (r :: added). split.
      * apply adds_new; [|assumption]. intros (k & Ik & Ek).
        assert (existsb (String.eqb (serialize_rel r)) seen = true); [|congruence].
        apply existsb_exists. exists (serialize_rel k). split; [apply Inv; eauto|].
        rewrite !written_key, Ek. apply String.eqb_refl.
      * rewrite F, <- app_assoc. reflexivity.
Qed.
Lemma adds_fun known wanted a : adds known wanted a -> forall b, adds known wanted b -> a = b.
Proof.
  intros H. induction H as [k|k r w a E H IH|k r w a E H IH]; intros b K; inversion K; subst; auto; try contradiction.
  f_equal. auto.
Qed.
Lemma proper_drop X (l : list (option X)) : drop_nil l = proper l.
Proof. unfold proper. induction l as [|[x|] r IH]; cbn; [reflexivity|now rewrite IH|assumption]. Qed.
Lemma completion_adds id rels describes pkgs l :
  complete_relationships id rels describes pkgs = l <->
  exists added,
    adds (proper rels) (implied id describes (map (fun p => (p_SPDXIdentifier (fst p), snd p)) (proper pkgs))) added /\
    l = (proper rels ++ added)%list.
Proof.
  rewrite completion_flat. unfold listed. rewrite !proper_drop.
  destruct (adds_all (implied id describes (map (fun p => (p_SPDXIdentifier (fst p), snd p)) (proper pkgs)))
              (proper rels) (map serialize_rel (proper rels))) as (added & A & F).
  { intros k. rewrite in_map_iff. split; intros (r & P & Q); exists r; auto. }
  rewrite F. split.
  - intros <-. eauto.
  - intros (a' & A' & ->). now rewrite (adds_fun _ _ _ A _ A').
Qed.

Lemma drop_fst l : map drop_has_files l = map (option_map fst) l.
Proof. apply map_ext. intros [(q, f)|]; reflexivity. Qed.
Lemma exactly_document v j d : clear j -> j <> JNull ->
  (unmarshal_document v j = Ok d <-> document_is v j d).
Proof.
  intros C Nj. unfold unmarshal_document. rewrite bindR_ok_iff.
  assert (v = V21 \/ v <> V21) as [->|Nv] by (destruct v; [left; reflexivity|right..]; discriminate).
  - split.
    + intros (q & D & E). apply (exactly_document_struct V21 _ _ C) in D.
      destruct D as [(K & _)|(ms & -> & N & H)]; [congruence|]. conj. injection E as <-.
      exists ms. repeat (split; [first [reflexivity|assumption]|]). exists (d_Packages q), (d_Relationships q).
      split; [assumption|]. split; [assumption|]. split; [apply drop_fst|reflexivity].
    + intros (ms & -> & N & H). conj.
      match goal with H : exists packages relationships, _ |- _ => destruct H as (pk & rl & P1 & P2 & P3 & P4) end.
      exists (with_packages pk rl d). split.
      * apply (exactly_document_struct V21 _ _ C). right. exists ms. split; [reflexivity|]. split; [assumption|].
        repeat (split; [first [reflexivity|assumption]|]). assumption.
      * f_equal. destruct d; cbn in *. rewrite drop_fst. now subst.
  - assert (forall X (a b : X), match v with V21 => a | V22 => b | V23 => b end = b) as Mv by (destruct v; [congruence|reflexivity..]).
    split.
    + intros (q & D & E). rewrite Mv in E. apply (exactly_document_struct v _ _ C) in D.
      destruct D as [(K & _)|(ms & -> & N & H)]; [congruence|]. conj.
      apply bindR_ok_iff in E as (ds & E & K). injection K as <-. apply (exactly_describes _ _ C) in E.
      destruct E as [(K & _)|(ms' & K & _ & E)]; [discriminate|]. injection K as <-.
      exists ms. repeat (split; [first [reflexivity|assumption]|]). exists (d_Packages q), (d_Relationships q).
      split; [assumption|]. split; [assumption|]. split; [apply drop_fst|]. rewrite Mv. exists ds.
      destruct (proj1 (completion_adds (d_SPDXIdentifier q) (d_Relationships q) ds (d_Packages q) _) eq_refl) as (added & A & F).
      exists added. split; [assumption|]. split; [exact A|exact (f_equal (map Some) F)].
    + intros (ms & -> & N & H). conj.
      match goal with H : exists packages relationships, _ |- _ => destruct H as (pk & rl & P1 & P2 & P3 & P4) end.
      rewrite Mv in P4. destruct P4 as (ds & added & P4 & P5 & P6).
      exists (with_packages pk rl d). split.
      * apply (exactly_document_struct v _ _ C). right. exists ms. split; [reflexivity|]. split; [assumption|].
        repeat (split; [first [reflexivity|assumption]|]). assumption.
      * rewrite Mv. apply bindR_ok_iff. exists ds. split.
        -- apply (exactly_describes _ _ C). right. exists ms. auto.
        -- f_equal. cbn [with_packages d_SPDXIdentifier d_Packages d_Relationships].
           rewrite (proj2 (completion_adds (d_SPDXIdentifier d) rl ds pk (proper rl ++ added)%list) (ex_intro _ added (conj P5 eq_refl))).
           destruct d; cbn in *. rewrite drop_fst. now subst.
Qed.

(** ** The version *)
Definition version_text (v : version) : string :=
  match v with V21 => "SPDX-2.1" | V22 => "SPDX-2.2" | V23 => "SPDX-2.3" end.
Lemma version_text_string v : version_string v = version_text v.
Proof. destruct v; reflexivity. Qed.
Lemma requote_some r s : s <> "" -> (requote r = s <-> unescape r = Some s).
Proof. unfold requote. intros N. destruct (unescape r); split; intros H; try congruence. Qed.
Lemma last_member_iff ms k x : k <> "" ->
  NoDup (map (fun m : string * json => option_map fold_name (unescape (fst m))) ms) ->
  (last_member k ms = Some x <-> exists m, In m ms /\ unescape (fst m) = Some k /\ snd m = x).
Proof.
  intros Nk. induction ms as [|(n, j) r IH]; intros N; cbn [last_member map] in *.
  - split; [discriminate|]. intros (m & [] & _).
  - inversion N as [|? ? Na Nr]; subst. specialize (IH Nr). cbn [fst] in Na.
    destruct (last_member k r) as [y|] eqn:E.
    + split.
      * intros H. injection H as ->. destruct (proj1 IH eq_refl) as (m & Im & Um & Em). exists m. cbn. auto.
      * intros (m & [<-|Im] & Um & Em); cbn [fst snd] in *.
        -- exfalso. assert (exists m, In m r /\ unescape (fst m) = Some k) as (m & Im & Um').
           { clear - E Nk. induction r as [|(n', j') r IH]; cbn [last_member] in E; [discriminate|].
             destruct (last_member k r) as [z|] eqn:E'.
             - destruct IH as (m & Im & Um); [exact E|]. exists m. cbn. auto.
             - destruct (String.eqb_spec (requote n') k) as [K|K]; [|discriminate]. exists (n', j'). cbn. split; [auto|].
               now apply requote_some. }
           apply Na. apply in_map_iff. exists m. rewrite Um', Um. auto.
        -- apply IH. eauto.
    + destruct (String.eqb_spec (requote n) k) as [K|K].
      * apply requote_some in K; [|assumption]. split.
        -- intros H. injection H as <-. exists (n, j). cbn. auto.
        -- intros (m & [<-|Im] & Um & Em); cbn [fst snd] in *; [congruence|].
           exfalso. apply Na. apply in_map_iff. exists m. rewrite Um, K. auto.
      * split; [discriminate|]. intros (m & [<-|Im] & Um & Em); cbn [fst snd] in *.
        -- apply requote_some in Um; [|assumption]. congruence.
        -- apply IH. eauto.
Qed.

Theorem read_exact j v d : clear j -> (read_value j = Ok (v, d) <-> version_is j v /\ document_is v j d).
Proof.
  intros C. split.
  - intros H. destruct j as [| | | | |ms]; try discriminate. cbn [read_value] in H.
    destruct (last_member "spdxVersion" ms) as [x|] eqn:L; [|discriminate].
    apply last_member_iff in L as (m & Im & Um & Em); [|discriminate|apply clear_obj in C; tauto].
    destruct x as [| | |r| |]; try discriminate. cbv zeta in H.
    assert (forall w, requote r = version_string w -> bindR (unmarshal_document w (JObj ms)) (fun d => Ok (w, d)) = Ok (v, d) ->
              version_is (JObj ms) v /\ document_is v (JObj ms) d) as G.
    { intros w E K. apply bindR_ok_iff in K as (d' & D & K). injection K as -> ->.
      apply (exactly_document v _ _ C) in D; [|discriminate]. split; [|exact D].
      exists ms, m, r. repeat split; auto. fold (version_text v). rewrite <- version_text_string.
      apply requote_some in E; [exact E|]. destruct v; discriminate. }
    destruct (String.eqb_spec (requote r) (version_string V21)) as [E|_]; [exact (G V21 E H)|].
    destruct (String.eqb_spec (requote r) (version_string V22)) as [E|_]; [exact (G V22 E H)|].
    destruct (String.eqb_spec (requote r) (version_string V23)) as [E|_]; [exact (G V23 E H)|discriminate].
  - intros ((ms & m & r & -> & Im & Um & Em & Ur) & D). fold (version_text v) in Ur. rewrite <- version_text_string in Ur.
    cbn [read_value].
    assert (last_member "spdxVersion" ms = Some (JStr r)) as ->.
    { apply last_member_iff; [discriminate|apply clear_obj in C; tauto|eauto]. }
    cbv zeta. apply (exactly_document v _ _ C) in D; [|discriminate].
    assert (requote r = version_string v) as ->. { unfold requote. now rewrite Ur. }
    destruct v; cbn [String.eqb version_string]; cbv [version_string]; cbn; rewrite D; reflexivity.
Qed.

(** ** No panics *)
Definition calm {X} (c : codec X) : Prop := forall j old, dec c j old <> Panic.
Lemma bindR_calm A B (r : res A) (k : A -> res B) : r <> Panic -> (forall a, k a <> Panic) -> bindR r k <> Panic.
Proof. intros H K. destruct r; cbn; [apply K|discriminate|congruence]. Qed.
Lemma calm_string : calm c_string.
Proof. intros j old. destruct j; cbn; try discriminate. destruct (unescape raw); discriminate. Qed.
Lemma calm_bool : calm c_bool.
Proof. intros j old. destruct j; discriminate. Qed.
Lemma calm_int : calm c_int.
Proof.
  intros j old. destruct j; cbn; try discriminate. unfold atoi.
  repeat (match goal with |- context [match ?e with _ => _ end] => destruct e end; try discriminate).
Qed.
Lemma calm_mapR A B (f : A -> res B) l : (forall a, f a <> Panic) -> mapR f l <> Panic.
Proof. intros H. induction l as [|a r IH]; cbn; [discriminate|]. repeat (apply bindR_calm; [solve [auto]|intros ?]). discriminate. Qed.
Lemma calm_slice X (c : codec X) z : calm c -> calm (c_slice c z).
Proof.
  intros H j old. destruct j; cbn [dec c_slice]; try discriminate. revert old.
  induction l as [|a r IH]; intros old; cbn [dec_elements]; [discriminate|]. apply bindR_calm; [apply H|intros x]. apply bindR_calm; [apply IH|discriminate].
Qed.
Lemma calm_ptr X (c : codec X) z : calm c -> calm (c_ptr c z).
Proof. intros H j old. destruct j; cbn [dec c_ptr]; try discriminate; (apply bindR_calm; [apply H|discriminate]). Qed.
Lemma calm_ptrs X (c : codec X) z : calm c -> calm (c_ptrs c z).
Proof. intros H. now apply calm_slice, calm_ptr. Qed.
Lemma calm_struct A (fs : list (field A)) : fold_right and True (map (fun f => calm (f_codec f)) fs) -> calm (c_struct fs).
Proof.
  intros H. rewrite fold_and in H. intros j old. destruct j as [| | | | |ms]; cbn [dec c_struct]; try discriminate. revert old.
  induction ms as [|m r IH]; intros old; cbn [dec_members]; [discriminate|]. apply bindR_calm; [|auto].
  unfold dec_member. destruct (unescape (fst m)) as [k|]; [|discriminate].
  destruct (find_field fs k) as [f|] eqn:E; [|discriminate].
  assert (In f fs) as I.
  { unfold find_field in E. destruct (find_exact fs k) as [g|] eqn:E'.
    - injection E as ->. now apply find_exact_some in E'.
    - now apply find_folded_iff in E. }
  unfold f_dec. apply bindR_calm; [|discriminate]. exact (proj1 (Forall_forall _ _) H f I (snd m) (f_get f old)).
Qed.
Lemma calm_trim p s : trim_id_prefix p s <> Panic.
Proof. unfold trim_id_prefix. destruct (strip_prefix p s) as [[|]|]; discriminate. Qed.
Lemma calm_actor data : unmarshal_actor data <> Panic.
Proof. unfold unmarshal_actor. destruct (cut _ _) as [[]|]; discriminate. Qed.
Lemma calm_element_id : calm c_element_id.
Proof. intros j old. apply calm_trim. Qed.
Lemma calm_document_id : calm c_document_id.
Proof. intros j old. apply calm_trim. Qed.
Lemma calm_reference : calm c_doc_element_id.
Proof.
  intros j old. cbn [dec c_doc_element_id c_text]. unfold unmarshal_doc_element_id. cbv zeta.
  destruct (_ || _)%bool; [discriminate|]. destruct (has_prefix _ _).
  - destruct (cut _ _) as [[]|]; repeat (apply bindR_calm; [apply calm_trim|intros ?]); discriminate.
  - apply bindR_calm; [apply calm_trim|discriminate].
Qed.
Lemma calm_creator : calm c_creator.
Proof. intros j old. apply bindR_calm; [apply calm_actor|]. intros []. discriminate. Qed.
Lemma calm_annotator : calm c_annotator.
Proof. intros j old. apply bindR_calm; [apply calm_actor|]. intros []. discriminate. Qed.
Lemma calm_supplier : calm c_supplier.
Proof.
  intros j old. cbn [dec c_supplier c_text]. cbv zeta. destruct (String.eqb _ _); [discriminate|].
  apply bindR_calm; [apply calm_actor|]. intros []. discriminate.
Qed.
Lemma calm_originator : calm c_originator.
Proof.
  intros j old. cbn [dec c_originator c_text]. cbv zeta. destruct (String.eqb _ _); [discriminate|].
  destruct (cut _ _) as [[]|]; discriminate.
Qed.
Lemma calm_strings : calm c_strings.
Proof. apply calm_slice, calm_string. Qed.
Create HintDb calm.
Global Hint Resolve calm_string calm_bool calm_int calm_slice calm_ptr calm_ptrs calm_strings calm_element_id
  calm_document_id calm_reference calm_creator calm_annotator calm_supplier calm_originator : calm.
Ltac calm_fields := apply calm_struct; cbn [map fold_right app]; cbv [req opt]; cbn [f_codec];
  repeat split; repeat first [exact I | solve [auto with calm] | apply calm_strings | apply calm_ptrs | apply calm_slice | apply calm_ptr].
Lemma calm_checksum : calm c_checksum. Proof. calm_fields. Qed.
Lemma calm_code : calm c_verification_code. Proof. calm_fields. Qed.
Lemma calm_pointer : calm c_range_pointer. Proof. calm_fields. Qed.
Global Hint Resolve calm_checksum calm_code calm_pointer : calm.
Lemma calm_range : calm c_range. Proof. calm_fields. Qed.
Lemma calm_external_document : calm c_external_document_ref. Proof. calm_fields. Qed.
Lemma calm_creation : calm c_creation_info. Proof. calm_fields. Qed.
Lemma calm_relationship : calm c_relationship. Proof. calm_fields. Qed.
Lemma calm_annotation : calm c_annotation. Proof. calm_fields. Qed.
Lemma calm_license : calm c_other_license. Proof. calm_fields. Qed.
Lemma calm_artifact : calm c_artifact. Proof. calm_fields. Qed.
Lemma calm_extras : calm c_extras. Proof. calm_fields. Qed.
Lemma calm_describes : calm c_describes. Proof. calm_fields. Qed.
Lemma calm_plain_ref : calm c_plain_ref. Proof. calm_fields. Qed.
Global Hint Resolve calm_range calm_external_document calm_creation calm_relationship calm_annotation
  calm_license calm_artifact : calm.
Lemma calm_external_ref v : calm (c_external_ref v).
Proof.
  destruct v; [exact calm_plain_ref|..]; intros j old; (apply bindR_calm; [apply calm_plain_ref|discriminate]).
Qed.
Lemma calm_snippet v : calm (c_snippet v). Proof. destruct v; calm_fields. Qed.
Lemma calm_file v : calm (c_file v). Proof. destruct v; calm_fields. Qed.
Lemma calm_package_code v : calm (c_package_code v).
Proof. destruct v; [..|cbn [c_package_code]; auto with calm]; intros j old; (apply bindR_calm; [apply calm_code|discriminate]). Qed.
Global Hint Resolve calm_external_ref calm_snippet calm_file calm_package_code : calm.
Lemma calm_package_struct v : calm (c_struct (package_fields v)).
Proof. destruct v; cbv [package_fields opt_in_23 app]; calm_fields. Qed.
Lemma calm_package v : calm (c_package v).
Proof.
  intros j old. destruct v; cbn [dec c_package].
  - apply bindR_calm; [apply calm_package_struct|discriminate].
  - apply bindR_calm; [apply calm_package_struct|]. intros p. apply bindR_calm; [apply calm_extras|discriminate].
  - apply bindR_calm; [apply calm_package_struct|]. intros p. apply bindR_calm; [apply calm_extras|discriminate].
Qed.
Global Hint Resolve calm_package : calm.
Lemma calm_document_struct v : calm (c_document_struct v). Proof. calm_fields. Qed.
Lemma calm_document v j : unmarshal_document v j <> Panic.
Proof.
  unfold unmarshal_document. apply bindR_calm; [apply calm_document_struct|]. intros d.
  destruct v; [discriminate|..]; (apply bindR_calm; [apply calm_describes|discriminate]).
Qed.
Lemma read_no_panic j : read_value j <> Panic.
Proof.
  destruct j as [| | | | |ms]; try discriminate. cbn [read_value].
  destruct (last_member _ ms) as [[| | | | |]|]; try discriminate. cbv zeta.
  repeat (destruct (String.eqb _ _); [apply bindR_calm; [apply calm_document|discriminate]|]). discriminate.
Qed.
