(** * Exact behaviour of the JSON hooks. *)
From Coq Require Import Permutation.
From Verif Require Import GoStr GoStrFacts Types TvUtil TvUtilFacts TvParser SpecTv SpecId SpecDoc Json JsonSpdx SpecJson JsonFacts JsonCodec JsonRound JsonRoundPkg JsonRoundDoc DenoteGlobal.
Local Open Scope string_scope.

Lemma has_byte_In c s : has_byte c s = false -> ~ In c (list_ascii_of_string s).
Proof.
  induction s as [|a s IH]; cbn; [tauto|]. intros H. apply orb_false_elim in H as (H & K).
  intros [->|J]; [now rewrite Ascii.eqb_refl in H|]. now apply IH.
Qed.
Lemma unquote_text s : no_quote s -> unquote_trim (text (JStr s)) = s.
Proof. intros H. apply not_occurs_byte, has_byte_In in H. exact (trim_quoted dquote s H). Qed.

(** ** Identifiers *)
Lemma trim_id_exact prefix s id : trim_id_prefix prefix s = Ok id <-> id <> "" /\ s = prefix ++ id.
Proof.
  unfold trim_id_prefix. split.
  - destruct (strip_prefix prefix s) as [[|a r]|] eqn:E; try discriminate. intros K. injection K as <-.
    split; [discriminate|]. now apply strip_prefix_spec.
  - intros (N & ->). now apply trim_id_app.
Qed.
Lemma element_id_of j s old id : unquote_trim (text j) = s ->
  (dec c_element_id j old = Ok id <-> id <> "" /\ s = "SPDXRef-" ++ id).
Proof. intros Q. cbn [dec c_element_id c_text]. rewrite Q. apply trim_id_exact. Qed.
Lemma document_id_of j s old id : unquote_trim (text j) = s ->
  (dec c_document_id j old = Ok id <-> id <> "" /\ s = "DocumentRef-" ++ id).
Proof. intros Q. cbn [dec c_document_id c_text]. rewrite Q. apply trim_id_exact. Qed.

Lemma ref_of j s d : unquote_trim (text j) = s ->
  (dec c_doc_element_id j (MkDEID "" "" "") = Ok d <-> ref_meaning s d).
Proof.
  intros Q. cbn [dec c_doc_element_id c_text]. unfold unmarshal_doc_element_id. rewrite Q. clear Q.
  unfold ref_meaning. split.
  - destruct (String.eqb s "NONE" || String.eqb s "NOASSERTION")%bool eqn:S.
    { intros E. injection E as <-. left. split; [|reflexivity].
      apply orb_prop in S as [S|S]; apply String.eqb_eq in S; subst; cbn; tauto. }
    destruct (has_prefix document_ref s) eqn:P.
    + destruct (cut ":" s) as [(x, y)|] eqn:C.
      * intros E. apply bindR_ok in E as (doc & Ed & E). apply bindR_ok in E as (elt & Ee & E). injection E as <-.
        apply trim_id_exact in Ed as (Nd & ->). apply trim_id_exact in Ee as (Ne & ->).
        apply cut_byte_some in C as (-> & Hx). right; right; left. exists doc, elt.
        split; [assumption|]. split; [|split; [assumption|split; [|reflexivity]]].
        -- apply not_occurs_byte. rewrite has_byte_app in Hx. now apply orb_false_elim in Hx.
        -- rewrite app_assoc_s. reflexivity.
      * intros E. apply bindR_ok in E as (doc & Ed & E). injection E as <-.
        apply trim_id_exact in Ed as (Nd & ->). right; right; right. exists doc.
        split; [assumption|]. split; [|split; reflexivity].
        apply cut_byte_none in C. apply not_occurs_byte. rewrite has_byte_app in C. now apply orb_false_elim in C.
    + intros E. apply bindR_ok in E as (elt & Ee & E). injection E as <-.
      apply trim_id_exact in Ee as (Ne & ->). right; left. exists elt. auto.
  - intros [(I & ->)|[(e & Ne & -> & ->)|[(doc & e & Nd & Cd & Ne & -> & ->)|(doc & Nd & Cd & -> & ->)]]].
    + destruct I as [<-|[<-|[]]]; reflexivity.
    + change (String.eqb ("SPDXRef-" ++ e) "NONE") with false.
      change (String.eqb ("SPDXRef-" ++ e) "NOASSERTION") with false.
      change (has_prefix document_ref ("SPDXRef-" ++ e)) with false. cbn [orb].
      change (trim_id_prefix spdx_ref) with (trim_id_prefix "SPDXRef-").
      rewrite (trim_id_app "SPDXRef-" e Ne). reflexivity.
    + change (":SPDXRef-" ++ e) with (":" ++ "SPDXRef-" ++ e).
      change (String.eqb ("DocumentRef-" ++ doc ++ ":" ++ "SPDXRef-" ++ e) "NONE") with false.
      change (String.eqb ("DocumentRef-" ++ doc ++ ":" ++ "SPDXRef-" ++ e) "NOASSERTION") with false. cbn [orb].
      change (has_prefix document_ref ("DocumentRef-" ++ doc ++ ":" ++ "SPDXRef-" ++ e)) with true. cbv iota.
      replace (cut ":" ("DocumentRef-" ++ doc ++ ":" ++ "SPDXRef-" ++ e))
        with (Some ("DocumentRef-" ++ doc, "SPDXRef-" ++ e)).
      2:{ symmetry. rewrite <- app_assoc_s. apply cut_byte_app.
          rewrite has_byte_app. apply not_occurs_byte in Cd. now rewrite Cd. }
      change (trim_id_prefix document_ref) with (trim_id_prefix "DocumentRef-").
      change (trim_id_prefix spdx_ref) with (trim_id_prefix "SPDXRef-").
      rewrite (trim_id_app "DocumentRef-" doc Nd). cbn [bindR].
      rewrite (trim_id_app "SPDXRef-" e Ne). reflexivity.
    + change (String.eqb ("DocumentRef-" ++ doc) "NONE") with false.
      change (String.eqb ("DocumentRef-" ++ doc) "NOASSERTION") with false. cbn [orb].
      change (has_prefix document_ref ("DocumentRef-" ++ doc)) with true. cbv iota.
      replace (cut ":" ("DocumentRef-" ++ doc)) with (@None (string * string)).
      2:{ symmetry. apply cut_byte_none. rewrite has_byte_app. apply not_occurs_byte in Cd. now rewrite Cd. }
      change (trim_id_prefix document_ref) with (trim_id_prefix "DocumentRef-").
      rewrite (trim_id_app "DocumentRef-" doc Nd). reflexivity.
Qed.
Lemma element_id_exact s old id : no_quote s ->
  (dec c_element_id (JStr s) old = Ok id <-> id <> "" /\ s = "SPDXRef-" ++ id).
Proof. intros Q. apply element_id_of. now apply unquote_text. Qed.
Lemma document_id_exact s old id : no_quote s ->
  (dec c_document_id (JStr s) old = Ok id <-> id <> "" /\ s = "DocumentRef-" ++ id).
Proof. intros Q. apply document_id_of. now apply unquote_text. Qed.
Lemma ref_exact s d : no_quote s ->
  (dec c_doc_element_id (JStr s) (MkDEID "" "" "") = Ok d <-> ref_meaning s d).
Proof. intros Q. apply ref_of. now apply unquote_text. Qed.
Lemma marshal_ref_exact d : (exists s, marshal_doc_element_id d = Ok s) <->
  de_ElementRefID d <> "" \/ de_SpecialID d <> "".
Proof.
  unfold marshal_doc_element_id.
  destruct (de_DocumentRefID d), (de_ElementRefID d), (de_SpecialID d); cbn;
    (split; [intros (? & E); (discriminate E || (left; discriminate) || (right; discriminate))
            | intros [H|H]; try congruence; eexists; reflexivity]).
Qed.

(** ** Actors *)
Lemma actor_of j s t n : unquote_trim (text j) = s ->
  (unmarshal_actor (text j) = Ok (t, n) <-> actor_meaning s t n).
Proof.
  intros Q. unfold unmarshal_actor, actor_meaning. rewrite Q. clear Q. split.
  - destruct (cut ":" s) as [(a, b)|] eqn:C; [|discriminate]. intros E. injection E as <- <-.
    apply cut_byte_some in C as (-> & H). exists a, b. split; [reflexivity|]. split; [now apply not_occurs_byte|auto].
  - intros (a & b & -> & N & -> & ->). change (a ++ ":" ++ b) with (a ++ String ":" b).
    rewrite cut_byte_app by (now apply not_occurs_byte). reflexivity.
Qed.
Lemma creator_of j s old c : unquote_trim (text j) = s ->
  (dec c_creator j old = Ok c <-> actor_meaning s (cr_CreatorType c) (cr_Creator c)).
Proof.
  intros Q. cbn [dec c_creator c_text]. rewrite <- (actor_of j s _ _ Q). split.
  - intros E. apply bindR_ok in E as ((t, n) & E & K). injection K as <-. exact E.
  - intros ->. cbn. now destruct c.
Qed.
Lemma annotator_of j s old c : unquote_trim (text j) = s ->
  (dec c_annotator j old = Ok c <-> actor_meaning s (an_AnnotatorType c) (an_Annotator c)).
Proof.
  intros Q. cbn [dec c_annotator c_text]. rewrite <- (actor_of j s _ _ Q). split.
  - intros E. apply bindR_ok in E as ((t, n) & E & K). injection K as <-. exact E.
  - intros ->. cbn. now destruct c.
Qed.
Lemma supplier_of j s c : unquote_trim (text j) = s ->
  (dec c_supplier j zero_Supplier = Ok c <->
   (s = "NOASSERTION" /\ c = MkSupplier "NOASSERTION" "") \/
   (s <> "NOASSERTION" /\ actor_meaning s (su_SupplierType c) (su_Supplier c))).
Proof.
  intros Q. cbn [dec c_supplier c_text]. rewrite <- (actor_of j s _ _ Q). rewrite Q. clear Q.
  destruct (String.eqb_spec s "NOASSERTION") as [->|N].
  - split; [intros E; injection E as <-; now left|]. intros [(_ & ->)|(K & _)]; [reflexivity|congruence].
  - split.
    + intros E. apply bindR_ok in E as ((t, n) & E & K). injection K as <-. now right.
    + intros [(K & _)|(_ & ->)]; [congruence|]. cbn. now destruct c.
Qed.
Lemma originator_of j s c : unquote_trim (text j) = s ->
  (dec c_originator j zero_Originator = Ok c <->
   (s = "NOASSERTION" /\ c = MkOriginator "NOASSERTION" "") \/
   (s <> "NOASSERTION" /\ exists b, s = or_OriginatorType c ++ ":" ++ b /\
      ~ occurs ":" (or_OriginatorType c) /\ or_Originator c = trim_left_blanks b)).
Proof.
  intros Q. cbn [dec c_originator c_text]. rewrite Q. clear Q.
  destruct (String.eqb_spec s "NOASSERTION") as [->|N].
  - split; [intros E; injection E as <-; now left|]. intros [(_ & ->)|(K & _)]; [reflexivity|congruence].
  - split.
    + destruct (cut ":" s) as [(a, b)|] eqn:C; [|discriminate]. intros E. injection E as <-.
      apply cut_byte_some in C as (-> & H). right. split; [assumption|]. exists b. cbn.
      split; [reflexivity|]. split; [now apply not_occurs_byte|reflexivity].
    + intros [(K & _)|(_ & b & -> & H & E)]; [congruence|].
      change (or_OriginatorType c ++ ":" ++ b) with (or_OriginatorType c ++ String ":" b).
      rewrite cut_byte_app by (now apply not_occurs_byte). rewrite <- E. now destruct c.
Qed.
Lemma creator_exact s old c : no_quote s ->
  (dec c_creator (JStr s) old = Ok c <-> actor_meaning s (cr_CreatorType c) (cr_Creator c)).
Proof. intros Q. apply creator_of. now apply unquote_text. Qed.
Lemma annotator_exact s old c : no_quote s ->
  (dec c_annotator (JStr s) old = Ok c <-> actor_meaning s (an_AnnotatorType c) (an_Annotator c)).
Proof. intros Q. apply annotator_of. now apply unquote_text. Qed.
Lemma supplier_exact s c : no_quote s ->
  (dec c_supplier (JStr s) zero_Supplier = Ok c <->
   (s = "NOASSERTION" /\ c = MkSupplier "NOASSERTION" "") \/
   (s <> "NOASSERTION" /\ actor_meaning s (su_SupplierType c) (su_Supplier c))).
Proof. intros Q. apply supplier_of. now apply unquote_text. Qed.
Lemma originator_exact s c : no_quote s ->
  (dec c_originator (JStr s) zero_Originator = Ok c <->
   (s = "NOASSERTION" /\ c = MkOriginator "NOASSERTION" "") \/
   (s <> "NOASSERTION" /\ exists b, s = or_OriginatorType c ++ ":" ++ b /\
      ~ occurs ":" (or_OriginatorType c) /\ or_Originator c = trim_left_blanks b)).
Proof. intros Q. apply originator_of. now apply unquote_text. Qed.
Lemma marshal_actor_exact t n : (exists s, marshal_actor t n = Ok s) <-> n <> "".
Proof. unfold marshal_actor. destruct n; cbn; (split; [intros (? & E); discriminate|]); intros; [congruence|eexists; reflexivity]. Qed.
Lemma marshal_agent_exact t n : (exists s, marshal_agent t n = Ok s) <-> n = "NOASSERTION" \/ (t <> "" /\ n <> "").
Proof.
  unfold marshal_agent. destruct (String.eqb_spec n "NOASSERTION") as [->|N]; [split; eauto|].
  destruct t, n; cbn; (split; [intros (s & E); try discriminate E; right; split; discriminate|]);
    intros [K|(K1 & K2)]; try congruence; eexists; reflexivity.
Qed.

(** ** Relationship completion *)
Lemma gt_dash_inj a t b a' t' b' :
  has_byte ">" a = false -> has_byte ">" t = false -> has_byte "-" t = false ->
  has_byte ">" a' = false -> has_byte ">" t' = false -> has_byte "-" t' = false ->
  a ++ "-" ++ t ++ "->" ++ b = a' ++ "-" ++ t' ++ "->" ++ b' -> a = a' /\ t = t' /\ b = b'.
Proof.
  intros A T D A' T' D' E.
  assert (forall a t b, has_byte ">" a = false -> has_byte ">" t = false ->
    cut ">" (a ++ "-" ++ t ++ "->" ++ b) = Some (a ++ "-" ++ t ++ "-", b)) as C.
  { clear. intros a t b A T.
    replace (a ++ "-" ++ t ++ "->" ++ b) with ((a ++ "-" ++ t ++ "-") ++ String ">" b).
    2:{ rewrite !app_assoc_s. reflexivity. }
    apply cut_byte_app. rewrite !has_byte_app, A, T. reflexivity. }
  pose proof (f_equal (cut ">") E) as K. rewrite !C in K by assumption.
  assert (a ++ "-" ++ t ++ "-" = a' ++ "-" ++ t' ++ "-" /\ b = b') as (K0 & <-) by (split; congruence). clear K. rename K0 into K.
  assert (forall a t, has_byte "-" t = false ->
    cut "-" (srev (a ++ "-" ++ t ++ "-")) = Some ("", srev t ++ "-" ++ srev a)) as R.
  { clear. intros a t T. rewrite <- !app_assoc_s, !srev_app_distr, !app_assoc_s. reflexivity. }
  apply (f_equal (fun s => cut "-" (srev s))) in K. cbv beta in K. rewrite !R in K by assumption.
  assert (srev t ++ "-" ++ srev a = srev t' ++ "-" ++ srev a') as K0 by congruence. clear K. rename K0 into K.
  assert (forall t, has_byte "-" t = false -> has_byte "-" (srev t) = false) as Rv.
  { clear. intros t. induction t as [|c t IH]; [reflexivity|]. cbn [has_byte]. intros H. apply orb_false_elim in H as (H & K).
    change (String c t) with (String c "" ++ t). rewrite srev_app_distr, has_byte_app, IH by assumption.
    cbn. now rewrite H. }
  apply (f_equal (cut "-")) in K.
  change (srev t ++ "-" ++ srev a) with (srev t ++ String "-" (srev a)) in K.
  change (srev t' ++ "-" ++ srev a') with (srev t' ++ String "-" (srev a')) in K.
  rewrite !cut_byte_app in K by (now apply Rv). injection K as K1 K2.
  apply (f_equal srev) in K1, K2. rewrite !srev_involutive in K1, K2. auto.
Qed.
Lemma key_of r : serialize_rel r =
  let '(a, t, b) := statement_of r in a ++ "-" ++ t ++ "->" ++ b.
Proof.
  unfold serialize_rel, statement_of.
  destruct (String.eqb (r_Relationship r) "CONTAINED_BY"); [reflexivity|].
  destruct (String.eqb (r_Relationship r) "DESCRIBED_BY"); reflexivity.
Qed.
Lemma statement_tellable r : tellable r -> let '(a, t, b) := statement_of r in
  has_byte ">" a = false /\ has_byte ">" t = false /\ has_byte "-" t = false.
Proof.
  intros (A & B & T & D). apply not_occurs_byte in A, B, T, D. unfold statement_of.
  destruct (String.eqb (r_Relationship r) "CONTAINED_BY"); [auto|].
  destruct (String.eqb (r_Relationship r) "DESCRIBED_BY"); auto.
Qed.
Lemma key_statement r s : tellable r -> tellable s ->
  (serialize_rel r = serialize_rel s <-> statement_of r = statement_of s).
Proof.
  intros R S. rewrite !key_of. apply statement_tellable in R, S.
  destruct (statement_of r) as ((a, t), b), (statement_of s) as ((a', t'), b').
  destruct R as (R1 & R2 & R3), S as (S1 & S2 & S3). split.
  - intros E. destruct (gt_dash_inj a t b a' t' b') as (-> & -> & ->); auto.
  - congruence.
Qed.

Lemma add_all wanted : forall known seen,
  Forall tellable known -> Forall tellable wanted ->
  (forall k, In k seen <-> exists r, In r known /\ serialize_rel r = k) ->
  exists added, completes known wanted added /\
    fst (fold_left add_rel wanted (known, seen)) = (known ++ added)%list.
Proof.
  induction wanted as [|r w IH]; intros known seen Tk Tw Inv.
  - exists []. split; [constructor|]. cbn. now rewrite app_nil_r.
  - inversion Tw as [|? ? Tr Tw']; subst. cbn [fold_left]. unfold add_rel at 2. cbn [fst snd].
    destruct (existsb (String.eqb (serialize_rel r)) seen) eqn:E.
    + destruct (IH known seen Tk Tw' Inv) as (added & C & F). exists added. split; [|exact F].
      apply completes_known; [|assumption]. apply existsb_exists in E as (k & Ik & Ek).
      apply String.eqb_eq in Ek as <-. apply Inv in Ik as (r' & Ir & Er). exists r'. split; [assumption|].
      apply key_statement; auto. exact (proj1 (Forall_forall _ _) Tk r' Ir).
    + destruct (IH (known ++ [r])%list (serialize_rel r :: seen)) as (added & C & F); auto.
      * apply Forall_app. auto.
      * intros k. cbn [In]. rewrite Inv. split.
        -- intros [<-|(r' & Ir & Er)]; [exists r|exists r']; (split; [apply in_or_app; cbn; auto|auto]).
        -- intros (r' & Ir & Er). apply in_app_or in Ir as [Ir|[<-|[]]]; eauto.
      * exists (r :: added). split; [|rewrite F, <- app_assoc; reflexivity].
        apply completes_new; [|assumption]. intros (k & Ik & Sk).
        assert (existsb (String.eqb (serialize_rel r)) seen = true); [|congruence].
        apply existsb_exists. exists (serialize_rel r). split; [|apply String.eqb_refl].
        apply Inv. exists k. split; [assumption|]. apply key_statement; auto. exact (proj1 (Forall_forall _ _) Tk k Ik).
Qed.

Definition listed (pkgs : list (option jpackage)) : list (string * list DocElementID) :=
  map (fun q => (p_SPDXIdentifier (fst q), snd q)) (drop_nil pkgs).
Lemma completion_flat id rels describes pkgs :
  complete_relationships id rels describes pkgs =
  fst (fold_left add_rel (implied id describes (listed pkgs)) (drop_nil rels, map serialize_rel (drop_nil rels))).
Proof.
  unfold complete_relationships, implied. rewrite fold_left_app.
  set (st := fold_left add_rel _ (drop_nil rels, map serialize_rel (drop_nil rels))).
  change (map (mk_rel id "DESCRIBES") describes) with (map (fun e => MkRln (MkDEID "" id "") e "DESCRIBES" "") describes).
  fold st. clearbody st. f_equal. revert st.
  induction pkgs as [|[(q, files)|] r IH]; intros st; [reflexivity| |].
  - cbn [fold_left listed drop_nil map flat_map fst snd]. rewrite fold_left_app. rewrite IH. reflexivity.
  - cbn [fold_left]. exact (IH st).
Qed.
Theorem completion_exact id rels describes pkgs :
  Forall tellable (drop_nil rels) -> Forall tellable (implied id describes (listed pkgs)) ->
  exists added, completes (drop_nil rels) (implied id describes (listed pkgs)) added /\
    complete_relationships id rels describes pkgs = (drop_nil rels ++ added)%list.
Proof.
  intros T W. rewrite completion_flat. apply add_all; auto.
  intros k. rewrite in_map_iff. split; intros (r & A & B); exists r; auto.
Qed.

(** Consequences of [completes]. *)
Lemma completes_facts known wanted added : completes known wanted added ->
  (forall r, In r added -> In r wanted) /\
  (forall r, In r wanted -> exists k, In k (known ++ added) /\ statement_of k = statement_of r) /\
  (forall r k, In r added -> In k known -> statement_of k <> statement_of r) /\
  NoDup (map statement_of added).
Proof.
  induction 1 as [known|known r w added (k & Ik & Sk) C (H1 & H2 & H3 & H4)|known r w added N C (H1 & H2 & H3 & H4)].
  - split; [intros ? []|]. split; [intros ? []|]. split; [intros ? ? []|constructor].
  - split; [intros x Ix; right; auto|]. split; [|auto].
    intros x [<-|Ix]; [|auto]. exists k. split; [apply in_or_app; auto|assumption].
  - split; [intros x [<-|Ix]; [now left|right; auto]|].
    split; [|split].
    + intros x [<-|Ix].
      * exists r. split; [apply in_or_app; right; now left|reflexivity].
      * destruct (H2 x Ix) as (k & Ik & Sk). exists k. split; [|assumption].
        rewrite <- app_assoc in Ik. exact Ik.
    + intros x k [<-|Ix] Ik.
      * intros E. apply N. eauto.
      * apply (H3 x k Ix). apply in_or_app. auto.
    + cbn. constructor; [|assumption]. intros K. apply in_map_iff in K as (x & E & Ix).
      apply (H3 x r Ix); [apply in_or_app; right; now left|auto].
Qed.

(** ** Members and fields *)
Lemma find_exact_some {A} (fs : list (field A)) k g : find_exact fs k = Some g -> In g fs /\ f_name g = k.
Proof.
  induction fs as [|f r IH]; cbn; [discriminate|]. destruct (String.eqb_spec (f_name f) k) as [E|E].
  - intros K. injection K as <-. auto.
  - intros K. destruct (IH K). auto.
Qed.
Lemma find_folded_some {A} (fs : list (field A)) k g : find_folded fs k = Some g ->
  In g fs /\ fold_name (f_name g) = fold_name k.
Proof.
  induction fs as [|f r IH]; cbn; [discriminate|]. destruct (String.eqb_spec (fold_name (f_name f)) (fold_name k)) as [E|E].
  - intros K. injection K as <-. auto.
  - intros K. destruct (IH K). auto.
Qed.
Lemma find_field_some {A} (fs : list (field A)) k g : find_field fs k = Some g ->
  In g fs /\ fold_name (f_name g) = fold_name k.
Proof.
  unfold find_field. destruct (find_exact fs k) as [f|] eqn:E.
  - intros K. injection K as <-. apply find_exact_some in E as (I & <-). auto.
  - apply find_folded_some.
Qed.
Lemma find_field_none {A} (fs : list (field A)) k : (forall f, In f fs -> fold_name (f_name f) <> fold_name k) ->
  find_field fs k = None.
Proof.
  intros H. destruct (find_field fs k) as [g|] eqn:E; [|reflexivity].
  apply find_field_some in E as (I & F). exfalso. exact (H g I F).
Qed.
Lemma find_folded_exists {A} (fs : list (field A)) k f : In f fs -> fold_name (f_name f) = fold_name k ->
  find_folded fs k <> None.
Proof.
  induction fs as [|g r IH]; cbn; [tauto|]. intros I E.
  destruct (String.eqb_spec (fold_name (f_name g)) (fold_name k)); [discriminate|].
  destruct I as [->|I]; [congruence|auto].
Qed.

Section Member.
  Context {A : Type}.
  Variable fs : list (field A).
  Hypothesis Hfold : nodupb (map (fun f => fold_name (f_name f)) fs) = true.

  Lemma fold_unique f g : In f fs -> In g fs -> fold_name (f_name f) = fold_name (f_name g) -> f = g.
  Proof.
    apply nodupb_ok in Hfold. clear - Hfold. induction fs as [|e r IH]; [intros []|].
    cbn in Hfold. inversion Hfold as [|? ? N Nd]; subst. intros [<-|If] [<-|Ig] E; auto.
    - exfalso. apply N. rewrite E. exact (in_map (fun f => fold_name (f_name f)) r g Ig).
    - exfalso. apply N. rewrite <- E. exact (in_map (fun f => fold_name (f_name f)) r f If).
  Qed.
  Variable f : field A.
  Hypothesis Hin : In f fs.
  Hypothesis Hself : forall x a, f_get f (f_set f x a) = x.
  Hypothesis Hother : forall g, In g fs -> f_name g <> f_name f -> forall x a, f_get f (f_set g x a) = f_get f a.

  Lemma find_called (m : string * json) n : unescape (fst m) = Some n -> fold_name n = fold_name (f_name f) -> find_field fs n = Some f.
  Proof.
    intros U E. destruct (find_field fs n) as [g|] eqn:K.
    - apply find_field_some in K as (Ig & Eg). f_equal. symmetry. apply fold_unique; congruence.
    - exfalso. unfold find_field in K. destruct (find_exact fs n); [discriminate|].
      exact (find_folded_exists fs n f Hin (eq_sym E) K).
  Qed.
  Lemma dec_member_other m a b : ~ called (f_name f) m -> dec_member fs m a = Ok b -> f_get f b = f_get f a.
  Proof.
    intros N. unfold dec_member. destruct (unescape (fst m)) as [n|] eqn:U; [|discriminate].
    destruct (find_field fs n) as [g|] eqn:G; [|intros E; injection E as <-; reflexivity].
    apply find_field_some in G as (Ig & Eg). unfold f_dec. intros E. apply bindR_ok in E as (x & _ & E). injection E as <-.
    apply Hother; [assumption|]. intros K. apply N. exists n. split; [assumption|]. congruence.
  Qed.
  Lemma dec_members_other ms : forall a b, Forall (fun m => ~ called (f_name f) m) ms ->
    dec_members fs ms a = Ok b -> f_get f b = f_get f a.
  Proof.
    induction ms as [|m r IH]; cbn [dec_members]; intros a b F E; [injection E as <-; reflexivity|].
    inversion F; subst. apply bindR_ok in E as (a' & E1 & E2).
    rewrite (IH a' b) by assumption. eapply dec_member_other; eassumption.
  Qed.
  Lemma dec_members_app (l r : list (string * json)) : forall a, dec_members fs (l ++ r) a = let* b := dec_members fs l a in dec_members fs r b.
  Proof.
    induction l as [|m l IH]; intros a; [reflexivity|]. cbn [app dec_members].
    destruct (dec_member fs m a); cbn; auto.
  Qed.
  Lemma dec_members_one l m r a b : Forall (fun m => ~ called (f_name f) m) l -> Forall (fun m => ~ called (f_name f) m) r ->
    called (f_name f) m -> dec_members fs (l ++ m :: r) a = Ok b -> dec (f_codec f) (snd m) (f_get f a) = Ok (f_get f b).
  Proof.
    intros L R (n & U & En) E. rewrite dec_members_app in E. apply bindR_ok in E as (a1 & E1 & E).
    cbn [dec_members] in E. apply bindR_ok in E as (a2 & E2 & E).
    rewrite (dec_members_other r a2 b R E). unfold dec_member in E2. rewrite U in E2.
    rewrite (find_called m n U En) in E2. unfold f_dec in E2. apply bindR_ok in E2 as (x & E2 & K). injection K as <-.
    rewrite Hself. rewrite <- (dec_members_other l a a1 L E1). exact E2.
  Qed.
End Member.

(** Something no field touches. *)
Lemma dec_members_kept {A X} (fs : list (field A)) (get : A -> X) :
  (forall g, In g fs -> forall x a, get (f_set g x a) = get a) ->
  forall ms a b, dec_members fs ms a = Ok b -> get b = get a.
Proof.
  intros H ms. induction ms as [|m r IH]; cbn [dec_members]; intros a b E; [injection E as <-; reflexivity|].
  apply bindR_ok in E as (a' & E1 & E2). rewrite (IH a' b E2). unfold dec_member in E1.
  destruct (unescape (fst m)); [|discriminate]. destruct (find_field fs s) as [g|] eqn:G; [|injection E1 as <-; reflexivity].
  apply find_field_some in G as (Ig & _). unfold f_dec in E1. apply bindR_ok in E1 as (x & _ & E1). injection E1 as <-. auto.
Qed.

(** Members with unknown names. *)
Lemma dec_members_skip {A} (fs : list (field A)) l m r a :
  (exists n, unescape (fst m) = Some n /\ forall f, In f fs -> fold_name (f_name f) <> fold_name n) ->
  dec_members fs (l ++ m :: r) a = dec_members fs (l ++ r) a.
Proof.
  intros (n & U & N). rewrite !dec_members_app. destruct (dec_members fs l a) as [b| |]; try reflexivity. cbn [bindR dec_members].
  unfold dec_member. rewrite U, (find_field_none fs n N). reflexivity.
Qed.

(** ** Package defaults *)
Definition extras_fields : list (field extras) :=
  [req "hasFiles" (c_slice c_doc_element_id zero_DocElementID) ex_HasFiles
       (fun x e => Extras x (ex_FilesAnalyzed e));
   req "filesAnalyzed" (c_ptr c_bool false) ex_FilesAnalyzed
       (fun x e => Extras (ex_HasFiles e) x)].
Lemma package_files_analyzed v l m r p files : v <> V21 ->
  unmarshal_package v (JObj (l ++ m :: r)) = Ok (p, files) ->
  called "filesAnalyzed" m ->
  Forall (fun m => ~ called "filesAnalyzed" m) l -> Forall (fun m => ~ called "filesAnalyzed" m) r ->
  (snd m = JNull /\ p_FilesAnalyzed p = true /\ p_IsFilesAnalyzedTagPresent p = false) \/
  (exists b, snd m = JBool b /\ p_FilesAnalyzed p = b /\ p_IsFilesAnalyzedTagPresent p = true).
Proof.
  intros Nv E C L R. unfold unmarshal_package in E.
  apply bindR_ok in E as (q & E1 & E). apply bindR_ok in E as (e & E2 & E). injection E as <- _.
  cbn [dec c_struct] in E1. cbn [dec c_extras c_struct] in E2.
  assert (p_IsFilesAnalyzedTagPresent q = false) as Tq.
  { refine (dec_members_kept (package_fields v) p_IsFilesAnalyzedTagPresent _ _ _ _ E1).
    intros g Ig. destruct v; cbv [package_fields opt_in_23 app] in Ig; cbn [In] in Ig;
      repeat (destruct Ig as [<-|Ig]; [intros; reflexivity|]); destruct Ig. }
  apply (dec_members_one extras_fields eq_refl (req "filesAnalyzed" (c_ptr c_bool false) ex_FilesAnalyzed
       (fun x e => Extras (ex_HasFiles e) x))) in E2; auto.
  2:{ cbn; tauto. }
  2:{ intros g [<-|[<-|[]]] N; [reflexivity|cbn in N; congruence]. }
  apply (dec_members_one (package_fields v) ltac:(destruct v; vm_compute; reflexivity)
     (req "filesAnalyzed" c_bool p_FilesAnalyzed set_p_FilesAnalyzed)) in E1; auto.
  2:{ destruct v; [congruence| |]; cbv [package_fields opt_in_23 app]; cbn [In]; do 7 right; left; reflexivity. }
  2:{ intros g Ig N. destruct v; [congruence| |]; cbv [package_fields opt_in_23 app] in Ig; cbn [In] in Ig;
      repeat (destruct Ig as [<-|Ig]; [first [intros; reflexivity|exfalso; apply N; reflexivity]|]); destruct Ig. }
  destruct (snd m) as [|b|t|s|a|ms]; try discriminate.
  - left. cbn in E2. injection E2 as <-. split; [reflexivity|]. split; [reflexivity|exact Tq].
  - right. exists b. cbn in E2. injection E2 as <-. cbn in E1. injection E1 as E1.
    split; [reflexivity|]. split; [symmetry; exact E1|reflexivity].
Qed.
Lemma package_files_absent v ms p files : v <> V21 ->
  unmarshal_package v (JObj ms) = Ok (p, files) ->
  Forall (fun m => ~ called "filesAnalyzed" m) ms ->
  p_FilesAnalyzed p = true /\ p_IsFilesAnalyzedTagPresent p = false.
Proof.
  intros Nv E L. unfold unmarshal_package in E.
  apply bindR_ok in E as (q & E1 & E). apply bindR_ok in E as (e & E2 & E). injection E as <- _.
  cbn [dec c_struct] in E1. cbn [dec c_extras c_struct] in E2.
  assert (p_IsFilesAnalyzedTagPresent q = false) as Tq.
  { refine (dec_members_kept (package_fields v) p_IsFilesAnalyzedTagPresent _ _ _ _ E1).
    intros g Ig. destruct v; cbv [package_fields opt_in_23 app] in Ig; cbn [In] in Ig;
      repeat (destruct Ig as [<-|Ig]; [intros; reflexivity|]); destruct Ig. }
  apply (dec_members_other extras_fields (req "filesAnalyzed" (c_ptr c_bool false) ex_FilesAnalyzed
       (fun x e => Extras (ex_HasFiles e) x))) in E2; auto.
  2:{ intros g [<-|[<-|[]]] N; [reflexivity|cbn in N; congruence]. }
  cbn in E2. rewrite E2. split; [reflexivity|exact Tq].
Qed.
(** hasFiles *)
Lemma package_has_files v ms p files : v <> V21 ->
  unmarshal_package v (JObj ms) = Ok (p, files) ->
  (Forall (fun m => ~ called "hasFiles" m) ms -> files = []) /\
  (forall l m r, ms = (l ++ m :: r)%list -> called "hasFiles" m ->
     Forall (fun m => ~ called "hasFiles" m) l -> Forall (fun m => ~ called "hasFiles" m) r ->
     dec (c_slice c_doc_element_id zero_DocElementID) (snd m) [] = Ok files).
Proof.
  intros Nv E. unfold unmarshal_package in E.
  apply bindR_ok in E as (q & E1 & E). apply bindR_ok in E as (e & E2 & E). injection E as _ <-.
  cbn [dec c_extras c_struct] in E2. split.
  - intros L. apply (dec_members_other extras_fields (req "hasFiles" (c_slice c_doc_element_id zero_DocElementID) ex_HasFiles
       (fun x e => Extras x (ex_FilesAnalyzed e)))) in E2; auto.
    intros g [<-|[<-|[]]] N; [cbn in N; congruence|reflexivity].
  - intros l m r -> C L R.
    apply (dec_members_one extras_fields eq_refl (req "hasFiles" (c_slice c_doc_element_id zero_DocElementID) ex_HasFiles
       (fun x e => Extras x (ex_FilesAnalyzed e)))) in E2; auto.
    + cbn; tauto.
    + intros g [<-|[<-|[]]] N; [cbn in N; congruence|reflexivity].
Qed.

(** ** Categories of external references *)
Lemma replace_gone s : has_byte underscore (replace_byte underscore dash s) = false.
Proof.
  induction s as [|a s IH]; [reflexivity|]. cbn [replace_byte has_byte]. rewrite IH, orb_false_r.
  destruct (Ascii.eqb a underscore) eqn:E; [reflexivity|]. now rewrite Ascii.eqb_sym.
Qed.
Lemma category_dashes v j old r : v <> V21 -> dec (c_external_ref v) j old = Ok r -> ~ occurs "_" (er_Category r).
Proof.
  intros Nv E. destruct v; [congruence| |]; cbn [dec c_external_ref] in E; apply bindR_ok in E as (q & _ & E);
    injection E as <-; cbn [er_Category set_er_Category]; apply not_occurs_byte; apply replace_gone.
Qed.
Lemma category_of v l m r old ref s : v <> V21 -> dec (c_external_ref v) (JObj (l ++ m :: r)) old = Ok ref ->
  called "referenceCategory" m ->
  Forall (fun m => ~ called "referenceCategory" m) l -> Forall (fun m => ~ called "referenceCategory" m) r ->
  dec c_string (snd m) "" = Ok s -> er_Category ref = replace_byte underscore dash s.
Proof.
  intros Nv E C L R D.
  assert (exists q, dec_members external_ref_fields (l ++ m :: r) zero_ExternalRef = Ok q /\
    er_Category ref = replace_byte underscore dash (er_Category q)) as (q & Eq & ->).
  { destruct v; [congruence| |]; cbn [dec c_external_ref c_struct] in E; apply bindR_ok in E as (q & E1 & E);
      injection E as <-; exists q; (split; [exact E1|reflexivity]). }
  apply (dec_members_one external_ref_fields eq_refl (req "referenceCategory" c_string er_Category set_er_Category)) in Eq; auto.
  - assert (dec c_string (snd m) "" = Ok (er_Category q)) as Eq' by exact Eq. rewrite D in Eq'. injection Eq' as ->. reflexivity.
  - cbn; tauto.
  - intros g Ig N. unfold external_ref_fields in Ig. cbn [In] in Ig.
    destruct Ig as [<-|[<-|[<-|[<-|[]]]]]; try (intros; reflexivity). exfalso; apply N; reflexivity.
Qed.

(** ** Order of members *)
Lemma shuffled_sim j : forall j', shuffled j j' -> sim false j j'.
Proof.
  induction j as [| | | |l IH|ms IH] using json_ind'; intros j' S; inversion S as [| | | |? l' F|? m1 m2 F P]; subst.
  - constructor.
  - constructor.
  - constructor.
  - apply (sim_str false r).
  - constructor. clear S. revert l' F. induction IH; intros l' F; inversion F; subst; constructor; auto.
  - apply (sim_obj false ms m1 m2); [|assumption]. clear S P. revert m1 F.
    induction IH as [|m r Hm _ IHm]; intros m1 F; inversion F as [|? y ? ? (Ek & S) F']; subst; constructor; auto.
Qed.
Lemma sim_shuffled h a : forall b c, sim h a b -> shuffled b c -> sim h a c.
Proof.
  induction a as [| | | |l IH|ms IH] using json_ind'; intros y z H K;
    inversion H as [| | | |? l1 F1|? m1 m2 F1 P1]; subst; inversion K as [| | | |? l2 F2|? ns ns' F2 P2]; subst; try assumption.
  - constructor. clear H K. revert l1 l2 F1 F2.
    induction IH as [|x r Hx _ IHl]; intros l1 l2 F1 F2.
    + inversion F1; subst. inversion F2. constructor.
    + inversion F1; subst. inversion F2; subst. constructor; eauto.
  - destruct (Permutation_Forall2 (Permutation_sym P1) F2) as (ns1 & P3 & F3).
    apply (sim_obj h ms ns1 ns'); [|eapply Permutation_trans; [apply Permutation_sym; exact P3|exact P2]].
    clear - IH F1 F3. revert m1 ns1 F1 F3.
    induction IH as [|m r Hm _ IHm]; intros m1 ns1 F1 F3.
    + inversion F1; subst. inversion F3. constructor.
    + inversion F1 as [|? y ? ? (Ek & S) F']; subst. inversion F3 as [|? z ? ? (Ek' & S') F1']; subst.
      constructor; [|eauto]. split; [|eauto]. congruence.
Qed.

Section Order.
  Variable h : bool.
  Theorem json_any_order v d : document_json v h d ->
    exists j, marshal_document v h d = Ok j /\ forall j', shuffled j j' -> read_value j' = Ok (v, d).
  Proof.
    intros H. destruct (good_document h v d H) as (j & E & _ & C & D).
    unfold marshal_document. fold add_files. fold (as_jdocument d). rewrite E. cbn [bindR].
    eexists. split; [reflexivity|]. intros j' Sh.
    pose proof (sim_shuffled h _ _ _ (sim_encoded h j) Sh) as S.
    assert (d_SPDXVersion d = version_string v) as Ev by (destruct H as (H & _); rewrite H; now destruct v).
    destruct (document_view h v d j j' E C S) as (ms & r & -> & L & R & K).
    { rewrite Ev. destruct v; apply asciib_ok; reflexivity. }
    pose proof (unmarshal_back v d _ (D _ S) K ltac:(apply H)) as B.
    unfold read_value. rewrite L, R, Ev.
    destruct v.
    - change (version_string V21 =? version_string V21) with true. cbv iota. now rewrite B.
    - change (version_string V22 =? version_string V21) with false.
      change (version_string V22 =? version_string V22) with true. cbv iota. now rewrite B.
    - change (version_string V23 =? version_string V21) with false.
      change (version_string V23 =? version_string V22) with false.
      change (version_string V23 =? version_string V23) with true. cbv iota. now rewrite B.
  Qed.
End Order.

(** ** Unknown members of the document *)
Lemma last_member_skip k l k' j r : requote k' <> k -> last_member k (l ++ (k', j) :: r) = last_member k (l ++ r).
Proof.
  intros N. induction l as [|(k1, j1) l IH]; cbn.
  - destruct (last_member k r); [reflexivity|]. apply String.eqb_neq in N. now rewrite N.
  - now rewrite IH.
Qed.
Theorem unknown_ignored l m r : (exists n, unescape (fst m) = Some n) ->
  (forall k, In k document_members -> ~ called k m) ->
  read_value (JObj (l ++ m :: r)) = read_value (JObj (l ++ r)).
Proof.
  intros (n & U) N.
  assert (forall k, In k document_members -> fold_name k <> fold_name n) as Nn.
  { intros k Ik E. apply (N k Ik). exists n. auto. }
  assert (forall v a, dec (c_document_struct v) (JObj (l ++ m :: r)) a = dec (c_document_struct v) (JObj (l ++ r)) a) as D1.
  { intros v a. cbn [dec c_document_struct c_struct]. apply dec_members_skip. exists n. split; [assumption|].
    intros f If. cbn [In] in If. 
    repeat (destruct If as [<-|If]; [apply Nn; cbn; tauto|]). destruct If. }
  assert (forall a, dec c_describes (JObj (l ++ m :: r)) a = dec c_describes (JObj (l ++ r)) a) as D2.
  { intros a. cbn [dec c_describes c_struct]. apply dec_members_skip. exists n. split; [assumption|].
    intros f If. cbn [In] in If. repeat (destruct If as [<-|If]; [apply Nn; cbn; tauto|]). destruct If. }
  assert (forall v, unmarshal_document v (JObj (l ++ m :: r)) = unmarshal_document v (JObj (l ++ r))) as D3.
  { intros v. unfold unmarshal_document. now rewrite D1, D2. }
  unfold read_value. destruct m as (k', j). rewrite last_member_skip.
  2:{ unfold requote. cbn [fst] in U. rewrite U. intros ->. apply (Nn "spdxVersion"); cbn; auto. }
  now rewrite !D3.
Qed.
