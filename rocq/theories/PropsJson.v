(** * JSON: properties C13 to C16, C31 and C32. *)
From Coq Require Import Permutation.
From Verif Require Import GoStr GoStrFacts Types TvUtil TvUtilFacts TvParser SpecTv SpecId SpecDoc Json JsonSpdx SpecJson JsonFacts JsonCodec JsonRound JsonRoundPkg JsonRoundDoc JsonHooks DenoteGlobal.
Local Open Scope string_scope.

(** What the encoder makes of a marshalled value: HTML characters escaped or not. *)
Definition as_written (h : bool) (j : json) : json := if h then html j else j.
Lemma good_written h X (c : codec X) old x : good_some h c old x ->
  exists j, enc c x = Ok j /\ dec c (as_written h j) old = Ok x.
Proof. intros (j & E & _ & _ & D). exists j. split; [exact E|]. apply D, sim_encoded. Qed.

(** ** C13: identifiers *)

Theorem C13_element_id_round_trip : forall h id old, json_id h "SPDXRef-" id ->
  exists j, enc c_element_id id = Ok j /\ text j = String dquote ("SPDXRef-" ++ id ++ String dquote "") /\
    dec c_element_id (as_written h j) old = Ok id.
Proof.
  intros h id old H. destruct (good_written h _ _ old _ (good_element_id h old id H)) as (j & E & D).
  exists j. split; [exact E|]. split; [|exact D]. destruct H as (_ & P & N).
  cbn in E. injection E as <-. cbn [text]. unfold quoted.
  change spdx_ref with "SPDXRef-". rewrite (with_prefix_id "SPDXRef-" id N).
  rewrite (escape_plain false); [now rewrite app_assoc_s|]. apply (plain_false h). apply plain_app; [now apply plain_lit|assumption].
Qed.
Print Assumptions C13_element_id_round_trip.
Theorem C13_document_id_round_trip : forall h id old, json_id h "DocumentRef-" id ->
  exists j, enc c_document_id id = Ok j /\ text j = String dquote ("DocumentRef-" ++ id ++ String dquote "") /\
    dec c_document_id (as_written h j) old = Ok id.
Proof.
  intros h id old H. destruct (good_written h _ _ old _ (good_document_id h old id H)) as (j & E & D).
  exists j. split; [exact E|]. split; [|exact D]. destruct H as (_ & P & N).
  cbn in E. injection E as <-. cbn [text]. unfold quoted.
  change document_ref with "DocumentRef-". rewrite (with_prefix_id "DocumentRef-" id N).
  rewrite (escape_plain false); [now rewrite app_assoc_s|]. apply (plain_false h). apply plain_app; [now apply plain_lit|assumption].
Qed.
Print Assumptions C13_document_id_round_trip.
Theorem C13_reference_round_trip : forall h d, json_ref h d ->
  exists j, enc c_doc_element_id d = Ok j /\ dec c_doc_element_id (as_written h j) (MkDEID "" "" "") = Ok d.
Proof. intros h d H. exact (good_written h _ _ _ _ (good_ref h d H)). Qed.
Print Assumptions C13_reference_round_trip.
Example C13_witness : json_id true "SPDXRef-" "Package-a.b" /\ json_id true "DocumentRef-" "ext" /\
  json_ref true (MkDEID "ext" "p" "") /\ json_ref true (MkDEID "" "" "NOASSERTION").
Proof.
  assert (json_id true "SPDXRef-" "Package-a.b") as A
    by (split; [discriminate|split; [now apply plain_lit|intros (r & E); discriminate]]).
  assert (json_id true "DocumentRef-" "ext") as B
    by (split; [discriminate|split; [now apply plain_lit|intros (r & E); discriminate]]).
  split; [exact A|]. split; [exact B|]. split.
  - left. split; [reflexivity|]. split.
    + split; [discriminate|split; [now apply plain_lit|intros (r & E); discriminate]].
    + right. split; [exact B|]. apply not_occurs_byte. reflexivity.
  - right. split; [reflexivity|]. split; [reflexivity|]. cbn. auto.
Qed.

(** Unmarshalling accepts exactly the prefixed, non-empty identifiers. *)
Theorem C13_element_id_exact : forall s old id, no_quote s ->
  (dec c_element_id (JStr s) old = Ok id <-> id <> "" /\ s = "SPDXRef-" ++ id).
Proof. exact element_id_exact. Qed.
Print Assumptions C13_element_id_exact.
Theorem C13_document_id_exact : forall s old id, no_quote s ->
  (dec c_document_id (JStr s) old = Ok id <-> id <> "" /\ s = "DocumentRef-" ++ id).
Proof. exact document_id_exact. Qed.
Print Assumptions C13_document_id_exact.
Theorem C13_reference_exact : forall s d, no_quote s ->
  (dec c_doc_element_id (JStr s) (MkDEID "" "" "") = Ok d <-> ref_meaning s d).
Proof. exact ref_exact. Qed.
Print Assumptions C13_reference_exact.
Example C13_exact_witness : no_quote "DocumentRef-ext:SPDXRef-p" /\
  ref_meaning "DocumentRef-ext:SPDXRef-p" (MkDEID "ext" "p" "").
Proof.
  split; [apply not_occurs_byte; reflexivity|]. right; right; left. exists "ext", "p".
  repeat split; try discriminate. apply not_occurs_byte. reflexivity.
Qed.
(** Marshalling a reference is refused exactly when there is nothing to write. *)
Theorem C13_reference_refused : forall d,
  (exists j, enc c_doc_element_id d = Ok j) <-> de_ElementRefID d <> "" \/ de_SpecialID d <> "".
Proof.
  intros d. rewrite <- marshal_ref_exact. cbn [enc c_doc_element_id c_text]. split.
  - intros (j & E). apply bindR_ok in E as (s & E & _). eauto.
  - intros (s & E). rewrite E. eexists. reflexivity.
Qed.
Print Assumptions C13_reference_refused.
(** An empty identifier is written but cannot be read back. *)
Theorem C13_empty_refuted : exists j, enc c_element_id "" = Ok j /\
  forall id, dec c_element_id j "" <> Ok id.
Proof. eexists. split; [vm_compute; reflexivity|]. intros id. vm_compute. discriminate. Qed.
Print Assumptions C13_empty_refuted.
(** An identifier that already starts with the prefix loses it. *)
Theorem C13_prefixed_refuted : exists j, enc c_element_id "SPDXRef-x" = Ok j /\
  dec c_element_id j "" = Ok "x".
Proof. eexists. split; vm_compute; reflexivity. Qed.
Print Assumptions C13_prefixed_refuted.

(** ** C14: actors *)

Theorem C14_creator_round_trip : forall h c, json_actor h (cr_CreatorType c) (cr_Creator c) ->
  exists j, enc c_creator c = Ok j /\ dec c_creator (as_written h j) (MkCreator "" "") = Ok c.
Proof. intros h c H. exact (good_written h _ _ _ _ (good_creator h c H)). Qed.
Print Assumptions C14_creator_round_trip.
Theorem C14_annotator_round_trip : forall h c, json_actor h (an_AnnotatorType c) (an_Annotator c) ->
  exists j, enc c_annotator c = Ok j /\ dec c_annotator (as_written h j) (MkAnnotator "" "") = Ok c.
Proof. intros h c H. exact (good_written h _ _ _ _ (good_annotator h c H)). Qed.
Print Assumptions C14_annotator_round_trip.
Theorem C14_supplier_round_trip : forall h c, json_agent h (su_SupplierType c) (su_Supplier c) ->
  exists j, enc c_supplier c = Ok j /\ dec c_supplier (as_written h j) (MkSupplier "" "") = Ok c.
Proof. intros h c H. exact (good_written h _ _ _ _ (good_supplier h c H)). Qed.
Print Assumptions C14_supplier_round_trip.
Theorem C14_originator_round_trip : forall h c, json_agent h (or_OriginatorType c) (or_Originator c) ->
  exists j, enc c_originator c = Ok j /\ dec c_originator (as_written h j) (MkOriginator "" "") = Ok c.
Proof. intros h c H. exact (good_written h _ _ _ _ (good_originator h c H)). Qed.
Print Assumptions C14_originator_round_trip.
Example C14_witness : json_actor true "Person" "Jane (jane at x.org)" /\
  json_actor false "Person" "Jane <jane@x.org>" /\
  json_agent true "Organization" "ACME" /\ json_agent true "" "NOASSERTION".
Proof.
  split; [|split; [|split]].
  - split; [discriminate|]. repeat split; try (now apply plain_lit); apply not_occurs_byte; reflexivity.
  - split; [discriminate|]. split; [|split; [reflexivity|split; [now apply plain_lit|split; [reflexivity|apply not_occurs_byte; reflexivity]]]].
    repeat (apply plain_one; [vm_compute; reflexivity|intros K; vm_compute in K; intuition discriminate|]). apply plain_nil.
  - right. split; [discriminate|]. split; [discriminate|]. split; [discriminate|].
    repeat split; try (now apply plain_lit); apply not_occurs_byte; reflexivity.
  - left. auto.
Qed.

(** Unmarshalling accepts exactly "type: name" (and NOASSERTION). *)
Theorem C14_creator_exact : forall s old c, no_quote s ->
  (dec c_creator (JStr s) old = Ok c <-> actor_meaning s (cr_CreatorType c) (cr_Creator c)).
Proof. exact creator_exact. Qed.
Print Assumptions C14_creator_exact.
Theorem C14_annotator_exact : forall s old c, no_quote s ->
  (dec c_annotator (JStr s) old = Ok c <-> actor_meaning s (an_AnnotatorType c) (an_Annotator c)).
Proof. exact annotator_exact. Qed.
Print Assumptions C14_annotator_exact.
Theorem C14_supplier_exact : forall s c, no_quote s ->
  (dec c_supplier (JStr s) (MkSupplier "" "") = Ok c <->
   (s = "NOASSERTION" /\ c = MkSupplier "NOASSERTION" "") \/
   (s <> "NOASSERTION" /\ actor_meaning s (su_SupplierType c) (su_Supplier c))).
Proof. exact supplier_exact. Qed.
Print Assumptions C14_supplier_exact.
(** The originator keeps white space around its type and after its name. *)
Theorem C14_originator_exact : forall s c, no_quote s ->
  (dec c_originator (JStr s) (MkOriginator "" "") = Ok c <->
   (s = "NOASSERTION" /\ c = MkOriginator "NOASSERTION" "") \/
   (s <> "NOASSERTION" /\ exists b, s = or_OriginatorType c ++ ":" ++ b /\
      ~ occurs ":" (or_OriginatorType c) /\ or_Originator c = trim_left_blanks b)).
Proof. exact originator_exact. Qed.
Print Assumptions C14_originator_exact.
Example C14_exact_witness : no_quote "Tool : x:y " /\ actor_meaning "Tool : x:y " "Tool" "x:y".
Proof.
  split; [apply not_occurs_byte; reflexivity|]. exists "Tool ", " x:y ". repeat split.
  apply not_occurs_byte. reflexivity.
Qed.

(** Marshalling refuses exactly the values without a name, and suppliers and
    originators without a type that are not NOASSERTION. *)
Theorem C14_refused : forall t n,
  ((exists j, enc c_creator (MkCreator n t) = Ok j) <-> n <> "") /\
  ((exists j, enc c_annotator (MkAnnotator n t) = Ok j) <-> n <> "") /\
  ((exists j, enc c_supplier (MkSupplier n t) = Ok j) <-> n = "NOASSERTION" \/ (t <> "" /\ n <> "")) /\
  ((exists j, enc c_originator (MkOriginator n t) = Ok j) <-> n = "NOASSERTION" \/ (t <> "" /\ n <> "")).
Proof.
  intros t n. rewrite <- (marshal_agent_exact t n), <- (marshal_actor_exact t n).
  cbn [enc c_creator c_annotator c_supplier c_originator c_text cr_CreatorType cr_Creator an_AnnotatorType an_Annotator
       su_SupplierType su_Supplier or_OriginatorType or_Originator].
  assert (forall r : res string, (exists j, (let* s := r in Ok (JStr (escape false s))) = Ok j) <-> (exists s, r = Ok s)) as H.
  { intros r. split.
    - intros (j & E). apply bindR_ok in E as (s & E & _). eauto.
    - intros (s & ->). eexists. reflexivity. }
  rewrite !H. tauto.
Qed.
Print Assumptions C14_refused.
(** With the default HTML escaping, a mail address in angle brackets is not
    recovered: the hook reads the escapes literally. *)
Theorem C14_html_refuted : exists j c', enc c_creator (MkCreator "Jane <jane@x.org>" "Person") = Ok j /\
  dec c_creator (as_written true j) (MkCreator "" "") = Ok c' /\
  cr_Creator c' = "Jane " ++ String bslash "u003cjane@x.org" ++ String bslash "u003e".
Proof. eexists _, _. split; [vm_compute; reflexivity|]. split; vm_compute; reflexivity. Qed.
Print Assumptions C14_html_refuted.

(** ** C15: relationship completion *)

(** [packages_files d]: identifiers and hasFiles lists of the packages read. *)
Theorem C15_completion : forall v j d describes doc,
  v <> V21 ->
  dec (c_document_struct v) j zero_jdocument = Ok d ->
  dec c_describes j [] = Ok describes ->
  unmarshal_document v j = Ok doc ->
  let original := drop_nil (d_Relationships d) in
  let wanted := implied (d_SPDXIdentifier d) describes (listed (d_Packages d)) in
  Forall tellable original -> Forall tellable wanted ->
  exists added, d_Relationships doc = map Some (original ++ added) /\ completes original wanted added.
Proof.
  intros v j d describes doc Nv E1 E2 E. cbv zeta. intros T W.
  destruct (completion_exact _ _ _ _ T W) as (added & C & K). exists added. split; [|exact C].
  unfold unmarshal_document in E. rewrite E1 in E. cbn [bindR] in E.
  destruct v; [congruence| |]; rewrite E2 in E; cbn [bindR] in E; injection E as <-; exact (f_equal (map Some) K).
Qed.
Print Assumptions C15_completion.
(** What [completes] amounts to: only wanted relationships are added, each wanted
    one is stated in the end, none was stated before, none is stated twice. *)
Theorem C15_completes_facts : forall known wanted added, completes known wanted added ->
  (forall r, In r added -> In r wanted) /\
  (forall r, In r wanted -> exists k, In k (known ++ added)%list /\ statement_of k = statement_of r) /\
  (forall r k, In r added -> In k known -> statement_of k <> statement_of r) /\
  NoDup (map statement_of added).
Proof. exact completes_facts. Qed.
Print Assumptions C15_completes_facts.
(** The files of each package are those of its hasFiles member. *)
Theorem C15_has_files : forall v ms p files, v <> V21 ->
  unmarshal_package v (JObj ms) = Ok (p, files) ->
  (Forall (fun m => ~ called "hasFiles" m) ms -> files = []) /\
  (forall l m r, ms = (l ++ m :: r)%list -> called "hasFiles" m ->
     Forall (fun m => ~ called "hasFiles" m) l -> Forall (fun m => ~ called "hasFiles" m) r ->
     dec (c_slice c_doc_element_id zero_DocElementID) (snd m) [] = Ok files).
Proof. exact package_has_files. Qed.
Print Assumptions C15_has_files.

Definition w_json : json :=
  JObj [("spdxVersion", JStr "SPDX-2.3"); ("SPDXID", JStr "SPDXRef-DOCUMENT");
        ("documentDescribes", JArr [JStr "SPDXRef-p"; JStr "SPDXRef-q"; JStr "SPDXRef-q"]);
        ("packages", JArr [JNull; JObj [("SPDXID", JStr "SPDXRef-p"); ("hasFiles", JArr [JStr "SPDXRef-f"; JStr "SPDXRef-g"])]]);
        ("relationships", JArr [JNull;
           JObj [("spdxElementId", JStr "SPDXRef-p"); ("relatedSpdxElement", JStr "SPDXRef-DOCUMENT"); ("relationshipType", JStr "DESCRIBED_BY")];
           JObj [("spdxElementId", JStr "SPDXRef-p"); ("relatedSpdxElement", JStr "SPDXRef-f"); ("relationshipType", JStr "CONTAINS")]])].
Example C15_witness : exists d describes doc,
  dec (c_document_struct V23) w_json zero_jdocument = Ok d /\ dec c_describes w_json [] = Ok describes /\
  unmarshal_document V23 w_json = Ok doc /\
  Forall tellable (drop_nil (d_Relationships d)) /\ Forall tellable (implied (d_SPDXIdentifier d) describes (listed (d_Packages d))) /\
  map (option_map (fun r => (de_ElementRefID (r_RefA r), r_Relationship r, de_ElementRefID (r_RefB r)))) (d_Relationships doc) =
    map Some [("p", "DESCRIBED_BY", "DOCUMENT"); ("p", "CONTAINS", "f"); ("DOCUMENT", "DESCRIBES", "q"); ("p", "CONTAINS", "g")].
Proof.
  eexists _, _, _. split; [vm_compute; reflexivity|]. split; [vm_compute; reflexivity|]. split; [vm_compute; reflexivity|].
  split; [|split; [|reflexivity]]; vm_compute drop_nil; vm_compute implied;
    repeat (constructor; [repeat split; apply not_occurs_byte; vm_compute; reflexivity|]); constructor.
Qed.
(** Without the restriction on characters: a relationship can be taken for
    another one and a file of a package goes missing. *)
Theorem C15_collision_refuted :
  exists j doc, unmarshal_document V23 j = Ok doc /\
    (exists p, unmarshal_package V23 (JObj [("SPDXID", JStr "SPDXRef-a"); ("hasFiles", JArr [JStr "SPDXRef-b->SPDXRef-c"])]) = Ok p /\
       snd p = [MkDEID "" "b->SPDXRef-c" ""]) /\
    j = JObj [("SPDXID", JStr "SPDXRef-DOCUMENT");
        ("packages", JArr [JObj [("SPDXID", JStr "SPDXRef-a"); ("hasFiles", JArr [JStr "SPDXRef-b->SPDXRef-c"])]]);
        ("relationships", JArr [
           JObj [("spdxElementId", JStr "SPDXRef-a"); ("relatedSpdxElement", JStr "SPDXRef-c"); ("relationshipType", JStr "CONTAINS->SPDXRef-b")]])] /\
    ~ exists r, In (Some r) (d_Relationships doc) /\ r_RefB r = MkDEID "" "b->SPDXRef-c" "".
Proof.
  eexists _, _. split; [|split; [eexists; split; vm_compute; reflexivity|split; [reflexivity|]]].
  - vm_compute. reflexivity.
  - intros (r & I & E). cbn in I. destruct I as [I|[]]. injection I as <-. discriminate.
Qed.
Print Assumptions C15_collision_refuted.

(** ** C16: package defaults *)

Theorem C16_files_analyzed : forall v l m r p files, v <> V21 ->
  unmarshal_package v (JObj (l ++ m :: r)) = Ok (p, files) ->
  called "filesAnalyzed" m ->
  Forall (fun m => ~ called "filesAnalyzed" m) l -> Forall (fun m => ~ called "filesAnalyzed" m) r ->
  (snd m = JNull /\ p_FilesAnalyzed p = true /\ p_IsFilesAnalyzedTagPresent p = false) \/
  (exists b, snd m = JBool b /\ p_FilesAnalyzed p = b /\ p_IsFilesAnalyzedTagPresent p = true).
Proof. exact package_files_analyzed. Qed.
Print Assumptions C16_files_analyzed.
Theorem C16_files_analyzed_absent : forall v ms p files, v <> V21 ->
  unmarshal_package v (JObj ms) = Ok (p, files) ->
  Forall (fun m => ~ called "filesAnalyzed" m) ms ->
  p_FilesAnalyzed p = true /\ p_IsFilesAnalyzedTagPresent p = false.
Proof. exact package_files_absent. Qed.
Print Assumptions C16_files_analyzed_absent.
Example C16_witness :
  (exists p, unmarshal_package V22 (JObj ([("name", JStr "p")] ++ ("FilesAnalyzed", JBool false) :: [])) = Ok p) /\
  called "filesAnalyzed" ("FilesAnalyzed", JBool false) /\ ~ called "filesAnalyzed" ("name", JStr "p").
Proof.
  split; [eexists; vm_compute; reflexivity|]. split.
  - exists "FilesAnalyzed". split; reflexivity.
  - intros (n & U & E). cbn in U. injection U as <-. vm_compute in E. discriminate.
Qed.

(** Categories come out in dash form, whichever form was read, and a category in
    dash form survives writing and reading. *)
Theorem C16_category_read : forall v l m r old ref s, v <> V21 ->
  dec (c_external_ref v) (JObj (l ++ m :: r)) old = Ok ref ->
  called "referenceCategory" m ->
  Forall (fun m => ~ called "referenceCategory" m) l -> Forall (fun m => ~ called "referenceCategory" m) r ->
  dec c_string (snd m) "" = Ok s -> er_Category ref = replace_byte "_" "-" s.
Proof. exact category_of. Qed.
Print Assumptions C16_category_read.
Theorem C16_category_normal : forall v j old r, v <> V21 ->
  dec (c_external_ref v) j old = Ok r -> ~ occurs "_" (er_Category r).
Proof. exact category_dashes. Qed.
Print Assumptions C16_category_normal.
Theorem C16_category_round_trip : forall v h r, external_ref_json v r ->
  exists j, enc (c_external_ref v) r = Ok j /\ dec (c_external_ref v) (as_written h j) zero_ExternalRef = Ok r.
Proof. intros v h r H. exact (good_written h _ _ _ _ (good_external_ref v h r H)). Qed.
Print Assumptions C16_category_round_trip.
Example C16_category_witness : external_ref_json V22 (MkER "PACKAGE-MANAGER" "purl" "pkg:a/b" "") /\
  dec (c_external_ref V23) (JObj [("referenceCategory", JStr "PACKAGE_MANAGER")]) zero_ExternalRef
    = Ok (MkER "PACKAGE-MANAGER" "" "" "").
Proof.
  split; [|vm_compute; reflexivity].
  repeat split; try (apply asciib_ok; reflexivity). intros _. apply not_occurs_byte. reflexivity.
Qed.

(** ** C31: what is written is read back *)

Theorem C31_round_trip : forall v h d, document_json v h d ->
  exists j, marshal_document v h d = Ok j /\ read_value j = Ok (v, d).
Proof. exact (fun v h => json_round_trip h v). Qed.
Print Assumptions C31_round_trip.
(** ... whatever the order of the members. *)
Theorem C31_any_order : forall v h d, document_json v h d ->
  exists j, marshal_document v h d = Ok j /\ forall j', shuffled j j' -> read_value j' = Ok (v, d).
Proof. exact (fun v h => json_any_order h v). Qed.
Print Assumptions C31_any_order.

(** A document with every kind of element, for each version, and with nil
    pointers wherever they can be. *)
Definition wj_ann : Annotation := MkAnn (MkAnnotator "ann" "Person") "2020-01-01T00:00:00Z" "REVIEW" (MkDEID "" "" "") "note".
Definition wj_file (v : version) : JFile :=
  MkFile "./a & b" "f" ["SOURCE"] [MkChecksum "SHA1" "00"] "MIT" ["MIT"] "" "(c) <x>"
    (match v with V23 => [None; Some (MkArtifact "a" "h" "u")] | _ => [] end) "" "n" ["me"]
    (match v with V21 => [] | _ => ["t"] end) (match v with V23 => ["d"] | _ => [] end) [] [wj_ann].
Definition wj_package (v : version) (c : option VerificationCode) : JPackage :=
  MkPackage false "pkg" "p" "1.0" "p.tar" (Some (MkSupplier "NOASSERTION" "")) (Some (MkOriginator "Org" "Organization"))
    "NONE" false (match v with V21 => false | _ => true end) c [MkChecksum "SHA256" "00"] "" "" "MIT" ["MIT"] "MIT" ""
    (String dquote ("quoted" ++ LF ++ String dquote "")) "" "" ""
    [None; Some (MkER "PACKAGE-MANAGER" "purl" "pkg:x/y@1" "rc")] (match v with V21 => [] | _ => ["t"] end)
    (match v with V23 => "LIBRARY" | _ => "" end) "" "" (match v with V23 => "2030-01-01" | _ => "" end) [Some (wj_file v); None] [wj_ann].
Definition wj_document (v : version) : JDocument :=
  MkDoc (match v with V21 => "SPDX-2.1" | V22 => "SPDX-2.2" | V23 => "SPDX-2.3" end) "CC0-1.0" "DOCUMENT" "a <b>" "http://ns"
    [MkEDR "r1" "http://a?x&y" (MkChecksum "SHA1" "11")] ""
    (Some (MkCI "3.9" [MkCreator "t" "Tool"; MkCreator "p q" "Person"] "2020-01-01T00:00:00Z" ""))
    [Some (wj_package v None); None; Some (wj_package v (Some (MkVC "d6a7" ["a.spdx"])))] [None; Some (wj_file v)]
    [None; Some (MkOL "LicenseRef-1" ("text" ++ LF ++ LF ++ "end ") "" ["http://x"] "")]
    (match v with V21 => [None] | _ => [] end ++
     [Some (MkRln (MkDEID "" "DOCUMENT" "") (MkDEID "" "p" "") "DESCRIBES" "");
      Some (MkRln (MkDEID "r1" "x" "") (MkDEID "" "" "NOASSERTION") "CONTAINS" "cm")])%list
    [Some wj_ann; None]
    [MkSnippet "s" "f" [MkRange (MkRP 1 0 "f") (MkRP 20 0 "f")] "MIT" ["MIT"] "" "c" "" "sn" []] [].
Example C31_witness : forall v h, document_json v h (wj_document v).
Proof.
  assert (forall s, asciib s = true -> utf8_ok s) as U by exact asciib_ok.
  assert (forall h p s, s <> "" ->
    (let fix ok s := match s with "" => true | String a r =>
    ((code a <? 128) && negb (code a <? 32) && negb (code a =? 34) && negb (code a =? 92)
     && negb (code a =? 60) && negb (code a =? 62) && negb (code a =? 38))%N && ok r end in ok s) = true ->
    has_prefix p s = false -> json_id h p s) as J.
  { intros h p s N P F. split; [exact N|]. split; [now apply plain_lit|]. intros K.
    apply has_prefix_spec in K. congruence. }
  assert (forall h, annotation_json h wj_ann) as A.
  { intros h. split; [split; [discriminate|repeat split; try (now apply plain_lit); apply not_occurs_byte; reflexivity]|].
    split; [now apply U|]. split; [now apply U|]. split; [now apply U|reflexivity]. }
  assert (forall v h, file_json v h (wj_file v)) as Fi.
  { intros v h. unfold file_json. destruct v;
      repeat match goal with
      | |- _ /\ _ => split
      | |- utf8_ok _ => now apply U
      | |- json_id _ _ _ => now apply J
      | |- texts _ => unfold texts; repeat constructor; now apply U
      | |- Forall (annotation_json _) _ => constructor; [apply A|constructor]
      | |- Forall _ [] => constructor
      | |- Forall _ (_ :: _) => constructor
      | |- Forall ?P ?l => let l' := eval hnf in l in progress change (Forall P l) with (Forall P l')
      | |- checksum_json _ => split; now apply U
      | |- opt_ok _ None => exact I
      | |- opt_ok artifact_json _ => split; [|split]; now apply U
      | |- _ -> _ => intros
      end; try reflexivity; congruence. }
  assert (forall v h c, opt_ok (code_json v) c -> package_json v h (wj_package v c)) as Pk.
  { intros v h c Hc. unfold package_json.
    destruct v;
      repeat match goal with
      | |- _ /\ _ => split
      | |- opt_ok (code_json _) _ => exact Hc
      | |- opt_ok _ None => exact I
      | |- opt_ok (external_ref_json _) _ => repeat split; try (now apply U); intros _; apply not_occurs_byte; reflexivity
      | |- opt_ok (file_json _ _) _ => apply Fi
      | |- opt_ok _ _ => hnf; first
           [ left; split; reflexivity
           | right; split; [discriminate|]; split; [discriminate|]; split; [discriminate|];
             repeat split; try (now apply plain_lit); apply not_occurs_byte; reflexivity ]
      | |- utf8_ok _ => now apply U
      | |- json_id _ _ _ => now apply J
      | |- texts _ => unfold texts; repeat constructor; now apply U
      | |- Forall (annotation_json _) _ => constructor; [apply A|constructor]
      | |- Forall _ [] => constructor
      | |- Forall _ (_ :: _) => constructor
      | |- Forall ?P ?l => let l' := eval hnf in l in progress change (Forall P l) with (Forall P l')
      | |- checksum_json _ => split; now apply U
      | |- _ -> _ => intros
      end; try reflexivity; try assumption; congruence. }
  intros v h. unfold document_json.
  assert (forall c, opt_ok (code_json v) c -> opt_ok (package_json v h) (Some (wj_package v c))) as Pk' by (intros; now apply Pk).
  split; [reflexivity|]. split; [now apply U|]. split; [now apply J|]. split; [now apply U|]. split; [now apply U|].
  split. { constructor; [|constructor]. split; [now apply J|]. split; [now apply U|]. split; now apply U. }
  split; [now apply U|].
  split. { split; [now apply U|]. split; [|split; now apply U].
    constructor; [|constructor; [|constructor]];
      (split; [discriminate|repeat split; try (now apply plain_lit); apply not_occurs_byte; reflexivity]). }
  split. { constructor; [apply Pk'; exact I|]. constructor; [exact I|]. constructor; [|constructor].
    apply Pk'. split; [now apply U|]. split; [repeat constructor; now apply U|]. intros _. left. discriminate. }
  split; [constructor; [exact I|constructor; [apply Fi|constructor]]|].
  split. { constructor; [exact I|constructor; [|constructor]]. repeat split; try (now apply U). repeat constructor; now apply U. }
  split. { apply Forall_app. split; [destruct v; repeat constructor|]. constructor; [|constructor; [|constructor]].
    - split; [left; split; [reflexivity|]; split; [now apply J|now left]|].
      split; [left; split; [reflexivity|]; split; [now apply J|now left]|]. split; now apply U.
    - split; [left; split; [reflexivity|]; split; [now apply J|right; split; [now apply J|apply not_occurs_byte; reflexivity]]|].
      split; [right; repeat split; cbn; tauto|]. split; now apply U. }
  split; [intros N K; destruct v; [congruence|..]; destruct K as [K|[K|[]]]; discriminate K|].
  split; [constructor; [apply A|constructor; [exact I|constructor]]|].
  split; [|reflexivity]. constructor; [|constructor].
  split; [now apply J|]. split; [now apply J|].
  split. { constructor; [|constructor]. split; (split; [reflexivity|]; split; [reflexivity|]; now apply J). }
  repeat split; try (now apply U). repeat constructor; now apply U.
Qed.

(** ** C32: unknown members are ignored *)
Theorem C32_unknown_members : forall l m r, (exists n, unescape (fst m) = Some n) ->
  (forall k, In k document_members -> ~ called k m) ->
  read_value (JObj (l ++ m :: r)) = read_value (JObj (l ++ r)).
Proof. exact unknown_ignored. Qed.
Print Assumptions C32_unknown_members.
Example C32_witness : (exists n, unescape "x-vendor" = Some n) /\
  (forall k, In k document_members -> ~ called k ("x-vendor", JNull)).
Proof.
  split; [eexists; reflexivity|]. intros k Ik (n & U & E). cbn in U. injection U as <-. vm_compute in Ik.
  repeat (destruct Ik as [<-|Ik]; [vm_compute in E; discriminate|]). destruct Ik.
Qed.
