(** * Property C48: the same document in other JSON. *)
From Coq Require Import Permutation.
From Verif Require Import GoStr GoStrFacts Types TvUtil SpecTv SpecId SpecDoc Json JsonSpdx JsonText SpecJson SpecJsonRead SpecJsonText SpecRestate
  TvUtilFacts JsonTextParse JsonTextLaws RestateFacts RepeatFacts.
Local Open Scope string_scope.

(** The order of members, the spelling of strings, the letter case of member
    names, and null for an absent member make no difference: what is read from
    one text is read from the other, and if one is refused so is the other. *)
Theorem C48_text : forall j j' s s' v d, json_text j s -> json_text j' s' -> clear j -> clear j' -> restated j j' ->
  (json_read_into s = Ok (v, d) <-> json_read_into s' = Ok (v, d)).
Proof. intros j j' s s' v d T T' C C' S. now apply (restated_text j j'). Qed.
Print Assumptions C48_text.
Theorem C48_refused : forall j j' s s', json_text j s -> json_text j' s' -> clear j -> clear j' -> restated j j' ->
  ((exists m, json_read_into s = Err m) <-> (exists m, json_read_into s' = Err m)).
Proof.
  intros j j' s s' T T' C C' S. pose proof (fun v d => C48_text j j' s s' v d T T' C C' S) as H.
  pose proof (read_into_no_panic s) as P. pose proof (read_into_no_panic s') as P'.
  destruct (json_read_into s) as [[v d]|m|], (json_read_into s') as [[v' d']|m'|]; try contradiction; try (split; eauto; fail).
  - split; intros (m & E); discriminate E.
  - pose proof (proj1 (H v d) eq_refl). discriminate.
  - pose proof (proj2 (H v' d') eq_refl). discriminate.
Qed.
Print Assumptions C48_refused.

(** With ' for the quotation mark. *)
Fixpoint q (s : string) : string :=
  match s with "" => "" | String a r => String (if Ascii.eqb a "'" then dquote else a) (q r) end.
Definition C48_one : string :=
  q "{'spdxVersion':'SPDX-2.3','SPDXID':'SPDXRef-DOCUMENT','name':'ab','packages':[{'SPDXID':'SPDXRef-p','name':'p','filesAnalyzed':false}],'creationInfo':{'created':'now','creators':['Tool: t']}}".
Definition C48_other : string :=
  q "{ 'creationInfo':{'creators':['Tool: t'],'created':'now', 'COMMENT':null}, 'Packages':[{'FILESANALYZED':false,'n" ++ String bslash (q "u0061me':'p','SPDXID':'SPDXRef-p'}], 'NAME':'a")
  ++ String bslash (q "u0062','spdxVersion':'SPDX") ++ String bslash (q "u002d2.3','spdxID':'SPDXRef-DOCUMENT','files':null,'x':null}").
Ltac clear_by := vm_compute; repeat (split; [|exact I] || split || constructor || (intros K; repeat destruct K as [K|K]; try discriminate K; try contradiction)).
Ltac not_parsed := let H := fresh in intros (k & H & (n & U & F)); vm_compute in U; injection U as <-;
  repeat (destruct H as [<-|H]; [vm_compute in F; discriminate F|]); destruct H.
Ltac key_by := do 2 eexists; split; [vm_compute; reflexivity|]; split; [vm_compute; reflexivity|];
  first [left; reflexivity | right; split; [vm_compute; reflexivity|split; discriminate]].
Ltac same_by := first [now left | right; split; [not_parsed|]; first [apply restated_str; vm_compute; reflexivity | idtac]].
Ltac members_by := repeat (apply Forall2_cons; [cbn [fst snd]; split; [key_by|same_by]|]); try apply Forall2_nil.
Example C48_witness : exists j j', json_text j C48_one /\ json_text j' C48_other /\ clear j /\ clear j' /\ restated j j' /\
  exists d, json_read_into C48_one = Ok (V23, d) /\ d_DocumentName d = "ab".
Proof.
  destruct (parse_text C48_one) as [j|] eqn:P; [|vm_compute in P; discriminate P].
  destruct (parse_text C48_other) as [j'|] eqn:P'; [|vm_compute in P'; discriminate P'].
  exists j, j'. split; [now apply parse_text_iff in P|]. split; [now apply parse_text_iff in P'|].
  vm_compute in P. injection P as <-. vm_compute in P'. injection P' as <-. split; [clear_by|]. split; [clear_by|]. split.
  - match goal with |- restated (JObj ?ms) (JObj [?a; ?b; ?c; ?d; ?e; ?f; ?g]) =>
      apply (restated_obj ms [d; e; c; b; a] [f; g] [a; b; c; d; e; f; g]) end.
    + members_by.
      * apply restated_arr. apply Forall2_cons; [|apply Forall2_nil].
        match goal with |- restated (JObj ?ms) (JObj [?a; ?b; ?c]) => apply (restated_obj ms [c; b; a] [] [a; b; c]) end.
        -- members_by.
        -- constructor.
        -- cbn. eapply perm_trans; [apply perm_swap|]. eapply perm_trans; [apply perm_skip, perm_swap|]. apply perm_swap.
      * match goal with |- restated (JObj ?ms) (JObj [?a; ?b; ?c]) => apply (restated_obj ms [b; a] [c] [a; b; c]) end.
        -- members_by.
        -- repeat constructor; cbn [fst snd]; [now eexists|not_parsed].
        -- apply perm_swap.
    + repeat constructor; cbn [fst snd]; try (eexists; vm_compute; reflexivity); not_parsed.
    + cbn. apply NoDup_Permutation.
      * clear_by.
      * clear_by.
      * intros x. cbn. tauto.
  - destruct (json_read_into C48_one) as [[v d]|e|] eqn:R; [|vm_compute in R; discriminate R..].
    exists d. vm_compute in R. injection R as <- <-. split; reflexivity.
Qed.

(** The exceptions are real.  The value of a member that the library parses itself
    must be spelled the same way: these two texts stand for the same JSON value. *)
Theorem C48_spelling_refuted : exists r r' s s' d d', unescape r = unescape r' /\
  json_text (JObj [("spdxVersion", JStr "SPDX-2.3"); ("SPDXID", JStr r)]) s /\
  json_text (JObj [("spdxVersion", JStr "SPDX-2.3"); ("SPDXID", JStr r')]) s' /\
  json_read_into s = Ok (V23, d) /\ json_read_into s' = Ok (V23, d') /\ d_SPDXIdentifier d <> d_SPDXIdentifier d'.
Proof.
  exists "SPDXRef-A", ("SPDXRef-" ++ String bslash "u0041").
  exists (q "{'spdxVersion':'SPDX-2.3','SPDXID':'SPDXRef-A'}"), (q "{'spdxVersion':'SPDX-2.3','SPDXID':'SPDXRef-" ++ String bslash (q "u0041'}")).
  match goal with |- exists d d', _ /\ json_text ?j ?s /\ json_text ?j' ?s' /\ _ =>
    assert (json_text j s) as T by (apply parse_text_iff; vm_compute; reflexivity);
    assert (json_text j' s') as T' by (apply parse_text_iff; vm_compute; reflexivity);
    destruct (json_read_into s) as [[v d]|e|] eqn:R; [|vm_compute in R; discriminate R..];
    destruct (json_read_into s') as [[v' d']|e|] eqn:R'; [|vm_compute in R'; discriminate R'..]
  end.
  exists d, d'. vm_compute in R. injection R as <- <-. vm_compute in R'. injection R' as <- <-.
  split; [vm_compute; reflexivity|]. split; [exact T|]. split; [exact T'|]. split; [reflexivity|]. split; [reflexivity|]. discriminate.
Qed.
Print Assumptions C48_spelling_refuted.
(** Where a creator is expected an object is accepted too, and there the order of
    its members counts. *)
Theorem C48_order_refuted : exists a b s s' d d' c c',
  json_text (JObj [("spdxVersion", JStr "SPDX-2.3"); ("creationInfo", JObj [("creators", JArr [JObj [a; b]])])]) s /\
  json_text (JObj [("spdxVersion", JStr "SPDX-2.3"); ("creationInfo", JObj [("creators", JArr [JObj [b; a]])])]) s' /\
  json_read_into s = Ok (V23, d) /\ json_read_into s' = Ok (V23, d') /\ d_CreationInfo d = Some c /\ d_CreationInfo d' = Some c' /\
  ci_Creators c <> ci_Creators c'.
Proof.
  exists ("x", JNum "1"), ("y", JNum "2").
  exists (q "{'spdxVersion':'SPDX-2.3','creationInfo':{'creators':[{'x':1,'y':2}]}}"), (q "{'spdxVersion':'SPDX-2.3','creationInfo':{'creators':[{'y':2,'x':1}]}}").
  match goal with |- exists d d' c c', json_text ?j ?s /\ json_text ?j' ?s' /\ _ =>
    assert (json_text j s) as T by (apply parse_text_iff; vm_compute; reflexivity);
    assert (json_text j' s') as T' by (apply parse_text_iff; vm_compute; reflexivity);
    destruct (json_read_into s) as [[v d]|e|] eqn:R; [|vm_compute in R; discriminate R..];
    destruct (json_read_into s') as [[v' d']|e|] eqn:R'; [|vm_compute in R'; discriminate R'..]
  end.
  exists d, d'. vm_compute in R. injection R as <- <-. vm_compute in R'. injection R' as <- <-. do 2 eexists.
  split; [exact T|]. split; [exact T'|]. split; [reflexivity|]. split; [reflexivity|]. split; [reflexivity|]. split; [reflexivity|]. discriminate.
Qed.
Print Assumptions C48_order_refuted.

(** Two lists of elements under the same name: each element of the second is read
    as if it followed on the members of the element at the same place in the first;
    what the first has more of does not count. *)
Theorem C48_repeated : forall name first second rest s s' v d, In name element_lists -> all_objects first -> all_objects second ->
  json_text (JObj ((name, JArr first) :: (name, JArr second) :: rest)) s ->
  json_text (JObj ((name, JArr (put_together first second)) :: rest)) s' ->
  json_read_into s = Ok (v, d) -> json_read_into s' = Ok (v, d).
Proof. exact read_together. Qed.
Print Assumptions C48_repeated.
Example C48_repeated_witness :
  let file n := JObj [("fileName", JStr n)] in let rest := [("spdxVersion", JStr "SPDX-2.2")] in
  let a := [JObj [("comment", JStr "x")]; JObj [("comment", JStr "y")]; JObj [("comment", JStr "z")]] in let b := [file "a"; file "b"] in
  all_objects a /\ all_objects b /\ exists s s' d, json_text (JObj (("files", JArr a) :: ("files", JArr b) :: rest)) s /\
    json_text (JObj (("files", JArr (put_together a b)) :: rest)) s' /\ json_read_into s = Ok (V22, d) /\
    map (option_map (fun f => (f_FileName f, f_Comment f))) (d_Files d) = [Some ("a", "x"); Some ("b", "y")].
Proof.
  cbv zeta. split; [repeat constructor; eauto|]. split; [repeat constructor; eauto|].
  exists (q "{'files':[{'comment':'x'},{'comment':'y'},{'comment':'z'}],'files':[{'fileName':'a'},{'fileName':'b'}],'spdxVersion':'SPDX-2.2'}"),
    (q "{'files':[{'comment':'x','fileName':'a'},{'comment':'y','fileName':'b'}],'spdxVersion':'SPDX-2.2'}").
  eexists. split; [apply parse_text_iff; vm_compute; reflexivity|]. split; [apply parse_text_iff; vm_compute; reflexivity|].
  split; vm_compute; reflexivity.
Qed.

(** A part of the document that is given and then given again as null is not there. *)
Theorem C48_taken_back : forall name j rest s s' v d, In name droppable ->
  json_text (JObj ((name, j) :: (name, JNull) :: rest)) s -> json_text (JObj rest) s' ->
  json_read_into s = Ok (v, d) -> json_read_into s' = Ok (v, d).
Proof. exact read_null. Qed.
Print Assumptions C48_taken_back.
Example C48_taken_back_witness : let rest := [("spdxVersion", JStr "SPDX-2.3")] in
  exists j s s' d, In "packages" droppable /\ json_text (JObj (("packages", j) :: ("packages", JNull) :: rest)) s /\ json_text (JObj rest) s' /\
    json_read_into s = Ok (V23, d) /\ j <> JNull.
Proof.
  cbv zeta. exists (JArr [JObj [("name", JStr "p")]]), (q "{'packages':[{'name':'p'}],'packages':null,'spdxVersion':'SPDX-2.3'}"), (q "{'spdxVersion':'SPDX-2.3'}").
  eexists. split; [now left|]. split; [apply parse_text_iff; vm_compute; reflexivity|]. split; [apply parse_text_iff; vm_compute; reflexivity|].
  split; [vm_compute; reflexivity|discriminate].
Qed.

(** Packages are another matter: from version 2.2 on a second list of packages
    takes the place of the first, in version 2.1 they are put together too. *)
Theorem C48_packages : forall j j' rest s s' v d, v <> V21 ->
  json_text (JObj (("packages", j) :: ("packages", j') :: rest)) s -> json_text (JObj (("packages", j') :: rest)) s' ->
  json_read_into s = Ok (v, d) -> json_read_into s' = Ok (v, d).
Proof. exact read_packages_anew. Qed.
Print Assumptions C48_packages.
Theorem C48_packages_21 : forall l l' rest s s' d, all_objects l -> all_objects l' ->
  json_text (JObj (("packages", JArr l) :: ("packages", JArr l') :: rest)) s ->
  json_text (JObj (("packages", JArr (put_together l l')) :: rest)) s' ->
  json_read_into s = Ok (V21, d) -> json_read_into s' = Ok (V21, d).
Proof. exact read_packages_together. Qed.
Print Assumptions C48_packages_21.
(** the same two lists in the two versions *)
Example C48_packages_witness : let l := [JObj [("name", JStr "p")]] in let l' := [JObj [("versionInfo", JStr "1")]] in
  let text version := q ("{'packages':[{'name':'p'}],'packages':[{'versionInfo':'1'}],'spdxVersion':'" ++ version ++ "'}") in
  let value version := JObj [("packages", JArr l); ("packages", JArr l'); ("spdxVersion", JStr version)] in
  let read d := map (fun o => match o with Some p => (p_PackageName p, p_Version p) | None => ("", "") end) (d_Packages d) in
  all_objects l /\ all_objects l' /\
  (json_text (value "SPDX-2.1") (text "SPDX-2.1") /\ exists d : JDocument, json_read_into (text "SPDX-2.1") = Ok (V21, d) /\ read d = [("p", "1")]) /\
  (json_text (value "SPDX-2.3") (text "SPDX-2.3") /\ exists d : JDocument, json_read_into (text "SPDX-2.3") = Ok (V23, d) /\ read d = [("", "1")]).
Proof.
  cbv zeta. split; [repeat constructor; eauto|]. split; [repeat constructor; eauto|].
  split; (split; [apply parse_text_iff; vm_compute; reflexivity|]; eexists; split; vm_compute; reflexivity).
Qed.

(** Members of a document with different names can be moved past each other, also
    where names are repeated: only the order of the members of one name matters. *)
Theorem C48_moved : forall ms ms' s s' x, moved ms ms' -> json_text (JObj ms) s -> json_text (JObj ms') s' ->
  json_read_into s = Ok x <-> json_read_into s' = Ok x.
Proof.
  intros ms ms' s s' x M T T'. split; intros E; [exact (read_moved _ _ _ _ _ M T T' E)|exact (read_moved _ _ _ _ _ (moved_back _ _ M) T' T E)].
Qed.
Print Assumptions C48_moved.
(** a list in two halves with the version between them *)
Example C48_moved_witness : let half x := ("files", JArr [JObj [x]]) in let version := ("spdxVersion", JStr "SPDX-2.3") in
  let one := [half ("fileName", JStr "f"); version; half ("comment", JStr "c")] in
  let two := [half ("fileName", JStr "f"); half ("comment", JStr "c"); version] in
  exists s s' d, moved one two /\ json_text (JObj one) s /\ json_text (JObj two) s' /\ json_read_into s = Ok (V23, d) /\
    map (fun o => match o with Some f => (f_FileName f, f_Comment f) | None => ("", "") end) (d_Files d) = [("f", "c")].
Proof.
  cbv zeta. exists (q "{'files':[{'fileName':'f'}],'spdxVersion':'SPDX-2.3','files':[{'comment':'c'}]}"), (q "{'files':[{'fileName':'f'}],'files':[{'comment':'c'}],'spdxVersion':'SPDX-2.3'}").
  eexists. split.
  { apply (moved_swap [_]). exists "spdxVersion", "files". split; [reflexivity|]. split; [reflexivity|discriminate]. }
  split; [apply parse_text_iff; vm_compute; reflexivity|]. split; [apply parse_text_iff; vm_compute; reflexivity|].
  split; vm_compute; reflexivity.
Qed.

(** Two members of the same name: it is not the last one that counts.  What the
    first says of a file is kept where the second does not say it, although the
    second is about another file. *)
Theorem C48_repeated_refuted : exists one two s s' d d',
  json_text (JObj [("spdxVersion", JStr "SPDX-2.3"); ("files", JArr [one]); ("files", JArr [two])]) s /\
  json_text (JObj [("spdxVersion", JStr "SPDX-2.3"); ("files", JArr [two])]) s' /\
  json_read_into s = Ok (V23, d) /\ json_read_into s' = Ok (V23, d') /\
  map (option_map (fun f => (f_FileName f, f_LicenseConcluded f))) (d_Files d) = [Some ("b.c", "MIT")] /\
  map (option_map (fun f => (f_FileName f, f_LicenseConcluded f))) (d_Files d') = [Some ("b.c", "")].
Proof.
  exists (JObj [("fileName", JStr "a.c"); ("licenseConcluded", JStr "MIT")]), (JObj [("fileName", JStr "b.c")]).
  exists (q "{'spdxVersion':'SPDX-2.3','files':[{'fileName':'a.c','licenseConcluded':'MIT'}],'files':[{'fileName':'b.c'}]}"),
    (q "{'spdxVersion':'SPDX-2.3','files':[{'fileName':'b.c'}]}").
  match goal with |- exists d d', json_text ?j ?s /\ json_text ?j' ?s' /\ _ =>
    assert (json_text j s) as T by (apply parse_text_iff; vm_compute; reflexivity);
    assert (json_text j' s') as T' by (apply parse_text_iff; vm_compute; reflexivity) end.
  eexists. eexists. split; [exact T|]. split; [exact T'|].
  split; [vm_compute; reflexivity|]. split; [vm_compute; reflexivity|]. split; vm_compute; reflexivity.
Qed.
Print Assumptions C48_repeated_refuted.

(** ** Values in use *)

(** C13: reading a reference into a variable that holds another one replaces the
    parts that are given, and only those. *)
Theorem C13_reference_reused : forall s old d, no_quote s ->
  dec c_doc_element_id (JStr s) old = Ok d <-> exists r, ref_meaning s r /\ d = laid_over r old.
Proof. exact ref_reused. Qed.
Print Assumptions C13_reference_reused.
Example C13_reused_witness : no_quote "DocumentRef-ext" /\ ref_meaning "DocumentRef-ext" (MkDEID "ext" "" "") /\
  laid_over (MkDEID "ext" "" "") (MkDEID "old" "a" "") = MkDEID "ext" "a" "".
Proof.
  split; [apply not_occurs_byte; reflexivity|]. split; [|reflexivity]. right; right; right. exists "ext".
  repeat split; [discriminate|]. apply not_occurs_byte. reflexivity.
Qed.
(** So what is read depends on what was there: an element of this document
    becomes one of another document. *)
Theorem C13_reused_refuted : exists s d d', no_quote s /\
  dec c_doc_element_id (JStr s) (MkDEID "" "" "") = Ok d /\ dec c_doc_element_id (JStr s) (MkDEID "ext" "a" "") = Ok d' /\
  d = MkDEID "" "b" "" /\ d' = MkDEID "ext" "b" "".
Proof.
  exists "SPDXRef-b", (MkDEID "" "b" ""), (MkDEID "ext" "b" ""). split; [apply not_occurs_byte; reflexivity|].
  repeat split; vm_compute; reflexivity.
Qed.
Print Assumptions C13_reused_refuted.
(** C14: a supplier or originator read as NOASSERTION keeps the type of the one that was there. *)
Theorem C14_reused_refuted :
  (forall n t, dec c_supplier (JStr "NOASSERTION") (MkSupplier n t) = Ok (MkSupplier "NOASSERTION" t)) /\
  (forall n t, dec c_originator (JStr "NOASSERTION") (MkOriginator n t) = Ok (MkOriginator "NOASSERTION" t)).
Proof. split; intros n t; reflexivity. Qed.
Print Assumptions C14_reused_refuted.
(** In a document: a member of a relationship given twice is a reference that is nowhere in the text. *)
Theorem C48_mixed_refuted : exists s d, json_text (JObj [("spdxVersion", JStr "SPDX-2.3"); ("relationships", JArr [JObj
    [("spdxElementId", JStr "DocumentRef-ext:SPDXRef-a"); ("spdxElementId", JStr "SPDXRef-b");
     ("relatedSpdxElement", JStr "SPDXRef-c"); ("relationshipType", JStr "CONTAINS")]])]) s /\
  json_read_into s = Ok (V23, d) /\ map (option_map r_RefA) (d_Relationships d) = [Some (MkDEID "ext" "b" "")].
Proof.
  exists (q "{'spdxVersion':'SPDX-2.3','relationships':[{'spdxElementId':'DocumentRef-ext:SPDXRef-a','spdxElementId':'SPDXRef-b','relatedSpdxElement':'SPDXRef-c','relationshipType':'CONTAINS'}]}").
  eexists. split; [apply parse_text_iff; vm_compute; reflexivity|]. split; vm_compute; reflexivity.
Qed.
Print Assumptions C48_mixed_refuted.
