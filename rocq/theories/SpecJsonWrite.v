(** * The JSON form of a document, as it is written: which members each object
    has, in which order, and when a member is left out.

    Independent of the codecs of the model: [x_form x j] reads "[x] is written
    as [j]".  An [x] without any form is refused. *)
From Coq Require Import Permutation Sorted.
From Verif Require Import GoStr Types TvUtil SpecTv SpecId SpecDoc Json.
Local Open Scope string_scope.

(** ** String literals *)

(** Bytes with a two-character escape. *)
Definition short_escapes : list (N * string) :=
  [(8, "\b"); (9, "\t"); (10, "\n"); (12, "\f"); (13, "\r"); (34, "\"""); (92, "\\")]%N.
Definition hex_digits : string := "0123456789abcdef".
(** [hex2 n s]: the two lower-case hexadecimal digits of a byte. *)
Definition hex2 (n : N) (s : string) : Prop :=
  exists x y a b, (n = x * 16 + y)%N /\ (x < 16)%N /\ (y < 16)%N /\
    get (N.to_nat x) hex_digits = Some a /\ get (N.to_nat y) hex_digits = Some b /\
    s = String a (String b "").
(** The bytes at the start of [s] are a character of more than one byte. *)
Inductive wide : string -> string -> Prop :=
| wide_two a b s : utf8_2 a b = true -> wide (String a (String b "")) (String a (String b s))
| wide_three a b c s : utf8_3 a b c = true ->
    wide (String a (String b (String c ""))) (String a (String b (String c s)))
| wide_four a b c d s : utf8_4 a b c d = true ->
    wide (String a (String b (String c (String d "")))) (String a (String b (String c (String d s)))).
Definition separator_2028 : string := String (ch 226) (String (ch 128) (String (ch 168) "")).
Definition separator_2029 : string := String (ch 226) (String (ch 128) (String (ch 169) "")).
Definition angle (a : ascii) : Prop := In (code a) [60; 62; 38]%N.
(** [spelled h s r]: the text [s] is spelled [r] between quotation marks; [h] for
    HTML-safe spelling.  Bytes that are not UTF-8 become U+FFFD. *)
Inductive spelled (h : bool) : string -> string -> Prop :=
| spelled_nil : spelled h "" ""
| spelled_short a e s r : In (code a, e) short_escapes -> spelled h s r ->
    spelled h (String a s) (e ++ r)
| spelled_hex a x s r :
    ((code a < 32)%N /\ ~ In (code a) (map fst short_escapes)) \/ (h = true /\ angle a) ->
    hex2 (code a) x -> spelled h s r -> spelled h (String a s) ("\u00" ++ x ++ r)
| spelled_plain a s r : (32 <= code a < 128)%N -> ~ In (code a) [34; 92]%N -> ~ (h = true /\ angle a) ->
    spelled h s r -> spelled h (String a s) (String a r)
| spelled_wide w s r : wide w (w ++ s) -> ~ In w [separator_2028; separator_2029] ->
    spelled h s r -> spelled h (w ++ s) (w ++ r)
| spelled_2028 s r : spelled h s r -> spelled h (separator_2028 ++ s) (String bslash "u2028" ++ r)
| spelled_2029 s r : spelled h s r -> spelled h (separator_2029 ++ s) (String bslash "u2029" ++ r)
| spelled_bad a s r : (128 <= code a)%N -> ~ (exists w, wide w (String a s)) ->
    spelled h s r -> spelled h (String a s) (String bslash "ufffd" ++ r).

(** ** Objects *)

(** One member an object can have: its name, when it is left out, and its form. *)
Record entry := Entry { e_name : string; e_left_out : Prop; e_form : json -> Prop }.
Definition always (name : string) (F : json -> Prop) : entry := Entry name False F.
Inductive object : list entry -> list (string * json) -> Prop :=
| object_nil : object [] []
| object_left_out e es ms : e_left_out e -> object es ms -> object (e :: es) ms
| object_member e es ms j : ~ e_left_out e -> e_form e j -> object es ms ->
    object (e :: es) ((e_name e, j) :: ms).
Definition object_form (es : list entry) (j : json) : Prop := exists ms, j = JObj ms /\ object es ms.

(** ** Plain values *)
Definition text_form (s : string) (j : json) : Prop := exists r, j = JStr r /\ spelled false s r.
Definition flag_form (b : bool) (j : json) : Prop := j = JBool b.
Definition number_form (z : Z) (j : json) : Prop := j = JNum (show_Z z).
Definition list_form {X} (F : X -> json -> Prop) (l : list X) (j : json) : Prop :=
  (l = [] /\ j = JNull) \/ (l <> [] /\ exists js, j = JArr js /\ Forall2 F l js).
Definition null_form {X} (F : X -> json -> Prop) (o : option X) (j : json) : Prop :=
  match o with None => j = JNull | Some x => F x j end.
(** omitempty *)
Definition text_unless_empty n s := Entry n (s = "") (text_form s).
Definition list_unless_empty {X} n (F : X -> json -> Prop) l := Entry n (l = []) (list_form F l).
Definition texts_unless_empty n l := list_unless_empty n text_form l.
Definition number_unless_zero n z := Entry n (z = 0%Z) (number_form z).
Definition unless_nil {X} n (F : X -> json -> Prop) (o : option X) := Entry n (o = None) (null_form F o).

(** ** Identifiers and actors *)
Definition prefixed (prefix id s : string) : Prop :=
  ((exists r, id = prefix ++ r) /\ s = id) \/ (~ (exists r, id = prefix ++ r) /\ s = prefix ++ id).
Definition id_form (prefix id : string) (j : json) : Prop :=
  exists s, prefixed prefix id s /\ text_form s j.
Definition reference_form (d : DocElementID) (j : json) : Prop :=
  exists s, text_form s j /\
    ((de_ElementRefID d <> "" /\ de_DocumentRefID d <> "" /\
      exists a b, prefixed "DocumentRef-" (de_DocumentRefID d) a /\
        prefixed "SPDXRef-" (de_ElementRefID d) b /\ s = a ++ ":" ++ b)
     \/ (de_ElementRefID d <> "" /\ de_DocumentRefID d = "" /\ prefixed "SPDXRef-" (de_ElementRefID d) s)
     \/ (de_ElementRefID d = "" /\ de_SpecialID d <> "" /\ s = de_SpecialID d)).
Definition actor_form (type name : string) (j : json) : Prop :=
  name <> "" /\ text_form (type ++ ": " ++ name) j.
Definition agent_form (type name : string) (j : json) : Prop :=
  (name = "NOASSERTION" /\ text_form name j) \/
  (name <> "NOASSERTION" /\ type <> "" /\ name <> "" /\ text_form (type ++ ": " ++ name) j).

(** ** Parts of a document *)
Definition checksum_form (c : Checksum) : json -> Prop := object_form
  [always "algorithm" (text_form (ck_Algorithm c));
   always "checksumValue" (text_form (ck_Value c))].
Definition code_form (c : VerificationCode) : json -> Prop := object_form
  [always "packageVerificationCodeValue" (text_form (vc_Value c));
   texts_unless_empty "packageVerificationCodeExcludedFiles" (vc_ExcludedFiles c)].
Definition pointer_form (p : RangePointer) : json -> Prop := object_form
  [number_unless_zero "offset" (rp_Offset p);
   number_unless_zero "lineNumber" (rp_LineNumber p);
   always "reference" (id_form "SPDXRef-" (rp_FileSPDXIdentifier p))].
Definition range_form (r : SnippetRange) : json -> Prop := object_form
  [always "startPointer" (pointer_form (sr_StartPointer r));
   always "endPointer" (pointer_form (sr_EndPointer r))].
Definition external_document_form (e : ExternalDocumentRef) : json -> Prop := object_form
  [always "externalDocumentId" (id_form "DocumentRef-" (edr_DocumentRefID e));
   always "spdxDocument" (text_form (edr_URI e));
   always "checksum" (checksum_form (edr_Checksum e))].
Definition creation_form (c : CreationInfo) : json -> Prop := object_form
  [text_unless_empty "licenseListVersion" (ci_LicenseListVersion c);
   always "creators" (list_form (fun c => actor_form (cr_CreatorType c) (cr_Creator c)) (ci_Creators c));
   always "created" (text_form (ci_Created c));
   text_unless_empty "comment" (ci_CreatorComment c)].
(** 2.2 writes categories with underscores, 2.3 with dashes. *)
Definition exchanged (a b : ascii) (s t : string) : Prop :=
  String.length t = String.length s /\
  forall i c, get i s = Some c -> get i t = Some (if Ascii.eqb c a then b else c).
Definition category_form (v : version) (s t : string) : Prop :=
  match v with V21 => t = s | V22 => exchanged "-" "_" s t | V23 => exchanged "_" "-" s t end.
Definition external_ref_form (v : version) (r : ExternalRef) : json -> Prop := object_form
  [always "referenceCategory" (fun j => exists s, category_form v (er_Category r) s /\ text_form s j);
   always "referenceType" (text_form (er_RefType r));
   always "referenceLocator" (text_form (er_Locator r));
   text_unless_empty "comment" (er_Comment r)].
Definition relationship_form (r : Relationship) : json -> Prop := object_form
  [always "spdxElementId" (reference_form (r_RefA r));
   always "relatedSpdxElement" (reference_form (r_RefB r));
   always "relationshipType" (text_form (r_Relationship r));
   text_unless_empty "comment" (r_Comment r)].
Definition annotation_form (a : Annotation) : json -> Prop := object_form
  [always "annotator" (actor_form (an_AnnotatorType (a_Annotator a)) (an_Annotator (a_Annotator a)));
   always "annotationDate" (text_form (a_Date a));
   always "annotationType" (text_form (a_Type a));
   always "comment" (text_form (a_Comment a))].
Definition license_form (o : OtherLicense) : json -> Prop := object_form
  [always "licenseId" (text_form (ol_LicenseIdentifier o));
   always "extractedText" (text_form (ol_ExtractedText o));
   text_unless_empty "name" (ol_LicenseName o);
   texts_unless_empty "seeAlsos" (ol_CrossReferences o);
   text_unless_empty "comment" (ol_Comment o)].
(** Licenses and copyright texts are required before 2.3. *)
Definition license_entry (v : version) (n s : string) : entry :=
  match v with V23 => text_unless_empty n s | _ => always n (text_form s) end.
Definition snippet_form (v : version) (s : Snippet) : json -> Prop := object_form
  [always "SPDXID" (id_form "SPDXRef-" (s_SPDXIdentifier s));
   always "snippetFromFile" (id_form "SPDXRef-" (s_FromFile s));
   always "ranges" (list_form range_form (s_Ranges s));
   license_entry v "licenseConcluded" (s_LicenseConcluded s);
   texts_unless_empty "licenseInfoInSnippets" (s_LicenseInfoInSnippet s);
   text_unless_empty "licenseComments" (s_LicenseComments s);
   always "copyrightText" (text_form (s_CopyrightText s));
   text_unless_empty "comment" (s_Comment s);
   text_unless_empty "name" (s_Name s)].
Definition artifact_form (a : Artifact) : json -> Prop := object_form
  [always "name" (text_form (ar_Name a));
   always "homePage" (text_form (ar_HomePage a));
   always "URI" (text_form (ar_URI a))].
Definition file_form (v : version) (f : JFile) : json -> Prop := object_form
  ([always "fileName" (text_form (f_FileName f));
    always "SPDXID" (id_form "SPDXRef-" (f_SPDXIdentifier f));
    texts_unless_empty "fileTypes" (f_FileTypes f);
    always "checksums" (list_form checksum_form (f_Checksums f));
    license_entry v "licenseConcluded" (f_LicenseConcluded f);
    match v with
    | V23 => texts_unless_empty "licenseInfoInFiles" (f_LicenseInfoInFiles f)
    | _ => always "licenseInfoInFiles" (list_form text_form (f_LicenseInfoInFiles f))
    end;
    text_unless_empty "licenseComments" (f_LicenseComments f);
    always "copyrightText" (text_form (f_CopyrightText f))]
   ++ match v with V23 => [list_unless_empty "artifactOfs" (null_form artifact_form) (f_Artifacts f)] | _ => [] end
   ++ [text_unless_empty "comment" (f_Comment f);
       text_unless_empty "noticeText" (f_Notice f);
       texts_unless_empty "fileContributors" (f_Contributors f)]
   ++ match v with V21 => [] | _ => [texts_unless_empty "attributionTexts" (f_AttributionTexts f)] end
   ++ match v with V23 => [texts_unless_empty "fileDependencies" (f_Dependencies f)] | _ => [] end
   ++ [list_unless_empty "annotations" annotation_form (f_Annotations f)])%list.

(** ** Packages *)
Definition package_entries (v : version) (p : JPackage) (code : list entry) : list entry :=
  ([always "name" (text_form (p_PackageName p));
    always "SPDXID" (id_form "SPDXRef-" (p_SPDXIdentifier p));
    text_unless_empty "versionInfo" (p_Version p);
    text_unless_empty "packageFileName" (p_FileName p);
    unless_nil "supplier" (fun s => agent_form (su_SupplierType s) (su_Supplier s)) (p_Supplier p);
    unless_nil "originator" (fun o => agent_form (or_OriginatorType o) (or_Originator o)) (p_Originator p);
    always "downloadLocation" (text_form (p_DownloadLocation p));
    match v with
    | V21 => Entry "filesAnalyzed" (p_FilesAnalyzed p = false) (flag_form (p_FilesAnalyzed p))
    | _ => always "filesAnalyzed" (flag_form (p_FilesAnalyzed p))
    end]
   ++ code
   ++ [list_unless_empty "checksums" checksum_form (p_Checksums p);
       text_unless_empty "homepage" (p_HomePage p);
       text_unless_empty "sourceInfo" (p_SourceInfo p);
       license_entry v "licenseConcluded" (p_LicenseConcluded p);
       match v with
       | V21 => always "licenseInfoFromFiles" (list_form text_form (p_LicenseInfoFromFiles p))
       | _ => texts_unless_empty "licenseInfoFromFiles" (p_LicenseInfoFromFiles p)
       end;
       license_entry v "licenseDeclared" (p_LicenseDeclared p);
       text_unless_empty "licenseComments" (p_LicenseComments p);
       license_entry v "copyrightText" (p_CopyrightText p);
       text_unless_empty "summary" (p_Summary p);
       text_unless_empty "description" (p_Description p);
       text_unless_empty "comment" (p_Comment p);
       list_unless_empty "externalRefs" (null_form (external_ref_form v)) (p_ExternalReferences p)]
   ++ match v with V21 => [] | _ => [texts_unless_empty "attributionTexts" (p_AttributionTexts p)] end
   ++ match v with
      | V23 => [text_unless_empty "primaryPackagePurpose" (p_PrimaryPackagePurpose p);
                text_unless_empty "releaseDate" (p_ReleaseDate p);
                text_unless_empty "builtDate" (p_BuiltDate p);
                text_unless_empty "validUntilDate" (p_ValidUntilDate p)]
      | _ => []
      end
   ++ [list_unless_empty "files" (null_form (file_form v)) (p_Files p);
       list_unless_empty "annotations" annotation_form (p_Annotations p)])%list.

(** [sorted_form j j']: [j'] is [j] with the members of every object sorted by
    name and every literal spelled again. *)
Definition by_name (m m' : string * json) : Prop := str_ltb (fst m) (fst m') = true.
Inductive sorted_form : json -> json -> Prop :=
| sorted_null : sorted_form JNull JNull
| sorted_bool b : sorted_form (JBool b) (JBool b)
| sorted_num t : sorted_form (JNum t) (JNum t)
| sorted_str r s r' : unescape r = Some s -> spelled false s r' -> sorted_form (JStr r) (JStr r')
| sorted_arr l l' : Forall2 sorted_form l l' -> sorted_form (JArr l) (JArr l')
| sorted_obj ms ms' ms'' :
    Forall2 (fun m m' => fst m' = fst m /\ sorted_form (snd m) (snd m')) ms ms' ->
    Permutation ms' ms'' -> StronglySorted by_name ms'' -> sorted_form (JObj ms) (JObj ms'').

Definition empty_code (o : option VerificationCode) : Prop := o = None \/ o = Some (MkVC "" []).
Definition code_value (o : option VerificationCode) : VerificationCode :=
  match o with Some c => c | None => MkVC "" [] end.
Definition package_form (v : version) (p : JPackage) (j : json) : Prop :=
  let code_entry := always "packageVerificationCode" (code_form (code_value (p_VerificationCode p))) in
  match v with
  | V21 => object_form (package_entries v p [code_entry]) j
  | V22 =>
      (* a package without verification code is written sorted *)
      (~ empty_code (p_VerificationCode p) /\ object_form (package_entries v p [code_entry]) j) \/
      (empty_code (p_VerificationCode p) /\
       exists j0, object_form (package_entries v p []) j0 /\ sorted_form j0 j)
  | V23 => object_form (package_entries v p
             [unless_nil "packageVerificationCode" code_form (p_VerificationCode p)]) j
  end.

(** ** Documents *)
Definition document_form (v : version) (d : JDocument) : json -> Prop := object_form
  [always "spdxVersion" (text_form (d_SPDXVersion d));
   always "dataLicense" (text_form (d_DataLicense d));
   always "SPDXID" (id_form "SPDXRef-" (d_SPDXIdentifier d));
   always "name" (text_form (d_DocumentName d));
   always "documentNamespace" (text_form (d_DocumentNamespace d));
   list_unless_empty "externalDocumentRefs" external_document_form (d_ExternalDocumentReferences d);
   text_unless_empty "comment" (d_DocumentComment d);
   always "creationInfo" (null_form creation_form (d_CreationInfo d));
   list_unless_empty "packages" (null_form (package_form v)) (d_Packages d);
   list_unless_empty "files" (null_form (file_form v)) (d_Files d);
   list_unless_empty "hasExtractedLicensingInfos" (null_form license_form) (d_OtherLicenses d);
   list_unless_empty "relationships" (null_form relationship_form) (d_Relationships d);
   list_unless_empty "annotations" (null_form annotation_form) (d_Annotations d);
   list_unless_empty "snippets" (snippet_form v) (d_Snippets d)].

(** [safe_form j j']: the same with every literal in HTML-safe spelling. *)
Inductive safe : string -> string -> Prop :=
| safe_nil : safe "" ""
| safe_plain a s r : ~ angle a -> safe s r -> safe (String a s) (String a r)
| safe_angle a x s r : angle a -> hex2 (code a) x -> safe s r -> safe (String a s) ("\u00" ++ x ++ r).
Inductive safe_form : json -> json -> Prop :=
| safe_null : safe_form JNull JNull
| safe_bool b : safe_form (JBool b) (JBool b)
| safe_num t : safe_form (JNum t) (JNum t)
| safe_str r r' : safe r r' -> safe_form (JStr r) (JStr r')
| safe_arr l l' : Forall2 safe_form l l' -> safe_form (JArr l) (JArr l')
| safe_obj ms ms' :
    Forall2 (fun m m' => safe (fst m) (fst m') /\ safe_form (snd m) (snd m')) ms ms' ->
    safe_form (JObj ms) (JObj ms').

(** ** Documents that can be written: no reference without target, no actor
    without name, no supplier or originator without type unless NOASSERTION *)
Definition given {X} (P : X -> Prop) (o : option X) : Prop :=
  match o with None => True | Some x => P x end.
Definition reference_writable (d : DocElementID) : Prop := de_ElementRefID d <> "" \/ de_SpecialID d <> "".
Definition agent_writable (type name : string) : Prop := name = "NOASSERTION" \/ (type <> "" /\ name <> "").
Definition creation_writable (c : CreationInfo) : Prop := Forall (fun c => cr_Creator c <> "") (ci_Creators c).
Definition annotation_writable (a : Annotation) : Prop := an_Annotator (a_Annotator a) <> "".
Definition relationship_writable (r : Relationship) : Prop :=
  reference_writable (r_RefA r) /\ reference_writable (r_RefB r).
Definition file_writable (f : JFile) : Prop := Forall annotation_writable (f_Annotations f).
Definition package_writable (p : JPackage) : Prop :=
  given (fun s => agent_writable (su_SupplierType s) (su_Supplier s)) (p_Supplier p) /\
  given (fun s => agent_writable (or_OriginatorType s) (or_Originator s)) (p_Originator p) /\
  Forall (given file_writable) (p_Files p) /\ Forall annotation_writable (p_Annotations p).
Definition document_writable (d : JDocument) : Prop :=
  given creation_writable (d_CreationInfo d) /\ Forall (given package_writable) (d_Packages d) /\
  Forall (given file_writable) (d_Files d) /\ Forall (given relationship_writable) (d_Relationships d) /\
  Forall (given annotation_writable) (d_Annotations d).
