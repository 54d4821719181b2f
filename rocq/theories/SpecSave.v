(** * When a built document can be saved as tag-value text.

    In terms of the caller's input only: the hash functions, the names in the
    directory, and the configuration. *)
From Verif Require Import GoStr Types Utils SpdxLib Builder IdSearcher SpecTv SpecId SpecDoc SpecWrite SpecUtils SpecJson.

(** Lower-case hexadecimal digits, at least one: what %x prints for a hash. *)
Definition hex (s : string) : Prop :=
  s <> "" /\ forall c, In c (list_ascii_of_string s) -> In c (list_ascii_of_string "0123456789abcdef").
Definition hex_hashes (h : hashes) : Prop := forall x, hex (h_sha1 h x) /\ hex (h_sha256 h x) /\ hex (h_md5 h x).

(** [line_ok]: no line feed, no white space around it, no "<text>".
    [name_ok]: not empty either.  [ident_ok]: no blank and no colon either. *)
Definition listed (tree : node) (ignored : option (list string)) (c : list string) : Prop :=
  (exists x, file_at tree c x) /\ ~ exists pats pat, ignored = Some pats /\ In pat pats /\ matches pat (rooted c).
Definition names_ok (tree : node) (ignored : option (list string)) : Prop :=
  forall c, listed tree ignored c -> line_ok ("." ++ rooted c).
Definition build_ok (tree : node) (name : string) (cfg : BuildConfig) : Prop :=
  ident_ok name /\ line_ok (bc_NamespacePrefix cfg ++ name) /\
  In (bc_CreatorType cfg) ["Person"; "Organization"; "Tool"] /\ name_ok (bc_Creator cfg) /\
  line_ok (bc_Created cfg) /\ names_ok tree (bc_PathsIgnored cfg).
Definition search_ok (tree : node) (name : string) (cfg : IdConfig) : Prop :=
  ident_ok name /\ line_ok (ic_NamespacePrefix cfg ++ name) /\ line_ok (ic_Created cfg) /\
  names_ok tree (ic_BuilderPathsIgnored cfg).

(** The document has one package, which it describes; its verification code is
    the one computed from its files; all relationships refer to something. *)
Definition intact (sha1 : string -> string) (d : Document) : Prop :=
  exists pkg code, d_Packages d = [pkg] /\ p_VerificationCode pkg = Some code /\
    (forall srt, get_verification_code srt sha1 (map Some (p_Files pkg)) "" = Ok code) /\
    (forall srt, get_described_package_ids srt d = Ok [p_SPDXIdentifier pkg]) /\
    validate_document d = Ok tt.

(** Conditions for saving as JSON: UTF-8, and no characters to be escaped in the
    identifier and the creator ([plain]). *)
Definition build_json_ok (html : bool) (tree : node) (name : string) (cfg : BuildConfig) : Prop :=
  plain html name /\ utf8_ok (bc_NamespacePrefix cfg) /\ json_actor html (bc_CreatorType cfg) (bc_Creator cfg) /\
  utf8_ok (bc_Created cfg) /\ forall c, listed tree (bc_PathsIgnored cfg) c -> utf8_ok (rooted c).
Definition search_json_ok (html : bool) (tree : node) (name : string) (cfg : IdConfig) : Prop :=
  plain html name /\ utf8_ok (ic_NamespacePrefix cfg) /\ utf8_ok (ic_Created cfg) /\
  forall c, listed tree (ic_BuilderPathsIgnored cfg) c -> utf8_ok (rooted c).
