(** * Specifications for spdxlib, licensediff, reporter, builder and idsearcher,
    independent of their code. *)
From Verif Require Import GoStr Sorting Types Utils SpecTv SpecUtils LicenseTools.

(** ** spdxlib *)

(** [id] names the document itself, one of its packages or one of its
    unpackaged files. *)
Definition names_element (doc : Document) (id : string) : Prop :=
  id = "DOCUMENT" \/
  (exists p, In p (d_Packages doc) /\ p_SPDXIdentifier p = id) \/
  (exists f, In f (d_Files doc) /\ f_SPDXIdentifier f = id).

(** the identifiers in the relationships, in the order of the text *)
Definition referred (doc : Document) : list string :=
  flat_map (fun r => [de_ElementRefID (r_RefA r); de_ElementRefID (r_RefB r)]) (d_Relationships doc).

Definition the_document : DocElementID := MkDEID "" "DOCUMENT" "".

(** the relationship says that the document describes the element [id] *)
Definition says_described (r : Relationship) (id : string) : Prop :=
  (r_Relationship r = "DESCRIBES" /\ r_RefA r = the_document /\ de_ElementRefID (r_RefB r) = id) \/
  (r_Relationship r = "DESCRIBED_BY" /\ r_RefB r = the_document /\ de_ElementRefID (r_RefA r) = id).
Definition described (doc : Document) (id : string) : Prop :=
  exists r, In r (d_Relationships doc) /\ says_described r id.
(** what a list of relationships says is described, one entry for each that says so *)
Inductive described_list : list Relationship -> list string -> Prop :=
| dl_none : described_list [] []
| dl_says r id l ids : says_described r id -> described_list l ids -> described_list (r :: l) (id :: ids)
| dl_other r l ids : (forall id, ~ says_described r id) -> described_list l ids -> described_list (r :: l) ids.

(** ** licensediff *)
Definition has_file (p : Package) (name : string) : Prop :=
  exists f, In f (p_Files p) /\ f_FileName f = name.
(** the license a package records for a file name: that of its last file of the
    name, the empty string if it has none *)
Definition license_for (p : Package) (name lic : string) : Prop :=
  (exists before f after, p_Files p = (before ++ f :: after)%list /\ f_FileName f = name /\
     f_LicenseConcluded f = lic /\ forall g, In g after -> f_FileName g <> name) \/
  (~ has_file p name /\ lic = "").

(** ** reporter *)
Definition concludes (lic : string) (f : File) : bool := String.eqb (f_LicenseConcluded f) lic.
Definition concluding (lic : string) (p : Package) : N :=
  N.of_nat (length (filter (concludes lic) (p_Files p))).
Definition no_license (f : File) : bool := concludes "" f || concludes "NOASSERTION" f.

(** ** idsearcher *)

(** [t] is a maximal piece of [s] free of separator bytes *)
Definition is_sep (a : ascii) : bool :=
  Ascii.eqb a " " || Ascii.eqb a "(" || Ascii.eqb a ")" || Ascii.eqb a "+".
Fixpoint sep_free (s : string) : bool :=
  match s with "" => true | String a r => negb (is_sep a) && sep_free r end.
Definition piece (s t : string) : Prop :=
  exists a b, s = a ++ t ++ b /\ sep_free t = true /\
    (a = "" \/ exists a' c, a = a' ++ String c "" /\ is_sep c = true) /\
    (b = "" \/ exists c b', b = String c b' /\ is_sep c = true).

(** same letters, ignoring (ASCII) case *)
Definition same_letter (a b : ascii) : Prop :=
  a = b \/ exists n, (n < 26)%N /\
    ((a = ascii_of_N (65 + n) /\ b = ascii_of_N (97 + n)) \/
     (b = ascii_of_N (65 + n) /\ a = ascii_of_N (97 + n))).
Inductive same_word : string -> string -> Prop :=
| sw_nil : same_word "" ""
| sw_cons a b s t : same_letter a b -> same_word s t -> same_word (String a s) (String b t).
Definition operator (w : string) : Prop :=
  same_word w "AND" \/ same_word w "OR" \/ same_word w "WITH".

(** an individual license of a license expression *)
Definition individual (expr lic : string) : Prop :=
  exists t, piece expr t /\ lic = trim_space t /\ lic <> "" /\ ~ operator lic.

(** characters a license identifier may keep *)
Definition keep_char (a : ascii) : Prop :=
  In a (list_ascii_of_string "ABCDEFGHIJKLMNOPQRSTUVWXYZabcdefghijklmnopqrstuvwxyz0123456789_.-+() ")
  \/ In (nat_of_ascii a) [9; 10; 12; 13].
(** [t] is [s] without the other characters *)
Inductive kept_of : string -> string -> Prop :=
| ko_nil : kept_of "" ""
| ko_keep a s t : keep_char a -> kept_of s t -> kept_of (String a s) (String a t)
| ko_drop a s t : ~ keep_char a -> kept_of s t -> kept_of (String a s) t.

(** the line contributes the identifier [lid] *)
Definition line_mentions (line lid : string) : Prop :=
  exists before after prefix text,
    first_cut "SPDX-License-Identifier:" line before after /\
    kept_of before prefix /\ String.length prefix <= 5 /\
    ((exists junk, first_cut "*/" after text junk) \/ (~ occurs "*/" after /\ text = after)) /\
    kept_of (trim_space text) lid.

(** the lines of a file that are searched: those before the first one that
    exceeds the scanner's limit, each without its carriage return *)
Definition drop_return (s : string) : string := trim_suffix (String (ascii_of_nat 13) "") s.
Definition searched_line (content line : string) : Prop :=
  exists before raw after, stream_lines content = (before ++ raw :: after)%list /\
    Forall short before /\ short raw /\ line = drop_return raw.

(** the searcher finds the license [lic] in the file stored at [path] *)
Definition mentioned (patterns : list string) (path content lid : string) : Prop :=
  (~ exists p, In p patterns /\ matches p path) /\
  exists line, searched_line content line /\ line_mentions line lid.
Definition found_in (patterns : list string) (path content lic : string) : Prop :=
  exists lid, mentioned patterns path content lid /\ individual lid lic.

(** [l] lists the strings satisfying [P] in increasing order without
    repetition, or is the single NOASSERTION if there are none *)
Definition set_or_noassertion (P : string -> Prop) (l : list string) : Prop :=
  ((exists x, P x) /\ ordered (fun x => x) l /\ NoDup l /\ forall x, In x l <-> P x) \/
  ((forall x, ~ P x) /\ l = ["NOASSERTION"]).

(** the concluded license for the identifiers found in a file *)
Definition conclusion (ids : list string) (text : string) : Prop :=
  (exists id, ids = [id] /\ text = id) \/
  (length ids <> 1 /\ exists parts, text = String.concat " AND " parts /\
     Forall2 (fun id part => (occurs " AND " id \/ occurs " OR " id) /\ part = "(" ++ id ++ ")" \/
                             ~ occurs " AND " id /\ ~ occurs " OR " id /\ part = id) ids parts).
