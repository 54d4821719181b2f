(** * Two documents about which the helper packages say the same. *)
From Verif Require Import GoStr Sorting Types TvUtil TvParser Utils SpdxLib LicenseTools.

(** Two packages that have the same identifier, the same license report (up to the order of its lines),
    the same verification code whatever is excluded, and that compare in the same way with every other package. *)
Definition same_report (p q : Package) : Prop := forall cs cs',
  match generate cs p, generate cs' q with
  | Ok rows, Ok rows' => Permutation rows rows'
  | Err m, Err m' => m = m'
  | _, _ => False
  end.
Definition same_code (p q : Package) : Prop := forall srt srt' sha1 exclude,
  get_verification_code srt sha1 (map Some (p_Files p)) exclude = get_verification_code srt' sha1 (map Some (p_Files q)) exclude.
Definition same_comparison (p q : Package) : Prop := forall other name,
  map_get name (make_pairs p other) = map_get name (make_pairs q other) /\ map_get name (make_pairs other p) = map_get name (make_pairs other q).
(** Licenses are compared by the names of files; the comparison is only fixed if no two files have the same. *)
Definition package_answers (p q : Package) : Prop :=
  p_SPDXIdentifier q = p_SPDXIdentifier p /\ same_report p q /\ same_code p q /\ (NoDup (map f_FileName (p_Files p)) -> same_comparison p q).

(** Validation gives the same verdict, the same elements are described, and the packages are the same to the helpers. *)
Definition same_answers (d e : Document) : Prop :=
  validate_document d = validate_document e /\
  (forall srt srt', get_described_package_ids srt d = get_described_package_ids srt' e) /\
  exists pkgs, Permutation (d_Packages d) pkgs /\ Forall2 package_answers pkgs (d_Packages e).
