(** * What a document becomes in another version.

    The fields the source version does not have are empty, the version field names
    the target, and a package of a version without optional verification codes has
    an (possibly empty) code in version 2.3. *)
From Verif Require Import GoStr Types TvUtil TvParser.

Definition known_snippet (from : version) (s : Snippet) : Snippet :=
  match from with V21 => set_s_AttributionTexts [] s | _ => s end.
Definition known_file (from : version) (f : File) : File :=
  let f := set_f_Snippets (map (fun e => (fst e, known_snippet from (snd e))) (f_Snippets f)) f in
  match from with V21 => set_f_AttributionTexts [] f | _ => f end.
Definition known_package (from : version) (p : Package) : Package :=
  let p := set_p_Files (map (known_file from) (p_Files p)) p in
  let p := match from with V21 => set_p_IsUnpackaged false (set_p_AttributionTexts [] p) | _ => p end in
  match from with
  | V23 => p
  | _ =>
      let p := set_p_PrimaryPackagePurpose "" (set_p_ReleaseDate "" (set_p_BuiltDate "" (set_p_ValidUntilDate "" p))) in
      set_p_VerificationCode (Some (match p_VerificationCode p with Some c => c | None => zero_VerificationCode end)) p
  end.
Definition known_document (from : version) (d : Document) : Document :=
  set_d_Packages (map (known_package from) (d_Packages d))
    (set_d_Files (map (known_file from) (d_Files d))
       (set_d_Snippets (map (known_snippet from) (d_Snippets d)) d)).
Definition in_version (from to : version) (d : Document) : Document :=
  match from, to with
  | V21, V21 | V22, V22 | V23, V23 => d
  | _, _ => set_d_SPDXVersion (version_string to) (known_document from d)
  end.
(** the keys of a Go map are distinct *)
Definition file_keys (f : File) : Prop := NoDup (map fst (f_Snippets f)).
Definition keys_distinct (d : Document) : Prop :=
  Forall file_keys (d_Files d) /\ Forall (fun p => Forall file_keys (p_Files p)) (d_Packages d).
