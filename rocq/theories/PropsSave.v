(** * Property C43: documents built from a directory survive being saved and loaded. *)
From Verif Require Import GoStr GoStrFacts Sorting Types TvReader TvUtil TvParser TvWriter SpecTv SpecId SpecDoc SpecWrite SpecUtils SpecTools
  Utils SpdxLib LicenseTools Builder IdSearcher TvReaderFacts TvUtilFacts TvWriterFacts UtilsFacts Json JsonSpdx JsonText SpecJson SpecJsonText Formats SpecSave JsonCodec JsonRound SaveFacts SaveJson PropsBuilder.
Local Open Scope string_scope.

(** A document built from a directory whose names fit on a line can be saved as
    tag-value text.  Loading the text gives the same document up to order: the
    verification code is still that of the files, the document still describes
    the package, and saving it again gives the same text. *)
Theorem C43_build_tag : forall srt so h tree root name cfg doc, clean_root root -> wf_tree tree -> hex_hashes h -> build_ok tree name cfg ->
  build srt h tree root name cfg = Ok doc ->
  exists t d' e, render_document so V23 doc = Ok (t, d') /\ document_same doc e /\ intact (h_sha1 h) e /\
    (Forall short (stream_lines t) -> read_into t = Ok (V23, Some e) /\ forall so', exists e', render_document so' V23 e = Ok (t, e')).
Proof.
  intros srt so h tree root name cfg doc Hr Hw Hh Hb E. assert (R := build_representable _ _ _ _ _ _ _ Hr Hw Hh Hb E).
  destruct (build_form _ _ _ _ _ _ _ Hr Hw E) as (code & files & -> & C1 & _ & C3 & C4 & F).
  apply (save_load srt so h tree cfg name code [] files (bc_PathsIgnored cfg)); auto.
  eapply Forall_impl; [|exact F]. intros f (c & k & x & L & ->). eauto 8.
Qed.
Print Assumptions C43_build_tag.

(** The same for the search for license identifiers, if no concluded license has
    white space around it. *)
Theorem C43_search_tag : forall srt so h tree root name cfg doc, clean_root root -> wf_tree tree -> hex_hashes h -> search_ok tree name cfg ->
  build_ids_document srt h tree root cfg name = Ok doc ->
  (forall p f, In p (d_Packages doc) -> In f (p_Files p) -> trimmed (f_LicenseConcluded f)) ->
  exists t d' e, render_document so V23 doc = Ok (t, d') /\ document_same doc e /\ intact (h_sha1 h) e /\
    (Forall short (stream_lines t) -> read_into t = Ok (V23, Some e) /\ forall so', exists e', render_document so' V23 e = Ok (t, e')).
Proof.
  intros srt so h tree root name cfg doc Hr Hw Hh Hb E T. assert (R := search_representable _ _ _ _ _ _ _ Hr Hw Hh Hb E T).
  destruct (search_form _ _ _ _ _ _ _ Hr Hw E) as (code & info & files & -> & [C1 _] & _ & C4 & C3 & F).
  eapply (save_load srt so h tree); eauto. eapply Forall_impl; [|exact F]. intros f (c & k & x & i & o & L & -> & _). eauto 8.
Qed.
Print Assumptions C43_search_tag.

(** As JSON, both survive unchanged, concluded licenses included: what the search
    finds is always ASCII. *)
Theorem C43_build_json : forall srt h tree root name cfg doc html ind, clean_root root -> wf_tree tree -> hex_hashes h -> blank ind ->
  build_json_ok html tree name cfg -> build srt h tree root name cfg = Ok doc ->
  exists s, json_write V23 html ind (jdoc doc) = Ok s /\ json_read_into s = Ok (V23, jdoc doc).
Proof. exact build_json. Qed.
Print Assumptions C43_build_json.
Theorem C43_search_json : forall srt h tree root name cfg doc html ind, clean_root root -> wf_tree tree -> hex_hashes h -> blank ind ->
  search_json_ok html tree name cfg -> build_ids_document srt h tree root cfg name = Ok doc ->
  exists s, json_write V23 html ind (jdoc doc) = Ok s /\ json_read_into s = Ok (V23, jdoc doc).
Proof. exact search_json. Qed.
Print Assumptions C43_search_json.

(** ** Witnesses *)
Definition s_hashes : hashes :=
  MkHashes (fun x => if String.eqb x "" then "da39a3ee" else "0f" ) (fun _ => "e3b0c442") (fun _ => "d41d8cd9").
Lemma s_hashes_hex : hex_hashes s_hashes.
Proof.
  assert (H : forall s, s <> "" -> forallb (fun c => existsb (Ascii.eqb c) (list_ascii_of_string "0123456789abcdef")) (list_ascii_of_string s) = true -> hex s).
  { intros s N F. split; [exact N|]. intros c I. rewrite forallb_forall in F. apply F in I. apply existsb_exists in I as (a & I & E).
    apply Ascii.eqb_eq in E. now subst. }
  intros x. cbn. split; [|split]; [destruct (x =? "")|..]; now apply H.
Qed.
Definition s_config : BuildConfig := MkBC "https://x/" "Person" "me" None "2020-01-01T00:00:00Z".
Lemma w_listed ign c : listed w_tree ign c -> c = ["b.c"] \/ c = ["a.c"].
Proof.
  intros [(x & H) _]. inversion H as [|es n k cs x' I A]; subst. cbn in I.
  destruct I as [I|[I|[]]]; inversion I; subst; inversion A; subst; auto.
Qed.
Lemma line_lit s : has_byte (byte 10) s = false -> trim_space s = s -> contains "<text>" s = false -> line_ok s.
Proof. intros A B C. split; [now rewrite has_byte_lf|]. split; [exact B|exact C]. Qed.
Lemma demo_ident : ident_ok "demo".
Proof.
  split; [split|].
  - split; [discriminate|]. split; [now apply not_occurs_byte|reflexivity].
  - now apply line_lit.
  - now apply not_occurs_byte.
Qed.
Lemma root_clean : clean_root "/tmp/p".
Proof. right. intros H. apply has_suffix_spec in H. discriminate. Qed.
Example C43_witness :
  clean_root "/tmp/p" /\ wf_tree w_tree /\ hex_hashes s_hashes /\ build_ok w_tree "demo" s_config /\ build_json_ok true w_tree "demo" s_config /\
  (let cfg := MkIC "https://x/" None [] "now" in search_ok w_tree "demo" cfg /\ search_json_ok true w_tree "demo" cfg /\
   exists doc, build_ids_document insertion_sorter s_hashes w_tree "/tmp/p" cfg "demo" = Ok doc /\
     (forall p f, In p (d_Packages doc) -> In f (p_Files p) -> trimmed (f_LicenseConcluded f))) /\
  match build insertion_sorter s_hashes w_tree "/tmp/p" "demo" s_config with
  | Ok doc => match render_document insertion_sorter V23 doc with
    | Ok (t, _) => forallb (fun l => Nat.ltb (String.length l) 100) (stream_lines t) = true /\
        match read_into t with Ok (V23, Some e) => map (fun p => map f_FileName (p_Files p)) (d_Packages e) = [["./a.c"; "./b.c"]] | _ => False end
    | _ => False end
  | _ => False end.
Proof.
  assert (N : names_ok w_tree None) by (intros c L; apply w_listed in L as [-> | ->]; now apply line_lit).
  assert (U : forall c, listed w_tree None c -> utf8_ok (rooted c)) by (intros c L; apply w_listed in L as [-> | ->]; now apply const_utf8).
  assert (K : name_ok "me") by (split; [discriminate|now apply line_lit]).
  split; [exact root_clean|]. split; [exact w_tree_wf|]. split; [exact s_hashes_hex|]. split.
  { split; [exact demo_ident|]. split; [now apply line_lit|]. split; [cbn; tauto|]. split; [exact K|]. split; [now apply line_lit|exact N]. }
  split.
  { split; [now apply plain_lit|]. split; [now apply const_utf8|]. split; [|split; [now apply const_utf8|exact U]].
    split; [discriminate|]. split; [now apply plain_lit|]. split; [reflexivity|]. split; [now apply plain_lit|]. split; [reflexivity|]. now apply not_occurs_byte. }
  split.
  { cbv zeta. split; [split; [exact demo_ident|]; split; [now apply line_lit|]; split; [now apply line_lit|exact N]|].
    split; [split; [now apply plain_lit|]; split; [now apply const_utf8|]; split; [now apply const_utf8|exact U]|].
    eexists. split; [vm_compute; reflexivity|]. intros p f [<- |[]] [<- |[<- |[]]]; reflexivity. }
  vm_compute. split; reflexivity.
Qed.

(** An identifier comment without an identifier leads to a concluded license that
    starts with a blank; it is lost when the document is loaded. *)
Definition u_tree : node :=
  NDir [("a.c", NFile (Some ("# SPDX-License-Identifier:" ++ LF ++ "# SPDX-License-Identifier: MIT" ++ LF)))].
Definition concluded (d : Document) : list string := flat_map (fun p => map f_LicenseConcluded (p_Files p)) (d_Packages d).
Theorem C43_search_tag_trimmed_refuted :
  ~ forall srt so h tree root name cfg doc t d' e, clean_root root -> wf_tree tree -> hex_hashes h -> search_ok tree name cfg ->
      build_ids_document srt h tree root cfg name = Ok doc -> render_document so V23 doc = Ok (t, d') -> read_into t = Ok (V23, Some e) ->
      document_same doc e.
Proof.
  intros H. set (cfg := MkIC "https://x/" None [] "now").
  assert (W : wf_tree u_tree).
  { constructor.
    - cbn. repeat constructor; cbn; intuition discriminate.
    - intros name n I. cbn in I. destruct I as [I|[]]; inversion I; subst; repeat split; try discriminate; try (apply no_slash_byte; reflexivity); constructor. }
  assert (S : search_ok u_tree "demo" cfg).
  { split; [exact demo_ident|]. split; [now apply line_lit|]. split; [now apply line_lit|]. intros c [(x & A) _].
    inversion A as [|es n k cs x' I B]; subst. cbn in I. destruct I as [I|[]]. inversion I; subst. inversion B; subst. now apply line_lit. }
  set (doc := build_ids_document insertion_sorter s_hashes u_tree "/tmp/p" cfg "demo") in *.
  assert (A : match doc with Ok d => concluded d = [" AND MIT"] /\
      match render_document insertion_sorter V23 d with Ok (t, _) => match read_into t with Ok (V23, Some e) => concluded e = ["AND MIT"] | _ => False end | _ => False end
    | _ => False end) by (vm_compute; split; reflexivity).
  destruct doc as [d| |] eqn:E; [|destruct A..]. destruct A as [A1 A2]. subst doc.
  destruct (render_document insertion_sorter V23 d) as [[t d']| |] eqn:R; [|destruct A2..].
  destruct (read_into t) as [[[] [e|]]| |] eqn:L; try (destruct A2; fail).
  specialize (H _ _ _ _ _ _ _ _ _ _ _ root_clean W s_hashes_hex S E R L).
  destruct (search_form _ _ _ _ _ _ _ root_clean W E) as (code & info & files & D & _). rewrite D in H. apply form_same in H as (files' & -> & (k & P & F)).
  rewrite D in A1. cbn in A1, A2. rewrite app_nil_r in A1, A2.
  assert (X : In " AND MIT" (map f_LicenseConcluded k)) by (apply (Permutation_in _ (Permutation_map f_LicenseConcluded P)); unfold File in *; rewrite A1; now left).
  assert (Y : map f_LicenseConcluded k = map f_LicenseConcluded files').
  { clear -F. induction F as [|f g a b (sn & _ & ->) F IH]; [reflexivity|]. cbn [map]. now rewrite IH. }
  rewrite Y, A2 in X. destruct X as [X|[]]. discriminate X.
Qed.
Print Assumptions C43_search_tag_trimmed_refuted.
