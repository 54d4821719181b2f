(** * The JSON encoder never panics. *)
From Verif Require Import GoStr GoStrFacts Types TvUtil TvParser SpecTv SpecId SpecDoc Json JsonSpdx SpecJson JsonFacts JsonCodec JsonReadFacts JsonReadDoc JsonText.
Local Open Scope string_scope.

Definition placid {X} (c : codec X) : Prop := forall x, enc c x <> Panic.
Lemma placid_string : placid c_string. Proof. discriminate. Qed.
Lemma placid_bool : placid c_bool. Proof. discriminate. Qed.
Lemma placid_int : placid c_int. Proof. discriminate. Qed.
Lemma placid_slice X (c : codec X) z : placid c -> placid (c_slice c z).
Proof. intros H l. cbn [enc c_slice]. destruct l; [discriminate|]. apply bindR_calm; [now apply calm_mapR|discriminate]. Qed.
Lemma placid_ptr X (c : codec X) z : placid c -> placid (c_ptr c z).
Proof. intros H [x|]; [apply H|discriminate]. Qed.
Lemma placid_ptrs X (c : codec X) z : placid c -> placid (c_ptrs c z).
Proof. intros H. now apply placid_slice, placid_ptr. Qed.
Lemma placid_struct A (fs : list (field A)) : fold_right and True (map (fun f => placid (f_codec f)) fs) -> placid (c_struct fs).
Proof.
  intros H a. cbn [enc c_struct]. apply bindR_calm; [|discriminate].
  induction fs as [|f fs IH]; cbn [enc_fields]; [discriminate|]. destruct H as (F & H). apply bindR_calm.
  - unfold f_enc. destruct (_ && _)%bool; [discriminate|]. apply bindR_calm; [apply F|discriminate].
  - intros o. apply bindR_calm; [now apply IH|discriminate].
Qed.
Lemma placid_text X (m : X -> res string) u : (forall x, m x <> Panic) -> placid (c_text m u).
Proof. intros H x. apply bindR_calm; [apply H|discriminate]. Qed.
Ltac cases := repeat (match goal with |- context [match ?e with _ => _ end] => destruct e end; try discriminate).
Lemma placid_element_id : placid c_element_id. Proof. apply placid_text. discriminate. Qed.
Lemma placid_document_id : placid c_document_id. Proof. apply placid_text. discriminate. Qed.
Lemma placid_reference : placid c_doc_element_id.
Proof. apply placid_text. intros d. unfold marshal_doc_element_id. cbv zeta. cases. Qed.
Lemma placid_creator : placid c_creator.
Proof. apply placid_text. intros d. unfold marshal_actor. cases. Qed.
Lemma placid_annotator : placid c_annotator.
Proof. apply placid_text. intros d. unfold marshal_actor. cases. Qed.
Lemma placid_supplier : placid c_supplier.
Proof. apply placid_text. intros d. unfold marshal_agent. cases. Qed.
Lemma placid_originator : placid c_originator.
Proof. apply placid_text. intros d. unfold marshal_agent. cases. Qed.
Lemma placid_strings : placid c_strings. Proof. apply placid_slice, placid_string. Qed.
Create HintDb placid.
Global Hint Resolve placid_string placid_bool placid_int placid_slice placid_ptr placid_ptrs placid_strings placid_element_id
  placid_document_id placid_reference placid_creator placid_annotator placid_supplier placid_originator : placid.
Ltac placid_fields := apply placid_struct; cbn [map fold_right app]; cbv [req opt]; cbn [f_codec];
  repeat split; repeat first [exact I | solve [auto with placid] | apply placid_strings | apply placid_ptrs | apply placid_slice | apply placid_ptr].
Lemma placid_checksum : placid c_checksum. Proof. placid_fields. Qed.
Lemma placid_code : placid c_verification_code. Proof. placid_fields. Qed.
Lemma placid_pointer : placid c_range_pointer. Proof. placid_fields. Qed.
Global Hint Resolve placid_checksum placid_code placid_pointer : placid.
Lemma placid_range : placid c_range. Proof. placid_fields. Qed.
Lemma placid_external_document : placid c_external_document_ref. Proof. placid_fields. Qed.
Lemma placid_creation : placid c_creation_info. Proof. placid_fields. Qed.
Lemma placid_relationship : placid c_relationship. Proof. placid_fields. Qed.
Lemma placid_annotation : placid c_annotation. Proof. placid_fields. Qed.
Lemma placid_license : placid c_other_license. Proof. placid_fields. Qed.
Lemma placid_artifact : placid c_artifact. Proof. placid_fields. Qed.
Lemma placid_plain_ref : placid (c_struct external_ref_fields). Proof. placid_fields. Qed.
Global Hint Resolve placid_range placid_external_document placid_creation placid_relationship placid_annotation
  placid_license placid_artifact : placid.
Lemma placid_external_ref v : placid (c_external_ref v).
Proof. destruct v; [exact placid_plain_ref|..]; intros r; exact (placid_plain_ref _). Qed.
Lemma placid_snippet v : placid (c_snippet v). Proof. destruct v; placid_fields. Qed.
Lemma placid_file v : placid (c_file v). Proof. destruct v; placid_fields. Qed.
Lemma placid_package_code v : placid (c_package_code v).
Proof. destruct v; [..|cbn [c_package_code]; auto with placid]; intros o; exact (placid_code _). Qed.
Global Hint Resolve placid_external_ref placid_snippet placid_file placid_package_code : placid.
Lemma placid_package_struct v : placid (c_struct (package_fields v)).
Proof. destruct v; cbv [package_fields opt_in_23 app]; placid_fields. Qed.
Lemma placid_package v : placid (c_package v).
Proof.
  intros (p, files). destruct v; cbn [enc c_package fst]; try apply placid_package_struct.
  unfold marshal_package_22. apply bindR_calm; [apply placid_package_struct|]. intros j.
  destruct (p_VerificationCode p) as [c|]; [destruct (zero_code c)|]; discriminate.
Qed.
Global Hint Resolve placid_package : placid.
Lemma placid_document_struct v : placid (c_document_struct v). Proof. placid_fields. Qed.
Lemma marshal_no_panic v h d : marshal_document v h d <> Panic.
Proof. unfold marshal_document. cbv zeta. apply bindR_calm; [apply placid_document_struct|discriminate]. Qed.
Lemma json_write_no_panic v h ind d : json_write v h ind d <> Panic.
Proof. unfold json_write. apply bindR_calm; [apply marshal_no_panic|discriminate]. Qed.
