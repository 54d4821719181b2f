(** * Property C40: which documents of the older versions come along whole.

    When a document of version 2.1 or 2.2 is converted, a pointer to an empty
    structure can be lost.  For documents that were read from tag-value text this
    says which parts those can be. *)
From Verif Require Import GoStr GoStrFacts Types TvUtil TvReader TvParser SpecTv SpecId SpecDoc Convert SpecConvert ConvertGo SpecUpgrade ConvertRecord TvParserFacts PropsTvParser PropsConvert SpecFilled FilledFacts.

(** A document that was read from text of an older version has no pointer to an empty structure exactly if
    none of these parts is empty. *)
Theorem C40_comes_along : forall v d, v <> V23 -> well_formed v d -> (solid (go_document v d) <-> nothing_empty d).
Proof. exact filled_solid. Qed.
Print Assumptions C40_comes_along.

(** So, for every text in tag-value format of an older version: if the document it stands for
    has no empty part, Read returns the 2.3 document with the same content. *)
Theorem C40_read_filled : forall dz text v d, read_into text = Ok (v, Some d) -> v <> V23 -> nothing_empty d ->
  tagvalue_read dz V23 text = Ok (go_document V23 (in_version v V23 d)).
Proof.
  intros dz text v d R V N. apply public_read; [exact R|]. apply C40_comes_along; [exact V|exact (C07_well_formed _ _ _ R)|exact N].
Qed.
Print Assumptions C40_read_filled.

(** The condition is met by the document of a text with every kind of part ... *)
Example C40_filled_witness : exists d, read_into C40_text = Ok (V21, Some d) /\ nothing_empty d /\ d_Packages d <> [] /\ d_OtherLicenses d <> [] /\ d_CreationInfo d <> None.
Proof.
  destruct (read_into C40_text) as [[v [d|]]| |] eqn:R; [|vm_compute in R; discriminate..].
  assert (v = V21) as -> by (vm_compute in R; congruence).
  exists d. split; [reflexivity|]. pose proof (C07_well_formed _ _ _ R) as W. vm_compute in R. injection R as R.
  split; [apply (C40_comes_along V21 d ltac:(discriminate) W); subst d; apply solidb_solid; vm_compute; reflexivity|]. subst d. repeat split; discriminate.
Qed.
(** ... and cannot be dropped: if the library passes over pointers to zero values, Read loses the creation
    information of a 2.2 text that has the tag Created with nothing after it, and keeps that of the 2.3 text. *)
Definition C40_empty_text (version : string) : string := String.concat LF
  ["SPDXVersion: " ++ version; "DataLicense: CC0-1.0"; "SPDXID: SPDXRef-DOCUMENT"; "DocumentName: d"; "DocumentNamespace: https://x"; "Created: "; ""].
Theorem C40_empty_created_refuted : exists fs fs',
  tagvalue_read true V23 (C40_empty_text "SPDX-2.2") = Ok (VStruct fs) /\ In ("CreationInfo", VNil) fs /\
  tagvalue_read true V23 (C40_empty_text "SPDX-2.3") = Ok (VStruct fs') /\ In ("CreationInfo", VPtr (go_creation_info (MkCI "" [] "" ""))) fs'.
Proof.
  eexists. eexists. split; [vm_compute; reflexivity|]. split; [cbn [In]; tauto|]. split; [vm_compute; reflexivity|]. cbn [In go_creation_info go_list]. tauto.
Qed.
Print Assumptions C40_empty_created_refuted.
