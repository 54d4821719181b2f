(** * Properties of written JSON (C37) *)
From Verif Require Import GoStr GoStrFacts Types TvUtil TvParser SpecTv SpecId SpecDoc Json JsonSpdx SpecJson SpecJsonWrite JsonWriteFacts JsonWriteDoc JsonWriteOk PropsJson.
Local Open Scope string_scope.

(** ** C37: the JSON written has exactly the form of the document *)

(** Members, order and omissions of every object, and the spelling of every
    literal. *)
Theorem C37_written : forall v d j, marshal_document v false d = Ok j <-> document_form v d j.
Proof. exact writes_document. Qed.
Print Assumptions C37_written.
(** With HTML escaping, the default of the writer. *)
Theorem C37_written_safe : forall v d j, marshal_document v true d = Ok j <->
  exists j0, document_form v d j0 /\ safe_form j0 j.
Proof. exact writes_document_safe. Qed.
Print Assumptions C37_written_safe.
(** A document is refused only for references and actors that are missing. *)
Theorem C37_accepted : forall v h d, (exists j, marshal_document v h d = Ok j) <-> document_writable d.
Proof. exact takes_document. Qed.
Print Assumptions C37_accepted.
(** How the encoder spells text between quotation marks. *)
Theorem C37_spelling : forall h s r, spelled h s r <-> r = escape h s.
Proof. exact spelled_iff. Qed.
Print Assumptions C37_spelling.

Example C37_witness : forall v, document_writable (wj_document v) /\
  (exists j, document_form v (wj_document v) j) /\
  (exists r, spelled true ("a<b" ++ LF ++ String dquote (String (ch 200) "")) r /\
     r = "a" ++ String bslash "u003cb" ++ String bslash "n" ++ String bslash (String dquote (String bslash "ufffd"))).
Proof.
  intros v. assert (document_writable (wj_document v)) as W.
  { assert (annotation_writable wj_ann) as A by discriminate.
    assert (file_writable (wj_file v)) as Fi by (repeat constructor; exact A).
    assert (forall c, package_writable (wj_package v c)) as P.
    { intros c. split; [now left|]. split; [right; split; discriminate|]. repeat constructor; assumption. }
    split; [repeat constructor; discriminate|]. split; [constructor; [apply P|constructor; [exact I|constructor; [apply P|constructor]]]|].
    split; [constructor; [exact I|constructor; [exact Fi|constructor]]|].
    split; [|constructor; [exact A|constructor; [exact I|constructor]]].
    apply Forall_app. split; [destruct v; repeat constructor|].
    constructor; [|constructor; [|constructor]]; split; (left; discriminate) || (right; discriminate). }
  split; [exact W|]. split.
  - apply (C37_accepted v false) in W as (j & E). exists j. now apply C37_written.
  - eexists. split; [now apply C37_spelling|vm_compute; reflexivity].
Qed.
