(** C54: the size of a document that is read from RDF. *)
From Coq Require Import Lia.
From Verif Require Import GoStr Types TvUtil RdfConst Rdf RdfReader SpecRdf SpecRdfDoc SpecRdfLoad SpecRdfContent SpecRdfWays RdfLadder.

(** There is no bound on the size of the document in terms of the statements that
    is not exponential: for every k some graph of 6k + 13 different statements, all
    of them well formed, is read by both readers into a document with at least 2^k
    relationships.  (It has k + 1 relationship nodes and k + 1 file nodes: every
    file depends on the next one and has a relationship to it.) *)
Theorem C54_exponential : forall k, exists g,
  consistent g /\ no_repeats g /\ List.length (g_triples g) = 6 * k + 13 /\
  forall v iter, shuffle iter -> exists d, load v g iter = Ok d /\ 2 ^ k <= List.length (d_Relationships d).
Proof.
  intros k. exists (ladder (S k)). split; [apply ladder_consistent|]. split; [apply ladder_no_repeats|]. split.
  - rewrite ladder_length. lia.
  - intros v iter. apply ladder_grows.
Qed.
Print Assumptions C54_exponential.
(** for instance 31 statements and 16 relationships (for k = 3) *)
Example C54_exponential_witness : shuffle (fun m => m) /\ List.length (g_triples (ladder 4)) = 31 /\
  match load V22 (ladder 4) (fun m => m) with Ok d => List.length (d_Relationships d) | _ => 0 end = 16.
Proof. split; [intros m; reflexivity|]. split; vm_compute; reflexivity. Qed.
