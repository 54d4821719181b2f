(** * Property of the RDF reader: a node is read once for every way to it (C54). *)
From Coq Require Import Permutation Lia.
From Verif Require Import GoStr GoStrFacts Types TvUtil TvParser RdfConst Rdf RdfReader SpecTv SpecId SpecDoc SpecRdf SpecRdfDoc SpecRdfLoad
  SpecRdfContent SpecRdfWays TvReaderFacts RdfFacts RdfHelperFacts RdfVisitFacts RdfWaysFacts RdfTimesFacts PropsRdf PropsRdfLoad PropsRdfContent.

(** In a graph without repeated statements, the statements of a file or package are
    read exactly as often as there are ways to it that enter no file, package or
    relationship twice, and the document has exactly one relationship for each way
    to a relationship and one annotation for each way to an annotation. *)
Theorem C54_ways : forall v g iter d, consistent g -> no_repeats g -> shuffle iter -> load v g iter = Ok d -> read_by_ways v g d.
Proof. exact load_by_ways. Qed.
Print Assumptions C54_ways.

(** So a file or package to which there is only one way has exactly the values its
    node states: nothing is repeated. *)
Definition one_way (g : graph) (st : stage) (n : node) : Prop := forall p q, way_to g st n p -> way_to g st n q -> p = q.
Lemma listing_one {A} (P : A -> Prop) l : listing P l -> (forall p q, P p -> P q -> p = q) -> List.length l <= 1.
Proof.
  intros [N H] U. destruct l as [|a [|b l]]; [cbn; auto|cbn; auto|]. exfalso. inversion N as [|? ? N1 N2]; subst. apply N1. left.
  apply U; apply H; simpl; auto.
Qed.
Lemma again_one ts : again 1 ts = ts.
Proof. reflexivity. Qed.
Theorem C54_once : forall v g iter d n, consistent g -> no_repeats g -> shuffle iter -> load v g iter = Ok d ->
  reached g RFile n -> one_way g AtFile n -> Exists (file_says v g n (of_node g n)) (all_files d).
Proof.
  intros v g iter d n CN NR SH L RN OW. pose proof (load_by_ways v g iter d CN NR SH L) as W.
  pose proof (bw_all_files _ _ _ W n RN) as X. apply Exists_exists in X as (f & I & ws & LI & NE & FS).
  apply Exists_exists. exists f. split; [exact I|]. pose proof (listing_one _ _ LI OW) as L1.
  destruct ws as [|w [|w' ws]]; [contradiction|exact FS|cbn in L1; lia].
Qed.
Print Assumptions C54_once.
Theorem C54_once_package : forall v g iter d n, consistent g -> no_repeats g -> shuffle iter -> load v g iter = Ok d ->
  reached g RPackage n -> one_way g AtPackage n -> Exists (package_says v g (file_times v g) n (of_node g n)) (d_Packages d).
Proof.
  intros v g iter d n CN NR SH L RN OW. pose proof (load_by_ways v g iter d CN NR SH L) as W.
  pose proof (bw_all_packages _ _ _ W n RN) as X. apply Exists_exists in X as (f & I & ws & LI & NE & FS).
  apply Exists_exists. exists f. split; [exact I|]. pose proof (listing_one _ _ LI OW) as L1.
  destruct ws as [|w [|w' ws]]; [contradiction|exact FS|cbn in L1; lia].
Qed.
Print Assumptions C54_once_package.

(** ** A document that meets the hypotheses *)
Definition triple_dec (a b : triple) : {a = b} + {a <> b}.
Proof. repeat decide equality. Defined.
Lemma nodup_by {A} (dec : forall a b : A, {a = b} + {a <> b}) l : List.length (nodup dec l) = List.length l -> NoDup l.
Proof.
  induction l as [|a l IH]; intros E; [constructor|]. cbn [nodup List.length] in E. destruct (in_dec dec a l) as [I|I].
  - exfalso. pose proof (NoDup_incl_length (NoDup_nodup dec l) (fun x H => proj1 (nodup_In dec l x) H)). lia.
  - constructor; [exact I|]. apply IH. cbn [List.length] in E. lia.
Qed.
Lemma rich_no_repeats : no_repeats rich.
Proof. split; [apply (nodup_by triple_dec)|apply (nodup_by string_dec)]; vm_compute; reflexivity. Qed.
Lemma rich_document : document_node rich (ref "DOCUMENT") /\ forall m, document_node rich m -> m = ref "DOCUMENT".
Proof.
  split; [split; [now left|vm_compute; reflexivity]|]. intros m [[<-|[<-|[]]] H]; [reflexivity|]. vm_compute in H. discriminate H.
Qed.
(** there is one way to the package, but there are two to the file: through the
    package and through the snippet *)
Example C54_witness : consistent rich /\ no_repeats rich /\ shuffle (fun m => m) /\ one_way rich AtPackage (ref "P") /\
  (exists p q, p <> q /\ listing (way_to rich AtFile (ref "F")) [p; q]) /\
  exists d, load V23 rich (fun m => m) = Ok d /\ map (fun p => map f_Contributors (p_Files p)) (d_Packages d) = [[["c"; "c"]]].
Proof.
  destruct rich_document as [D ONE]. split; [exact rich_consistent|]. split; [exact rich_no_repeats|]. split; [intros m; reflexivity|].
  destruct rich_no_repeats as [N1 N2]. split; [|split].
  - pose proof (listing_to rich N1 _ D ONE N2 AtPackage (ref "P") ltac:(simpl; auto)) as [_ H]. intros p q P Q. apply H in P. apply H in Q.
    vm_compute in P, Q. destruct P as [<-|[]], Q as [<-|[]]. reflexivity.
  - pose proof (listing_to rich N1 _ D ONE N2 AtFile (ref "F") ltac:(simpl; auto)) as H.
    destruct (map path (filter (leads AtFile (ref "F")) (allp rich (ref "DOCUMENT")))) as [|p [|q [|r l]]] eqn:E;
      apply (f_equal (@List.length _)) in E; vm_compute in E; try discriminate E. exists p, q. split; [|exact H].
    intros ->. destruct H as [N _]. inversion N as [|? ? X _]. apply X. now left.
  - assert (E : match load V23 rich (fun m => m) with
      | Ok d => map (fun p => map f_Contributors (p_Files p)) (d_Packages d) | _ => [] end = [[["c"; "c"]]]) by (vm_compute; reflexivity).
    destruct (load V23 rich (fun m => m)) as [d| |]; [|discriminate E|discriminate E]. exists d. auto.
Qed.
