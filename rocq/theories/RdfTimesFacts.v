(** How often the RDF reader reads a node. *)
From Coq Require Import Permutation Lia.
From Verif Require Import GoStr GoStrFacts Types TvUtil TvParser RdfConst Rdf RdfReader SpecTv SpecId SpecDoc SpecRdf SpecRdfDoc SpecRdfLoad
  SpecRdfContent SpecRdfWays TvReaderFacts RdfFacts RdfReadFacts RdfWalkFacts RdfLoadFacts RdfVisitFacts RdfContentFacts RdfWholeFacts RdfWaysFacts.

Section Times.
Variables (v : version) (g : graph) (G : ghost) (s : rstate) (d : node).
Hypothesis CN : consistent g.
Hypothesis NT : NoDup (g_triples g).
Hypothesis NR : NoDup (map n_id (g_roots g)).
Hypothesis O : ok v g G s.
Hypothesis R : rest g s.
Hypothesis DN : document_node g d.
Hypothesis ONE : forall m, document_node g m -> m = d.
Hypothesis DOC : forall u, In u (of_node g d) -> next_doc g G s u.
Hypothesis SNIP : forall n o, In n (flat_map (snippet_of g) (g_roots g)) -> snippet_needs g (of_node g n) o -> exists b, held G s o b.
Hypothesis MET : gh_met G = map said (allp g d).

Lemma held_file_times n b : held G s n b -> exists f, nth_error (rs_files s) b = Some f /\ reached g RFile n /\ file_times v g n f /\
  lookup (f_SPDXIdentifier f) (rs_map s) = Some b.
Proof.
  intros [(h & H) [(x & X & L)|[W _]]]; [|rewrite (no_grey g s R) in W; discriminate W].
  destruct (ok_file_dom _ _ _ _ O _ _ _ H) as [_ RN].
  destruct (ok_closed_file _ _ _ _ O b n h H (no_grey g s R n)) as (k & -> & Q). destruct (Q x X L) as [E1 E]. clear Q.
  destruct (iv_map _ _ _ (rt_inv _ _ R) _ _ L) as (f & F & ID). exists f. split; [exact F|]. split; [exact RN|]. split; [|congruence].
  exists (map path (filter (leads AtFile n) (allp g d))). split; [apply (listing_to g NT d DN ONE NR); simpl; auto|].
  rewrite MET, (times_file g d DN CN n RN) in E. split; [intros Z; rewrite Z in E; cbn in E; lia|]. rewrite <- E. destruct (ok_file _ _ _ _ O b f F) as (n' & h' & E' & SY).
  assert (n' = n /\ h' = again k (of_node g n)) as [-> ->] by (split; congruence). exact SY.
Qed.
Lemma held_pkg_times n a : held_pkg G s n a -> exists p, nth_error (rs_pkgs s) a = Some p /\ In a (d_Packages (rs_doc s)) /\
  reached g RPackage n /\ package_times v g n (deref_pkg s p).
Proof.
  intros [(h & H) [X|[W _]]]; [|rewrite (no_grey g s R) in W; discriminate W].
  destruct (ok_pkg_dom _ _ _ _ O _ _ _ H) as [L RN].
  destruct (ok_closed_pkg _ _ _ _ O a n h H (no_grey g s R n)) as (k & -> & Q). destruct (Q X) as [E1 E]. clear Q.
  destruct (nth_error (rs_pkgs s) a) as [p|] eqn:P; [|apply nth_error_None in P; lia]. exists p. split; [reflexivity|]. split; [exact X|]. split; [exact RN|].
  exists (map path (filter (leads AtPackage n) (allp g d))). split; [apply (listing_to g NT d DN ONE NR); simpl; auto|].
  rewrite MET, (times_package g d DN CN n RN) in E. split; [intros Z; rewrite Z in E; cbn in E; lia|]. rewrite <- E. destruct (ok_pkg _ _ _ _ O a p P) as (n' & h' & E' & SY).
  assert (n' = n /\ h' = again k (of_node g n)) as [-> ->] by (split; congruence).
  destruct SY. split; try assumption. cbn [deref_pkg p_Files]. clear E' E E1 H. induction ps_files as [|o b l l' Y F IH]; [constructor|].
  unfold deref_files. cbn [flat_map]. destruct (held_file_times o b Y) as (f & -> & _ & FE & _). constructor; [exact FE|exact IH].
Qed.
Lemma kinds_of {A B} (P Q : A -> B -> Prop) l m : (forall x y, P x y -> Q x y) -> Forall2 P l m -> Forall2 Q l m.
Proof. intros H F. induction F; constructor; auto. Qed.
Variable iter : list (string * nat) -> list (string * nat).
Hypothesis SH : shuffle iter.
Lemma by_ways : read_by_ways v g (deref_doc (on_doc (fun d => set_d_Files (unpackaged iter s) d) s)).
Proof.
  pose proof (reached_met v g G s d O R ONE DOC SNIP) as RM. split.
  - apply Forall_forall. intros f I. apply (in_all_files v g G s O R iter SH) in I as (b & F & L).
    destruct (ok_file _ _ _ _ O b f F) as (n & h & E & SY). exists n. destruct (held_file_times n b) as (x & X & RN & FT & _).
    + split; [eauto|]. left. exists (f_SPDXIdentifier f). split; [exact (fs_id _ _ _ _ _ SY)|exact L].
    + assert (x = f) by congruence. subst x. auto.
  - intros n RN. destruct (RM _ _ RN) as (b & X). destruct (held_file_times n b X) as (f & F & _ & FT & L). apply Exists_exists. exists f.
    split; [|exact FT]. apply (in_all_files v g G s O R iter SH). eauto.
  - apply Forall_forall. intros q I. cbn [deref_doc d_Packages on_doc set_rs_doc rs_doc set_d_Files] in I. change (deref_pkgs (on_doc _ s)) with (deref_pkgs s) in I.
    apply in_deref_pkgs in I as (a & p & IA & P & ->). destruct (ok_pkg _ _ _ _ O a p P) as (n & h & E & _). exists n.
    destruct (held_pkg_times n a) as (p' & P' & _ & RN & PT); [split; [eauto|now left]|]. assert (p' = p) by congruence. subst p'. auto.
  - intros n RN. destruct (RM _ _ RN) as (a & X). destruct (held_pkg_times n a X) as (p & P & IA & _ & PT). apply Exists_exists. exists (deref_pkg s p).
    split; [|exact PT]. cbn [deref_doc d_Packages on_doc set_rs_doc rs_doc set_d_Files]. change (deref_pkgs (on_doc _ s)) with (deref_pkgs s).
    apply in_deref_pkgs. eauto.
  - exists (map path (filter (is_kind AtRelationship) (allp g d))). split; [apply (listing_any g NT d DN ONE NR); simpl; auto|].
    apply (along (fun t r => relationship_says g t (of_node g (t_obj t)) r)). rewrite <- (said_relationships g d DN), <- MET, <- (ok_rel_met _ _ _ _ O).
    eapply kinds_of; [|exact (ok_rel _ _ _ _ O)]. intros x y [_ H]. exact H.
  - exists (map path (filter (is_kind AtAnnotation) (allp g d))). split; [apply (listing_any g NT d DN ONE NR); simpl; auto|].
    apply (along (fun t r => annotation_says (of_node g (t_obj t)) r)). rewrite <- (said_annotations g d DN), <- MET, <- (ok_ann_met _ _ _ _ O).
    eapply kinds_of; [|exact (ok_ann _ _ _ _ O)]. intros x y [_ H]. exact H.
Qed.
End Times.

Theorem load_by_ways v g iter d : consistent g -> no_repeats g -> shuffle iter -> load v g iter = Ok d -> read_by_ways v g d.
Proof.
  intros CN [NT NR] SH H. rewrite load_split in H. apply bind_ok in H as (s & H & E). injection E as <-.
  destruct (roots_content v g CN s H) as (n & D & ONE & [R S (G & sis & O & ND & F2 & HN & SP & M)]).
  unfold on_doc. rewrite (rt_files _ _ R). exact (by_ways v g G s n CN NT NR O R D ONE ND HN (eq_trans M (eq_sym (allp_said g n))) iter SH).
Qed.
