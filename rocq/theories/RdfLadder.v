(** A family of RDF graphs, ladders, whose documents grow exponentially. *)
From Coq Require Import Permutation Lia.
From Verif Require Import GoStr GoStrFacts Types TvUtil TvParser RdfConst Rdf RdfReader SpecTv SpecId SpecDoc SpecRdf SpecRdfDoc SpecRdfLoad
  SpecRdfContent SpecRdfWays SpecRdfAccept TvReaderFacts TvUtilFacts RdfFacts RdfHelperFacts RdfNodeFacts RdfStepFacts RdfContentFacts RdfWholeFacts
  RdfAcceptedFacts PropsRdf PropsRdfLoad PropsRdfContent PropsRdfWays PropsRdfAccept.

(** ** A ladder: every file depends on the next one and is also related to it *)
Fixpoint xs (i : nat) : string := match i with O => "" | S i => String "x" (xs i) end.
Definition F (i : nat) : node := ref (xs i ++ "-F").
Definition R (i : nat) : node := iri (xs i ++ "-R").
Definition D : node := iri "D".
Definition DOC : node := ref "DOCUMENT".
Definition depends := term "relationshipType_dependsOn".
Definition file_stmts (i : nat) : list triple :=
  [st (F i) rdf_type (term "File"); st (F i) (spdx "fileDependency") (F (S i)); st (F i) (spdx "relationship") (R i)].
Definition rel_stmts (n : node) (i : nat) : list triple :=
  [st n rdf_type (term "Relationship"); st n (spdx "relationshipType") depends; st n (spdx "relatedSpdxElement") (F i)].
Fixpoint rungs (i n : nat) : list triple :=
  match n with
  | O => [st (F i) rdf_type (term "File")]
  | S n => (file_stmts i ++ rel_stmts (R i) (S i) ++ rungs (S i) n)%list
  end.
Definition doc_stmts : list triple := (d_stmts ++ [st DOC (spdx "relationship") D])%list.
Definition ladder (k : nat) : graph := MkGraph (doc_stmts ++ rel_stmts D 0 ++ rungs 0 k) [DOC] (fun _ => true).

(** *** names *)
Lemma xs_inj a b : xs a = xs b -> a = b.
Proof. revert b. induction a as [|a IH]; intros [|b] E; try discriminate E; [reflexivity|]. injection E as E. now rewrite (IH b E). Qed.
Lemma xs_clean c i : c <> "x"%char -> has_byte c (xs i) = false.
Proof. intros N. induction i as [|i IH]; [reflexivity|]. cbn [xs has_byte]. rewrite IH, orb_false_r. apply Ascii.eqb_neq. congruence. Qed.
Lemma F_id i : n_id (F i) = "http://e.org" ++ "#" ++ "SPDXRef-" ++ xs i ++ "-F".
Proof. reflexivity. Qed.
Lemma R_id i : n_id (R i) = "http://e.org#" ++ xs i ++ "-R".
Proof. reflexivity. Qed.
Lemma F_inj a b : n_id (F a) = n_id (F b) -> a = b.
Proof. rewrite !F_id. intros E. do 3 apply app_inj_l in E. apply app_inj_r in E. now apply xs_inj. Qed.
Lemma R_inj a b : n_id (R a) = n_id (R b) -> a = b.
Proof. rewrite !R_id. intros E. apply app_inj_l in E. apply app_inj_r in E. now apply xs_inj. Qed.
Lemma FR a b : n_id (F a) <> n_id (R b).
Proof. rewrite F_id, R_id. intros E. apply (app_inj_l "http://e.org#") in E. destruct b; discriminate E. Qed.
Lemma F_DOC a : n_id (F a) <> n_id DOC.
Proof. rewrite F_id. intros E. apply (app_inj_l "http://e.org#SPDXRef-" _ "DOCUMENT") in E. destruct a; discriminate E. Qed.
Lemma R_DOC a : n_id (R a) <> n_id DOC.
Proof. rewrite R_id. intros E. apply (app_inj_l "http://e.org#" _ "SPDXRef-DOCUMENT") in E. destruct a; discriminate E. Qed.
Lemma F_D a : n_id (F a) <> n_id D.
Proof. rewrite F_id. intros E. apply (app_inj_l "http://e.org#" _ "D") in E. discriminate E. Qed.
Lemma R_D a : n_id (R a) <> n_id D.
Proof. rewrite R_id. intros E. apply (app_inj_l "http://e.org#" _ "D") in E. destruct a as [|[|a]]; discriminate E. Qed.
Lemma F_file i : file_id (F i) (xs i ++ "-F").
Proof.
  assert (T : trim_space (n_id (F i)) = n_id (F i)).
  { apply trim_space_id. split; [reflexivity|]. change (n_id (F i)) with ("http://e.org#SPDXRef-" ++ xs i ++ String "-" "F").
    rewrite <- app_assoc_s. rewrite ends_space_app; [reflexivity|discriminate|reflexivity]. }
  split; [rewrite T; left; split; [exists "http://e.org"; reflexivity|]|split; [destruct i; discriminate|]];
    rewrite not_occurs_byte; rewrite ?has_byte_app, (xs_clean _ i) by discriminate; reflexivity.
Qed.
Lemma F_reference i : reference_term (n_id (F i)) (MkDEID "" (xs i ++ "-F") "").
Proof.
  destruct (F_file i) as [_ OK].
  assert (T : trim_space ("SPDXRef-" ++ xs i ++ "-F") = "SPDXRef-" ++ xs i ++ "-F").
  { apply trim_space_id. split; [reflexivity|]. change ("SPDXRef-" ++ xs i ++ "-F") with ("SPDXRef-" ++ xs i ++ String "-" "F").
    rewrite <- app_assoc_s. rewrite ends_space_app; [reflexivity|discriminate|reflexivity]. }
  exists ("SPDXRef-" ++ xs i ++ "-F"). split; [left; split; [exists "http://e.org"; reflexivity|]; rewrite not_occurs_byte, !has_byte_app, (xs_clean _ i) by discriminate; reflexivity|].
  right. split; [|split; [split; [reflexivity|]; split; [exact OK|now left]|left; auto]].
  unfold special_value. rewrite T. intros [E|[E|[]]]; discriminate E.
Qed.

(** *** the statements about each node *)
Lemma of_node_app a b r v n : of_node (MkGraph (a ++ b) r v) n = (of_node (MkGraph a r v) n ++ of_node (MkGraph b r v) n)%list.
Proof. unfold of_node. cbn [g_triples]. apply filter_app. Qed.
Lemma of_node_all l r v n : Forall (fun t => t_subj t = n) l -> of_node (MkGraph l r v) n = l.
Proof.
  intros H. unfold of_node. cbn [g_triples]. induction H as [|t l E H IH]; [reflexivity|]. cbn [filter]. rewrite E, String.eqb_refl.
  replace (same_kind (n_type n) (n_type n)) with true by (destruct (n_type n); cbn; now rewrite ?String.eqb_refl). cbn [andb]. now rewrite IH.
Qed.
Lemma of_node_none l r v n : Forall (fun t => n_id (t_subj t) <> n_id n) l -> of_node (MkGraph l r v) n = [].
Proof.
  intros H. unfold of_node. cbn [g_triples]. induction H as [|t l E H IH]; [reflexivity|]. cbn [filter]. apply String.eqb_neq in E. now rewrite E, andb_false_r.
Qed.
Lemma rungs_subject i n t : In t (rungs i n) -> exists j, i <= j <= i + n /\ (t_subj t = F j \/ t_subj t = R j).
Proof.
  revert i. induction n as [|n IH]; intros i I; cbn [rungs] in I.
  - destruct I as [<-|[]]. exists i. split; [lia|]. now left.
  - apply in_app_or in I as [I|I]; [|apply in_app_or in I as [I|I]].
    + exists i. split; [lia|]. left. destruct I as [<-|[<-|[<-|[]]]]; reflexivity.
    + exists i. split; [lia|]. right. destruct I as [<-|[<-|[<-|[]]]]; reflexivity.
    + destruct (IH (S i) I) as (j & B & C). exists j. split; [lia|exact C].
Qed.
Section Of.
Variables (r : list node) (v : string -> bool).
Lemma all_file i : Forall (fun t => t_subj t = F i) (file_stmts i).
Proof. repeat constructor. Qed.
Lemma all_rel n i : Forall (fun t => t_subj t = n) (rel_stmts n i).
Proof. repeat constructor. Qed.
Lemma all_not l n m : Forall (fun t => t_subj t = n) l -> n_id n <> n_id m -> Forall (fun t => n_id (t_subj t) <> n_id m) l.
Proof. intros H N. eapply Forall_impl; [|exact H]. intros t E. now rewrite E. Qed.
Lemma rungs_none i n m : (forall j, i <= j -> n_id (F j) <> n_id m /\ n_id (R j) <> n_id m) -> Forall (fun t => n_id (t_subj t) <> n_id m) (rungs i n).
Proof.
  intros H. apply Forall_forall. intros t I. destruct (rungs_subject i n t I) as (j & B & [E|E]); rewrite E; apply H; lia.
Qed.
Lemma rungs_F i n j : of_node (MkGraph (rungs i n) r v) (F j) =
  if Nat.ltb j i then [] else if Nat.ltb j (i + n) then file_stmts j else if Nat.eqb j (i + n) then [st (F j) rdf_type (term "File")] else [].
Proof.
  revert i. induction n as [|n IH]; intros i; cbn [rungs].
  - rewrite Nat.add_0_r. destruct (Nat.eqb_spec j i) as [->|N].
    + rewrite Nat.ltb_irrefl. apply of_node_all. repeat constructor.
    + rewrite of_node_none; [|constructor; [|constructor]; intros E; apply N; symmetry; exact (F_inj _ _ E)]. destruct (Nat.ltb j i); reflexivity.
  - rewrite !of_node_app, IH.
    rewrite (of_node_none (rel_stmts (R i) (S i))); [|apply all_not with (1 := all_rel _ _); intros E; exact (FR _ _ (eq_sym E))]. cbn [app].
    destruct (Nat.eqb_spec i j) as [<-|N].
    + rewrite (of_node_all _ _ _ _ (all_file i)). replace (Nat.ltb i (S i)) with true by (symmetry; apply Nat.ltb_lt; lia).
      rewrite Nat.ltb_irrefl. replace (Nat.ltb i (i + S n)) with true by (symmetry; apply Nat.ltb_lt; lia). apply app_nil_r.
    + rewrite (of_node_none (file_stmts i)); [|apply all_not with (1 := all_file _); intros E; apply N; exact (F_inj _ _ E)]. cbn [app].
      replace (Nat.ltb j (S i)) with (Nat.ltb j i); [now replace (S i + n) with (i + S n) by lia|].
      destruct (Nat.ltb_spec j i), (Nat.ltb_spec j (S i)); try reflexivity; lia.
Qed.
Lemma rungs_R i n j : of_node (MkGraph (rungs i n) r v) (R j) =
  if Nat.ltb j i then [] else if Nat.ltb j (i + n) then rel_stmts (R j) (S j) else [].
Proof.
  revert i. induction n as [|n IH]; intros i; cbn [rungs].
  - rewrite Nat.add_0_r. rewrite of_node_none; [|constructor; [|constructor]; apply FR]. destruct (Nat.ltb j i); reflexivity.
  - rewrite !of_node_app, IH. rewrite (of_node_none (file_stmts i)); [|apply all_not with (1 := all_file _); apply FR]. cbn [app].
    destruct (Nat.eqb_spec i j) as [<-|N].
    + rewrite (of_node_all _ _ _ _ (all_rel _ _)). replace (Nat.ltb i (S i)) with true by (symmetry; apply Nat.ltb_lt; lia).
      rewrite Nat.ltb_irrefl. replace (Nat.ltb i (i + S n)) with true by (symmetry; apply Nat.ltb_lt; lia). apply app_nil_r.
    + rewrite of_node_none; [|apply all_not with (1 := all_rel _ _); intros E; apply N; exact (R_inj _ _ E)]. cbn [app].
      replace (Nat.ltb j (S i)) with (Nat.ltb j i); [now replace (S i + n) with (i + S n) by lia|].
      destruct (Nat.ltb_spec j i), (Nat.ltb_spec j (S i)); try reflexivity; lia.
Qed.
End Of.

Section Ladder.
Variable k : nat.
Notation g := (ladder k).
Lemma doc_all : Forall (fun t => t_subj t = DOC) doc_stmts.
Proof. repeat constructor. Qed.
Lemma of_DOC : of_node g DOC = doc_stmts.
Proof.
  unfold ladder. rewrite !of_node_app, (of_node_all _ _ _ _ doc_all).
  rewrite (of_node_none (rel_stmts D 0)); [|apply all_not with (1 := all_rel _ _); discriminate].
  rewrite (of_node_none (rungs 0 k)); [reflexivity|]. apply rungs_none. intros j _. split; [apply F_DOC|apply R_DOC].
Qed.
Lemma of_D : of_node g D = rel_stmts D 0.
Proof.
  unfold ladder. rewrite !of_node_app, (of_node_all _ _ _ _ (all_rel D 0)).
  rewrite (of_node_none doc_stmts); [|apply all_not with (1 := doc_all); discriminate].
  rewrite (of_node_none (rungs 0 k)); [reflexivity|]. apply rungs_none. intros j _. split; [apply F_D|apply R_D].
Qed.
Lemma of_F i : of_node g (F i) = if Nat.ltb i k then file_stmts i else if Nat.eqb i k then [st (F i) rdf_type (term "File")] else [].
Proof.
  unfold ladder. rewrite !of_node_app, rungs_F.
  rewrite (of_node_none doc_stmts); [|apply all_not with (1 := doc_all); intros E; exact (F_DOC _ (eq_sym E))].
  rewrite (of_node_none (rel_stmts D 0)); [reflexivity|]. apply all_not with (1 := all_rel _ _). intros E; exact (F_D _ (eq_sym E)).
Qed.
Lemma of_R i : of_node g (R i) = if Nat.ltb i k then rel_stmts (R i) (S i) else [].
Proof.
  unfold ladder. rewrite !of_node_app, rungs_R.
  rewrite (of_node_none doc_stmts); [|apply all_not with (1 := doc_all); intros E; exact (R_DOC _ (eq_sym E))].
  rewrite (of_node_none (rel_stmts D 0)); [reflexivity|]. apply all_not with (1 := all_rel _ _). intros E; exact (R_D _ (eq_sym E)).
Qed.
Lemma about_DOC : about g (n_id DOC) = doc_stmts.
Proof.
  unfold about, ladder. cbn [g_triples]. rewrite !filter_app.
  assert (N : forall l, Forall (fun t => n_id (t_subj t) <> n_id DOC) l -> filter (fun t => n_id (t_subj t) =? n_id DOC) l = []).
  { intros l H. induction H as [|t l E H IH]; [reflexivity|]. cbn [filter]. apply String.eqb_neq in E. now rewrite E. }
  rewrite (N (rel_stmts D 0)); [|apply all_not with (1 := all_rel _ _); discriminate].
  rewrite (N (rungs 0 k)); [reflexivity|]. apply rungs_none. intros j _. split; [apply F_DOC|apply R_DOC].
Qed.
Lemma typed_F i : i <= k -> typed_node g (F i) "File".
Proof.
  intros L. unfold typed_node. rewrite of_F. destruct (Nat.ltb_spec i k); [reflexivity|]. replace i with k by lia. rewrite Nat.eqb_refl. reflexivity.
Qed.
Lemma no_snippet n : snippet_node g n -> False.
Proof. intros (root & t & [<-|[]] & H & E & _). rewrite about_DOC in H. vm_compute in H. injection H as <-. vm_compute in E. discriminate E. Qed.
Lemma is_DOC n : document_node g n -> n = DOC.
Proof. intros [[<-|[]] _]. reflexivity. Qed.
Lemma DOC_is : document_node g DOC.
Proof. split; [now left|]. unfold typed_node. rewrite of_DOC. reflexivity. Qed.

Lemma ladder_reached r n : reached g r n ->
  match r with RFile => exists i, i <= k /\ n = F i | RRelationship => n = D \/ exists i, i < k /\ n = R i | _ => False end.
Proof.
  assert (FO : forall i p o, i <= k -> In o (objects p (of_node g (F i))) -> p <> rdf_type -> i < k /\
     ((p = spdx "fileDependency" /\ o = F (S i)) \/ (p = spdx "relationship" /\ o = R i))).
  { intros i p o L I N. apply in_objects in I as (t & T & P & <-). rewrite of_F in T. destruct (Nat.ltb_spec i k) as [L'|L'].
    - split; [exact L'|]. destruct T as [<-|[<-|[<-|[]]]]; cbn [t_pred t_obj st] in *; [congruence|auto|auto].
    - destruct (Nat.eqb i k); [|destruct T]. destruct T as [<-|[]]. cbn [t_pred st] in P. congruence. }
  assert (DO : forall p o, In o (objects p (of_node g DOC)) -> p <> rdf_type -> p <> spdx "specVersion" -> p = spdx "relationship" /\ o = D).
  { intros p o I N1 N2. apply in_objects in I as (t & T & P & <-). rewrite of_DOC in T. destruct T as [<-|[<-|[<-|[]]]]; cbn [t_pred t_obj st] in *; [congruence|congruence|auto]. }
  assert (RO : forall n o, n = D \/ (exists i, i < k /\ n = R i) -> In o (objects (spdx "relatedSpdxElement") (of_node g n)) -> exists i, i <= k /\ o = F i).
  { intros m o [->|(i & L & ->)] I; [rewrite of_D in I; destruct I as [<-|[]]; exists 0; split; [lia|reflexivity]|].
    rewrite of_R in I. destruct (Nat.ltb_spec i k); [|lia]. destruct I as [<-|[]]. exists (S i). split; [lia|reflexivity]. }
  intros H. induction H as [m o X I|m o X I|m o X I|m o X I|m r p q o X IR IQ IP I A|m q o X IQ I|m o H IH I|m o H IH I|m q o H IH IQ I|m o H IH I|m o H IH I|m q o H IH IQ I|m o H IH I T|m o H IH I T|m o H IH I];
    try (exfalso; eapply no_snippet; eassumption); try (now destruct IH).
  - apply is_DOC in X. subst m. apply DO in I as [E _]; discriminate.
  - apply is_DOC in X. subst m. apply DO in I as [_ ->]; [now left|discriminate|discriminate].
  - apply is_DOC in X. subst m. apply DO in I as [E _]; discriminate.
  - destruct IH as (i & L & ->). apply FO in I as (L' & [[_ ->]|[E _]]); [exists (S i); split; [lia|reflexivity]|discriminate E|exact L|discriminate].
  - destruct IH as (i & L & ->). apply FO in I as (L' & [[E _]|[_ ->]]); [discriminate E|right; eauto|exact L|discriminate].
  - destruct IH as (i & L & ->). assert (N : q <> rdf_type) by (destruct IQ as [<-|[<-|[]]]; discriminate).
    apply FO in I as (L' & [[-> _]|[-> _]]); [| |exact L|exact N]; destruct IQ as [E|[E|[]]]; discriminate E.
  - exact (RO m o IH I).
  - destruct (RO m o IH I) as (i & L & ->). pose proof (typed_F i L) as Q. unfold typed_node in Q, T. rewrite Q in T. discriminate T.
Qed.
Lemma ladder_consistent : consistent g.
Proof.
  split.
  - intros (r & n & r' & n' & A & B & E & N). apply ladder_reached in A. apply ladder_reached in B.
    destruct r, r'; try contradiction; try congruence.
    + destruct A as (i & _ & ->), B as [->|(j & _ & ->)]; [exact (F_D _ E)|exact (FR _ _ E)].
    + destruct B as (i & _ & ->), A as [->|(j & _ & ->)]; [exact (F_D _ (eq_sym E))|exact (FR _ _ (eq_sym E))].
  - intros n m id A B X Y. apply ladder_reached in A as (i & _ & ->). apply ladder_reached in B as (j & _ & ->).
    pose proof (file_id_fun _ _ _ (F_file i) X) as <-. pose proof (file_id_fun _ _ _ (F_file j) Y) as E. apply app_inj_r in E. now rewrite (xs_inj _ _ E).
  - intros n m id A. now apply ladder_reached in A.
  - intros n m A B E. apply ladder_reached in A. apply ladder_reached in B. destruct A as [->|(i & _ & ->)], B as [->|(j & _ & ->)]; try reflexivity.
    + now destruct (R_D j).
    + now destruct (R_D i).
    + now rewrite (R_inj _ _ E).
  - intros n m A B _. apply is_DOC in A. apply is_DOC in B. congruence.
Qed.
Lemma NoDup_app' {A} (a b : list A) : NoDup a -> NoDup b -> (forall x, In x a -> ~ In x b) -> NoDup (a ++ b).
Proof.
  intros H. induction H as [|x a N H IH]; intros NB DJ; [exact NB|]. cbn [app]. constructor.
  - rewrite in_app_iff. intros [I|I]; [contradiction|]. exact (DJ x (or_introl eq_refl) I).
  - apply IH; [exact NB|]. intros y I. apply DJ. now right.
Qed.
Lemma NoDup_preds l : NoDup (map t_pred l) -> NoDup l.
Proof. apply NoDup_map_inv. Qed.
Lemma three_preds (a b c : string) : a <> b -> a <> c -> b <> c -> NoDup [a; b; c].
Proof. intros X Y Z. repeat constructor; cbn [In]; intuition congruence. Qed.
Lemma rungs_NoDup i n : NoDup (rungs i n).
Proof.
  revert i. induction n as [|n IH]; intros i; cbn [rungs]; [repeat constructor; intros []|].
  assert (LATER : forall t m, t_subj t = m -> n_id m = n_id (F i) \/ n_id m = n_id (R i) -> ~ In t (rungs (S i) n)).
  { intros t m E X I. destruct (rungs_subject _ _ _ I) as (j & B & C). rewrite E in C. destruct C as [-> | ->], X as [X|X].
    - apply F_inj in X. lia.
    - exact (FR _ _ X).
    - exact (FR _ _ (eq_sym X)).
    - apply R_inj in X. lia. }
  apply NoDup_app'; [apply NoDup_preds, three_preds; discriminate|apply NoDup_app'; [apply NoDup_preds, three_preds; discriminate|apply IH|]|].
  - intros t I. pose proof (proj1 (Forall_forall _ _) (all_rel (R i) (S i)) t I) as E. apply (LATER t _ E). now right.
  - intros t I. pose proof (proj1 (Forall_forall _ _) (all_file i) t I) as E. rewrite in_app_iff. intros [J|J].
    + pose proof (proj1 (Forall_forall _ _) (all_rel (R i) (S i)) t J) as E'. apply (FR i i). now rewrite <- E, <- E'.
    + apply (LATER t _ E); [now left|exact J].
Qed.
Lemma ladder_no_repeats : no_repeats g.
Proof.
  split; [|repeat constructor; intros []]. cbn [ladder g_triples].
  apply NoDup_app'; [apply NoDup_preds, three_preds; discriminate|apply NoDup_app'; [apply NoDup_preds, three_preds; discriminate|apply rungs_NoDup|]|].
  - intros t I J. pose proof (proj1 (Forall_forall _ _) (all_rel D 0) t I) as E. destruct (rungs_subject _ _ _ J) as (j & _ & [X|X]); rewrite E in X.
    + apply (F_D j). now rewrite X.
    + apply (R_D j). now rewrite X.
  - intros t I J. pose proof (proj1 (Forall_forall _ _) doc_all t I) as E. apply in_app_or in J as [J|J].
    + pose proof (proj1 (Forall_forall _ _) (all_rel D 0) t J) as E'. cbn beta in E, E'. rewrite E in E'. discriminate E'.
    + destruct (rungs_subject _ _ _ J) as (j & _ & [X|X]); rewrite E in X; [apply (F_DOC j)|apply (R_DOC j)]; now rewrite X.
Qed.

(** *** the ladder can be read *)
Lemma one_read {A B} (P : A -> B -> Prop) d x y : P x y -> last_read P d [x] y.
Proof. intros H. split; [constructor; [eauto|constructor]|]. right. exists [], x. now split. Qed.
Lemma none_read {A B} (P : A -> B -> Prop) d : last_read P d [] d.
Proof. split; [constructor|]. left. now split. Qed.
Definition the_file (i : nat) (deps : list string) : File :=
  set_f_SPDXIdentifier (xs i ++ "-F") (set_f_Dependencies deps zero_FileOf).
Lemma file_reads v i : i <= k -> exists f : File, file_says v g (F i) (of_node g (F i)) f.
Proof.
  intros L. rewrite of_F. destruct (Nat.ltb_spec i k) as [L'|L'].
  - exists (the_file i [xs (S i) ++ "-F"]). split; try reflexivity; try apply Forall2_nil; try apply none_read.
    + unfold only. repeat constructor; vm_compute; tauto.
    + apply F_file.
    + change (objects (spdx "fileDependency") (file_stmts i)) with [F (S i)]. constructor; [apply F_file|constructor].
  - replace i with k by lia. rewrite Nat.eqb_refl. exists (the_file k []). split; try reflexivity; try apply Forall2_nil; try apply none_read.
    + unfold only. repeat constructor; vm_compute; tauto.
    + apply F_file.
Qed.
Lemma relationship_reads t i : i <= k -> (exists d, reference_term (n_id (t_subj t)) d) ->
  exists r, relationship_says g t (rel_stmts (t_obj t) i) r.
Proof.
  intros L (d & H). exists (MkRln d (MkDEID "" (xs i ++ "-F") "") "dependsOn" ""). split; cbn [r_RefA r_RefB r_Relationship r_Comment].
  - unfold only. repeat constructor; vm_compute; tauto.
  - exact H.
  - change (texts (spdx "relationshipType") (rel_stmts (t_obj t) i)) with [n_id depends]. apply one_read, relationship_type_spec. vm_compute. reflexivity.
  - change (objects (spdx "relatedSpdxElement") (rel_stmts (t_obj t) i)) with [F i]. apply one_read. eexists. split; [apply F_reference|].
    right. left. split; [now apply typed_F|]. exists (xs i ++ "-F"). split; [apply F_file|reflexivity].
  - reflexivity.
Qed.
Lemma ladder_statement p t : statement g p t -> p = rdf_type \/ p = spdx "specVersion" \/ p = spdx "fileDependency" \/
  (p = spdx "relationship" /\ (t = st DOC (spdx "relationship") D \/ exists i, i < k /\ t = st (F i) (spdx "relationship") (R i))).
Proof.
  intros (I & <- & [X|[X|X]]).
  - rewrite (is_DOC _ X), of_DOC in I. destruct I as [<-|[<-|[<-|[]]]]; auto 6.
  - apply ladder_reached in X as (i & L & E). rewrite E, of_F in I. destruct (Nat.ltb_spec i k) as [L'|L'].
    + destruct I as [<-|[<-|[<-|[]]]]; auto. do 3 right. split; [reflexivity|]. right. eauto.
    + destruct (Nat.eqb i k); [|destruct I]. destruct I as [<-|[]]. auto.
  - now apply ladder_reached in X.
Qed.
Lemma ladder_readable v : readable v g.
Proof.
  assert (NP : forall n, reached g RPackage n -> False) by (intros n H; exact (ladder_reached _ _ H)).
  split; try (intros n H; now destruct (NP _ H)); try (intros n H; now destruct (no_snippet _ H)).
  - intros n [<-|[]]. exists (spdx "SpdxDocument"). rewrite about_DOC. change (ref "DOCUMENT") with DOC. rewrite of_DOC. split; reflexivity.
  - exists DOC. exact DOC_is.
  - intros n m A B. now rewrite (is_DOC _ A), (is_DOC _ B).
  - intros n A. rewrite (is_DOC _ A), of_DOC.
    destruct (load V23 (d_graph []) (fun m => m)) as [d| |] eqn:E; [|vm_compute in E; discriminate E|vm_compute in E; discriminate E].
    exists d. vm_compute in E. injection E as <-. split; try reflexivity; try apply Forall2_nil; try apply none_read.
    + unfold only. repeat constructor; vm_compute; tauto.
    + apply kind_name_spec. vm_compute. reflexivity.
    + eexists. split; [reflexivity|]. split; try reflexivity; constructor.
  - intros n H. apply ladder_reached in H as (i & L & ->). now apply file_reads.
  - intros t H. apply ladder_statement in H as [E|[E|[E|[_ [->|(i & L & ->)]]]]]; try discriminate E; cbn [t_obj st].
    + rewrite of_D. apply (relationship_reads (st DOC (spdx "relationship") D)); [lia|]. eexists. apply reference_spec. vm_compute. reflexivity.
    + rewrite of_R. destruct (Nat.ltb_spec i k); [|lia]. apply (relationship_reads (st (F i) (spdx "relationship") (R i))); [lia|].
      eexists. apply F_reference.
  - intros t H. apply ladder_statement in H as [E|[E|[E|[E _]]]]; discriminate E.
Qed.

(** *** the ways up the ladder *)
Fixpoint ws (i : nat) : list (list triple) :=
  match i with
  | O => [[st D (spdx "relatedSpdxElement") (F 0); st DOC (spdx "relationship") D]]
  | S i => (map (cons (st (F i) (spdx "fileDependency") (F (S i)))) (ws i) ++
            map (fun p => st (R i) (spdx "relatedSpdxElement") (F (S i)) :: st (F i) (spdx "relationship") (R i) :: p) (ws i))%list
  end.
Lemma ws_length i : List.length (ws i) = 2 ^ i.
Proof. induction i as [|i IH]; [reflexivity|]. cbn [ws]. rewrite app_length, !map_length, IH. cbn [Nat.pow]. lia. Qed.
Lemma NoDup_map_in {A B} (f : A -> B) l : (forall x y, f x = f y -> x = y) -> NoDup l -> NoDup (map f l).
Proof.
  intros J H. induction H as [|x l N H IH]; [constructor|]. cbn [map]. constructor; [|exact IH].
  intros I. apply in_map_iff in I as (y & E & I). apply J in E. now subst y.
Qed.
Lemma ws_NoDup i : NoDup (ws i).
Proof.
  induction i as [|i IH]; [repeat constructor; intros []|]. cbn [ws]. apply NoDup_app'.
  - apply NoDup_map_in; [|exact IH]. intros x y E. now injection E.
  - apply NoDup_map_in; [|exact IH]. intros x y E. now injection E.
  - intros p A B. apply in_map_iff in A as (x & <- & _). apply in_map_iff in B as (y & E & _). discriminate E.
Qed.
Definition low (i : nat) (id : string) : Prop := id = n_id D \/ (exists j, j <= i /\ id = n_id (F j)) \/ (exists j, j < i /\ id = n_id (R j)).
Lemma low_F i : ~ low i (n_id (F (S i))).
Proof.
  intros [E|[(j & L & E)|(j & L & E)]]; [exact (F_D _ E)| |exact (FR _ _ E)]. apply F_inj in E. lia.
Qed.
Lemma low_R i : ~ low i (n_id (R i)).
Proof.
  intros [E|[(j & L & E)|(j & L & E)]]; [exact (R_D _ E)|exact (FR _ _ (eq_sym E))|]. apply R_inj in E. lia.
Qed.
Lemma low_S i id : low i id -> low (S i) id.
Proof. intros [E|[(j & L & E)|(j & L & E)]]; [now left|right; left|right; right]; exists j; (split; [lia|exact E]). Qed.
Lemma in_F i t : i < k -> In t (file_stmts i) -> In t (of_node g (F i)).
Proof. intros L I. rewrite of_F. now destruct (Nat.ltb_spec i k); [|lia]. Qed.
Lemma in_R i t : i < k -> In t (rel_stmts (R i) (S i)) -> In t (of_node g (R i)).
Proof. intros L I. rewrite of_R. now destruct (Nat.ltb_spec i k); [|lia]. Qed.
Lemma ws_ways i p : i <= k -> In p (ws i) -> exists open, way g p open AtFile (F i) /\ forall id, In id open -> low i id.
Proof.
  revert p. induction i as [|i IH]; intros p L I.
  - destruct I as [<-|[]]. exists [n_id (F 0); n_id D]. split.
    + apply (way_enter g _ _ AtRelationship D (st D (spdx "relatedSpdxElement") (F 0)) AtFile).
      * apply (way_enter g _ _ AtDocument DOC (st DOC (spdx "relationship") D) AtRelationship); [constructor; exact DOC_is| | | |].
        -- rewrite of_DOC. cbn. auto.
        -- constructor; [now left|reflexivity].
        -- cbn. auto.
        -- intros [].
      * rewrite of_D. cbn. auto.
      * apply fo_related_file; [reflexivity|]. apply typed_F. lia.
      * now left.
      * intros [E|[]]. now destruct (F_D 0).
    + intros id [<-|[<-|[]]]; [right; left; exists 0; split; [lia|reflexivity]|now left].
  - cbn [ws] in I. assert (L' : i < k) by lia. apply in_app_or in I as [I|I]; apply in_map_iff in I as (q & <- & I).
    + destruct (IH q) as (open & W & O); [lia|exact I|]. exists (n_id (F (S i)) :: open). split.
      * apply (way_enter g _ _ AtFile (F i) (st (F i) (spdx "fileDependency") (F (S i))) AtFile W).
        -- apply in_F; [exact L'|]. cbn. auto.
        -- now constructor.
        -- now left.
        -- intros J. exact (low_F i (O _ J)).
      * intros id [<-|J]; [right; left; exists (S i); split; [lia|reflexivity]|]. now apply low_S, O.
    + destruct (IH q) as (open & W & O); [lia|exact I|]. exists (n_id (F (S i)) :: n_id (R i) :: open). split.
      * apply (way_enter g _ _ AtRelationship (R i) (st (R i) (spdx "relatedSpdxElement") (F (S i))) AtFile).
        -- apply (way_enter g _ _ AtFile (F i) (st (F i) (spdx "relationship") (R i)) AtRelationship W).
           ++ apply in_F; [exact L'|]. cbn. auto.
           ++ constructor; [cbn; auto|reflexivity].
           ++ cbn. auto.
           ++ intros J. exact (low_R i (O _ J)).
        -- apply in_R; [exact L'|]. cbn. auto.
        -- apply fo_related_file; [reflexivity|]. apply typed_F. lia.
        -- now left.
        -- intros [E|J]; [exact (FR _ _ (eq_sym E))|]. exact (low_F i (O _ J)).
      * intros id [<-|[<-|J]]; [right; left; exists (S i); split; [lia|reflexivity]|right; right; exists i; split; [lia|reflexivity]|]. now apply low_S, O.
Qed.
Lemma ws_relationship i p : i < k -> In p (ws i) -> way_to g AtRelationship (R i) (st (F i) (spdx "relationship") (R i) :: p).
Proof.
  intros L I. destruct (ws_ways i p) as (open & W & O); [lia|exact I|]. exists (n_id (R i) :: open).
  apply (way_enter g _ _ AtFile (F i) (st (F i) (spdx "relationship") (R i)) AtRelationship W).
  - apply in_F; [exact L|]. cbn. auto.
  - constructor; [cbn; auto|reflexivity].
  - cbn. auto.
  - intros J. exact (low_R i (O _ J)).
Qed.
Lemma rungs_length i n : List.length (rungs i n) = 6 * n + 1.
Proof. revert i. induction n as [|n IH]; intros i; [reflexivity|]. cbn [rungs]. rewrite !app_length, IH. cbn [List.length file_stmts rel_stmts]. lia. Qed.
Lemma ladder_length : List.length (g_triples g) = 6 * k + 7.
Proof. cbn [ladder g_triples]. rewrite !app_length, rungs_length. cbn [List.length doc_stmts d_stmts app rel_stmts]. lia. Qed.
End Ladder.

Lemma ladder_grows k v iter : shuffle iter -> exists d, load v (ladder (S k)) iter = Ok d /\ 2 ^ k <= List.length (d_Relationships d).
Proof.
  intros SH. destruct (proj2 (C55_reads_exactly v (ladder (S k)) iter (ladder_consistent _)) (ladder_readable _ v)) as (d & L).
  exists d. split; [exact L|].
  destruct (bw_relationships _ _ _ (C54_ways v _ iter d (ladder_consistent _) (ladder_no_repeats _) SH L)) as (l & [N LI] & F2).
  assert (E : List.length l = List.length (d_Relationships d)) by (clear - F2; induction F2; cbn [List.length]; congruence).
  rewrite <- E, <- ws_length, <- (map_length (cons (st (F k) (spdx "relationship") (R k))) (ws k)).
  apply NoDup_incl_length.
  - apply NoDup_map_in; [intros x y E'; now injection E'|apply ws_NoDup].
  - intros p I. apply in_map_iff in I as (q & <- & I). apply LI. exists (R k). apply ws_relationship; [lia|exact I].
Qed.
