(** The order in which the RDF reader visits the statements of a graph. *)
From Coq Require Import Permutation.
From Verif Require Import GoStr GoStrFacts Types TvUtil TvParser RdfConst Rdf RdfReader SpecTv SpecId SpecDoc SpecRdf SpecRdfDoc SpecRdfLoad
  SpecRdfContent SpecRdfWays RdfFacts.

Definition node_dec (a b : node) : {a = b} + {a <> b}.
Proof. repeat decide equality. Defined.

Section Visit.
Variable g : graph.
(** what a statement leads to *)
Definition common (p : string) : option stage :=
  if p =? spdx "relationship" then Some AtRelationship else if p =? spdx "annotation" then Some AtAnnotation else None.
Definition follow (st : stage) (t : triple) : option stage :=
  let p := t_pred t in
  match st with
  | AtDocument => if p =? spdx "describesPackage" then Some AtPackage else common p
  | AtSnippet => if p =? spdx "snippetFromFile" then Some AtFile else if p =? spdx "range" then Some AtRange else None
  | AtRange => if (p =? ptr_term "startPointer") || (p =? ptr_term "endPointer") then Some AtPointer else None
  | AtPointer => if p =? ptr_term "reference" then match about g (n_id (t_obj t)) with [] => None | _ => Some AtFile end else None
  | AtFile => if p =? spdx "fileDependency" then Some AtFile else common p
  | AtPackage => if p =? spdx "hasFile" then Some AtFile else common p
  | AtRelationship =>
      if p =? spdx "relatedSpdxElement" then
        match texts rdf_type (of_node g (t_obj t)) with
        | [x] => if x =? spdx "File" then Some AtFile else if x =? spdx "Package" then Some AtPackage else None
        | _ => None
        end
      else None
  | AtAnnotation => None
  end.
Ltac preds := repeat match goal with
  | H : context [?p =? ?q] |- _ => destruct (String.eqb_spec p q)
  | |- context [?p =? ?q] => destruct (String.eqb_spec p q)
  end.
Lemma follow_iff st t st' : follow st t = Some st' <-> follows g st t st'.
Proof.
  split.
  - intros H. destruct st; unfold follow, common in H; cbv zeta in H.
    + preds; try discriminate H; injection H as <-; [now constructor| |]; constructor; simpl; auto.
    + preds; try discriminate H; injection H as <-; now constructor.
    + preds; cbn [orb] in H; try discriminate H; injection H as <-; constructor; simpl; auto.
    + destruct (String.eqb_spec (t_pred t) (ptr_term "reference")) as [E|]; [|discriminate H]. destruct (about g (n_id (t_obj t))) eqn:A; [discriminate H|].
      injection H as <-. constructor; [exact E|rewrite A; discriminate].
    + preds; try discriminate H; injection H as <-; [now constructor| |]; constructor; simpl; auto.
    + preds; try discriminate H; injection H as <-; [now constructor| |]; constructor; simpl; auto.
    + destruct (String.eqb_spec (t_pred t) (spdx "relatedSpdxElement")) as [E|]; [|discriminate H].
      destruct (texts rdf_type (of_node g (t_obj t))) as [|x [|y l]] eqn:T; try discriminate H.
      destruct (String.eqb_spec x (spdx "File")) as [->|]; [injection H as <-; now constructor|].
      destruct (String.eqb_spec x (spdx "Package")) as [->|]; [injection H as <-; now constructor|discriminate H].
    + discriminate H.
  - intros H. destruct H as [t P|t P|t P|t P|t P A|t P|t P|st t I P|st t I P|t P T|t P T]; unfold follow, common; cbv zeta; try (rewrite P; reflexivity).
    + destruct P as [P|[P|[]]]; rewrite <- P; reflexivity.
    + rewrite P, String.eqb_refl. destruct (about g (n_id (t_obj t))); [contradiction|reflexivity].
    + destruct I as [<-|[<-|[<-|[]]]]; rewrite P; reflexivity.
    + destruct I as [<-|[<-|[<-|[]]]]; rewrite P; reflexivity.
    + unfold typed_node in T. rewrite P, String.eqb_refl, T. reflexivity.
    + unfold typed_node in T. rewrite P, String.eqb_refl, T. reflexivity.
Qed.

(** the statements followed when [t] leads to a file, package or relationship,
    in the order in which the reader is done with them *)
Fixpoint visit (k : nat) (gry : string -> bool) (st : stage) (t : triple) : list triple :=
  match k with
  | O => []
  | S k =>
      if gry (n_id (t_obj t)) then []
      else (flat_map (fun u => match follow st u with
                               | None => []
                               | Some AtAnnotation => [u]
                               | Some st' => visit k (fun x => (x =? n_id (t_obj t)) || gry x) st' u
                               end) (of_node g (t_obj t)) ++ [t])%list
  end.
Definition onward (k : nat) (gry : string -> bool) (st : stage) (u : triple) : list triple :=
  match follow st u with None => [] | Some AtAnnotation => [u] | Some st' => visit k gry st' u end.
Lemma visit_S k gry st t : visit (S k) gry st t =
  if gry (n_id (t_obj t)) then []
  else (flat_map (onward k (fun x => (x =? n_id (t_obj t)) || gry x) st) (of_node g (t_obj t)) ++ [t])%list.
Proof. reflexivity. Qed.
Lemma visit_ext k : forall gry gry' st t, (forall x, gry x = gry' x) -> visit k gry st t = visit k gry' st t.
Proof.
  induction k as [|k IH]; intros gry gry' st t E; [reflexivity|]. rewrite !visit_S, E. destruct (gry' _); [reflexivity|]. f_equal.
  apply flat_map_ext. intros u. unfold onward. destruct (follow st u) as [[]|]; try reflexivity; apply IH; intros x; now rewrite E.
Qed.
Lemma onward_ext k gry gry' st t : (forall x, gry x = gry' x) -> onward k gry st t = onward k gry' st t.
Proof. intros E. unfold onward. destruct (follow st t) as [[]|]; try reflexivity; now apply visit_ext. Qed.

(** statements that enter a file or a package *)
Definition entering (t : triple) : bool := negb (mem (t_pred t) [spdx "relationship"; spdx "annotation"]).
Definition enters (n : node) (t : triple) : bool := entering t && if node_dec (t_obj t) n then true else false.
Definition times (l : list triple) (n : node) : nat := length (filter (enters n) l).
Lemma times_app l l' n : times (l ++ l') n = times l n + times l' n.
Proof. unfold times. now rewrite filter_app, app_length. Qed.
Lemma times_one t n : times [t] n = if enters n t then 1 else 0.
Proof. unfold times. cbn [filter]. now destruct (enters n t). Qed.
Lemma times_none l n : (forall t, In t l -> enters n t = false) -> times l n = 0.
Proof.
  unfold times. induction l as [|t l IH]; intros H; [reflexivity|]. cbn [filter]. rewrite (H t) by now left. apply IH. intros u I. apply H. now right.
Qed.
Lemma enters_self t : entering t = true -> enters (t_obj t) t = true.
Proof. unfold enters. intros ->. now destruct (node_dec _ _). Qed.
Lemma enters_other t n : t_obj t <> n -> enters n t = false.
Proof. unfold enters. intros N. destruct (node_dec (t_obj t) n); [contradiction|apply Bool.andb_false_r]. Qed.
Lemma enters_not t n : entering t = false -> enters n t = false.
Proof. unfold enters. now intros ->. Qed.

(** nothing that is being read is entered again *)
Lemma visit_open k : forall gry st t u, In u (visit k gry st t) -> entering u = true -> gry (n_id (t_obj u)) = false.
Proof.
  induction k as [|k IH]; intros gry st t u; [intros []|]. rewrite visit_S. destruct (gry (n_id (t_obj t))) eqn:E; [intros []|].
  intros I N. apply in_app_or in I as [I|[<-|[]]]; [|exact E]. apply in_flat_map in I as (w & _ & I). unfold onward in I.
  assert (X : forall st', In u (visit k (fun x => (x =? n_id (t_obj t)) || gry x) st' w) -> gry (n_id (t_obj u)) = false).
  { intros st' J. pose proof (IH _ _ _ _ J N) as X. cbv beta in X. apply Bool.orb_false_iff in X. tauto. }
  destruct (follow st w) as [[]|] eqn:F; try (exact (X _ I)); [|destruct I]. destruct I as [<-|[]].
  assert (P : t_pred w = spdx "annotation") by (apply follow_iff in F; now inversion F).
  unfold entering in N. rewrite P in N. discriminate N.
Qed.
Lemma onward_open k gry st t u : In u (onward k gry st t) -> entering u = true -> gry (n_id (t_obj u)) = false.
Proof.
  unfold onward. destruct (follow st t) as [[]|] eqn:F; try (apply visit_open); [|intros []]. intros [<-|[]] N.
  assert (P : t_pred t = spdx "annotation") by (apply follow_iff in F; now inversion F).
  unfold entering in N. rewrite P in N. discriminate N.
Qed.
Lemma onward_times k gry st ts n : gry (n_id n) = true -> times (flat_map (onward k gry st) ts) n = 0.
Proof.
  intros G. apply times_none. intros u I. apply in_flat_map in I as (t & _ & I). unfold enters. destruct (entering u) eqn:N; [|reflexivity].
  cbn [andb]. destruct (node_dec (t_obj u) n) as [<-|]; [|reflexivity]. rewrite (onward_open _ _ _ _ _ I N) in G. discriminate G.
Qed.
End Visit.
