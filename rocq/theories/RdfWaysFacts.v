(** The ways through a graph are what the RDF reader visits, each once. *)
From Coq Require Import Permutation Lia.
From Verif Require Import GoStr GoStrFacts Types TvUtil TvParser RdfConst Rdf RdfReader SpecTv SpecId SpecDoc SpecRdf SpecRdfDoc SpecRdfLoad
  SpecRdfContent SpecRdfWays RdfFacts RdfVisitFacts RdfContentFacts RdfWholeFacts.

(** ** Lists *)
Lemma nodup_flat_map {A B} (f : A -> list B) l : NoDup l -> (forall x, In x l -> NoDup (f x)) ->
  (forall x y e, In x l -> In y l -> In e (f x) -> In e (f y) -> x = y) -> NoDup (flat_map f l).
Proof.
  intros N. induction N as [|a l NI N IH]; intros H D; [constructor|]. cbn [flat_map].
  assert (X : NoDup (flat_map f l)). { apply IH; [intros x I; apply H; now right|]. intros x y e I J. apply D; now right. }
  assert (Y : NoDup (f a)) by (apply H; now left).
  assert (Z : forall e, In e (f a) -> ~ In e (flat_map f l)).
  { intros e E F. apply in_flat_map in F as (y & J & F). apply NI. now rewrite (D a y e (or_introl eq_refl) (or_intror J) E F). }
  clear - X Y Z. induction (f a) as [|b m IH]; [exact X|]. inversion Y; subst. cbn [app]. constructor.
  - intros I. apply in_app_or in I as [I|I]; [contradiction|]. exact (Z b (or_introl eq_refl) I).
  - apply IH; [assumption|]. intros e E. apply Z. now right.
Qed.
Lemma nodup_app {A} (l m : list A) : NoDup l -> NoDup m -> (forall e, In e l -> ~ In e m) -> NoDup (l ++ m)%list.
Proof.
  intros N X Z. induction N as [|b l NI N IH]; [exact X|]. cbn [app]. constructor.
  - intros I. apply in_app_or in I as [I|I]; [contradiction|]. exact (Z b (or_introl eq_refl) I).
  - apply IH. intros e E. apply Z. now right.
Qed.
Lemma map_flat_map {A B C} (h : B -> C) (f : A -> list B) l : map h (flat_map f l) = flat_map (fun x => map h (f x)) l.
Proof. induction l as [|a l IH]; [reflexivity|]. cbn [flat_map]. now rewrite map_app, IH. Qed.
Lemma flat_map_map {A B C} (h : A -> B) (f : B -> list C) l : flat_map f (map h l) = flat_map (fun x => f (h x)) l.
Proof. induction l as [|a l IH]; [reflexivity|]. cbn [map flat_map]. now rewrite IH. Qed.
Lemma nodup_filter_ {A} (f : A -> bool) l : NoDup l -> NoDup (filter f l).
Proof.
  intros N. induction N as [|a l NI N IH]; [constructor|]. cbn [filter]. destruct (f a); [|exact IH]. constructor; [|exact IH].
  intros I. apply filter_In in I. tauto.
Qed.
Lemma filter_map_comm {A B} (h : A -> B) (f : B -> bool) l : filter f (map h l) = map h (filter (fun x => f (h x)) l).
Proof. induction l as [|a l IH]; [reflexivity|]. cbn [map filter]. rewrite IH. now destruct (f (h a)). Qed.
Lemma suffix_head {A} (r r' : list A) x y q : (r ++ x :: q = r' ++ y :: q)%list -> x = y.
Proof.
  intros E. assert (E' : ((r ++ [x]) ++ q = (r' ++ [y]) ++ q)%list) by now rewrite <- !app_assoc. apply app_inv_tail in E'.
  now apply app_inj_tail in E'.
Qed.
Lemma suffix_proper {A} (r : list A) x q : (r ++ x :: q <> q)%list.
Proof. intros E. apply (f_equal (@List.length A)) in E. rewrite app_length in E. cbn in E. lia. Qed.

Section Ways.
Variable g : graph.
(** a visited statement, the statements before it, what it leads to *)
Notation entry := (triple * list triple * stage)%type.
Definition said (e : entry) : triple := fst (fst e).
Definition path (e : entry) : list triple := said e :: snd (fst e).
Definition kind (e : entry) : stage := snd e.

Fixpoint visitp (k : nat) (gry : string -> bool) (p : list triple) (st : stage) (t : triple) : list entry :=
  match k with
  | O => []
  | S k =>
      if gry (n_id (t_obj t)) then []
      else (flat_map (fun u => match follow g st u with
                               | None => []
                               | Some AtAnnotation => [(u, t :: p, AtAnnotation)]
                               | Some st' => visitp k (fun x => (x =? n_id (t_obj t)) || gry x) (t :: p) st' u
                               end) (of_node g (t_obj t)) ++ [(t, p, st)])%list
  end.
Definition onwardp (k : nat) (gry : string -> bool) (p : list triple) (st : stage) (u : triple) : list entry :=
  match follow g st u with None => [] | Some AtAnnotation => [(u, p, AtAnnotation)] | Some st' => visitp k gry p st' u end.
Lemma visitp_S k gry p st t : visitp (S k) gry p st t =
  if gry (n_id (t_obj t)) then []
  else (flat_map (onwardp k (fun x => (x =? n_id (t_obj t)) || gry x) (t :: p) st) (of_node g (t_obj t)) ++ [(t, p, st)])%list.
Proof. reflexivity. Qed.
Lemma visitp_ext k : forall gry gry' p st t, (forall x, gry x = gry' x) -> visitp k gry p st t = visitp k gry' p st t.
Proof.
  induction k as [|k IH]; intros gry gry' p st t E; [reflexivity|]. rewrite !visitp_S, E. destruct (gry' _); [reflexivity|]. f_equal.
  apply flat_map_ext. intros u. unfold onwardp. destruct (follow g st u) as [[]|]; try reflexivity; apply IH; intros x; now rewrite E.
Qed.

(** *** the statements are those visited *)
Lemma visitp_said k : forall gry p st t, map said (visitp k gry p st t) = visit g k gry st t.
Proof.
  induction k as [|k IH]; intros gry p st t; [reflexivity|]. rewrite visitp_S, visit_S. destruct (gry _); [reflexivity|].
  rewrite map_app, map_flat_map. f_equal. apply flat_map_ext. intros u. unfold onwardp, onward. destruct (follow g st u) as [[]|]; try reflexivity; apply IH.
Qed.
Lemma onwardp_said k gry p st t : map said (onwardp k gry p st t) = onward g k gry st t.
Proof. unfold onwardp, onward. destruct (follow g st t) as [[]|]; try reflexivity; apply visitp_said. Qed.

(** *** each path once *)
Hypothesis NT : NoDup (g_triples g).
Lemma nodup_of n : NoDup (of_node g n).
Proof. now apply nodup_filter_. Qed.
Definition below (q : list triple) (e : entry) : Prop := exists r, path e = (r ++ q)%list.
Lemma below_tail x q e : below (x :: q) e -> below q e.
Proof. intros (r & E). exists (r ++ [x])%list. now rewrite <- app_assoc. Qed.
Lemma visitp_below k : forall gry p st t e, In e (visitp k gry p st t) -> below (t :: p) e.
Proof.
  induction k as [|k IH]; intros gry p st t e; [intros []|]. rewrite visitp_S. destruct (gry _); [intros []|]. intros I.
  apply in_app_or in I as [I|[<-|[]]]; [|now exists []]. apply in_flat_map in I as (u & _ & I). apply (below_tail u).
  unfold onwardp in I. destruct (follow g st u) as [[]|]; try exact (IH _ _ _ _ _ I); [|destruct I]. destruct I as [<-|[]]. now exists [].
Qed.
Lemma onwardp_below k gry p st t e : In e (onwardp k gry p st t) -> below (t :: p) e.
Proof.
  unfold onwardp. destruct (follow g st t) as [[]|]; try apply visitp_below; [|intros []]. intros [<-|[]]. now exists [].
Qed.
Lemma below_same x y q e e' : below (x :: q) e -> below (y :: q) e' -> path e = path e' -> x = y.
Proof. intros (r & E) (r' & E') P. rewrite E, E' in P. exact (suffix_head _ _ _ _ _ P). Qed.
(** lists of entries below different statements *)
Lemma nodup_below (f : triple -> list entry) q l : NoDup l -> (forall x, In x l -> NoDup (map path (f x))) ->
  (forall x e, In e (f x) -> below (x :: q) e) -> NoDup (map path (flat_map f l)).
Proof.
  intros N H B. rewrite map_flat_map. apply nodup_flat_map; [exact N|exact H|].
  intros x y p I J X Y. apply in_map_iff in X as (e & <- & X), Y as (e' & E & Y). exact (below_same _ _ _ _ _ (B _ _ X) (B _ _ Y) (eq_sym E)).
Qed.
Lemma visitp_nodup k : forall gry p st t, NoDup (map path (visitp k gry p st t)).
Proof.
  induction k as [|k IH]; intros gry p st t; [constructor|]. rewrite visitp_S. destruct (gry _); [constructor|]. rewrite map_app. apply nodup_app.
  - apply (nodup_below _ (t :: p)); [apply nodup_of| |].
    + intros u _. unfold onwardp. destruct (follow g st u) as [[]|]; try apply IH; cbn [map]; repeat constructor; intros [].
    + intros u e. apply onwardp_below.
  - repeat constructor; intros [].
  - intros q I [E|[]]. apply in_map_iff in I as (e & <- & I). apply in_flat_map in I as (u & _ & I). destruct (onwardp_below _ _ _ _ _ _ I) as (r & E').
    rewrite E' in E. exact (suffix_proper r u (t :: p) (eq_sym E)).
Qed.
Lemma onwardp_nodup k gry p st t : NoDup (map path (onwardp k gry p st t)).
Proof. unfold onwardp. destruct (follow g st t) as [[]|]; try apply visitp_nodup; cbn [map]; repeat constructor; intros []. Qed.

(** *** all that is visited is a way *)
Definition among (open : list string) (x : string) : bool := mem x open.
Definition real (e : entry) : Prop := exists open, way g (path e) open (kind e) (t_obj (said e)) /\
  (In (kind e) [AtFile; AtPackage; AtRelationship; AtAnnotation]) /\ exists st, follows g st (said e) (kind e).
Lemma mem_not x l : mem x l = false <-> ~ In x l.
Proof. rewrite <- mem_In. destruct (mem x l); split; congruence || tauto. Qed.
Lemma visitp_way k : forall p open st0 n st t, way g p open st0 n -> In t (of_node g n) -> follows g st0 t st ->
  In st [AtFile; AtPackage; AtRelationship] -> forall e, In e (visitp k (among open) p st t) -> real e.
Proof.
  induction k as [|k IH]; intros p open st0 n st t W T F S e; [intros []|]. rewrite visitp_S. destruct (among open _) eqn:A; [intros []|].
  assert (W' : way g (t :: p) (n_id (t_obj t) :: open) st (t_obj t)) by (apply (way_enter g p open st0 n t st W T F S); now apply mem_not).
  intros I. apply in_app_or in I as [I|[<-|[]]].
  - apply in_flat_map in I as (u & U & I). unfold onwardp in I. destruct (follow g st u) as [st'|] eqn:E; [|destruct I]. apply follow_iff in E.
    assert (X : In st' [AtFile; AtPackage; AtRelationship] \/ st' = AtAnnotation).
    { destruct S as [<-|[<-|[<-|[]]]]; inversion E; subst; simpl; tauto. }
    destruct X as [X| ->].
    + assert (I' : In e (visitp k (among (n_id (t_obj t) :: open)) (t :: p) st' u)).
      { erewrite visitp_ext; [destruct X as [<-|[<-|[<-|[]]]]; exact I|]. reflexivity. }
      exact (IH _ _ _ _ _ _ W' U E X e I').
    + destruct I as [<-|[]]. eexists. split; [|split; [simpl; auto|exists st; exact E]]. cbn [path said kind fst snd].
      apply (way_pass _ _ _ _ _ _ _ W' U E). simpl; auto.
  - eexists. split; [exact W'|]. split; [destruct S as [<-|[<-|[<-|[]]]]; simpl; auto|exists st0; exact F].
Qed.
Lemma onwardp_way k p open st n t : way g p open st n -> In t (of_node g n) -> In st [AtDocument; AtPointer] ->
  forall e, In e (onwardp k (among open) p st t) -> real e.
Proof.
  intros W T S e I. unfold onwardp in I. destruct (follow g st t) as [st'|] eqn:E; [|destruct I]. apply follow_iff in E.
  assert (X : In st' [AtFile; AtPackage; AtRelationship] \/ st' = AtAnnotation).
  { destruct S as [<-|[<-|[]]]; inversion E; subst; simpl; tauto. }
  destruct X as [X| ->].
  - apply (visitp_way k p open st n st' t W T E X). destruct X as [<-|[<-|[<-|[]]]]; exact I.
  - destruct I as [<-|[]]. eexists. split; [|split; [simpl; auto|exists st; exact E]]. cbn [path said kind fst snd].
    apply (way_pass _ _ _ _ _ _ _ W T E). simpl; auto.
Qed.

(** ** The whole graph *)
Notation K := (enough g).
Variable d : node.
Hypothesis DN : document_node g d.
Hypothesis ONE : forall m, document_node g m -> m = d.
Hypothesis NR : NoDup (map n_id (g_roots g)).
Definition refsp (p : list triple) (t : triple) : list entry := flat_map (onwardp K none (t :: p) AtPointer) (of_node g (t_obj t)).
Definition rangep (t : triple) : list entry :=
  (flat_map (refsp [t]) (filter (fun u => t_pred u =? ptr_term "startPointer") (of_node g (t_obj t))) ++
   flat_map (refsp [t]) (filter (fun u => t_pred u =? ptr_term "endPointer") (of_node g (t_obj t))))%list.
Definition snippetp (t : triple) : list entry :=
  if t_pred t =? spdx "snippetFromFile" then visitp K none [] AtFile t else if t_pred t =? spdx "range" then rangep t else [].
Notation snippets := (flat_map (snippet_of g) (g_roots g)).
Definition docp : list entry := flat_map (onwardp K none [] AtDocument) (of_node g d).
Definition snipp : list entry := flat_map (fun n => flat_map snippetp (of_node g n)) snippets.
Definition allp : list entry := (docp ++ snipp)%list.

Lemma allp_said : map said allp =
  (flat_map (onward g K none AtDocument) (of_node g d) ++ flat_map (fun n => flat_map (snippet_met g) (of_node g n)) snippets)%list.
Proof.
  unfold allp, docp, snipp. rewrite map_app, !map_flat_map. f_equal; [apply flat_map_ext; intros; apply onwardp_said|].
  apply flat_map_ext. intros n. rewrite map_flat_map. apply flat_map_ext. intros t. unfold snippetp, snippet_met.
  destruct (_ =? _); [apply visitp_said|]. destruct (_ =? _); [|reflexivity]. unfold rangep, range_met, objects. rewrite map_app, !map_flat_map, !flat_map_map.
  f_equal; apply flat_map_ext; intros u; unfold refsp, refs; rewrite map_flat_map; apply flat_map_ext; intros; apply onwardp_said.
Qed.
Lemma none_among : forall x, none x = among [] x.
Proof. reflexivity. Qed.
Lemma in_snippets n : In n snippets -> snippet_node g n.
Proof. intros I. apply in_flat_map in I as (root & R & I). exact (in_snippet_of g root n R I). Qed.
Lemma allp_real e : In e allp -> real e.
Proof.
  intros I. apply in_app_or in I as [I|I].
  - apply in_flat_map in I as (t & T & I). apply (onwardp_way K [] [] AtDocument d t (way_document g d DN) T); [simpl; auto|exact I].
  - apply in_flat_map in I as (n & N & I). apply in_snippets in N. apply in_flat_map in I as (t & T & I). unfold snippetp in I.
    destruct (String.eqb_spec (t_pred t) (spdx "snippetFromFile")) as [E|_].
    { apply (visitp_way K [] [] AtSnippet n AtFile t (way_snippet g n N) T (fo_from g t E)); [simpl; auto|exact I]. }
    destruct (String.eqb_spec (t_pred t) (spdx "range")) as [E|_]; [|destruct I].
    assert (W : way g [t] [] AtRange (t_obj t)) by (apply (way_pass g [] [] AtSnippet n t AtRange (way_snippet g n N) T (fo_range g t E)); simpl; auto).
    assert (X : forall u, In u (of_node g (t_obj t)) -> In (t_pred u) [ptr_term "startPointer"; ptr_term "endPointer"] -> In e (refsp [t] u) -> real e).
    { intros u U P J. apply in_flat_map in J as (w & WI & J).
      apply (onwardp_way K [u; t] [] AtPointer (t_obj u) w); [|exact WI|simpl; auto|exact J].
      apply (way_pass g [t] [] AtRange (t_obj t) u AtPointer W U (fo_pointer g u P)). simpl; auto. }
    apply in_app_or in I as [I|I]; apply in_flat_map in I as (u & U & I); apply filter_In in U as [U P]; apply String.eqb_eq in P;
      apply (X u U); simpl; auto.
Qed.

Lemma subject_of n t : In t (of_node g n) -> t_subj t = n.
Proof.
  unfold of_node. intros I. apply filter_In in I as [_ I]. apply Bool.andb_true_iff in I as [A B]. apply String.eqb_eq in B.
  destruct (t_subj t) as [ty i], n as [ty' i']. cbn in *. destruct ty as [|x], ty' as [|y]; try discriminate A; [|apply String.eqb_eq in A]; congruence.
Qed.
Lemma snippets_nodup : NoDup snippets.
Proof.
  assert (X : forall root n, In n (snippet_of g root) -> n_id n = n_id root).
  { intros root n I. unfold snippet_of in I. destruct (filter _ _) as [|t [|u l]] eqn:F; try destruct I.
    assert (T : In t (about g (n_id root))) by (apply (filter_In (fun u => t_pred u =? rdf_type)); rewrite F; now left).
    apply filter_In in T as [_ T]. apply String.eqb_eq in T. destruct (_ =? _); [|destruct I]. destruct I as [<-|[]]. exact T. }
  revert NR. generalize (g_roots g). intros l. induction l as [|a l IH]; intros N; [constructor|]. cbn [map flat_map] in *. inversion N; subst.
  apply nodup_app; [|now apply IH|].
  - unfold snippet_of. destruct (filter _ _) as [|t [|u r]]; try constructor. destruct (_ =? _); repeat constructor. intros [].
  - intros n I J. apply H1. apply in_flat_map in J as (b & B & J). rewrite <- (X _ _ I), (X _ _ J). now apply in_map.
Qed.
Lemma rangep_below t e : In e (rangep t) -> below [t] e.
Proof.
  intros I. apply in_app_or in I as [I|I]; apply in_flat_map in I as (u & _ & I); apply in_flat_map in I as (w & _ & I);
    apply onwardp_below in I; now apply below_tail, below_tail in I.
Qed.
Lemma snippetp_below t e : In e (snippetp t) -> below [t] e.
Proof.
  unfold snippetp. destruct (_ =? _); [apply visitp_below|]. destruct (_ =? _); [apply rangep_below|intros []].
Qed.
Lemma snippetp_nodup t : NoDup (map path (snippetp t)).
Proof.
  unfold snippetp. destruct (_ =? _); [apply visitp_nodup|]. destruct (_ =? _); [|constructor].
  assert (B : forall u e, In e (refsp [t] u) -> below [u; t] e).
  { intros u e I. apply in_flat_map in I as (w & _ & I). apply onwardp_below in I. now apply below_tail in I. }
  assert (N : forall u, NoDup (map path (refsp [t] u))).
  { intros u. apply (nodup_below _ [u; t]); [apply nodup_of|intros; apply onwardp_nodup|]. intros x e. apply onwardp_below. }
  unfold rangep. rewrite map_app. apply nodup_app.
  - apply (nodup_below _ [t]); [apply nodup_filter_, nodup_of|intros; apply N|exact B].
  - apply (nodup_below _ [t]); [apply nodup_filter_, nodup_of|intros; apply N|exact B].
  - intros p I J. apply in_map_iff in I as (e & <- & I), J as (e' & E & J). apply in_flat_map in I as (u & U & I), J as (u' & U' & J).
    apply filter_In in U as [_ U], U' as [_ U']. apply String.eqb_eq in U, U'. pose proof (below_same _ _ _ _ _ (B _ _ I) (B _ _ J) (eq_sym E)) as ->.
    rewrite U in U'. discriminate U'.
Qed.
Lemma docp_pred t e : In e (onwardp K none [] AtDocument t) -> In (t_pred t) [spdx "describesPackage"; spdx "relationship"; spdx "annotation"].
Proof.
  unfold onwardp. destruct (follow g AtDocument t) as [st|] eqn:E; [|intros []]. intros _. apply follow_iff in E.
  inversion E as [? Q|? Q|? Q|? Q|? Q|? Q|? Q|? ? ? Q|? ? ? Q|? Q|? Q]; subst; rewrite Q; simpl; tauto.
Qed.
Lemma snippetp_pred t e : In e (snippetp t) -> In (t_pred t) [spdx "snippetFromFile"; spdx "range"].
Proof.
  unfold snippetp. destruct (String.eqb_spec (t_pred t) (spdx "snippetFromFile")) as [->|_]; [simpl; auto|].
  destruct (String.eqb_spec (t_pred t) (spdx "range")) as [->|_]; [simpl; auto|intros []].
Qed.
Lemma allp_nodup : NoDup (map path allp).
Proof.
  unfold allp. rewrite map_app. apply nodup_app.
  - apply (nodup_below _ []); [apply nodup_of|intros; apply onwardp_nodup|]. intros x e. apply onwardp_below.
  - unfold snipp. rewrite map_flat_map. apply nodup_flat_map; [exact snippets_nodup| |].
    + intros n _. apply (nodup_below _ []); [apply nodup_of|intros; apply snippetp_nodup|exact snippetp_below].
    + intros n m p _ _ I J. apply in_map_iff in I as (e & <- & I), J as (e' & E & J). apply in_flat_map in I as (t & T & I), J as (t' & T' & J).
      pose proof (below_same _ _ _ _ _ (snippetp_below _ _ I) (snippetp_below _ _ J) (eq_sym E)) as <-.
      now rewrite <- (subject_of _ _ T), <- (subject_of _ _ T').
  - intros p I J. apply in_map_iff in I as (e & <- & I), J as (e' & E & J). apply in_flat_map in I as (t & T & I). apply in_flat_map in J as (n & _ & J).
    apply in_flat_map in J as (t' & T' & J).
    pose proof (below_same _ _ _ _ _ (onwardp_below _ _ _ _ _ _ I) (snippetp_below _ _ J) (eq_sym E)) as <-.
    apply docp_pred in I. apply snippetp_pred in J. simpl in I, J.
    destruct I as [I|[I|[I|[]]]], J as [J|[J|[]]]; rewrite <- I in J; discriminate J.
Qed.

(** *** every way is visited *)
Lemma way_open p open st n : way g p open st n -> NoDup open /\ incl open (map (fun t => n_id (t_obj t)) (g_triples g)).
Proof.
  intros W. induction W as [m D|m S|p open st m t st' W [IH1 IH2] T F S|p open st m t st' W [IH1 IH2] T F S N].
  - split; [constructor|intros x []].
  - split; [constructor|intros x []].
  - auto.
  - split; [now constructor|]. intros x [<-|I]; [|now apply IH2]. apply filter_In in T as [T _]. apply in_map_iff. exists t. auto.
Qed.
Lemma way_room p open st n : way g p open st n -> List.length open + 2 <= K.
Proof.
  intros W. destruct (way_open _ _ _ _ W) as [N I]. pose proof (NoDup_incl_length N I) as L. rewrite map_length in L. unfold enough. lia.
Qed.
(** what has been visited when a way has been followed *)
Definition visited (p : list triple) (open : list string) (st : stage) (n : node) : Prop :=
  match st with
  | AtDocument => n = d /\ p = [] /\ open = []
  | AtSnippet => In n snippets /\ p = [] /\ open = []
  | AtRange => exists t m, In m snippets /\ In t (of_node g m) /\ t_pred t = spdx "range" /\ p = [t] /\ open = [] /\ n = t_obj t
  | AtPointer => open = [] /\ exists t q, p = t :: q /\ n = t_obj t /\ incl (refsp q t) allp
  | AtFile | AtPackage | AtRelationship => exists t q k o, p = t :: q /\ n = t_obj t /\ open = n_id n :: o /\ ~ In (n_id n) o /\
      S k + List.length o = K /\ incl (visitp (S k) (among o) q st t) allp
  | AtAnnotation => exists t q, p = t :: q /\ n = t_obj t /\ In (t, q, st) allp
  end.
Lemma visited_on k p open st n t st' : follows g st t st' -> In st' [AtFile; AtPackage; AtRelationship] -> ~ In (n_id (t_obj t)) open ->
  k + List.length open = K -> List.length open + 2 <= K -> n = t_obj t -> incl (onwardp k (among open) p st t) allp ->
  visited (t :: p) (n_id (t_obj t) :: open) st' n.
Proof.
  intros F S N L R -> I. unfold onwardp in I. apply follow_iff in F. rewrite F in I. destruct k as [|k]; [lia|].
  assert (X : exists t0 q k0 o, t :: p = t0 :: q /\ t_obj t = t_obj t0 /\ n_id (t_obj t) :: open = n_id (t_obj t) :: o /\ ~ In (n_id (t_obj t)) o /\
    Datatypes.S k0 + List.length o = K /\ incl (visitp (Datatypes.S k0) (among o) q st' t0) allp).
  { exists t, p, k, open. repeat split; auto. destruct S as [<-|[<-|[<-|[]]]]; exact I. }
  destruct S as [<-|[<-|[<-|[]]]]; exact X.
Qed.
Lemma incl_flat_one {A B} (f : A -> list B) l x m : In x l -> incl (flat_map f l) m -> incl (f x) m.
Proof. intros I H e E. apply H, in_flat_map. eauto. Qed.
Lemma way_visited p open st n : way g p open st n -> visited p open st n.
Proof.
  intros W. induction W as [m D|m S|p open st m t st' W IH T F S|p open st m t st' W IH T F S N].
  - repeat split. now apply ONE.
  - repeat split. now apply snippet_listed.
  - destruct S as [<-|[<-|[<-|[]]]].
    + inversion F as [| |? P| | | | | | | |]; subst. destruct IH as (I & -> & ->). exists t, m. auto 10.
    + inversion F as [| | |? P| | | | | | |]; subst. destruct IH as (u & w & I & U & PU & -> & -> & ->). split; [reflexivity|]. exists t, [u].
      split; [reflexivity|]. split; [reflexivity|]. intros e E. apply in_or_app. right. apply in_flat_map. exists w. split; [exact I|].
      apply in_flat_map. exists u. split; [exact U|]. unfold snippetp. rewrite PU, String.eqb_refl.
      change (spdx "range" =? spdx "snippetFromFile") with false. cbv iota. unfold rangep. apply in_or_app.
      destruct P as [P|[P|[]]]; [left|right]; apply in_flat_map; exists t; (split; [|exact E]); apply filter_In; rewrite <- P, String.eqb_refl; auto.
    + exists t, p. split; [reflexivity|]. split; [reflexivity|]. pose proof F as F'. apply follow_iff in F'.
      assert (X : forall k gry, In (t, p, AtAnnotation) (onwardp k gry p st t)) by (intros; unfold onwardp; rewrite F'; now left).
      inversion F as [| | | | | | | |? ? Q P| |]; subst. destruct Q as [<-|[<-|[<-|[]]]].
      * destruct IH as (-> & -> & ->). apply in_or_app. left. apply in_flat_map. exists t. auto.
      * destruct IH as (u & q & k & o & -> & -> & -> & NI & L & I). apply I. rewrite visitp_S. unfold among at 1. apply mem_not in NI. rewrite NI.
        apply in_or_app. left. apply in_flat_map. exists t. auto.
      * destruct IH as (u & q & k & o & -> & -> & -> & NI & L & I). apply I. rewrite visitp_S. unfold among at 1. apply mem_not in NI. rewrite NI.
        apply in_or_app. left. apply in_flat_map. exists t. auto.
  - pose proof (way_room _ _ _ _ W) as RM.
    assert (STEP : forall u q k o, p = u :: q -> m = t_obj u -> open = n_id m :: o -> ~ In (n_id m) o -> Datatypes.S k + List.length o = K ->
      incl (visitp (Datatypes.S k) (among o) q st u) allp -> visited (t :: p) (n_id (t_obj t) :: open) st' (t_obj t)).
    { intros u q k o -> -> -> NI L I. apply (visited_on k _ _ st _ t st'); auto; [cbn [List.length]; lia|]. rewrite visitp_S in I.
      unfold among at 1 in I. apply mem_not in NI. rewrite NI in I. intros e E. apply I. apply in_or_app. left. apply in_flat_map. exists t. auto. }
    destruct st.
    + destruct IH as (-> & -> & ->). apply (visited_on K _ _ AtDocument _ t st'); auto. intros e E. apply in_or_app. left. apply in_flat_map. exists t. auto.
    + destruct IH as (I & -> & ->). apply (visited_on K _ _ AtSnippet _ t st'); auto. intros e E. apply in_or_app. right. apply in_flat_map. exists m.
      split; [exact I|]. apply in_flat_map. exists t. split; [exact T|]. unfold onwardp in E. apply follow_iff in F. rewrite F in E. apply follow_iff in F.
      inversion F as [|? P|? P| | | | |? ? Q|? ? Q| |]; subst; [|destruct S as [S|[S|[S|[]]]]; discriminate S|destruct Q as [Q|[Q|[Q|[]]]]; discriminate Q|destruct Q as [Q|[Q|[Q|[]]]]; discriminate Q].
      unfold snippetp. rewrite P, String.eqb_refl. exact E.
    + inversion F as [|? P|? P| | | | |? ? Q|? ? Q| |]; subst; [destruct S as [S|[S|[S|[]]]]; discriminate S|destruct Q as [Q|[Q|[Q|[]]]]; discriminate Q|destruct Q as [Q|[Q|[Q|[]]]]; discriminate Q].
    + destruct IH as (-> & u & q & -> & -> & I). apply (visited_on K _ _ AtPointer _ t st'); auto.
      unfold refsp in I. exact (incl_flat_one _ _ _ _ T I).
    + destruct IH as (u & q & k & o & A1 & A2 & A3 & A4 & A5 & A6). exact (STEP u q k o A1 A2 A3 A4 A5 A6).
    + destruct IH as (u & q & k & o & A1 & A2 & A3 & A4 & A5 & A6). exact (STEP u q k o A1 A2 A3 A4 A5 A6).
    + destruct IH as (u & q & k & o & A1 & A2 & A3 & A4 & A5 & A6). exact (STEP u q k o A1 A2 A3 A4 A5 A6).
    + inversion F; subst; match goal with H : In AtAnnotation _ |- _ => destruct H as [H|[H|[H|[]]]]; discriminate H end.
Qed.
Lemma way_listed st n p : In st [AtFile; AtPackage; AtRelationship; AtAnnotation] -> way_to g st n p ->
  exists e, In e allp /\ path e = p /\ kind e = st /\ t_obj (said e) = n.
Proof.
  intros S (open & W). apply way_visited in W.
  assert (X : (exists t q k o, p = t :: q /\ n = t_obj t /\ open = n_id n :: o /\ ~ In (n_id n) o /\ Datatypes.S k + List.length o = K /\
      incl (visitp (Datatypes.S k) (among o) q st t) allp) -> exists e, In e allp /\ path e = p /\ kind e = st /\ t_obj (said e) = n).
  { intros (t & q & k & o & -> & -> & -> & N & _ & I). exists (t, q, st). repeat split. apply I. rewrite visitp_S. unfold among at 1.
    apply mem_not in N. rewrite N. apply in_or_app. right. now left. }
  destruct S as [<-|[<-|[<-|[<-|[]]]]]; try exact (X W). destruct W as (t & q & -> & -> & I). exists (t, q, AtAnnotation). auto.
Qed.

(** *** listings *)
Definition stage_eq (a b : stage) : {a = b} + {a <> b}.
Proof. decide equality. Defined.
Definition is_kind (st : stage) (e : entry) : bool := if stage_eq (kind e) st then true else false.
Definition leads (st : stage) (n : node) (e : entry) : bool := is_kind st e && if node_dec (t_obj (said e)) n then true else false.
Lemma is_kind_iff st e : is_kind st e = true <-> kind e = st.
Proof. unfold is_kind. destruct (stage_eq _ _); split; congruence. Qed.
Lemma leads_iff st n e : leads st n e = true <-> kind e = st /\ t_obj (said e) = n.
Proof. unfold leads. rewrite Bool.andb_true_iff, is_kind_iff. destruct (node_dec _ _); intuition congruence. Qed.
Lemma nodup_map_filter {A B} (h : A -> B) f l : NoDup (map h l) -> NoDup (map h (filter f l)).
Proof.
  induction l as [|a l IH]; intros N; [constructor|]. cbn [map] in N. inversion N; subst. cbn [filter]. destruct (f a); [|now apply IH].
  cbn [map]. constructor; [|now apply IH]. intros I. apply H1. apply in_map_iff in I as (x & <- & I). apply filter_In in I as [I _]. now apply in_map.
Qed.
Lemma listing_to st n : In st [AtFile; AtPackage; AtRelationship; AtAnnotation] -> listing (way_to g st n) (map path (filter (leads st n) allp)).
Proof.
  intros S. split; [apply nodup_map_filter, allp_nodup|]. intros p. rewrite in_map_iff. split.
  - intros (e & <- & I). apply filter_In in I as [I L]. apply leads_iff in L as [KE NE]. destruct (allp_real e I) as (open & W & _). exists open. now rewrite <- KE, <- NE.
  - intros W. destruct (way_listed st n p S W) as (e & I & P & KE & NE). exists e. split; [exact P|]. apply filter_In. split; [exact I|]. now apply leads_iff.
Qed.
Lemma listing_any st : In st [AtFile; AtPackage; AtRelationship; AtAnnotation] ->
  listing (fun p => exists n, way_to g st n p) (map path (filter (is_kind st) allp)).
Proof.
  intros S. split; [apply nodup_map_filter, allp_nodup|]. intros p. rewrite in_map_iff. split.
  - intros (e & <- & I). apply filter_In in I as [I L]. apply is_kind_iff in L. destruct (allp_real e I) as (open & W & _). exists (t_obj (said e)), open. now rewrite <- L.
  - intros (n & W). destruct (way_listed st n p S W) as (e & I & P & KE & NE). exists e. split; [exact P|]. apply filter_In. split; [exact I|]. now apply is_kind_iff.
Qed.

(** *** where a way leads is reached *)
Lemma way_reached p open st n : way g p open st n ->
  match st with
  | AtDocument => document_node g n
  | AtSnippet => snippet_node g n
  | AtRange => exists m, snippet_node g m /\ In n (objects (spdx "range") (of_node g m))
  | AtPointer => exists m r q, snippet_node g m /\ In r (objects (spdx "range") (of_node g m)) /\
      In q [ptr_term "startPointer"; ptr_term "endPointer"] /\ In n (objects q (of_node g r))
  | AtFile => reached g RFile n
  | AtPackage => reached g RPackage n
  | AtRelationship => reached g RRelationship n
  | AtAnnotation => True
  end.
Proof.
  assert (IO : forall t m q, In t (of_node g m) -> t_pred t = q -> In (t_obj t) (objects q (of_node g m))).
  { intros t m q T P. unfold objects. apply in_map. apply filter_In. split; [exact T|]. now apply String.eqb_eq. }
  intros W. induction W as [m D|m S|p open st m t st' W IH T F S|p open st m t st' W IH T F S N].
  - exact D.
  - exact S.
  - destruct S as [<-|[<-|[<-|[]]]]; [| |exact Logic.I].
    + inversion F; subst. exists m. split; [exact IH|]. now apply IO.
    + inversion F; subst. destruct IH as (w & A & B). exists w, m, (t_pred t). repeat split; auto.
  - destruct S as [<-|[<-|[<-|[]]]].
    + inversion F as [|? P| | |? P AB|? P|? P| | |? P TN|]; subst.
      * apply (rc_snippet_file g m); auto.
      * destruct IH as (w & r & q & A & B & C & D). apply (rc_snippet_range g w r m q); auto.
      * apply (rc_file_dependency g m); auto.
      * apply (rc_package_file g m); auto.
      * apply (rc_related_file g m); auto.
    + inversion F as [? P| | | | | | | | | |? P TN]; subst.
      * apply (rc_document_package g m); auto.
      * apply (rc_related_package g m); auto.
    + inversion F as [| | | | | | |? ? Q P| | |]; subst. destruct Q as [<-|[<-|[<-|[]]]].
      * apply (rc_document_relationship g m); auto.
      * apply (rc_file_relationship g m); auto.
      * apply (rc_package_relationship g m); auto.
Qed.
Lemma follows_kind st t st' : follows g st t st' ->
  (t_pred t = spdx "relationship" <-> st' = AtRelationship) /\ (t_pred t = spdx "annotation" <-> st' = AtAnnotation).
Proof.
  intros F. inversion F as [? P|? P|? P|? P|? P|? P|? P|? ? ? P|? ? ? P|? P|? P]; subst; try (rewrite P; split; split; intros X; discriminate X || reflexivity).
  destruct P as [P|[P|[]]]; rewrite <- P; split; split; intros X; discriminate X.
Qed.
Lemma filter_ext_in_ {A} (f h : A -> bool) l : (forall x, In x l -> f x = h x) -> filter f l = filter h l.
Proof. intros H. apply filter_ext_in. exact H. Qed.
Lemma bool_iff (a b : bool) : (a = true <-> b = true) -> a = b.
Proof. destruct a, b; intros [A B]; try reflexivity; [symmetry; now apply A|now apply B]. Qed.
Lemma entering_iff t : entering t = true <-> t_pred t <> spdx "relationship" /\ t_pred t <> spdx "annotation".
Proof.
  unfold entering. rewrite Bool.negb_true_iff, mem_not. simpl. intuition congruence.
Qed.
Lemma enters_iff n t : enters n t = true <-> entering t = true /\ t_obj t = n.
Proof. unfold enters. rewrite Bool.andb_true_iff. destruct (node_dec _ _); intuition congruence. Qed.

Hypothesis CN : consistent g.
Lemma times_file n : reached g RFile n -> times (map said allp) n = List.length (map path (filter (leads AtFile n) allp)).
Proof.
  intros RN. unfold times. rewrite filter_map_comm, !map_length. f_equal. apply filter_ext_in_. intros e I. apply bool_iff. rewrite enters_iff, entering_iff, leads_iff.
  destruct (allp_real e I) as (open & W & S & st & F). destruct (follows_kind _ _ _ F) as [A B]. split.
  - intros [[X Y] Z]. split; [|exact Z]. destruct S as [S|[S|[S|[S|[]]]]]; try congruence.
    + exfalso. apply (cn_roles g CN). rewrite <- S in W. apply way_reached in W. rewrite Z in W. exists RFile, n, RPackage, n. repeat split; auto. discriminate.
    + exfalso. apply X. now apply A.
    + exfalso. apply Y. now apply B.
  - intros [X Y]. rewrite X in *. split; [|exact Y]. split; intros Z; [apply A in Z|apply B in Z]; discriminate Z.
Qed.
Lemma times_package n : reached g RPackage n -> times (map said allp) n = List.length (map path (filter (leads AtPackage n) allp)).
Proof.
  intros RN. unfold times. rewrite filter_map_comm, !map_length. f_equal. apply filter_ext_in_. intros e I. apply bool_iff. rewrite enters_iff, entering_iff, leads_iff.
  destruct (allp_real e I) as (open & W & S & st & F). destruct (follows_kind _ _ _ F) as [A B]. split.
  - intros [[X Y] Z]. split; [|exact Z]. destruct S as [S|[S|[S|[S|[]]]]]; try congruence.
    + exfalso. apply (cn_roles g CN). rewrite <- S in W. apply way_reached in W. rewrite Z in W. exists RPackage, n, RFile, n. repeat split; auto. discriminate.
    + exfalso. apply X. now apply A.
    + exfalso. apply Y. now apply B.
  - intros [X Y]. rewrite X in *. split; [|exact Y]. split; intros Z; [apply A in Z|apply B in Z]; discriminate Z.
Qed.
Lemma said_relationships : filter (is_pred (spdx "relationship")) (map said allp) = map said (filter (is_kind AtRelationship) allp).
Proof.
  rewrite filter_map_comm. f_equal. apply filter_ext_in_. intros e I. apply bool_iff. rewrite is_kind_iff. unfold is_pred. rewrite String.eqb_eq.
  destruct (allp_real e I) as (open & W & S & st & F). apply (follows_kind _ _ _ F).
Qed.
Lemma said_annotations : filter (is_pred (spdx "annotation")) (map said allp) = map said (filter (is_kind AtAnnotation) allp).
Proof.
  rewrite filter_map_comm. f_equal. apply filter_ext_in_. intros e I. apply bool_iff. rewrite is_kind_iff. unfold is_pred. rewrite String.eqb_eq.
  destruct (allp_real e I) as (open & W & S & st & F). apply (follows_kind _ _ _ F).
Qed.
Lemma along {A} (P : triple -> A -> Prop) es l : Forall2 P (map said es) l -> Forall2 (fun p r => exists t q, p = t :: q /\ P t r) (map path es) l.
Proof.
  revert l. induction es as [|e es IH]; intros l F; cbn [map] in *; inversion F; subst; constructor; [|now apply IH].
  exists (said e), (snd (fst e)). auto.
Qed.
End Ways.
