(** Lemmas about the RDF model: loops over triples, flat nodes, the cache, and
    the value helpers. *)
From Verif Require Import GoStr GoStrFacts Types TvUtil RdfConst Rdf SpecTv SpecId SpecDoc SpecRdf
  TvReaderFacts TvUtilFacts.

Lemma bind_ok {A B} (r : res A) (f : A -> res B) y : bindR r f = Ok y -> exists x, r = Ok x /\ f x = Ok y.
Proof. destruct r; simpl; [eauto|discriminate|discriminate]. Qed.

(** ** Loops *)
Lemma for_each_app {A S} (f : A -> S -> res S) l1 l2 s :
  for_each f (l1 ++ l2) s = bindR (for_each f l1 s) (for_each f l2).
Proof. revert s. induction l1 as [|x l1 IH]; intros s; simpl; [reflexivity|]. destruct (f x s); simpl; auto. Qed.
Lemma for_each_snoc {A S} (f : A -> S -> res S) l x s :
  for_each f (l ++ [x]) s = bindR (for_each f l s) (f x).
Proof.
  rewrite for_each_app. destruct (for_each f l s) as [y| |]; simpl; auto. destruct (f x y); reflexivity.
Qed.
(** an invariant of the consumed part of the list *)
Lemma for_each_inv {A S} (P : list A -> S -> Prop) (f : A -> S -> res S) s0 :
  P [] s0 ->
  (forall done x s s', P done s -> f x s = Ok s' -> P (done ++ [x])%list s') ->
  forall l s, for_each f l s0 = Ok s -> P l s.
Proof.
  intros P0 PS l. induction l as [|x l IH] using rev_ind; intros s H.
  - simpl in H. injection H as <-. exact P0.
  - rewrite for_each_snoc in H. apply bind_ok in H as (y & H & Hf). eauto.
Qed.
(** a loop whose steps always succeed on states satisfying an invariant *)
Lemma for_each_ok {A S} (P : S -> Prop) (Q : A -> Prop) (f : A -> S -> res S) :
  (forall x s, Q x -> P s -> exists s', f x s = Ok s' /\ P s') ->
  forall l s, Forall Q l -> P s -> exists s', for_each f l s = Ok s' /\ P s'.
Proof.
  intros H l. induction l as [|x l IH]; intros s Hl Hs; simpl; [eauto|].
  inversion Hl as [|? ? Hx Hl']; subst. destruct (H x s Hx Hs) as (s1 & -> & H1). simpl. eauto.
Qed.
Lemma for_each_total {A S} (Q : A -> Prop) (f : A -> S -> res S) l s :
  (forall x s, Q x -> exists s', f x s = Ok s') -> Forall Q l -> exists s', for_each f l s = Ok s'.
Proof.
  intros H F. destruct (for_each_ok (fun _ => True) Q f) with (l := l) (s := s) as (s' & E & _); eauto.
  intros x s0 Hx _. destruct (H x s0 Hx). eauto.
Qed.
Lemma for_each_all {A S} (Q : A -> Prop) (f : A -> S -> res S) :
  (forall x s s', f x s = Ok s' -> Q x) ->
  forall l s s', for_each f l s = Ok s' -> Forall Q l.
Proof.
  intros H l. induction l as [|x l IH]; intros s s' E; simpl in E; [constructor|].
  apply bind_ok in E as (y & E1 & E2). constructor; eauto.
Qed.
Lemma for_each_ext {A S} (f f' : A -> S -> res S) l s :
  (forall x s', In x l -> f x s' = f' x s') -> for_each f l s = for_each f' l s.
Proof.
  revert s. induction l as [|x l IH]; intros s H; simpl; [reflexivity|].
  rewrite H by now left. destruct (f' x s); simpl; auto. apply IH. intros; apply H; now right.
Qed.

(** ** Statements *)
Lemma objects_app p l1 l2 : objects p (l1 ++ l2) = (objects p l1 ++ objects p l2)%list.
Proof. unfold objects. now rewrite filter_app, map_app. Qed.
Lemma objects_eq p l t : t_pred t = p -> objects p (l ++ [t]) = (objects p l ++ [t_obj t])%list.
Proof. intros <-. rewrite objects_app. unfold objects at 2. simpl. now rewrite String.eqb_refl. Qed.
Lemma objects_ne p l t : (t_pred t =? p) = false -> objects p (l ++ [t]) = objects p l.
Proof. intros H. rewrite objects_app. unfold objects at 2. simpl. rewrite H. simpl. now rewrite app_nil_r. Qed.
Lemma texts_eq p l t : t_pred t = p -> texts p (l ++ [t]) = (texts p l ++ [n_id (t_obj t)])%list.
Proof. intros H. unfold texts. rewrite objects_eq, map_app by exact H. reflexivity. Qed.
Lemma texts_ne p l t : (t_pred t =? p) = false -> texts p (l ++ [t]) = texts p l.
Proof. intros H. unfold texts. now rewrite objects_ne. Qed.
Lemma texts_app p l1 l2 : texts p (l1 ++ l2) = (texts p l1 ++ texts p l2)%list.
Proof. unfold texts. now rewrite objects_app, map_app. Qed.
Lemma last_text_eq p l t : t_pred t = p -> last_text p (l ++ [t]) = n_id (t_obj t).
Proof. intros H. unfold last_text. rewrite texts_eq by exact H. apply last_last. Qed.
Lemma last_text_ne p l t : (t_pred t =? p) = false -> last_text p (l ++ [t]) = last_text p l.
Proof. intros H. unfold last_text. now rewrite texts_ne. Qed.
Lemma in_objects p l o : In o (objects p l) <-> exists t, In t l /\ t_pred t = p /\ t_obj t = o.
Proof.
  unfold objects. rewrite in_map_iff. split.
  - intros (t & <- & I). apply filter_In in I as [I E]. apply String.eqb_eq in E. eauto.
  - intros (t & I & <- & <-). exists t. split; [reflexivity|]. apply filter_In. split; [exact I|apply String.eqb_refl].
Qed.
Lemma in_texts p l x : In x (texts p l) <-> exists t, In t l /\ t_pred t = p /\ n_id (t_obj t) = x.
Proof.
  unfold texts. rewrite in_map_iff. split.
  - intros (o & <- & I). apply in_objects in I as (t & I & <- & <-). eauto.
  - intros (t & I & <- & <-). exists (t_obj t). split; [reflexivity|]. apply in_objects. eauto.
Qed.
Lemma only_app ps l1 l2 : only ps (l1 ++ l2) <-> only ps l1 /\ only ps l2.
Proof. apply Forall_app. Qed.
Lemma only_sub ps ps' l : (forall p, In p ps -> In p ps') -> only ps l -> only ps' l.
Proof. intros H. apply Forall_impl. auto. Qed.

Lemma triples_with_id_about g id : triples_with_id g id = about g id.
Proof. reflexivity. Qed.
Lemma triples_of_node g n : triples_of g n = of_node g n.
Proof. reflexivity. Qed.
Lemma with_subject_idem id l : with_subject id (with_subject id l) = with_subject id l.
Proof.
  unfold with_subject. induction l as [|t l IH]; simpl; [reflexivity|].
  destruct (n_id (t_subj t) =? id) eqn:E; simpl; [rewrite E, IH|]; auto.
Qed.
Lemma select_about g id p : map t_obj (select id p (about g id)) = objects p (about g id).
Proof. unfold select, objects. change (about g id) with (with_subject id (g_triples g)). now rewrite with_subject_idem. Qed.
Lemma with_subject_of_node g n : with_subject (n_id n) (of_node g n) = of_node g n.
Proof.
  unfold with_subject, of_node. induction (g_triples g) as [|t l IH]; simpl; [reflexivity|].
  destruct (same_kind (n_type (t_subj t)) (n_type n)); simpl; [|exact IH].
  destruct (n_id (t_subj t) =? n_id n) eqn:E; simpl; [rewrite E, IH|]; auto.
Qed.
Lemma select_of_node g n p : map t_obj (select (n_id n) p (of_node g n)) = objects p (of_node g n).
Proof. unfold select, objects. now rewrite with_subject_of_node. Qed.
Lemma of_node_about g n t : In t (of_node g n) -> In t (about g (n_id n)).
Proof.
  unfold of_node, about. rewrite !filter_In. intros [I E]. apply andb_prop in E as [_ E]. auto.
Qed.

Lemma mem_In x l : mem x l = true <-> In x l.
Proof.
  unfold mem. rewrite existsb_exists. split.
  - intros (y & I & E). apply String.eqb_eq in E. now subst.
  - intros I. exists x. split; [exact I|apply String.eqb_refl].
Qed.
Lemma mem_false x l : mem x l = false <-> ~ In x l.
Proof. rewrite <- mem_In. destruct (mem x l); split; congruence. Qed.

(** ** Case analysis on a predicate *)
Ltac pred_cases :=
  match goal with
  | H : switch (t_pred ?t) _ _ = Ok _ |- _ =>
      cbn [switch app] in H;
      repeat match type of H with
             | (if String.eqb (t_pred t) ?k then _ else _) = _ =>
                 let E := fresh "E" in
                 destruct (String.eqb_spec (t_pred t) k) as [E|_]
             end
  end.
(** the statements after one more triple, its predicate [E] known *)
Ltac one_more E :=
  repeat match goal with
  | |- context [objects ?p (?l ++ [?t])] =>
      first [rewrite (objects_eq p l t) by (rewrite E; reflexivity)
            |rewrite (objects_ne p l t) by (rewrite E; reflexivity)]
  | |- context [texts ?p (?l ++ [?t])] =>
      first [rewrite (texts_eq p l t) by (rewrite E; reflexivity)
            |rewrite (texts_ne p l t) by (rewrite E; reflexivity)]
  | |- context [last_text ?p (?l ++ [?t])] =>
      first [rewrite (last_text_eq p l t) by (rewrite E; reflexivity)
            |rewrite (last_text_ne p l t) by (rewrite E; reflexivity)]
  end.
(** membership of a known predicate in a literal vocabulary *)
Ltac in_vocabulary E := rewrite E; repeat (first [left; reflexivity | right]).

(** ** The cache *)
Lemma lookup_assign_eq {A} k (x : A) m : lookup k (assign k x m) = Some x.
Proof.
  induction m as [|[k' y] m IH]; simpl; [now rewrite String.eqb_refl|].
  destruct (k =? k') eqn:E; simpl; [now rewrite String.eqb_refl|]. now rewrite E.
Qed.
Lemma lookup_assign_ne {A} k k' (x : A) m : k <> k' -> lookup k (assign k' x m) = lookup k m.
Proof.
  intros N. induction m as [|[j y] m IH]; simpl.
  - destruct (String.eqb_spec k k'); [contradiction|reflexivity].
  - destruct (String.eqb_spec k' j) as [->|]; simpl.
    + destruct (String.eqb_spec k j); [contradiction|reflexivity].
    + now rewrite IH.
Qed.
Lemma is_grey_enter id o c x : is_grey (enter id o c) x = (x =? id) || is_grey c x.
Proof.
  unfold is_grey, enter. destruct (String.eqb_spec x id) as [->|N]; simpl.
  - destruct (lookup id c) as [[o' k]|]; rewrite lookup_assign_eq; reflexivity.
  - destruct (lookup id c) as [[o' k]|]; rewrite lookup_assign_ne by exact N; reflexivity.
Qed.
Lemma is_grey_leave id c x : is_grey (leave id c) x = negb (x =? id) && is_grey c x.
Proof.
  unfold is_grey, leave. destruct (String.eqb_spec x id) as [->|N]; simpl.
  - destruct (lookup id c) as [[o' k]|] eqn:E; [now rewrite lookup_assign_eq|now rewrite E].
  - destruct (lookup id c) as [[o' k]|]; [|reflexivity]. now rewrite lookup_assign_ne by exact N.
Qed.
Lemma is_grey_true c id : is_grey c id = true <-> exists o, lookup id c = Some (o, GREY).
Proof.
  unfold is_grey. destruct (lookup id c) as [[o []]|]; split; try discriminate; eauto;
    intros (x & H); discriminate H || reflexivity.
Qed.
Lemma in_progress_grey c ids : in_progress c ids <-> forall id, In id ids <-> is_grey c id = true.
Proof. unfold in_progress. split; intros H id; rewrite H; [symmetry|]; apply is_grey_true. Qed.

(** ** utils.go: the last part of a URI *)
Lemma last_in {A} (l : list A) d : l <> [] -> In (last l d) l.
Proof.
  induction l as [|x l IH]; [congruence|]. intros _. destruct l as [|y l]; [now left|].
  right. apply IH. discriminate.
Qed.
Lemma last_app_ne {A} (l1 l2 : list A) d : l2 <> [] -> last (l1 ++ l2) d = last l2 d.
Proof.
  intros N. induction l1 as [|x l1 IH]; [reflexivity|]. simpl. rewrite IH.
  destruct (l1 ++ l2)%list eqn:E; [|reflexivity]. apply app_eq_nil in E as [_ ->]. congruence.
Qed.
Lemma occurs_byte c s : occurs (String c "") s <-> has_byte c s = true.
Proof.
  destruct (has_byte c s) eqn:E.
  - split; [reflexivity|]. intros _. rewrite <- contains_byte in E. apply contains_true in E. exact E.
  - split; [|discriminate]. intros H. apply contains_true in H. rewrite contains_byte in H. congruence.
Qed.
Lemma after_last_split c uri s : has_byte c uri = true ->
  (last (split_on c uri) "" = s <-> after_last (String c "") uri s).
Proof.
  intros H. assert (N : has_byte c (last (split_on c uri) "") = false).
  { apply (split_on_no_byte c uri). apply last_in, split_on_nonnil. }
  split.
  - intros <-. split; [|rewrite occurs_byte; congruence].
    assert (G : forall u, exists p, (p <> "" \/ has_byte c u = false) /\
                u = p ++ last (split_on c u) "" /\ (p = "" \/ exists q, p = q ++ String c "")).
    { clear. induction u as [|a u IH].
      - exists "". simpl. auto.
      - destruct IH as (p & H1 & H2 & H3). destruct (has_byte c u) eqn:B.
        + destruct H1 as [H1|]; [|discriminate]. destruct H3 as [->|(q & ->)]; [congruence|].
          exists (String a (q ++ String c "")). split; [left; discriminate|]. split.
          * simpl. f_equal. rewrite H2 at 1. f_equal.
            simpl. destruct (Ascii.eqb a c).
            -- destruct (split_on c u) eqn:E; [exfalso; revert E; apply split_on_nonnil|]. reflexivity.
            -- destruct (split_on c u) as [|x [|y l]] eqn:E; [exfalso; revert E; apply split_on_nonnil| |reflexivity].
               exfalso. assert (x = u) by (rewrite <- (split_on_join c u), E; reflexivity). subst x.
               assert (In u (split_on c u)) by (rewrite E; now left).
               apply split_on_no_byte in H. congruence.
          * right. exists (String a q). reflexivity.
        + assert (S1 : split_on c u = [u]) by now apply split_on_none.
          destruct (Ascii.eqb_spec a c) as [->|Na].
          * exists (String c ""). split; [left; discriminate|]. split; [|right; now exists ""].
            simpl. rewrite Ascii.eqb_refl, S1. reflexivity.
          * exists "". split; [right|].
            -- simpl. destruct (Ascii.eqb_spec a c); [contradiction|]. exact B.
            -- simpl. destruct (Ascii.eqb_spec a c); [contradiction|]. rewrite S1. simpl. auto. }
    destruct (G uri) as (p & H1 & H2 & H3). destruct H1 as [H1|]; [|congruence].
    destruct H3 as [->|(q & ->)]; [congruence|]. exists q. rewrite H2 at 1. now rewrite app_assoc_s.
  - intros [(p & ->) O]. rewrite occurs_byte in O. apply not_true_is_false in O.
    simpl. rewrite split_on_app, (split_on_none c s) by exact O. rewrite last_app_ne by discriminate. reflexivity.
Qed.
Lemma last_part_spec uri s : last_part uri = s <-> last_piece uri s.
Proof.
  unfold last_part, last_piece. rewrite !contains_byte. rewrite !occurs_byte.
  destruct (has_byte "#" uri) eqn:E.
  - rewrite (after_last_split "#" uri s E). split; [auto|]. intros [H|[H _]]; [exact H|congruence].
  - split.
    + intros H. right. split; [congruence|]. destruct (has_byte "/" uri) eqn:F.
      * left. now apply after_last_split.
      * right. split; [congruence|]. rewrite split_on_none in H by exact F. now symmetry.
    + intros [[(p & ->) _]|[_ [H|[H ->]]]].
      * rewrite has_byte_app in E. simpl in E. rewrite orb_true_r in E. discriminate.
      * destruct (has_byte "/" uri) eqn:F; [now apply after_last_split|].
        destruct H as [(p & ->) _]. rewrite has_byte_app in F. simpl in F. rewrite orb_true_r in F. discriminate.
      * apply not_true_is_false in H. now rewrite split_on_none.
Qed.
Lemma last_piece_fun uri s s' : last_piece uri s -> last_piece uri s' -> s = s'.
Proof. rewrite <- !last_part_spec. congruence. Qed.

(** ** Results that are neither a panic nor an exhausted recursion *)
Definition fine {A} (r : res A) : Prop :=
  match r with Ok _ => True | Err e => e <> out_of_fuel | Panic => False end.
Lemma fine_bind {A B} (r : res A) (f : A -> res B) :
  fine r -> (forall x, r = Ok x -> fine (f x)) -> fine (bindR r f).
Proof. destruct r; simpl; auto. Qed.
Lemma fine_for_each {A S} (f : A -> S -> res S) l : (forall x s, In x l -> fine (f x s)) -> forall s, fine (for_each f l s).
Proof.
  intros H. induction l as [|x l IH]; intros s; simpl; [exact Logic.I|].
  apply fine_bind; [apply H; now left|]. intros s' _. apply IH. intros; apply H; now right.
Qed.
Lemma fine_switch {A} tag (cases : list (string * res A)) dflt :
  Forall (fun kv => fine (snd kv)) cases -> fine dflt -> fine (switch tag cases dflt).
Proof.
  intros F D. apply (switch_cases fine); [|auto]. intros t a I _. exact (proj1 (Forall_forall _ _) F (t, a) I).
Qed.
Ltac fine_leaf := solve [exact Logic.I | simpl; discriminate | unfold out_of_fuel; discriminate].
Ltac fine_cases := apply fine_switch; [repeat (constructor; cbn [snd])|]; try fine_leaf.

Lemma fine_extract_subs_sep x s : fine (extract_subs_sep x s).
Proof. unfold extract_subs_sep. destruct (cut s x) as [[]|]; fine_leaf. Qed.
Lemma fine_bool x : fine (bool_from_string x).
Proof. unfold bool_from_string. destruct (_ =? _); [fine_leaf|]. destruct (_ =? _); fine_leaf. Qed.
Lemma fine_algorithm x : fine (algorithm_from_uri x).
Proof. unfold algorithm_from_uri. cbv zeta. destruct (negb _); [fine_leaf|]. destruct (mem _ _); fine_leaf. Qed.
Lemma fine_checksum g n : fine (checksum_from_node g n).
Proof.
  apply fine_for_each. intros t s _. unfold checksum_step. fine_cases.
  apply fine_bind; [apply fine_algorithm|]. intros; fine_leaf.
Qed.
Lemma fine_node_type_of ts n : fine (node_type_of ts n).
Proof. unfold node_type_of. destruct (select _ _ _) as [|? []]; fine_leaf. Qed.
Lemma fine_simple_from_triples g ts : fine (simple_from_triples g ts).
Proof. apply fine_for_each. intros t s _. unfold simple_step. fine_cases. destruct (g_valid_uri g _); fine_leaf. Qed.
Lemma fine_simple g n : fine (simple_from_node g n).
Proof. apply fine_simple_from_triples. Qed.
Lemma fine_extracted g n : fine (extracted_from_node g n).
Proof. unfold extracted_from_node. apply fine_bind; [apply fine_simple_from_triples|]. intros; fine_leaf. Qed.
Lemma fine_license g n : fine (license_from_node g n).
Proof.
  unfold license_from_node. apply fine_bind.
  - apply fine_for_each. intros t [i r] _. unfold license_step. fine_cases;
      (apply fine_bind; [apply fine_bool|intros; fine_leaf]).
  - intros [i r] _. apply fine_bind; [apply fine_simple_from_triples|]. intros; fine_leaf.
Qed.
Lemma fine_exception g n : fine (exception_from_node g n).
Proof. apply fine_for_each. intros t s _. unfold exception_step. fine_cases. destruct (g_valid_uri g _); fine_leaf. Qed.
Lemma fine_with_exception g n : fine (with_exception_from_node g n).
Proof.
  unfold with_exception_from_node. apply fine_bind; [|intros [[? ?] ?] _; fine_leaf].
  apply fine_for_each. intros t [[f m] e] _. unfold with_exception_step. fine_cases.
  - destruct f; [fine_leaf|]. apply fine_bind; [apply fine_simple|intros; fine_leaf].
  - apply fine_bind; [apply fine_exception|intros; fine_leaf].
Qed.
Lemma fine_or_later g n : fine (or_later_from_node g n).
Proof.
  unfold or_later_from_node. cbv zeta. destruct (negb _); [fine_leaf|].
  apply fine_for_each. intros t m _. unfold or_later_step. fine_cases. apply fine_simple.
Qed.
Lemma fine_special n : fine (special_license n).
Proof.
  unfold special_license. cbv zeta. destruct (_ || _); [fine_leaf|]. destruct (_ || _); [fine_leaf|].
  destruct (mem _ _); fine_leaf.
Qed.

(** ** IDs that can still be entered *)
Definition object_ids (g : graph) : list string := nodup string_dec (map (fun t => n_id (t_obj t)) (g_triples g)).
Definition white (g : graph) (c : cache) : list string := filter (fun id => negb (is_grey c id)) (object_ids g).
Lemma object_ids_length g : length (object_ids g) <= length (g_triples g).
Proof.
  unfold object_ids. rewrite <- (map_length (fun t => n_id (t_obj t)) (g_triples g)).
  apply NoDup_incl_length; [apply NoDup_nodup|]. intros x. apply nodup_In.
Qed.
Lemma white_length g c : length (white g c) <= length (g_triples g).
Proof.
  transitivity (length (object_ids g)); [|apply object_ids_length]. unfold white.
  induction (object_ids g) as [|x l IH]; simpl; [lia|]. destruct (negb _); simpl; lia.
Qed.
Lemma in_object_ids g t : In t (g_triples g) -> In (n_id (t_obj t)) (object_ids g).
Proof. intros I. apply nodup_In. apply in_map_iff. eauto. Qed.
Lemma of_node_in g n t : In t (of_node g n) -> In t (g_triples g).
Proof. unfold of_node. rewrite filter_In. tauto. Qed.
Lemma about_in g id t : In t (about g id) -> In t (g_triples g).
Proof. unfold about. rewrite filter_In. tauto. Qed.
Lemma white_ext g c c' : (forall x, is_grey c' x = is_grey c x) -> white g c' = white g c.
Proof. intros H. unfold white. apply filter_ext. intros x. now rewrite H. Qed.
(** room needed to enter [id] *)
Definition room (g : graph) (c : cache) (id : string) : nat :=
  length (white g c) + (if mem id (object_ids g) then 0 else 1).
Lemma room_enough g c id : room g c id < enough g.
Proof.
  unfold room, enough. pose proof (white_length g c). destruct (mem id (object_ids g)); lia.
Qed.
Lemma white_enter g c id o : is_grey c id = false ->
  length (white g (enter id o c)) + (if mem id (object_ids g) then 1 else 0) = length (white g c).
Proof.
  intros G. unfold white.
  assert (N : NoDup (object_ids g)) by apply NoDup_nodup. induction (object_ids g) as [|x l IH]; [reflexivity|].
  inversion N as [|? ? Nx Nl]; subst. cbn [filter]. rewrite is_grey_enter.
  cbn [mem existsb]. change (existsb (String.eqb id) l) with (mem id l).
  destruct (String.eqb_spec x id) as [->|Ne].
  - rewrite String.eqb_refl, G. cbn [orb negb]. cbn [length]. 
    assert (M : mem id l = false) by now apply mem_false. rewrite M in IH.
    rewrite <- IH by exact Nl. lia.
  - destruct (String.eqb_spec id x) as [->|_]; [congruence|]. cbn [orb].
    destruct (negb (is_grey c x)); cbn [length]; rewrite <- IH by exact Nl; lia.
Qed.
Lemma room_enter g c id o t : is_grey c id = false -> In t (g_triples g) ->
  room g (enter id o c) (n_id (t_obj t)) < room g c id.
Proof.
  intros G I. unfold room. apply in_object_ids, mem_In in I. rewrite I.
  pose proof (white_enter g c id o G). destruct (mem id (object_ids g)); lia.
Qed.
Lemma Forall2_weaken {A B} (P Q : A -> B -> Prop) l1 l2 :
  (forall x y, P x y -> Q x y) -> Forall2 P l1 l2 -> Forall2 Q l1 l2.
Proof. intros H F. induction F; constructor; auto. Qed.

(** ** More fuel changes nothing *)
Definition agree {A} (r r' : res A) : Prop := r <> Err out_of_fuel -> r' = r.
Lemma agree_refl {A} (r : res A) : agree r r.
Proof. intros _. reflexivity. Qed.
Lemma agree_bind {A B} (r r' : res A) (f f' : A -> res B) :
  agree r r' -> (forall x, agree (f x) (f' x)) -> agree (bindR r f) (bindR r' f').
Proof.
  intros H F N. destruct r as [x|e|]; cbn [bindR] in *.
  - rewrite H by discriminate. cbn [bindR]. now apply F.
  - rewrite H; [reflexivity|]. intros E. apply N. now injection E as ->.
  - rewrite H by discriminate. reflexivity.
Qed.
Lemma agree_for_each {A S} (f f' : A -> S -> res S) l : (forall x s, agree (f x s) (f' x s)) ->
  forall s, agree (for_each f l s) (for_each f' l s).
Proof. intros H. induction l as [|x l IH]; intros s; cbn [for_each]; [apply agree_refl|]. apply agree_bind; auto. Qed.
Lemma agree_if {A} (b : bool) (r1 r1' r2 r2' : res A) : agree r1 r1' -> agree r2 r2' ->
  agree (if b then r1 else r2) (if b then r1' else r2').
Proof. destruct b; auto. Qed.
Lemma fine_fuel {A} (r : res A) : fine r -> r <> Err out_of_fuel.
Proof. destruct r; simpl; congruence. Qed.
