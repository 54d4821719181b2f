(** Reading a license node: exactly the declared text, for every graph. *)
From Verif Require Import GoStr GoStrFacts Types TvUtil RdfConst Rdf SpecTv SpecId SpecDoc SpecRdf
  TvReaderFacts TvUtilFacts RdfFacts.

(** ** Simple licensing information *)
Lemma simple_sound g ts s : simple_from_triples g ts = Ok s ->
  simple_info g ts /\
  s = MkSimple (last_text (rdfs "comment") ts) (last_text (spdx "licenseId") ts) (last_text (spdx "name") ts)
        (texts (rdfs "seeAlso") ts) (last_text (spdx "example") ts).
Proof.
  unfold simple_from_triples.
  apply (for_each_inv (fun ts s => simple_info g ts /\
    s = MkSimple (last_text (rdfs "comment") ts) (last_text (spdx "licenseId") ts) (last_text (spdx "name") ts)
        (texts (rdfs "seeAlso") ts) (last_text (spdx "example") ts))).
  - split; [split; constructor|reflexivity].
  - clear. intros ts t s s' [[O V] ->] H. unfold simple_step in H. cbv zeta in H.
    pred_cases; [| | | | | |discriminate H];
      try (injection H as <-; (split; [split|]);
           [apply only_app; split; [exact O|]; constructor; [in_vocabulary E|constructor]
           |unfold valid_see_also; one_more E; exact V
           |one_more E; reflexivity]).
    destruct (g_valid_uri g (n_id (t_obj t))) eqn:U; [|discriminate H].
    injection H as <-. split; [split|].
    + apply only_app; split; [exact O|]; constructor; [in_vocabulary E|constructor].
    + unfold valid_see_also; one_more E. apply Forall_app. split; [exact V|]. repeat constructor. exact U.
    + one_more E. reflexivity.
Qed.

Lemma simple_complete g ts : simple_info g ts -> exists s, simple_from_triples g ts = Ok s.
Proof.
  intros [O V]. unfold simple_from_triples.
  assert (F : Forall (fun t => In (t_pred t) simple_predicates /\
                (t_pred t = rdfs "seeAlso" -> g_valid_uri g (n_id (t_obj t)) = true)) ts).
  { apply Forall_forall. intros t I. split; [exact (proj1 (Forall_forall _ _) O t I)|].
    intros E. apply (proj1 (Forall_forall _ _) V). apply in_texts. eauto. }
  apply (for_each_total _ _ _ _) with (2 := F).
  clear. intros t s [I U]. unfold simple_step. cbv zeta.
  simpl in I. repeat destruct I as [I|I]; try contradiction; rewrite <- I; cbn; eauto.
  rewrite U by (now symmetry). eauto.
Qed.

(** ** Extracted licensing information *)
Definition not_text (t : triple) : bool := negb (String.eqb (t_pred t) SPDX_EXTRACTED_TEXT).
Lemma objects_filter p q ts : (p =? q) = false ->
  objects p (filter (fun t => negb (String.eqb (t_pred t) q)) ts) = objects p ts.
Proof.
  intros N. unfold objects. f_equal. induction ts as [|t ts IH]; simpl; [reflexivity|].
  destruct (t_pred t =? q) eqn:Q; simpl.
  - rewrite IH. apply String.eqb_eq in Q. rewrite Q. rewrite String.eqb_sym, N. reflexivity.
  - destruct (t_pred t =? p); [f_equal|]; exact IH.
Qed.
Lemma texts_filter p q ts : (p =? q) = false ->
  texts p (filter (fun t => negb (String.eqb (t_pred t) q)) ts) = texts p ts.
Proof. intros N. unfold texts. now rewrite objects_filter. Qed.
Lemma only_filter ps q ts :
  only ps (filter (fun t => negb (String.eqb (t_pred t) q)) ts) -> only (q :: ps) ts.
Proof.
  intros H. apply Forall_forall. intros t I. destruct (String.eqb_spec (t_pred t) q) as [E|E]; [now left|right].
  apply (proj1 (Forall_forall _ _) H). apply filter_In. split; [exact I|].
  destruct (String.eqb_spec (t_pred t) q); [contradiction|reflexivity].
Qed.
Lemma filter_only ps q ts :
  only (q :: ps) ts -> only ps (filter (fun t => negb (String.eqb (t_pred t) q)) ts).
Proof.
  intros H. apply Forall_forall. intros t I. apply filter_In in I as [I E].
  destruct (proj1 (Forall_forall _ _) H t I) as [J|J]; [|exact J].
  rewrite J, String.eqb_refl in E. discriminate E.
Qed.
Lemma text_of_last ts : text_of ts = last_text (spdx "extractedText") ts.
Proof.
  unfold text_of. induction ts as [|t ts IH] using rev_ind; [reflexivity|].
  rewrite fold_left_app. simpl. destruct (String.eqb_spec (t_pred t) SPDX_EXTRACTED_TEXT) as [E|E].
  - rewrite last_text_eq by exact E. reflexivity.
  - rewrite last_text_ne; [exact IH|]. destruct (String.eqb_spec (t_pred t) (spdx "extractedText")); [contradiction|reflexivity].
Qed.
Lemma extracted_sound g n s x : extracted_from_node g n = Ok (s, x) ->
  let ts := about g (n_id n) in
  (only (spdx "extractedText" :: simple_predicates) ts /\ valid_see_also g ts) /\
  s = MkSimple (last_text (rdfs "comment") ts) (last_text (spdx "licenseId") ts) (last_text (spdx "name") ts)
        (texts (rdfs "seeAlso") ts) (last_text (spdx "example") ts) /\
  x = last_text (spdx "extractedText") ts.
Proof.
  unfold extracted_from_node. rewrite triples_with_id_about. cbv zeta. set (ts := about g (n_id n)).
  intros H. apply bind_ok in H as (s' & H & E). injection E as -> <-. apply simple_sound in H as [[O V] ->].
  split; [split|split].
  - now apply only_filter in O.
  - unfold valid_see_also in *. rewrite texts_filter in V by reflexivity. exact V.
  - unfold last_text. rewrite !texts_filter by reflexivity. reflexivity.
  - apply text_of_last.
Qed.
Lemma extracted_complete g n : let ts := about g (n_id n) in
  only (spdx "extractedText" :: simple_predicates) ts -> valid_see_also g ts ->
  exists s x, extracted_from_node g n = Ok (s, x).
Proof.
  cbv zeta. intros O V. unfold extracted_from_node. rewrite triples_with_id_about.
  destruct (simple_complete g (filter (fun t => negb (t_pred t =? SPDX_EXTRACTED_TEXT)) (about g (n_id n)))) as (s & ->).
  - split; [now apply filter_only|]. unfold valid_see_also in *. rewrite texts_filter by reflexivity. exact V.
  - simpl. eauto.
Qed.

(** ** Listed and other licenses *)
Definition seven : list string :=
  [spdx "isOsiApproved"; spdx "licenseText"; spdx "standardLicenseHeader"; spdx "standardLicenseTemplate";
   spdx "standardLicenseHeaderTemplate"; spdx "isDeprecatedLicenseId"; spdx "isFsfLibre"].
Definition others (ts : list triple) : list triple := filter (fun t => negb (mem (t_pred t) seven)) ts.
Lemma bool_ok x b : bool_from_string x = Ok b -> truth x.
Proof.
  unfold bool_from_string, truth. destruct (String.eqb_spec (to_lower x) "true") as [->|]; [now left|].
  destruct (String.eqb_spec (to_lower x) "false") as [->|]; [right; now left|discriminate].
Qed.
Lemma truth_bool x : truth x -> exists b, bool_from_string x = Ok b.
Proof. unfold truth, bool_from_string. intros [<-|[<-|[]]]; simpl; eauto. Qed.

Definition license_inv (ts : list triple) (i : license_info) (rest : list triple) : Prop :=
  rest = others ts /\
  (forall p, In p ["isOsiApproved"; "isDeprecatedLicenseId"; "isFsfLibre"] -> Forall truth (texts (spdx p) ts)).
Lemma license_step_sound ts t i rest i' rest' : license_inv ts i rest ->
  license_step t (i, rest) = Ok (i', rest') -> license_inv (ts ++ [t]) i' rest'.
Proof.
  intros [-> B] H. unfold license_step in H. cbv zeta in H. unfold license_inv, others.
  rewrite filter_app. cbn [filter].
  assert (C : forall p, In (t_pred t) seven -> In p ["isOsiApproved"; "isDeprecatedLicenseId"; "isFsfLibre"] ->
              (t_pred t = spdx p -> truth (n_id (t_obj t))) -> Forall truth (texts (spdx p) (ts ++ [t]))).
  { intros p _ I K. destruct (String.eqb_spec (t_pred t) (spdx p)) as [E|E].
    - rewrite texts_eq by exact E. apply Forall_app. split; [auto|]. constructor; [auto|constructor].
    - rewrite texts_ne; [auto|]. destruct (String.eqb_spec (t_pred t) (spdx p)); [contradiction|reflexivity]. }
  cbn [switch] in H.
  repeat match type of H with
  | (if String.eqb (t_pred t) ?k then _ else _) = _ =>
      let E := fresh "E" in destruct (String.eqb_spec (t_pred t) k) as [E|];
      [assert (In (t_pred t) seven) as M by in_vocabulary E;
       rewrite (proj2 (mem_In _ _) M); cbn [negb]; rewrite app_nil_r|]
  end.
  8:{ injection H as _ <-. assert (mem (t_pred t) seven = false) as ->.
      { apply mem_false. intros M. simpl in M. repeat destruct M as [M|M]; try contradiction; symmetry in M; contradiction. }
      split; [reflexivity|]. intros p I. rewrite texts_ne; [auto|].
      destruct (String.eqb_spec (t_pred t) (spdx p)) as [E|]; [|reflexivity].
      simpl in I. repeat destruct I as [I|I]; try contradiction; subst p; contradiction. }
  all: first [ apply bind_ok in H as (b & Hb & H); apply bool_ok in Hb; injection H as _ <-;
               split; [reflexivity|]; intros p I; apply C; auto
             | injection H as _ <-; split; [reflexivity|]; intros p I; apply C; auto; rewrite E; intros K;
               simpl in I; repeat destruct I as [I|I]; try contradiction; subst p; discriminate K ].
Qed.
Lemma others_texts p ts : mem p seven = false -> texts p (others ts) = texts p ts.
Proof.
  intros N. unfold texts, objects, others. do 2 f_equal. induction ts as [|t ts IH]; [reflexivity|].
  cbn [filter]. destruct (mem (t_pred t) seven) eqn:M; cbn [negb filter].
  - rewrite IH. destruct (String.eqb_spec (t_pred t) p); [congruence|reflexivity].
  - destruct (t_pred t =? p); [f_equal|]; exact IH.
Qed.
Lemma license_sound g n s i : license_from_node g n = Ok (s, i) ->
  let ts := about g (n_id n) in
  only license_predicates ts /\ valid_see_also g ts /\
  (forall p, In p ["isOsiApproved"; "isDeprecatedLicenseId"; "isFsfLibre"] -> Forall truth (texts (spdx p) ts)) /\
  sl_licenseID s = last_text (spdx "licenseId") ts.
Proof.
  unfold license_from_node. rewrite triples_with_id_about. cbv zeta. set (ts := about g (n_id n)).
  intros H. apply bind_ok in H as ([i' rest] & H & H2). apply bind_ok in H2 as (s' & H2 & E). injection E as -> ->.
  assert (I : license_inv ts i rest).
  { revert H. apply (for_each_inv (fun ts x => license_inv ts (fst x) (snd x))).
    - split; [reflexivity|]. intros; constructor.
    - intros done t [a b] [a' b'] P Hs. eapply license_step_sound; eauto. }
  destruct I as [-> B]. apply simple_sound in H2 as [[O V] ->].
  split; [|split; [|split]].
  - apply Forall_forall. intros t I. unfold license_predicates. apply in_app_iff.
    destruct (mem (t_pred t) seven) eqn:M; [right; now apply mem_In|left].
    apply (proj1 (Forall_forall _ _) O). apply filter_In. split; [exact I|]. now rewrite M.
  - unfold valid_see_also in *. rewrite others_texts in V by reflexivity. exact V.
  - exact B.
  - cbn [sl_licenseID]. unfold last_text. rewrite others_texts by reflexivity. reflexivity.
Qed.
Lemma license_complete g n : let ts := about g (n_id n) in
  only license_predicates ts -> valid_see_also g ts ->
  (forall p, In p ["isOsiApproved"; "isDeprecatedLicenseId"; "isFsfLibre"] -> Forall truth (texts (spdx p) ts)) ->
  exists s i, license_from_node g n = Ok (s, i).
Proof.
  cbv zeta. intros O V B. unfold license_from_node. rewrite triples_with_id_about. set (ts := about g (n_id n)) in *.
  assert (F : Forall (fun t => forall p, In p ["isOsiApproved"; "isDeprecatedLicenseId"; "isFsfLibre"] ->
              t_pred t = spdx p -> truth (n_id (t_obj t))) ts).
  { apply Forall_forall. intros t I p J E. apply (proj1 (Forall_forall _ _) (B p J)). apply in_texts. eauto. }
  assert (exists x, for_each license_step ts (zero_license_info, []) = Ok x) as ([i rest] & H).
  { apply (for_each_total _ _ _ _) with (2 := F). clear. intros t [i rest] K. unfold license_step. cbv zeta. cbn [switch].
    repeat match goal with
    | |- exists s', (if String.eqb (t_pred t) ?k then _ else _) = _ =>
      let E := fresh "E" in destruct (String.eqb_spec (t_pred t) k) as [E|]
    end; eauto;
    match type of E with t_pred t = ?k =>
      destruct (truth_bool (n_id (t_obj t))) as (b & ->); [|simpl; eauto] end.
    - apply (K "isOsiApproved"); [simpl; auto|exact E].
    - apply (K "isDeprecatedLicenseId"); [simpl; auto|exact E].
    - apply (K "isFsfLibre"); [simpl; auto|exact E]. }
  rewrite H. simpl.
  assert (I : license_inv ts i rest).
  { revert H. apply (for_each_inv (fun ts x => license_inv ts (fst x) (snd x))).
    - split; [reflexivity|]. intros; constructor.
    - intros done t [a b] [a' b'] P Hs. eapply license_step_sound; eauto. }
  destruct I as [-> _]. destruct (simple_complete g (others ts)) as (s & ->); [|simpl; eauto].
  split.
  - apply Forall_forall. intros t I. apply filter_In in I as [I M].
    pose proof (proj1 (Forall_forall _ _) O t I) as J. unfold license_predicates in J.
    apply in_app_iff in J as [J|J]; [exact J|]. apply mem_In in J. unfold seven in M. now rewrite J in M.
  - unfold valid_see_also in *. rewrite others_texts by reflexivity. exact V.
Qed.

(** ** Exceptions *)
Lemma exception_sound g n e : exception_from_node g n = Ok e -> exception_info g (about g (n_id n)).
Proof.
  unfold exception_from_node. rewrite triples_with_id_about.
  apply (for_each_inv (fun ts _ => exception_info g ts)).
  - split; constructor.
  - clear. intros ts t s s' [O V] H. unfold exception_step in H. cbv zeta in H.
    pred_cases; try discriminate H;
    (split; [apply only_app; split; [exact O|]; constructor; [in_vocabulary E|constructor]|
            unfold valid_see_also; one_more E]); try exact V.
    destruct (g_valid_uri g (n_id (t_obj t))) eqn:U; [|discriminate H].
    apply Forall_app. split; [exact V|]. repeat constructor. exact U.
Qed.
Lemma exception_complete g n : exception_info g (about g (n_id n)) -> exists e, exception_from_node g n = Ok e.
Proof.
  intros [O V]. unfold exception_from_node. rewrite triples_with_id_about.
  assert (F : Forall (fun t => In (t_pred t) [rdf_type; spdx "licenseExceptionId"; spdx "licenseExceptionText"; rdfs "seeAlso"; spdx "name";
        spdx "example"; rdfs "comment"] /\
                (t_pred t = rdfs "seeAlso" -> g_valid_uri g (n_id (t_obj t)) = true)) (about g (n_id n))).
  { apply Forall_forall. intros t I. split; [exact (proj1 (Forall_forall _ _) O t I)|].
    intros E. apply (proj1 (Forall_forall _ _) V). apply in_texts. eauto. }
  apply (for_each_total _ _ _ _) with (2 := F).
  clear. intros t s [I U]. unfold exception_step. cbv zeta.
  simpl in I. repeat destruct I as [I|I]; try contradiction; rewrite <- I; cbn; eauto.
  rewrite U by (now symmetry). eauto.
Qed.

(** ** Operators *)
Lemma simple_node_sound g n s : simple_from_node g n = Ok s ->
  simple_info g (about g (n_id n)) /\ sl_licenseID s = last_text (spdx "licenseId") (about g (n_id n)).
Proof. unfold simple_from_node. rewrite triples_with_id_about. intros H. apply simple_sound in H as [H ->]. auto. Qed.
Lemma simple_node_complete g n : simple_info g (about g (n_id n)) -> exists s, simple_from_node g n = Ok s.
Proof. apply simple_complete. Qed.

Definition with_inv (g : graph) (ts : list triple) (found : bool) (m : simple) : Prop :=
  only [rdf_type; spdx "member"; spdx "licenseException"] ts /\
  Forall (fun e => exception_info g (about g (n_id e))) (objects (spdx "licenseException") ts) /\
  if found then exists k, objects (spdx "member") ts = [k] /\ simple_info g (about g (n_id k)) /\
                          sl_licenseID m = last_text (spdx "licenseId") (about g (n_id k))
  else objects (spdx "member") ts = [] /\ m = zero_simple.
Lemma with_sound g n m e : with_exception_from_node g n = Ok (m, e) ->
  exists found, with_inv g (about g (n_id n)) found m.
Proof.
  unfold with_exception_from_node. rewrite triples_with_id_about. intros H.
  apply bind_ok in H as ([[found m'] e'] & H & E). injection E as -> ->. exists found.
  revert H. apply (for_each_inv (fun ts (x : bool * simple * exception) => with_inv g ts (fst (fst x)) (snd (fst x)))).
  - split; [constructor|]. split; [constructor|]. split; reflexivity.
  - clear. intros ts t [[f m] e] [[f' m'] e'] (O & X & M) H. unfold with_exception_step in H.
    cbn [fst snd] in *. unfold with_inv.
    pred_cases; [| | |discriminate H].
    + injection H as <- <- <-. split; [|split]; one_more E; auto.
      apply only_app; split; [exact O|]; constructor; [in_vocabulary E|constructor].
    + destruct f; [discriminate H|]. destruct M as [M ->]. apply bind_ok in H as (k & Hk & H).
      injection H as <- <- <-. apply simple_node_sound in Hk as [Hi Hs].
      split; [|split]; one_more E; auto.
      * apply only_app; split; [exact O|]; constructor; [in_vocabulary E|constructor].
      * rewrite M. exists (t_obj t). auto.
    + apply bind_ok in H as (k & Hk & H). injection H as <- <- <-. apply exception_sound in Hk.
      split; [|split]; one_more E; auto.
      * apply only_app; split; [exact O|]; constructor; [in_vocabulary E|constructor].
      * apply Forall_app. auto.
Qed.
Lemma with_complete g n :
  only [rdf_type; spdx "member"; spdx "licenseException"] (about g (n_id n)) ->
  Forall (fun e => exception_info g (about g (n_id e))) (objects (spdx "licenseException") (about g (n_id n))) ->
  (exists m, objects (spdx "member") (about g (n_id n)) = [m] /\ simple_info g (about g (n_id m))) \/
  objects (spdx "member") (about g (n_id n)) = [] ->
  exists m e, with_exception_from_node g n = Ok (m, e).
Proof.
  intros O X M. unfold with_exception_from_node. rewrite triples_with_id_about.
  set (ts := about g (n_id n)) in *. clearbody ts.
  assert (G : forall f m0 e0, (f = true -> objects (spdx "member") ts = []) ->
            exists x, for_each (with_exception_step g) ts (f, m0, e0) = Ok x).
  { revert M. induction ts as [|t ts IH]; intros M f m0 e0 Hf; simpl; [eauto|].
    inversion O as [|? ? I O']; subst. unfold with_exception_step at 1.
    simpl in I. destruct I as [I|[I|[I|[]]]]; rewrite <- I; cbn [switch]; symmetry in I.
    - simpl. apply IH; auto.
      + revert X. unfold objects. simpl. rewrite I. auto.
      + revert M. unfold objects. simpl. rewrite I. auto.
      + revert Hf. unfold objects. simpl. rewrite I. auto.
    - assert (E : objects (spdx "member") (t :: ts) = t_obj t :: objects (spdx "member") ts)
        by (unfold objects; simpl; now rewrite I).
      rewrite E in M. destruct M as [(m & M & S)|M]; [|discriminate M]. injection M as -> M.
      destruct f; [rewrite E in Hf; discriminate (Hf eq_refl)|].
      destruct (simple_node_complete g m S) as (s & Hs). cbn. rewrite Hs. cbn.
      apply IH; auto. revert X. unfold objects. simpl. rewrite I. auto.
    - assert (E : objects (spdx "licenseException") (t :: ts) = t_obj t :: objects (spdx "licenseException") ts)
        by (unfold objects; simpl; now rewrite I).
      rewrite E in X. inversion X as [|? ? X1 X2]; subst.
      destruct (exception_complete g (t_obj t) X1) as (e & He). cbn. rewrite He. cbn. apply IH; auto.
      + revert M. unfold objects. simpl. rewrite I. auto.
      + revert Hf. unfold objects. simpl. rewrite I. auto. }
  destruct (G false zero_simple zero_exception) as ([[f m] e] & ->); [discriminate|]. simpl. eauto.
Qed.

Lemma or_later_sound g n m : or_later_from_node g n = Ok m -> has_type g n "OrLaterOperator" ->
  exists k, only [rdf_type; spdx "member"] (about g (n_id n)) /\ objects (spdx "member") (about g (n_id n)) = [k] /\
    simple_info g (about g (n_id k)) /\ sl_licenseID m = last_text (spdx "licenseId") (about g (n_id k)).
Proof.
  unfold or_later_from_node, has_type. rewrite triples_with_id_about. set (ts := about g (n_id n)).
  intros H T. destruct (Nat.eqb_spec (length ts) 2) as [L|]; [|discriminate H]. cbn [negb] in H.
  assert (I : only [rdf_type; spdx "member"] ts /\
              (objects (spdx "member") ts = [] \/
               exists ks k, objects (spdx "member") ts = (ks ++ [k])%list /\ simple_info g (about g (n_id k)) /\
                 sl_licenseID m = last_text (spdx "licenseId") (about g (n_id k)))).
  { revert H. clear. clearbody ts.
    apply (for_each_inv (fun ts m => only [rdf_type; spdx "member"] ts /\
              (objects (spdx "member") ts = [] \/
               exists ks k, objects (spdx "member") ts = (ks ++ [k])%list /\ simple_info g (about g (n_id k)) /\
                 sl_licenseID m = last_text (spdx "licenseId") (about g (n_id k))))).
    - split; [constructor|now left].
    - clear. intros ts t m m' [O M] H. unfold or_later_step in H. pred_cases; [| |discriminate H].
      + injection H as <-. one_more E. split; [|exact M].
        apply only_app; split; [exact O|]; constructor; [in_vocabulary E|constructor].
      + apply simple_node_sound in H as [S1 S2]. one_more E. split.
        * apply only_app; split; [exact O|]; constructor; [in_vocabulary E|constructor].
        * right. eauto. }
  destruct I as [O M]. clear H.
  assert (C : length ts = (length (objects rdf_type ts) + length (objects (spdx "member") ts))%nat).
  { clear - O. induction ts as [|t l IH]; [reflexivity|]. inversion O as [|? ? I O']; subst.
    unfold objects in *. simpl in I. destruct I as [I|[I|[]]]; simpl; rewrite <- I; simpl; rewrite IH by exact O'; lia. }
  assert (T1 : length (objects rdf_type ts) = 1).
  { unfold texts in T. apply (f_equal (@length string)) in T. rewrite map_length in T. exact T. }
  destruct M as [M|(ks & k & M & S1 & S2)].
  - rewrite M in C. simpl in C. lia.
  - rewrite M, app_length in C. simpl in C. destruct ks; [|simpl in C; lia]. exists k. auto.
Qed.
Lemma or_later_complete g n k : has_type g n "OrLaterOperator" ->
  only [rdf_type; spdx "member"] (about g (n_id n)) -> objects (spdx "member") (about g (n_id n)) = [k] ->
  simple_info g (about g (n_id k)) -> exists m, or_later_from_node g n = Ok m.
Proof.
  unfold or_later_from_node, has_type. change (triples_with_id g (n_id n)) with (about g (n_id n)). set (ts := about g (n_id n)).
  intros T O M S.
  assert (C : length ts = (length (objects rdf_type ts) + length (objects (spdx "member") ts))%nat).
  { clear - O. induction ts as [|t l IH]; [reflexivity|]. inversion O as [|? ? I O']; subst.
    unfold objects in *. simpl in I. destruct I as [I|[I|[]]]; simpl; rewrite <- I; simpl; rewrite IH by exact O'; lia. }
  assert (T1 : length (objects rdf_type ts) = 1).
  { unfold texts in T. apply (f_equal (@length string)) in T. rewrite map_length in T. exact T. }
  rewrite M, T1 in C. rewrite C. cbn [length plus Nat.eqb negb].
  assert (F : Forall (fun t => t_pred t = rdf_type \/ (t_pred t = spdx "member" /\ t_obj t = k)) ts).
  { apply Forall_forall. intros t I. destruct (proj1 (Forall_forall _ _) O t I) as [J|[J|[]]]; [now left|right].
    split; [now symmetry|]. assert (K : In (t_obj t) (objects (spdx "member") ts)) by (apply in_objects; eauto).
    rewrite M in K. destruct K as [K|[]]. now symmetry. }
  apply (for_each_total _ _ _ _) with (2 := F).
  intros t m [I|[I J]]; unfold or_later_step; rewrite I; cbn; eauto. rewrite J. apply simple_node_complete, S.
Qed.

(** ** Special licenses *)
Lemma special_spec n s : special_license n = Ok s <-> special_name (n_id n) s.
Proof.
  unfold special_license, special_name. cbv zeta. set (u := trim_space (n_id n)).
  change SPDX_NONE_CAPS with (spdx "NONE"). change SPDX_NONE_SMALL with (spdx "none").
  change SPDX_NOASSERTION_CAPS with (spdx "NOASSERTION"). change SPDX_NOASSERTION_SMALL with (spdx "noassertion").
  cbn [existsb].
  destruct (u =? spdx "NONE"), (u =? spdx "none"); cbn [orb]; try (split; congruence).
  destruct (u =? spdx "NOASSERTION"), (u =? spdx "noassertion"); cbn [orb]; try (split; congruence).
  rewrite <- last_part_spec, <- mem_In. destruct (mem (last_part u) all_standard_license_ids) eqn:E; split.
  - intros H. injection H as <-. auto.
  - intros [<- _]. reflexivity.
  - discriminate.
  - intros [<- H]. congruence.
Qed.

(** ** The recursion *)
Lemma node_type_spec g n ty : node_type_of (about g (n_id n)) n = Ok ty <-> texts rdf_type (about g (n_id n)) = [ty].
Proof.
  unfold texts. rewrite <- (select_about g (n_id n) rdf_type). unfold node_type_of. change RDF_TYPE with rdf_type.
  destruct (select (n_id n) rdf_type (about g (n_id n))) as [|t [|u l]]; cbn [map]; split; try discriminate; congruence.
Qed.

Section Members.
Variables (g : graph) (any : node -> cache -> res (license * cache)) (strict : bool).

Lemma members_grey : (forall n c l c', any n c = Ok (l, c') -> forall x, is_grey c' x = is_grey c x) ->
  forall ts ms c ms' c', for_each (members_step any strict) ts (ms, c) = Ok (ms', c') ->
  forall x, is_grey c' x = is_grey c x.
Proof.
  intros HA ts ms c ms' c' H x.
  revert H. apply (for_each_inv (fun _ s => is_grey (snd s) x = is_grey c x) (members_step any strict) (ms, c) eq_refl
     ) with (s := (ms', c')).
  clear - HA. intros _ t [ms c1] [ms' c2] P H. unfold members_step in H. cbn [switch] in H.
  destruct (t_pred t =? RDF_TYPE); [injection H as <- <-; exact P|].
  destruct (t_pred t =? SPDX_MEMBER).
  - apply bind_ok in H as ([m c3] & H1 & H). injection H as _ <-. cbn [snd] in *. rewrite (HA _ _ _ _ H1 x). exact P.
  - destruct strict; [discriminate H|]. injection H as <- <-. exact P.
Qed.

Lemma members_sound (P : node -> string -> Prop) (Inv : cache -> Prop) :
  (forall n c l c', Inv c -> any n c = Ok (l, c') -> P n (license_string l) /\ Inv c') ->
  forall ts c0 ms c, Inv c0 -> for_each (members_step any strict) ts ([], c0) = Ok (ms, c) ->
  Forall2 P (objects (spdx "member") ts) (map license_string ms) /\ Inv c /\
  (strict = true -> only [rdf_type; spdx "member"] ts).
Proof.
  intros HA ts c0 ms c I0.
  apply (for_each_inv (fun ts s => Forall2 P (objects (spdx "member") ts) (map license_string (fst s)) /\ Inv (snd s) /\
    (strict = true -> only [rdf_type; spdx "member"] ts)) (members_step any strict) ([], c0)) with (s := (ms, c)).
  - split; [constructor|]. split; [exact I0|]. constructor.
  - clear ts ms c I0. intros ts t [ms c] [ms' c'] (F & I & O) H. cbn [fst snd] in *. unfold members_step in H. cbn [switch] in H.
    destruct (String.eqb_spec (t_pred t) RDF_TYPE) as [E|]; [|destruct (String.eqb_spec (t_pred t) SPDX_MEMBER) as [E|]].
    + injection H as <- <-. one_more E. split; [exact F|]. split; [exact I|]. intros S.
      apply only_app; split; [auto|]; constructor; [in_vocabulary E|constructor].
    + apply bind_ok in H as ([m c2] & H1 & H). injection H as <- <-. destruct (HA _ _ _ _ I H1) as [P1 I1].
      one_more E. rewrite map_app. split; [|split; [exact I1|]].
      * apply Forall2_app; [exact F|]. repeat constructor. exact P1.
      * intros S. apply only_app; split; [auto|]; constructor; [in_vocabulary E|constructor].
    + destruct strict; [discriminate H|]. injection H as <- <-. rewrite objects_ne; [|].
      * split; [exact F|]. split; [exact I|]. discriminate.
      * destruct (String.eqb_spec (t_pred t) (spdx "member")); [contradiction|reflexivity].
Qed.

Lemma members_complete (P : node -> string -> Prop) (Inv : cache -> Prop) :
  forall ts ss,
  Forall2 (fun n s => forall c, Inv c -> any n c = Err out_of_fuel \/
             exists l c', any n c = Ok (l, c') /\ license_string l = s /\ Inv c') (objects (spdx "member") ts) ss ->
  (strict = true -> only [rdf_type; spdx "member"] ts) ->
  forall ms0 c0, Inv c0 ->
  for_each (members_step any strict) ts (ms0, c0) = Err out_of_fuel \/
  exists ms c, for_each (members_step any strict) ts (ms0, c0) = Ok ((ms0 ++ ms)%list, c) /\
    map license_string ms = ss /\ Inv c.
Proof.
  induction ts as [|t ts IH]; intros ss F O ms0 c0 I0.
  - inversion F; subst. right. exists [], c0. simpl. rewrite app_nil_r. auto.
  - cbn [for_each]. unfold members_step at 1 3. cbn [switch].
    assert (O' : strict = true -> only [rdf_type; spdx "member"] ts).
    { intros S. specialize (O S). now inversion O. }
    destruct (String.eqb_spec (t_pred t) RDF_TYPE) as [E|E].
    + cbn [bindR]. apply IH; auto. revert F. unfold objects. cbn [filter]. rewrite E. auto.
    + destruct (String.eqb_spec (t_pred t) SPDX_MEMBER) as [E2|E2].
      * assert (Eo : objects (spdx "member") (t :: ts) = t_obj t :: objects (spdx "member") ts)
          by (unfold objects; cbn [filter]; now rewrite E2).
        rewrite Eo in F. inversion F as [|? s ? ss' F1 F2]; subst.
        destruct (F1 c0 I0) as [->|(l & c1 & -> & <- & I1)]; [now left|]. cbn [bindR].
        destruct (IH ss' F2 O' (ms0 ++ [l])%list c1 I1) as [->|(ms & c & -> & <- & I2)]; [now left|right].
        exists (l :: ms), c. rewrite <- app_assoc. auto.
      * destruct strict eqn:S.
        -- specialize (O eq_refl). inversion O as [|? ? J]; subst. simpl in J.
           destruct J as [J|[J|[]]]; symmetry in J; contradiction.
        -- cbn [bindR]. apply IH; auto. revert F. unfold objects. cbn [filter].
           destruct (String.eqb_spec (t_pred t) (spdx "member")); [contradiction|auto].
Qed.
End Members.

(** *** greys are restored *)
Lemma leave_enter c c2 id o : is_grey c id = false ->
  (forall x, is_grey c2 x = is_grey (enter id o c) x) -> forall x, is_grey (leave id c2) x = is_grey c x.
Proof.
  intros G H x. rewrite is_grey_leave, H, is_grey_enter. destruct (String.eqb_spec x id) as [->|]; simpl; [now symmetry|reflexivity].
Qed.
Lemma any_license_grey g k : forall n c l c', any_license g k n c = Ok (l, c') -> forall x, is_grey c' x = is_grey c x.
Proof.
  induction k as [|k IH]; intros n c l c' H x; cbn [any_license] in H; [discriminate H|].
  destruct (is_grey c (n_id n)) eqn:G; [discriminate H|]. cbv zeta in H.
  apply bind_ok in H as ([l1 c2] & H & E). injection E as _ <-.
  apply (leave_enter c c2 (n_id n) CNil G). clear x.
  destruct (triples_with_id g (n_id n)) as [|t ts].
  - apply bind_ok in H as (s & _ & H). injection H as _ <-. auto.
  - apply bind_ok in H as (ty & _ & H). cbn [switch] in H.
    repeat match type of H with (if _ then _ else _) = _ => destruct (_ =? _) end; try discriminate H;
      apply bind_ok in H as ([a b] & H1 & H) || apply bind_ok in H as (a & H1 & H); injection H as _ <-; auto;
      apply (members_grey (any_license g k) _ IH _ _ _ _ _ H1).
Qed.

(** *** soundness *)
Lemma any_license_sound g k : forall n c above l c', in_progress c above -> any_license g k n c = Ok (l, c') ->
  license_text g above n (license_string l).
Proof.
  induction k as [|k IH]; intros n c above l c' A H; cbn [any_license] in H; [discriminate H|].
  destruct (is_grey c (n_id n)) eqn:G; [discriminate H|]. cbv zeta in H.
  assert (NI : ~ In (n_id n) above).
  { rewrite in_progress_grey in A. rewrite A. congruence. }
  apply bind_ok in H as ([l1 c2] & H & E). injection E as -> _.
  change (triples_with_id g (n_id n)) with (about g (n_id n)) in H.
  destruct (about g (n_id n)) as [|t ts] eqn:EA.
  - apply bind_ok in H as (s & S & H). injection H as <- _. apply lt_special; auto. now apply special_spec.
  - rewrite <- EA in H. apply bind_ok in H as (ty & T & H). apply node_type_spec in T.
    assert (MS : forall strict ms c3, for_each (members_step (any_license g k) strict) (triples_of g n) ([], enter (n_id n) CNil c) = Ok (ms, c3) ->
              Forall2 (license_text g (n_id n :: above)) (objects (spdx "member") (of_node g n)) (map license_string ms) /\
              (strict = true -> only [rdf_type; spdx "member"] (of_node g n))).
    { intros strict ms c3 Hm. rewrite triples_of_node in Hm.
      eapply members_sound with (Inv := fun c => in_progress c (n_id n :: above)) in Hm.
      - destruct Hm as (F & _ & O). split; [exact F|exact O].
      - intros m c4 l4 c5 A4 H4. split; [eapply IH; eauto|].
        rewrite in_progress_grey in *. intros id. rewrite (any_license_grey _ _ _ _ _ _ H4). apply A4.
      - rewrite in_progress_grey in *. intros id. rewrite is_grey_enter. cbn [In]. rewrite A.
        destruct (String.eqb_spec id (n_id n)) as [->|N]; cbn [orb]; split; auto. intros [<-|]; [congruence|auto]. }
    cbn [switch] in H.
    repeat match type of H with
    | (if String.eqb ty ?k then _ else _) = _ => destruct (String.eqb_spec ty k) as [->|]
    end; [| | | | | | | |discriminate H].
    + apply bind_ok in H as ([ms c3] & H1 & H). injection H as <- _. apply MS in H1 as [F _].
      cbn [license_string]. apply lt_or; auto.
    + apply bind_ok in H as ([ms c3] & H1 & H). injection H as <- _. apply MS in H1 as [F O].
      cbn [license_string]. apply lt_and; auto.
    + apply bind_ok in H as ([s x] & H1 & H). injection H as <- _. apply extracted_sound in H1 as ([O V] & -> & ->).
      apply lt_leaf; [auto|]. apply lf_extracted; auto.
    + apply bind_ok in H as ([s x] & H1 & H). injection H as <- _. apply license_sound in H1 as (O & V & B & L).
      cbn [license_string]. rewrite L. apply lt_leaf; [auto|]. apply (lf_license g n "ListedLicense"); auto. simpl; auto.
    + apply bind_ok in H as ([s x] & H1 & H). injection H as <- _. apply license_sound in H1 as (O & V & B & L).
      cbn [license_string]. rewrite L. apply lt_leaf; [auto|]. apply (lf_license g n "License"); auto. simpl; auto.
    + apply bind_ok in H as ([s x] & H1 & H). injection H as <- _. apply with_sound in H1 as (found & O & X & M).
      cbn [license_string]. apply lt_leaf; [auto|]. destruct found.
      * destruct M as (m & M & S & ->). eapply lf_with_exception; eauto.
      * destruct M as [M ->]. apply lf_with_nothing; auto.
        apply Forall_forall. intros u I. destruct (proj1 (Forall_forall _ _) O u I) as [J|[J|[J|[]]]]; [now left| |right; now left].
        assert (K : In (t_obj u) (objects (spdx "member") (about g (n_id n)))) by (apply in_objects; eauto).
        rewrite M in K. destruct K.
    + apply bind_ok in H as (s & H1 & H). injection H as <- _. apply or_later_sound in H1 as (m & O & M & S & L); [|exact T].
      cbn [license_string]. rewrite L. apply lt_leaf; [auto|]. eapply lf_or_later; eauto.
    + apply bind_ok in H as (s & H1 & H). injection H as <- _. apply simple_node_sound in H1 as [S L].
      cbn [license_string]. rewrite L. apply lt_leaf; [auto|]. now apply lf_simple.
Qed.

(** *** induction on a license text, with the hypothesis for the members *)
Section LicenseTextInd.
Variables (g : graph) (P : list string -> node -> string -> Prop).
Hypothesis Hspecial : forall above n s, ~ In (n_id n) above -> about g (n_id n) = [] -> special_name (n_id n) s -> P above n s.
Hypothesis Hleaf : forall above n s, ~ In (n_id n) above -> leaf_text g n s -> P above n s.
Hypothesis Hand : forall above n ss, ~ In (n_id n) above -> has_type g n "ConjunctiveLicenseSet" ->
  only [rdf_type; spdx "member"] (of_node g n) ->
  Forall2 (license_text g (n_id n :: above)) (objects (spdx "member") (of_node g n)) ss ->
  Forall2 (P (n_id n :: above)) (objects (spdx "member") (of_node g n)) ss -> P above n (join " AND " ss).
Hypothesis Hor : forall above n ss, ~ In (n_id n) above -> has_type g n "DisjunctiveLicenseSet" ->
  Forall2 (license_text g (n_id n :: above)) (objects (spdx "member") (of_node g n)) ss ->
  Forall2 (P (n_id n :: above)) (objects (spdx "member") (of_node g n)) ss -> P above n (join " OR " ss).
Fixpoint license_text_rec above n s (H : license_text g above n s) {struct H} : P above n s.
Proof.
  destruct H as [above n s N E S|above n s N L|above n ss N T O F|above n ss N T F].
  - now apply Hspecial.
  - now apply Hleaf.
  - apply Hand; auto. induction F; constructor; auto.
  - apply Hor; auto. induction F; constructor; auto.
Qed.
End LicenseTextInd.

Definition reads (g : graph) (n : node) (s : string) (c : cache) (r : res (license * cache)) : Prop :=
  r = Err out_of_fuel \/
  exists l c', r = Ok (l, c') /\ license_string l = s /\ forall x, is_grey c' x = is_grey c x.

(** *** completeness, up to the bound on the recursion *)
Lemma type_some g n ty : has_type g n ty -> exists t ts, about g (n_id n) = t :: ts.
Proof. unfold has_type. destruct (about g (n_id n)) as [|t ts]; [discriminate|eauto]. Qed.

Lemma any_license_leaf g n s : leaf_text g n s -> forall k c, is_grey c (n_id n) = false ->
  exists l, any_license g (S k) n c = Ok (l, leave (n_id n) (enter (n_id n) CNil c)) /\ license_string l = s.
Proof.
  intros L k c G. cbn [any_license]. rewrite G. cbv zeta.
  change (triples_with_id g (n_id n)) with (about g (n_id n)).
  assert (T : exists ty, has_type g n ty) by (destruct L; eauto).
  destruct T as (ty & T). destruct (type_some g n ty T) as (t & ts & EA). rewrite EA. rewrite <- EA. clear ty T t ts EA.
  destruct L as [T S|T O V|ty Ty T O V B|m T O X M S|T O X|m T O M S];
    rewrite (proj2 (node_type_spec g n _) T); cbn [bindR].
  - destruct (simple_node_complete g n S) as (s & E). cbn. rewrite E. cbn.
    apply simple_node_sound in E as [_ E]. eauto.
  - destruct (extracted_complete g n O V) as (s & x & E). cbn. rewrite E. cbn.
    apply extracted_sound in E as (_ & -> & _). eauto.
  - destruct (license_complete g n O V B) as (s & i & E).
    apply license_sound in E as E'. destruct E' as (_ & _ & _ & L).
    destruct Ty as [<-|[<-|[]]]; cbn; rewrite E; cbn; eauto.
  - destruct (with_complete g n O X) as (w & e & E); [left; eauto|]. cbn. rewrite E. cbn.
    apply with_sound in E as (found & _ & _ & F). destruct found.
    + destruct F as (m' & M' & _ & F). rewrite M in M'. injection M' as <-. eauto.
    + destruct F as [F _]. rewrite M in F. discriminate F.
  - assert (M : objects (spdx "member") (about g (n_id n)) = []).
    { destruct (objects (spdx "member") (about g (n_id n))) as [|o l] eqn:M; [reflexivity|]. exfalso.
      assert (I : In o (objects (spdx "member") (about g (n_id n)))) by (rewrite M; now left).
      apply in_objects in I as (t & I & E & _). pose proof (proj1 (Forall_forall _ _) O t I) as J.
      cbv beta in J. rewrite E in J. destruct J as [J|[J|[]]]; discriminate J. }
    destruct (with_complete g n) as (w & e & E); auto.
    { eapply only_sub; [|exact O]. simpl. tauto. }
    cbn. rewrite E. cbn. apply with_sound in E as (found & _ & _ & F). destruct found.
    + destruct F as (m' & M' & _ & F). rewrite M in M'. discriminate M'.
    + destruct F as [_ ->]. eauto.
  - destruct (or_later_complete g n m T O M S) as (w & E). cbn. rewrite E. cbn.
    apply or_later_sound in E as (m' & _ & M' & _ & E); [|exact T]. rewrite M in M'. injection M' as <-. eauto.
Qed.

Lemma in_progress_enter c above id o : in_progress c above -> in_progress (enter id o c) (id :: above).
Proof.
  rewrite !in_progress_grey. intros A x. rewrite is_grey_enter. cbn [In]. rewrite A.
  destruct (String.eqb_spec x id) as [->|N]; cbn [orb]; split; auto. intros [<-|]; [congruence|auto].
Qed.
Lemma in_progress_ext c c' above : (forall x, is_grey c' x = is_grey c x) -> in_progress c above -> in_progress c' above.
Proof. rewrite !in_progress_grey. intros H A x. rewrite H. apply A. Qed.

Lemma any_license_complete g above n s : license_text g above n s ->
  forall k c, in_progress c above -> reads g n s c (any_license g k n c).
Proof.
  intros L. induction L as [above n s N E S|above n s N L|above n ss N T O F IH|above n ss N T F IH] using license_text_rec;
    intros k c A; (destruct k as [|k]; [now left|]);
    assert (G : is_grey c (n_id n) = false)
      by (rewrite in_progress_grey in A; rewrite A in N; destruct (is_grey c (n_id n)); congruence).
  - right. cbn [any_license]. rewrite G. cbv zeta. change (triples_with_id g (n_id n)) with (about g (n_id n)).
    rewrite E. apply special_spec in S. rewrite S. cbn. eexists _, _. split; [reflexivity|]. split; [reflexivity|].
    apply leave_enter with (o := CNil); auto.
  - right. destruct (any_license_leaf g n s L k c G) as (l & H & Hs). exists l. eexists. split; [exact H|]. split; [exact Hs|].
    apply leave_enter with (o := CNil); auto.
  - cbn [any_license]. rewrite G. cbv zeta. change (triples_with_id g (n_id n)) with (about g (n_id n)).
    destruct (type_some g n _ T) as (t & ts & EA). rewrite EA. rewrite <- EA.
    rewrite (proj2 (node_type_spec g n _) T); cbn [bindR]. cbn [switch].
    change (spdx "ConjunctiveLicenseSet" =? SPDX_DISJUNCTIVE_LICENSE_SET) with false.
    change (spdx "ConjunctiveLicenseSet" =? SPDX_CONJUNCTIVE_LICENSE_SET) with true. cbv iota.
    rewrite triples_of_node.
    pose proof (in_progress_enter c above (n_id n) CNil A) as A1.
    destruct (members_complete (any_license g k) true (fun _ _ => True)
                (fun c' => forall x, is_grey c' x = is_grey (enter (n_id n) CNil c) x) (of_node g n) ss) with
      (ms0 := @nil license) (c0 := enter (n_id n) CNil c) as [->|(ms & c2 & -> & <- & I2)]; auto.
    + eapply Forall2_weaken; [|exact IH]. intros m s Hm c1 Hc. cbv beta in Hm.
      destruct (Hm k c1 (in_progress_ext _ _ _ Hc A1)) as [->|(l & c3 & -> & Hs & Hg)]; [now left|right].
      exists l, c3. split; [reflexivity|]. split; [exact Hs|]. intros x. rewrite Hg. apply Hc.
    + left. reflexivity.
    + right. cbn [app bindR]. eexists _, _. split; [reflexivity|]. split; [reflexivity|].
      apply leave_enter with (o := CNil); auto.
  - cbn [any_license]. rewrite G. cbv zeta. change (triples_with_id g (n_id n)) with (about g (n_id n)).
    destruct (type_some g n _ T) as (t & ts & EA). rewrite EA. rewrite <- EA.
    rewrite (proj2 (node_type_spec g n _) T); cbn [bindR]. cbn [switch].
    change (spdx "DisjunctiveLicenseSet" =? SPDX_DISJUNCTIVE_LICENSE_SET) with true. cbv iota.
    rewrite triples_of_node.
    pose proof (in_progress_enter c above (n_id n) CNil A) as A1.
    destruct (members_complete (any_license g k) false (fun _ _ => True)
                (fun c' => forall x, is_grey c' x = is_grey (enter (n_id n) CNil c) x) (of_node g n) ss) with
      (ms0 := @nil license) (c0 := enter (n_id n) CNil c) as [->|(ms & c2 & -> & <- & I2)]; auto.
    + eapply Forall2_weaken; [|exact IH]. intros m s Hm c1 Hc. cbv beta in Hm.
      destruct (Hm k c1 (in_progress_ext _ _ _ Hc A1)) as [->|(l & c3 & -> & Hs & Hg)]; [now left|right].
      exists l, c3. split; [reflexivity|]. split; [exact Hs|]. intros x. rewrite Hg. apply Hc.
    + discriminate.
    + left. reflexivity.
    + right. cbn [app bindR]. eexists _, _. split; [reflexivity|]. split; [reflexivity|].
      apply leave_enter with (o := CNil); auto.
Qed.

(** *** the bound is never reached, and nothing panics *)
Lemma any_license_fine g k : forall n c, room g c (n_id n) < k -> fine (any_license g k n c).
Proof.
  induction k as [|k IH]; intros n c R; [lia|]. cbn [any_license].
  destruct (is_grey c (n_id n)) eqn:G; [fine_leaf|]. cbv zeta.
  assert (M : forall strict, fine (for_each (members_step (any_license g k) strict) (triples_of g n) ([], enter (n_id n) CNil c))).
  { intros strict. rewrite triples_of_node.
    assert (Q : forall ts, (forall t, In t ts -> In t (g_triples g)) -> forall ms c1,
              (forall x, is_grey c1 x = is_grey (enter (n_id n) CNil c) x) ->
              fine (for_each (members_step (any_license g k) strict) ts (ms, c1))).
    { induction ts as [|t ts IHt]; intros Hin ms c1 Hc; [exact Logic.I|]. cbn [for_each].
      unfold members_step at 1. cbn [switch]. destruct (t_pred t =? RDF_TYPE).
      - apply IHt; auto. intros; apply Hin; now right.
      - destruct (t_pred t =? SPDX_MEMBER).
        + assert (F : fine (any_license g k (t_obj t) c1)).
          { apply IH. assert (room g c1 (n_id (t_obj t)) = room g (enter (n_id n) CNil c) (n_id (t_obj t))) as ->
              by (unfold room; now rewrite (white_ext _ _ _ Hc)).
            pose proof (room_enter g c (n_id n) CNil t G (Hin t (or_introl eq_refl))). lia. }
          destruct (any_license g k (t_obj t) c1) as [[l c2]|e|] eqn:E; cbn [bindR]; auto.
          apply IHt; [intros; apply Hin; now right|]. intros x. rewrite (any_license_grey _ _ _ _ _ _ E). apply Hc.
        + destruct strict; [fine_leaf|]. apply IHt; auto. intros; apply Hin; now right. }
    apply Q; auto. intros t I. now apply of_node_in in I. }
  apply fine_bind; [|intros [l c2] _; fine_leaf].
  destruct (triples_with_id g (n_id n)) as [|t ts].
  - apply fine_bind; [apply fine_special|intros; fine_leaf].
  - apply fine_bind; [apply fine_node_type_of|]. intros ty _. fine_cases;
      (apply fine_bind; [auto using fine_extracted, fine_license, fine_with_exception, fine_or_later, fine_simple|
                         intros; try fine_leaf; destruct x; fine_leaf]).
Qed.
Lemma get_any_license_fine g n c : fine (get_any_license g n c).
Proof. apply any_license_fine, room_enough. Qed.

Lemma get_any_license_spec g n c above s : in_progress c above ->
  ((exists l c', get_any_license g n c = Ok (l, c') /\ license_string l = s) <-> license_text g above n s).
Proof.
  intros A. split.
  - intros (l & c' & H & <-). eapply any_license_sound; eauto.
  - intros L. destruct (any_license_complete g above n s L (enough g) c A) as [H|(l & c' & H & E & _)]; [|eauto].
    pose proof (get_any_license_fine g n c) as F. unfold get_any_license in F. rewrite H in F. now destruct F.
Qed.

(** ** Consequences *)
Lemma license_text_weaken g above n s : license_text g above n s ->
  forall above', incl above' above -> license_text g above' n s.
Proof.
  intros L. induction L as [above n s N E S|above n s N L|above n ss N T O F IH|above n ss N T F IH] using license_text_rec;
    intros above' I; assert (N' : ~ In (n_id n) above') by (intros J; apply N, I, J).
  - now apply lt_special.
  - now apply lt_leaf.
  - apply lt_and; auto. eapply Forall2_weaken; [|exact IH]. intros m s H. apply H.
    intros x [<-|J]; [now left|right; now apply I].
  - apply lt_or; auto. eapply Forall2_weaken; [|exact IH]. intros m s H. apply H.
    intros x [<-|J]; [now left|right; now apply I].
Qed.
Lemma in_progress_nil : in_progress [] [].
Proof. intros id. split; [intros []|]. intros (o & H). discriminate H. Qed.
Lemma license_text_fun g above above' n s s' : license_text g above n s -> license_text g above' n s' -> s = s'.
Proof.
  intros L L'. apply license_text_weaken with (above' := []) in L; [|intros x []].
  apply license_text_weaken with (above' := []) in L'; [|intros x []].
  apply (get_any_license_spec g n [] [] s in_progress_nil) in L as (l & c & H & <-).
  apply (get_any_license_spec g n [] [] s' in_progress_nil) in L' as (l' & c' & H' & <-). congruence.
Qed.

Lemma license_text_chain g above n s : license_text g above n s ->
  forall path m, chain g n path m -> sound_node g m /\ ~ In (n_id m) (above ++ map n_id path).
Proof.
  intros L. induction L as [above n s N E S|above n s N L|above n ss N T O F IH|above n ss N T F IH] using license_text_rec;
    intros path m C.
  - inversion C as [|? k l ? [M _]]; subst.
    + rewrite app_nil_r. split; [left; split; eauto|exact N].
    + exfalso. unfold has_type in M. rewrite E in M. destruct M as [M|M]; discriminate M.
  - inversion C as [|? k l ? [M _]]; subst.
    + rewrite app_nil_r. split; [right; left; eauto|exact N].
    + exfalso. assert (T : exists ty, has_type g n ty /\ ~ In ty ["ConjunctiveLicenseSet"; "DisjunctiveLicenseSet"]).
      { destruct L; eexists; (split; [eassumption|]); simpl; try (intros [J|[J|[]]]; discriminate J).
        intros J. match goal with K : In ?ty ["License"; _] |- _ => simpl in K; destruct K as [<-|[<-|[]]] end;
          destruct J as [J|[J|[]]]; discriminate J. }
      destruct T as (ty & T & NT). unfold has_type in *. rewrite T in M.
      destruct M as [M|M]; apply (f_equal (fun l => hd "" l)) in M; apply app_inj_l in M; apply NT; rewrite M; simpl; auto.
  - inversion C as [|? k l ? [M I] C']; subst.
    + rewrite app_nil_r. split; [do 2 right; left; auto|exact N].
    + assert (G : forall path m, chain g k path m -> sound_node g m /\ ~ In (n_id m) ((n_id n :: above) ++ map n_id path)).
      { clear - IH I. induction IH as [|a b la lb H F IHf]; [destruct I|]. destruct I as [->|I]; auto. }
      destruct (G l m C') as [G1 G2]. split; [exact G1|].
      intros J. apply G2. cbn [map] in J. apply in_app_iff in J. simpl. rewrite in_app_iff. simpl in J. tauto.
  - inversion C as [|? k l ? [M I] C']; subst.
    + rewrite app_nil_r. split; [do 3 right; auto|exact N].
    + assert (G : forall path m, chain g k path m -> sound_node g m /\ ~ In (n_id m) ((n_id n :: above) ++ map n_id path)).
      { clear - IH I. induction IH as [|a b la lb H F IHf]; [destruct I|]. destruct I as [->|I]; auto. }
      destruct (G l m C') as [G1 G2]. split; [exact G1|].
      intros J. apply G2. cbn [map] in J. apply in_app_iff in J. simpl. rewrite in_app_iff. simpl in J. tauto.
Qed.

Lemma Forall2_exists {A B} (P : A -> B -> Prop) l : (forall x, In x l -> exists y, P x y) -> exists m, Forall2 P l m.
Proof.
  induction l as [|x l IH]; intros H; [exists []; constructor|].
  destruct (H x (or_introl eq_refl)) as (y & Hy). destruct IH as (m & Hm); [intros; apply H; now right|].
  exists (y :: m). now constructor.
Qed.
Lemma chain_license_text g k : forall n c above, in_progress c above -> room g c (n_id n) < k ->
  (forall path m, chain g n path m -> sound_node g m /\ ~ In (n_id m) (above ++ map n_id path)) ->
  exists s, license_text g above n s.
Proof.
  induction k as [|k IH]; intros n c above A R H; [lia|].
  destruct (H [] n (ch_here g n)) as [S N]. rewrite app_nil_r in N.
  assert (G : is_grey c (n_id n) = false)
    by (rewrite in_progress_grey in A; rewrite A in N; destruct (is_grey c (n_id n)); congruence).
  assert (M : (has_type g n "ConjunctiveLicenseSet" \/ has_type g n "DisjunctiveLicenseSet") ->
    exists ss, Forall2 (license_text g (n_id n :: above)) (objects (spdx "member") (of_node g n)) ss).
  { intros T. apply Forall2_exists. intros o I. apply (IH o (enter (n_id n) CNil c)).
    - now apply in_progress_enter.
    - apply in_objects in I as (t & I & _ & <-). apply of_node_in in I.
      pose proof (room_enter g c (n_id n) CNil t G I). lia.
    - intros path m C. destruct (H (n :: path) m) as [H1 H2]; [econstructor; eauto; split; auto|].
      split; [exact H1|]. intros J. apply H2. cbn [map]. apply in_app_iff.
      simpl in J. rewrite in_app_iff in J. simpl. tauto. }
  destruct S as [[E (s & S)]|[(s & S)|[[T O]|T]]].
  - exists s. now apply lt_special.
  - exists s. now apply lt_leaf.
  - destruct M as (ss & F); [auto|]. exists (join " AND " ss). now apply lt_and.
  - destruct M as (ss & F); [auto|]. exists (join " OR " ss). now apply lt_or.
Qed.

Lemma get_any_license_accepts g n c above : in_progress c above ->
  ((exists l c', get_any_license g n c = Ok (l, c')) <->
   forall path m, chain g n path m -> sound_node g m /\ ~ In (n_id m) (above ++ map n_id path)).
Proof.
  intros A. split.
  - intros (l & c' & H) path m C.
    eapply license_text_chain; [|exact C]. eapply (get_any_license_spec g n c above); eauto.
  - intros H. destruct (chain_license_text g (enough g) n c above A (room_enough g c (n_id n)) H) as (s & L).
    apply (get_any_license_spec g n c above s A) in L as (l & c' & E & _). eauto.
Qed.

(** ** The bound does not matter *)
Lemma any_license_agree g k : forall n c, agree (any_license g k n c) (any_license g (S k) n c).
Proof.
  induction k as [|k IH]; intros n c; [intros H; now destruct H|].
  remember (S k) as k'. cbn [any_license]. rewrite Heqk' at 1. cbn [any_license].
  apply agree_if; [apply agree_refl|]. cbv zeta. apply agree_bind; [|intros; apply agree_refl].
  destruct (triples_with_id g (n_id n)); [apply agree_refl|]. apply agree_bind; [apply agree_refl|]. intros ty.
  assert (M : forall strict s, agree (for_each (members_step (any_license g k) strict) (triples_of g n) s)
                                     (for_each (members_step (any_license g k') strict) (triples_of g n) s)).
  { intros strict. apply agree_for_each. intros x [ms c']. unfold members_step. cbn [switch].
    apply agree_if; [apply agree_refl|]. apply agree_if; [|apply agree_refl].
    apply agree_bind; [subst k'; apply IH|intros [? ?]; apply agree_refl]. }
  cbn [switch]. repeat (apply agree_if); try apply agree_refl; (apply agree_bind; [apply M|intros [? ?]; apply agree_refl]).
Qed.
Lemma any_license_more g n c k : enough g <= k -> any_license g k n c = get_any_license g n c.
Proof.
  induction 1 as [|k L IH]; [reflexivity|]. rewrite <- IH. apply any_license_agree. rewrite IH.
  apply fine_fuel, get_any_license_fine.
Qed.

Lemma in_progress_exists c : exists above, in_progress c above.
Proof.
  exists (filter (is_grey c) (map fst c)). apply in_progress_grey. intros id. rewrite filter_In.
  split; [tauto|]. intros G. split; [|exact G]. apply is_grey_true in G as (o & G). clear - G.
  induction c as [|[k x] c IH]; simpl in *; [discriminate|].
  destruct (String.eqb_spec id k); [left; congruence|right; auto].
Qed.
