(** The parser accepts exactly the acceptable inputs. *)
From Verif Require Import GoStr GoStrFacts Types TvState TvUtil TvReader TvParser SpecTv SpecId SpecDoc SpecRead
  TvReaderFacts TvUtilFacts TvParserFacts DenoteBase DenoteGlobal DenoteElems DenoteSteps DenoteCases DenoteSections
  DenoteFile DenoteRead AcceptBase AcceptSteps AcceptSections.
From Verif Require SpecTags SpecAccept.
Import SpecAccept.

Notation all_readable v := (Forall (fun p => readable v (fst p) (snd p))).
Record ainv (v : version) (h : pairs) (s : pstate) : Prop := {
  a_inv : inv v s;
  a_einv : einv v h s;
  a_ginv : ginv_st v h s;
  a_ids : ids h;
  a_read : all_readable v h
}.
Lemma values_in t h : values t h <> [] <-> In t (map fst h).
Proof.
  unfold values. split.
  - intros N. destruct (filter _ h) as [|[k x] r] eqn:E; [contradiction|].
    assert (I : In (k, x) (filter (fun p => fst p =? t) h)) by (rewrite E; cbn; auto).
    apply filter_In in I as [I M]. apply String.eqb_eq in M. cbn in M. subst k. now apply (in_map fst) in I.
  - intros I E. apply in_map_iff in I as ([k x] & K & I). cbn in K. subst k. apply map_eq_nil in E.
    assert (J : In (t, x) (filter (fun p => fst p =? t) h)) by (apply filter_In; split; [exact I|apply String.eqb_refl]).
    rewrite E in J. destruct J.
Qed.
Lemma ptr_some n : ptr n <> None <-> n <> 0.
Proof. destruct n; cbn; split; congruence. Qed.
Lemma parts_len {A} t h (R : seg -> A -> Prop) l : Forall2 R (parts_of t h) l -> length l <> 0 <-> In t (map fst h).
Proof.
  intros F. rewrite <- (Forall2_len _ _ _ F), <- values_in, <- parts_values.
  destruct (parts_of t h); cbn; split; congruence.
Qed.
Lemma ainv_rl v h s : ainv v h s -> ps_rln s <> None <-> In "Relationship" (map fst h).
Proof.
  intros A. destruct (a_ginv _ _ _ A) as (d & G & _). rewrite (gi_rln _ _ _ _ G), ptr_some.
  eapply parts_len, (w_rels _ _ _ (gi_den _ _ _ _ G)).
Qed.
Lemma ainv_an v h s : ainv v h s -> ps_ann s <> None <-> In "Annotator" (map fst h).
Proof.
  intros A. destruct (a_ginv _ _ _ A) as (d & G & _). rewrite (gi_ann _ _ _ _ G), ptr_some.
  eapply parts_len, (w_anns _ _ _ (gi_den _ _ _ _ G)).
Qed.

Lemma agrees_start v h s t x : einv v h s -> all_readable v h -> ps_doc s <> None ->
  (ps_rln s <> None <-> In "Relationship" (map fst h)) -> (ps_ann s <> None <-> In "Annotator" (map fst h)) ->
  ps_st s = PsStart -> agrees v h x Header t (parse_start v t x s).
Proof.
  intros I R DOC RL AN St. unfold parse_start. destruct (ps_doc s) as [d|] eqn:D; [|contradiction]. cbv zeta.
  destruct (mem t SpecTags.header_tags) eqn:M.
  - assert (P : Forall (pcase v h x Header (fun _ => s)) start_cases).
    { assert (ST : forall t : string, ps_st s = PsStart) by auto. assert (SP : sec_of PsStart = Header) by reflexivity.
      unfold start_cases. keeps.
      - extract. apply cond_element_id. cbn; auto.
      - unfold do_external_document_ref. extract. apply cond_edr. }
    assert (Q : In t (map fst start_cases)) by (apply mem_In in M; cbn in M |- *; tauto).
    assert (E : forall d', switch t start_cases d' x s = switch t start_cases (fun _ _ => Err "") x s).
    { intros d'. clear -Q. induction start_cases as [|[k a] r IH]; [destruct Q|]. cbn [switch map fst] in *.
      destruct (String.eqb_spec t k); [reflexivity|]. apply IH. destruct Q; [congruence|assumption]. }
    rewrite E. apply (agrees_switch v h x Header t start_cases _ (fun _ => s)); auto.
  - assert (E : forall d', switch t start_cases d' x s = d' x s).
    { intros d'. assert (Q : ~ In t (map fst start_cases)).
      { intros Q. assert (Y : In t SpecTags.header_tags) by (cbn in Q |- *; tauto). apply mem_In in Y. congruence. }
      clear -Q. induction start_cases as [|[k a] r IH]; [reflexivity|]. cbn [switch map fst] in *.
      destruct (String.eqb_spec t k); [subst; destruct Q; now left|]. apply IH. intros J. apply Q. now right. }
    rewrite E. unfold agrees. rewrite (next_header v t M). apply agrees_ci; auto.
    + apply einv_st; [exact I|rewrite St; cbn; auto|cbn; auto].
    + cbn. rewrite D. discriminate.
Qed.
Lemma agrees_pair v h s t x : ainv v h s -> agrees v h x (sec_of (ps_st s)) t (parse_pair v s (t, x)).
Proof.
  intros A. pose proof (ainv_rl _ _ _ A) as RL. pose proof (ainv_an _ _ _ A) as AN.
  destruct A as [V I G D R]. pose proof (i_doc _ _ V) as DOC. simpl parse_pair. destruct (ps_st s) eqn:St; cbn [sec_of].
  - now apply agrees_start.
  - now apply agrees_ci.
  - now apply agrees_package.
  - now apply agrees_file.
  - now apply agrees_snippet.
  - now apply agrees_license.
  - now apply agrees_review.
Qed.

(** ** Identifiers of prefixes *)
Lemma ids_before h t x : ids (h ++ [(t, x)]) -> ids h /\ idok h t.
Proof.
  intros [O S P]. destruct (String.eqb_spec t "PackageName") as [->|N1].
  - unfold old_files in O. rewrite cur_files_snoc, files_snoc in O. simpl String.eqb in O. cbv iota in O.
    rewrite parts_snoc in P. simpl String.eqb in P. cbv iota in P. rewrite removelast_last in P.
    split; [|split; auto]. constructor; [|auto|now apply Forall_removelast]. unfold old_files.
    destruct (cur_files h); [exact O|now apply Forall_removelast].
  - destruct (String.eqb_spec t "FileName") as [->|N2].
    + unfold old_files in O. rewrite cur_files_snoc, files_snoc in O. simpl String.eqb in O. cbv iota in O.
      rewrite removelast_last in O. assert (F : Forall has_fid (files h)) by (destruct (cur_files h ++ _)%list eqn:Z; [now apply app_eq_nil in Z|exact O]).
      rewrite parts_snoc in P. simpl String.eqb in P. cbv iota in P. rewrite removelast_update in P.
      split; [|split; [auto|discriminate]]. constructor; [|auto|exact P]. unfold old_files.
      destruct (cur_files h); [exact F|now apply Forall_removelast].
    + apply String.eqb_neq in N1, N2.
      rewrite parts_snoc, N1, removelast_update in P.
      assert (O' : Forall has_fid (old_files h)).
      { unfold old_files in *. rewrite cur_files_snoc, files_snoc, N1, N2 in O.
        destruct (list_last_case (cur_files h)) as [E|(g & a & E)]; rewrite E in *; [exact O|].
        rewrite update_last_app in O. destruct (g ++ [a])%list eqn:Z in *; [now apply app_eq_nil in Z|].
        destruct g; cbn [app] in O; rewrite removelast_update in O; exact O. }
      assert (SN : cur_files h <> [] -> cur_snips (h ++ [(t, x)]) <> [] -> (t = "SnippetSPDXID" \/ cur_snips h <> []) -> Forall has_fid (files h)).
      { intros C CS K. assert (F : Forall has_fid (files (h ++ [(t, x)]))).
        { apply S; [|exact CS]. rewrite cur_files_snoc, N1, N2, update_last_nil. exact C. }
        rewrite files_snoc, N1, N2 in F. destruct (files_cur h C) as (L & a & EF).
        assert (CSA : cur_snips h = parts_of "SnippetSPDXID" (snd a))
          by (unfold cur_snips, sgroups; rewrite EF, map_app; cbn [map]; now rewrite last_snoc).
        destruct (cur_files h); [contradiction|].
        rewrite EF, update_last_app in *. apply Forall_app in F as [F1 F2]. inversion F2 as [|? ? FA _]; subst.
        apply Forall_app. split; [exact F1|]. constructor; [|constructor].
        unfold has_fid in *. cbn [snd add] in FA. rewrite head_snoc in FA. destruct K as [->|K]; [exact FA|].
        rewrite CSA in K. destruct (t =? "SnippetSPDXID"); [exact FA|]. now destruct (parts_of "SnippetSPDXID" (snd a)). }
      destruct (String.eqb_spec t "SnippetSPDXID") as [->|N3].
      * destruct (list_last_case (cur_files h)) as [E|(g & a & E)].
        { assert (F : Forall has_fid (files h)) by (unfold old_files in O'; now rewrite E in O').
          split; [|split; [auto|discriminate]]. constructor; auto. }
        assert (C : cur_files h <> []) by (rewrite E; intros Z; now apply app_eq_nil in Z).
        assert (F : Forall has_fid (files h)).
        { apply SN; auto. rewrite cur_snips_snoc by auto. simpl String.eqb. cbv iota. intros Z. now apply app_eq_nil in Z. }
        split; [|split; [auto|discriminate]]. constructor; auto.
      * split.
        -- constructor; [exact O'| |exact P]. intros C CS. apply SN; auto.
           rewrite cur_snips_snoc by auto. apply String.eqb_neq in N3. now rewrite N3, update_last_nil.
        -- split; [|intros ->; discriminate]. intros M. apply mem_In in M. apply String.eqb_neq in N1, N2.
           cbn in M. destruct M as [<-|[<-|[<-|[]]]]; congruence.
Qed.
Lemma ids_prefix r : forall h, ids (h ++ r) -> ids h.
Proof.
  induction r as [|[t x] r IH]; intros h D; [now rewrite app_nil_r in D|].
  replace (h ++ (t, x) :: r)%list with ((h ++ [(t, x)]) ++ r)%list in D by (now rewrite <- app_assoc).
  apply IH, ids_before in D. apply D.
Qed.
Lemma ids_all h : Forall has_fid (files h) -> Forall has_pid (parts_of "PackageName" h) -> ids h.
Proof.
  intros F P. constructor; [|auto|now apply Forall_removelast].
  unfold old_files. destruct (cur_files h); [exact F|now apply Forall_removelast].
Qed.

(** ** Lists of pairs *)
Lemma ainv_pair v h s t x s' : ainv v h s -> Forall (fun g => fst g <> "") (parts_of "PackageName" h) ->
  parse_pair v s (t, x) = Ok s' -> ainv v (h ++ [(t, x)]) s'.
Proof.
  intros A NE H. pose proof (agrees_pair v h s t x A) as [G _]. apply G in H as G'. destruct G' as [[C _] _].
  destruct A. constructor.
  - pose proof (good_parse_pair v s (t, x) a_inv0) as K. now rewrite H in K.
  - eapply e_parse_pair; eauto.
  - eapply g_parse_pair; eauto.
  - eapply ids_pair; eauto.
  - apply Forall_app. split; [assumption|]. constructor; [exact C|constructor].
Qed.
Lemma pair_result v h s t x : ainv v h s -> ids (h ++ [(t, x)]) ->
  (exists s', parse_pair v s (t, x) = Ok s') <-> next v (sec_of (ps_st s)) t <> None /\ cond v h t x.
Proof.
  intros A D. destruct (agrees_pair v h s t x A) as [G1 G2]. split.
  - intros (s' & H). apply G1 in H as [C N]. rewrite N. split; [discriminate|exact C].
  - intros [N C]. apply ids_before in D as [_ D]. specialize (G2 N C D).
    pose proof (good_parse_pair v s (t, x) (a_inv _ _ _ A)) as K. unfold noerr in G2.
    destruct (parse_pair v s (t, x)) as [s'|e|]; [eauto|now elim (G2 e)|destruct K].
Qed.
Definition contexts (h l : pairs) : Prop := forall a t x r, l = (a ++ (t, x) :: r)%list -> in_context (h ++ a) t.
Lemma contexts_cons h t x l : contexts h ((t, x) :: l) <-> in_context h t /\ contexts (h ++ [(t, x)]) l.
Proof.
  unfold contexts. split.
  - intros H. split.
    + rewrite <- (app_nil_r h). now apply (H [] t x l).
    + intros a t' x' r ->. replace ((h ++ [(t, x)]) ++ a)%list with (h ++ (t, x) :: a)%list by (now rewrite <- app_assoc).
      now apply (H ((t, x) :: a) t' x' r).
  - intros [H1 H2] [|[t0 x0] a] t' x' r E; cbn [app] in E; injection E; intros; subst.
    + now rewrite app_nil_r.
    + replace (h ++ (t0, x0) :: a)%list with ((h ++ [(t0, x0)]) ++ a)%list by (now rewrite <- app_assoc). eapply H2. reflexivity.
Qed.
Lemma ordered_cons v sec t r : ordered v sec (t :: r) <-> exists sec', next v sec t = Some sec' /\ ordered v sec' r.
Proof.
  split.
  - intros H. inversion H as [|? ? sec' ? L O]; subst. exists sec'. split; [now apply leads_next|exact O].
  - intros (sec' & L & O). econstructor; [apply leads_next; exact L|exact O].
Qed.
Lemma accept_pairs v l : forall h s, ainv v h s -> Forall (fun n => n <> "") (values "PackageName" (h ++ l)) ->
  (exists s', parse_pairs v s l = Ok s') /\ ids (h ++ l) <->
  ordered v (sec_of (ps_st s)) (map fst l) /\ all_readable v l /\ contexts h l /\ ids (h ++ l).
Proof.
  induction l as [|[t x] l IH]; intros h s A N.
  - split.
    + intros [_ D]. split; [constructor|]. split; [constructor|]. split; [|exact D]. intros [|] ? ? ? E; discriminate E.
    + intros (_ & _ & _ & D). split; [eexists; reflexivity|exact D].
  - replace (h ++ (t, x) :: l)%list with ((h ++ [(t, x)]) ++ l)%list in * by (now rewrite <- app_assoc).
    assert (NE : Forall (fun g => fst g <> "") (parts_of "PackageName" h)).
    { rewrite !values_app in N. apply Forall_app in N as [N _]. apply Forall_app in N as [N _].
      rewrite <- parts_values in N. exact (proj1 (Forall_map _ _ _) N). }
    cbn [map fst parse_pairs]. rewrite contexts_cons, ordered_cons. split.
    + intros [(s' & H) D]. apply bindR_ok in H as (s1 & H1 & H).
      destruct (agrees_pair v h s t x A) as [G1 _]. apply G1 in H1 as G. destruct G as [[C1 C2] NX].
      pose proof (ainv_pair _ _ _ _ _ _ A NE H1) as A1.
      destruct (proj1 (IH _ _ A1 N) (conj (ex_intro _ s' H) D)) as (O & R & X & _).
      split; [eauto|]. split; [constructor; assumption|]. split; [split; assumption|exact D].
    + intros ((sec' & NX & O) & R & [C2 X] & D). inversion R as [|? ? C1 R']; subst. cbn [fst snd] in C1.
      pose proof (ids_prefix _ _ D) as D1.
      destruct (proj2 (pair_result v h s t x A D1)) as (s1 & H1); [split; [congruence|split; assumption]|].
      pose proof (ainv_pair _ _ _ _ _ _ A NE H1) as A1.
      destruct (agrees_pair v h s t x A) as [G1 _]. apply G1 in H1 as G. destruct G as [_ NX']. assert (sec' = sec_of (ps_st s1)) by congruence. subst sec'.
      destruct (proj2 (IH _ _ A1 N)) as [(s' & H) _]; [auto|]. split; [|exact D]. exists s'. now rewrite H1.
Qed.
Lemma ainv_start v : ainv v [] start_pstate.
Proof.
  constructor; [apply inv_start|apply einv_start| |apply ids_start|constructor].
  exists zero_DocumentOf. split; [apply ginv_start|]. now intros [].
Qed.
Lemma ainv_pairs v l : forall h s s', ainv v h s -> Forall (fun n => n <> "") (values "PackageName" (h ++ l)) ->
  parse_pairs v s l = Ok s' -> ainv v (h ++ l) s'.
Proof.
  induction l as [|[t x] l IH]; intros h s s' A N H; cbn [parse_pairs] in H.
  - inversion H; subst. now rewrite app_nil_r.
  - apply bindR_ok in H as (s1 & H1 & H). replace (h ++ (t, x) :: l)%list with ((h ++ [(t, x)]) ++ l)%list in * by (now rewrite <- app_assoc).
    assert (NE : Forall (fun g => fst g <> "") (parts_of "PackageName" h)).
    { rewrite !values_app in N. apply Forall_app in N as [N _]. apply Forall_app in N as [N _].
      rewrite <- parts_values in N. exact (proj1 (Forall_map _ _ _) N). }
    apply (IH _ s1); auto. eapply ainv_pair; eauto.
Qed.

Theorem parse_accepts v l : l <> [] -> Forall (fun n => n <> "") (values "PackageName" l) ->
  (exists d, parse_tag_values v l = Ok (Some d)) <-> acceptable v l.
Proof.
  intros NN N. unfold parse_tag_values. rewrite parse_pairs_start by assumption. pose proof (ainv_start v) as A0.
  pose proof (accept_pairs v l [] start_pstate A0 N) as [G1 G2]. cbn [app] in G1, G2. split.
  - intros (d & H). apply bindR_ok in H as (s & P & H). apply bindR_ok in H as ([] & CF & H). apply bindR_ok in H as ([] & CP & _).
    pose proof (ainv_pairs _ _ _ _ _ A0 N P) as A. cbn [app] in A.
    destruct G1 as (O & R & X & _); [split; [eauto|apply A]|].
    constructor; [exact O|exact R|exact X| |].
    + eapply all_pkgs; [apply A|apply A|exact CP].
    + eapply all_files; [apply A|apply A|exact CF].
  - intros [O R X PI FI]. assert (D : ids l) by (now apply ids_all).
    destruct G2 as [(s & P) _]; [split; [exact O|]; split; [exact R|]; split; [exact X|exact D]|].
    pose proof (ainv_pairs _ _ _ _ _ A0 N P) as A. cbn [app] in A.
    pose proof (winv_of_inv _ _ (a_inv _ _ _ A) (i_doc _ _ (a_inv _ _ _ A))) as W.
    rewrite P. cbn [bindR].
    pose proof (check_file_noerr v l s (a_einv _ _ _ A) R FI) as F1. pose proof (np_check_file _ _ W) as N1. unfold np in N1. unfold noerr in F1.
    destruct (check_file_id s) as [[]|e|]; [cbn [bindR]|now elim (F1 e)|congruence].
    pose proof (check_pkg_noerr v l s (a_einv _ _ _ A) R PI) as F2. pose proof (np_check_pkg _ _ W) as N2. unfold np in N2. unfold noerr in F2.
    destruct (check_pkg_id s) as [[]|e|]; [cbn [bindR]|now elim (F2 e)|congruence].
    destruct (ps_doc s) as [d0|] eqn:E; [|now elim (i_doc _ _ (a_inv _ _ _ A))].
    destruct (deref_doc_ok _ _ _ (a_inv _ _ _ A) E) as (y & -> & _). eauto.
Qed.

(** ** Documents *)
Lemma first_value t l x : hd_error (values t l) = Some x <->
  exists a b, l = (a ++ (t, x) :: b)%list /\ Forall (fun p => fst p <> t) a.
Proof.
  unfold values. split.
  - induction l as [|[k y] l IH]; cbn [filter fst]; [discriminate|]. destruct (String.eqb_spec k t) as [->|N].
    + cbn. intros E. inversion E; subst. now exists [], l.
    + intros E. destruct (IH E) as (a & b & -> & F). exists ((k, y) :: a)%list, b. split; [reflexivity|]. now constructor.
  - intros (a & b & -> & F). induction F as [|[k y] a N F IH]; cbn [app filter fst].
    + now rewrite String.eqb_refl.
    + destruct (String.eqb_spec k t); [contradiction|exact IH].
Qed.
Lemma regular_names l : regular l -> Forall (fun n => n <> "") (values "PackageName" l).
Proof. intros [RP _]. rewrite <- parts_values. apply Forall_map. eapply Forall_impl; [|exact RP]. now intros g (Hg & _). Qed.
Theorem text_accepts content l v : tokens (map drop_cr (stream_lines content)) l ->
  Forall (fun n => n <> "") (values "PackageName" l) ->
  (exists d, read_into content = Ok (v, Some d)) <->
  Forall short (stream_lines content) /\ hd_error (values "SPDXVersion" l) = Some (version_string v) /\ acceptable v l.
Proof.
  intros T N. split.
  - intros (d & H). apply dispatch_inv in H as (a & b & P & F & H).
    assert (S : Forall short (stream_lines content)) by (apply read_tag_values_iff in P; apply P).
    assert (E : read_tag_values content = Ok l) by (apply read_tag_values_iff; auto).
    rewrite E in P. injection P as P. rewrite <- P in H. split; [exact S|]. split; [apply first_value; eauto|].
    apply parse_accepts; [intros ->; destruct a; discriminate P|exact N|eauto].
  - intros (S & V & A). apply first_value in V as (a & b & E & F).
    assert (NN : l <> []) by (intros ->; destruct a; discriminate E).
    destruct (proj2 (parse_accepts v l NN N) A) as (d & H). exists d.
    rewrite (dispatch content a b v); [now rewrite <- E, H| |exact F]. rewrite <- E. apply read_tag_values_iff. auto.
Qed.
