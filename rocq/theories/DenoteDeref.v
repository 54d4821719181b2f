(** Following the parser's references: the document that is returned. *)
From Verif Require Import GoStr GoStrFacts Types TvState TvUtil TvReader TvParser SpecTv SpecId SpecDoc SpecRead
  TvReaderFacts TvUtilFacts TvParserFacts DenoteBase DenoteGlobal DenoteElems DenoteSteps DenoteCases DenoteSections DenoteFile DenoteRead.

(** elements listed once are found in order *)
Lemma listed_deref {B C} (R : seg -> B -> Prop) (R' : seg -> C -> Prop) (D : B -> option C) c
  (E : forall a b x, R a b -> D b = Some x -> R' a x) g :
  forall L1 L3 M out, Forall2 R (L1 ++ g ++ L3) M -> Forall (fun a => c a = 1) g ->
  mapO (fun i => match nth_error M i with Some b => D b | None => None end) (listed c (length L1) g) = Some out ->
  Forall2 R' g out.
Proof.
  induction g as [|a g IH]; intros L1 L3 M out F N H; cbn [listed mapO] in H.
  - inversion H. constructor.
  - inversion N as [|? ? Na Ng]; subst. rewrite Na in H. cbn [repeat app mapO] in H.
    pose proof F as F0. apply Forall2_app_inv_l in F0 as (M1 & M2 & F1 & F2 & ->). cbn [app] in F2.
    inversion F2 as [|? b ? M3 Rab F3]; subst. rewrite (Forall2_len _ _ _ F1) in H.
    rewrite nth_error_app2, Nat.sub_diag in H by lia. cbn [nth_error] in H.
    destruct (D b) as [y|] eqn:Y; [|discriminate].
    destruct (mapO _ _) as [r|] eqn:MO in H; [|discriminate]. inversion H; subst. constructor; [eauto|].
    apply (IH (L1 ++ [a])%list L3 (M1 ++ b :: M3)%list); [rewrite <- app_assoc; exact F|exact Ng|].
    rewrite app_length. cbn [length]. rewrite Nat.add_1_r, (Forall2_len _ _ _ F1). exact MO.
Qed.

(** ** Snippets *)
Lemma map_put_fresh {A} k (x : A) m : ~ In k (map fst m) -> map_put k x m = (m ++ [(k, x)])%list.
Proof.
  induction m as [|[j y] m IH]; intros N; [reflexivity|]. cbn in *. destruct (String.eqb_spec k j); [subst; tauto|].
  rewrite IH by tauto. reflexivity.
Qed.
Definition sid (a : seg) : string := snippet_id (fst a).
Lemma enter_fresh g : forall o m, NoDup (map sid g) -> (forall a, In a g -> ~ In (sid a) (map fst m)) ->
  enter o g m = (m ++ combine (map sid g) (seq o (length g)))%list.
Proof.
  induction g as [|a g IH]; intros o m N F; cbn [enter map combine seq length]; [now rewrite app_nil_r|].
  cbn [map] in N. apply NoDup_cons_iff in N as [N1 N2]. change (snippet_id (fst a)) with (sid a).
  rewrite map_put_fresh by (apply F; now left). rewrite IH; [now rewrite <- app_assoc|exact N2|].
  intros b Ib. rewrite map_app, in_app_iff. intros [H|[H|[]]].
  - apply (F b); [now right|exact H].
  - cbn in H. apply N1. rewrite H. now apply in_map.
Qed.
Definition snippets_den (v : version) (snips : list Snippet) (g : seg) (f : FileArena) : Prop :=
  forall out, mapO (fun '(k, i) => match nth_error snips i with Some x => Some (k, x) | None => None end) (f_Snippets f) = Some out ->
  Forall2 (fun sg e => fst e = s_SPDXIdentifier (snd e) /\ snippet_den v sg (snd e)) (parts_of "SnippetSPDXID" (snd g)) out.
Lemma sid_den v a x : snippet_den v a x -> sid a = s_SPDXIdentifier x /\ fst a = "SPDXRef-" ++ sid a.
Proof.
  intros K. pose proof (sn_id _ _ _ K) as E. assert (sid a = s_SPDXIdentifier x) by (unfold sid; now apply snippet_id_of).
  split; [assumption|congruence].
Qed.
Lemma snips_deref v g : forall (S0 S1 S2 : list Snippet) out, Forall2 (snippet_den v) g S1 ->
  mapO (fun '(k, i) => match nth_error (S0 ++ S1 ++ S2) i with Some x => Some (k, x) | None => None end)
       (combine (map sid g) (seq (length S0) (length g))) = Some out ->
  Forall2 (fun sg e => fst e = s_SPDXIdentifier (snd e) /\ snippet_den v sg (snd e)) g out.
Proof.
  induction g as [|a g IH]; intros S0 S1 S2 out F H; inversion F as [|? b ? S1' K F']; subst; cbn [map seq length combine mapO] in H.
  - inversion H. constructor.
  - rewrite nth_error_app2, Nat.sub_diag in H by lia. cbn [nth_error app] in H.
    destruct (mapO _ _) as [r|] eqn:MO in H; [|discriminate]. inversion H; subst. constructor.
    + cbn. split; [now apply (sid_den v)|exact K].
    + apply (IH (S0 ++ [b])%list S1' S2); [exact F'|]. rewrite app_length, Nat.add_comm. cbn [length Nat.add].
      rewrite <- app_assoc. exact MO.
Qed.
Lemma nodup_sid v g S1 : Forall2 (snippet_den v) g S1 -> NoDup (map fst g) -> NoDup (map sid g).
Proof.
  induction 1 as [|a b g S1 K F IH]; intros N; cbn [map] in *; [constructor|]. apply NoDup_cons_iff in N as [N1 N2].
  constructor; [|auto]. intros H. apply N1. apply in_map_iff in H as (c & E & Ic).
  apply sid_den in K as [_ K]. rewrite K, <- E.
  assert (KC : fst c = "SPDXRef-" ++ sid c).
  { clear -F Ic. induction F as [|x y l m K F IH]; [destruct Ic|]. destruct Ic as [<-|Ic]; [now apply (sid_den v x y)|auto]. }
  rewrite <- KC. now apply in_map.
Qed.
Lemma files_full v : forall L F snips S0 S1, Forall2 (file_fields v) L F -> snips = (S0 ++ S1)%list ->
  map f_Snippets F = smaps (length S0) (map (fun g => parts_of "SnippetSPDXID" (snd g)) L) ->
  Forall2 (snippet_den v) (concat (map (fun g : seg => parts_of "SnippetSPDXID" (snd g)) L)) S1 ->
  Forall (fun g => NoDup (values "SnippetSPDXID" (snd g))) L ->
  Forall2 (fun g f => file_fields v g f /\ snippets_den v snips g f) L F.
Proof.
  induction L as [|a L IH]; intros F snips S0 S1 FF E EM FS N; inversion FF as [|? b ? F' K FF']; subst; [constructor|].
  cbn [map concat smaps] in *. inversion EM as [[E1 E2]]. apply Forall2_app_inv_l in FS as (S2 & S3 & F2 & F3 & ->).
  inversion N as [|? ? N1 N2]; subst. rewrite <- parts_values in N1. constructor.
  - split; [exact K|]. intros out H. rewrite E1 in H. rewrite enter_fresh in H; [|eapply nodup_sid; eauto|intros ? ? []].
    eapply snips_deref; eauto.
  - apply (IH F' _ (S0 ++ S2)%list S3); [exact FF'|now rewrite app_assoc| |exact F3|exact N2].
    rewrite E2, app_length. now rewrite (Forall2_len _ _ _ F2).
Qed.

(** ** Files of the document and of the packages *)
Lemma deref_file_den v snips g f x : file_fields v g f /\ snippets_den v snips g f -> deref_file snips f = Some x -> file_den v g x.
Proof.
  intros [K S]. unfold deref_file. destruct (mapO _ _) as [sn|] eqn:E; [|discriminate]. intros H. inversion H; subst. split.
  - destruct K. constructor; assumption.
  - cbn [f_Snippets]. now apply S.
Qed.
Lemma groups_deref v s : forall G L0 idx outs,
  Forall2 (fun g f => file_fields v g f /\ snippets_den v (ps_snips s) g f) (L0 ++ concat G) (ps_files s) ->
  Forall (Forall (fun a => file_ids a = 1)) G -> idx = idx_groups file_ids (length L0) G ->
  Forall2 (fun i o => mapO (deref_file_at s) i = Some o) idx outs ->
  Forall2 (fun g o => Forall2 (file_den v) g o) G outs.
Proof.
  induction G as [|g G IH]; intros L0 idx outs F N -> H; cbn [idx_groups] in H; inversion H as [|? o ? outs' H1 H2]; subst; [constructor|].
  cbn [concat] in F. inversion N as [|? ? N1 N2]; subst. constructor.
  - exact (listed_deref _ (file_den v) (deref_file (ps_snips s)) file_ids (fun a b x => deref_file_den v _ a b x) g
      L0 (concat G) (ps_files s) o F N1 H1).
  - apply (IH (L0 ++ g)%list (idx_groups file_ids (length (L0 ++ g)) G)); [now rewrite <- app_assoc|exact N2|reflexivity|].
    rewrite app_length. exact H2.
Qed.

Lemma once l : l <> [] -> length (A := string) l <= 1 -> length l = 1.
Proof. destruct l as [|a [|]]; cbn; try congruence; lia. Qed.

Lemma mapO_forall2 {A B} (f : A -> option B) l o : mapO f l = Some o -> Forall2 (fun a b => f a = Some b) l o.
Proof.
  revert o. induction l as [|a l IH]; intros o H; cbn in H; [inversion H; constructor|].
  destruct (f a) eqn:E; [|discriminate]. destruct (mapO f l); [|discriminate]. inversion H; subst. constructor; auto.
Qed.
Lemma listed_seq c (g : list seg) : forall o, Forall (fun a => c a = 1) g -> listed c o g = seq o (length g).
Proof. induction g as [|a g IH]; intros o N; inversion N as [|? ? N1 N2]; subst; cbn [listed]; [reflexivity|]. now rewrite N1, IH. Qed.
Lemma mapO_seq {A B} (D : A -> option B) : forall (M0 M : list A) out,
  mapO (fun i => match nth_error (M0 ++ M) i with Some b => D b | None => None end) (seq (length M0) (length M)) = Some out ->
  Forall2 (fun b o => D b = Some o) M out.
Proof.
  intros M0 M. revert M0. induction M as [|b M IH]; intros M0 out H; cbn [seq length mapO] in H; [inversion H; constructor|].
  rewrite nth_error_app2, Nat.sub_diag in H by lia. cbn [nth_error] in H. destruct (D b) eqn:E; [|discriminate].
  destruct (mapO _ _) as [r|] eqn:MO in H; [|discriminate]. inversion H; subst. constructor; [exact E|].
  apply (IH (M0 ++ [b])%list). rewrite app_length, Nat.add_comm, <- app_assoc. exact MO.
Qed.

Theorem parse_document v l d : regular l -> parse_tag_values v l = Ok (Some d) -> document_den v l d.
Proof.
  intros [RP RF] H. split; [now apply parse_globals|].
  destruct l as [|p l0]; [discriminate|]. set (l := p :: l0) in *.
  unfold parse_tag_values in H. rewrite parse_pairs_start in H by discriminate.
  apply bindR_ok in H as (s & P & H). apply bindR_ok in H as ([] & CF & H). apply bindR_ok in H as ([] & CP & H).
  destruct (ps_doc s) as [d0|] eqn:D; [|discriminate]. destruct (deref_doc s d0) as [y|] eqn:R; [|discriminate].
  inversion H; subst y; clear H.
  assert (I : einv v l s /\ ids l).
  { apply (e_parse_pairs v l [] start_pstate); [apply einv_start|apply ids_start| |exact P].
    cbn [app]. rewrite <- parts_values. apply Forall_map. eapply Forall_impl; [|exact RP]. now intros g (Hg & _). }
  destruct I as [I DI].
  pose proof (all_files v l s I DI CF) as AF. pose proof (all_pkgs v l s I DI CP) as AP.
  assert (GR : Forall (Forall file_regular) (groups l)).
  { unfold groups. constructor; [exact RF|]. apply Forall_map. eapply Forall_impl; [|exact RP]. now intros g (_ & _ & Hg). }
  assert (G1 : Forall (Forall (fun a => file_ids a = 1)) (groups l)).
  { unfold files in AF. clear -AF GR. induction (groups l) as [|g G IH]; [constructor|]. cbn [concat] in AF.
    apply Forall_app in AF as [A1 A2]. inversion GR as [|? ? R1 R2]; subst. constructor; [|auto].
    clear -A1 R1. induction g as [|a g IH]; [constructor|]. inversion A1; subst. inversion R1 as [|? ? [K _] ?]; subst.
    constructor; [|auto]. apply once; [now apply has_fid_value|exact K]. }
  assert (P1 : Forall (fun a => package_ids a = 1) (parts_of "PackageName" l)).
  { clear -AP RP. induction (parts_of "PackageName" l) as [|a g IH]; [constructor|]. inversion AP; subst.
    inversion RP as [|? ? (_ & K & _) ?]; subst. constructor; [|auto]. now apply once. }
  assert (NS : Forall (fun g => NoDup (values "SnippetSPDXID" (snd g))) (files l)).
  { unfold files. clear -GR. induction (groups l) as [|g G IH]; cbn [concat]; [constructor|]. inversion GR as [|? ? R1 R2]; subst.
    apply Forall_app. split; [|auto]. eapply Forall_impl; [|exact R1]. now intros a [_ K]. }
  destruct I. assert (FF : Forall2 (fun g f => file_fields v g f /\ snippets_den v (ps_snips s) g f) (files l) (ps_files s)).
  { apply (files_full v (files l) (ps_files s) (ps_snips s) [] (ps_snips s)); auto. }
  unfold doc_with in e_doc. rewrite D in e_doc. destruct e_doc as [X1 X2 X3].
  unfold deref_doc in R. rewrite X2, (listed_seq _ _ 0 P1), (Forall2_len _ _ _ e_pkgs) in R.
  destruct (mapO (deref_pkg_at s) _) as [ps|] eqn:MP; [|discriminate].
  destruct (mapO (deref_file_at s) (d_Files d0)) as [fs|] eqn:MF; [|discriminate]. inversion R; subst d; clear R.
  cbn [d_SPDXIdentifier d_Packages d_Files]. split; [exact X1|].
  pose proof (mapO_seq (deref_pkg s) [] (ps_pkgs s) ps MP) as FP. clear MP.
  assert (GD : Forall2 (fun g o => Forall2 (file_den v) g o) (groups l) (fs :: map p_Files ps)).
  { apply (groups_deref v s (groups l) [] (d_Files d0 :: map p_Files (ps_pkgs s))); auto. constructor; [exact MF|].
    clear -FP. induction FP as [|a b A B K F IH]; cbn [map]; constructor; [|exact IH].
    unfold deref_pkg in K. destruct (mapO _ _) eqn:E; [|discriminate]. now inversion K. }
  unfold groups in GD. inversion GD as [|? ? ? ? GF GP]; subst. split; [|exact GF].
  clear -e_pkgs FP GP. revert ps FP GP. induction e_pkgs as [|g q L M K F IH]; intros ps FP GP; inversion FP as [|? b ? B K1 F1]; subst; [constructor|].
  cbn [map] in GP. inversion GP as [|? ? ? ? GP1 GP2]; subst. constructor; [|auto]. split; [|exact GP1].
  unfold deref_pkg in K1. destruct (mapO _ _); [|discriminate]. inversion K1; subst. destruct K. constructor; assumption.
Qed.
