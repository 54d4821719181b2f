(** Lemmas about reading and writing JSON text. *)
From Verif Require Import GoStr GoStrFacts Types TvUtil Json JsonSpdx JsonCodec JsonRound JsonRoundDoc JsonReadDoc SpecJson JsonText SpecJsonText JsonTextFacts JsonTextParse JsonTextWrite JsonTextCodec JsonTextMeans.
From Coq Require Import Permutation.
From Verif Require JsonHooks.
Local Open Scope string_scope.

Lemma value_lit : (forall j t, value j t -> lit j) /\ (forall l t, elements l t -> Forall lit l) /\
  (forall l t, members l t -> Forall (fun m => chars (fst m) /\ lit (snd m)) l) /\ (forall k j t, member k j t -> chars k /\ lit j).
Proof.
  apply grammar_ind; try (intros; exact I); try (intros; assumption).
  - intros l s _ F. now apply lit_arr.
  - intros l s _ F. now apply lit_obj.
  - intros. now constructor.
  - intros. now constructor.
  - intros k j s _ M. constructor; [exact M|constructor].
  - intros k j s ms r _ M _ F. now constructor.
  - intros. now split.
Qed.
Lemma json_text_lit j s : json_text j s -> lit j.
Proof. intros (w & t & w' & _ & _ & V & _). now apply (proj1 value_lit) in V. Qed.

Lemma read_into_iff s v d : json_read_into s = Ok (v, d) <->
  exists j, json_text j s /\ (nesting j <= max_depth)%N /\ all_fit j /\ read_value j = Ok (v, d).
Proof.
  unfold json_read_into. split.
  - destruct (parse_text s) as [j|] eqn:P; [|discriminate]. apply parse_text_iff in P as [T N].
    destruct (floats_ok j) eqn:F; [|discriminate]. intros R. exists j. repeat apply conj; auto. apply all_fit_iff; [exact (json_text_lit j s T)|exact F].
  - intros (j & T & N & F & R). rewrite (proj2 (parse_text_iff s j) (conj T N)).
    apply all_fit_iff in F; [|exact (json_text_lit j s T)]. now rewrite F.
Qed.
Lemma same_value_same_result j s s' : json_text j s -> json_text j s' -> json_read_into s = json_read_into s'.
Proof.
  intros T T'. unfold json_read_into. destruct (N.le_gt_cases (nesting j) max_depth) as [L|L].
  - rewrite (proj2 (parse_text_iff s j) (conj T L)), (proj2 (parse_text_iff s' j) (conj T' L)). reflexivity.
  - assert (forall s, json_text j s -> parse_text s = None) as N.
    { intros x X. destruct (parse_text x) as [j'|] eqn:P; [|reflexivity]. apply parse_text_iff in P as [P Q]. pose proof (json_text_unique x j j' X P). subst. lia. }
    now rewrite (N s T), (N s' T').
Qed.
Lemma write_text v h ind d s : blank ind -> json_write v h ind d = Ok s ->
  exists j, marshal_document v h d = Ok j /\ json_text j s /\ (nesting j <= max_depth)%N.
Proof.
  intros B. unfold json_write. destruct (marshal_document v h d) as [j|e|] eqn:M; cbn [bindR]; try discriminate. intros E. injection E as <-.
  destruct (marshal_neat v h d j M) as [L N]. exists j. split; [reflexivity|]. split; [|exact N].
  exists "", (match ind with "" => text j | _ => pretty ind 0 j end), LF. split; [reflexivity|]. split; [apply blank_nil|].
  split; [|apply blank_cons; split; [reflexivity|apply blank_nil]].
  destruct ind as [|a r]; [now apply text_value|now apply pretty_value].
Qed.
Lemma write_ok v h ind d : (exists s, json_write v h ind d = Ok s) <-> (exists j, marshal_document v h d = Ok j).
Proof.
  unfold json_write. destruct (marshal_document v h d) as [j|e|]; cbn [bindR]; split; intros (x & X); try discriminate; eauto.
Qed.
Lemma write_no_panic v h ind d : marshal_document v h d <> Panic -> json_write v h ind d <> Panic.
Proof. unfold json_write. destruct (marshal_document v h d); cbn [bindR]; congruence. Qed.
Lemma round_trip_bytes v h ind d : blank ind -> document_json v h d ->
  exists s, json_write v h ind d = Ok s /\ json_read_into s = Ok (v, d).
Proof.
  intros B D. destruct (json_round_trip h v d D) as (j & M & R). destruct (proj2 (write_ok v h ind d) (ex_intro _ j M)) as (s & W).
  exists s. split; [exact W|]. destruct (write_text v h ind d s B W) as (j' & M' & T & N). rewrite M in M'. injection M' as <-.
  apply read_into_iff. exists j. repeat apply conj; auto. apply all_fit_iff; [exact (json_text_lit j s T)|].
  apply (marshal_floats v h d j); [|exact M].
  assert (Forall (snippet_json h) (d_Snippets d)) as S by (unfold document_json in D; tauto).
  eapply Forall_impl; [|exact S]. intros x (_ & _ & X & _). eapply Forall_impl; [|exact X]. intros r [(A1 & A2 & _) (B1 & B2 & _)]. repeat split; assumption.
Qed.

(** ** Members in another order *)
Lemma max_le l m : (fold_right N.max 0 l <= m)%N <-> Forall (fun x => (x <= m)%N) l.
Proof.
  induction l as [|a l IH]; cbn [fold_right]; [split; [constructor|lia]|]. split.
  - intros H. constructor; [lia|]. apply IH. lia.
  - intros H. apply Forall_cons_iff in H as [A B]. apply IH in B. lia.
Qed.
Lemma forall2_impl X (P Q : X -> Prop) l l' : Forall2 (fun x y => P x -> Q y) l l' -> Forall P l -> Forall Q l'.
Proof. induction 1; intros F; inversion F; subst; constructor; auto. Qed.
Lemma shuffled_keeps j : forall j', shuffled j j' -> (nesting j' <= nesting j)%N /\ (all_fit j -> all_fit j').
Proof.
  induction j as [|b|t|r|l IH|ms IH] using json_ind'; intros j' S; inversion S as [| | | |l0 l' F|ms0 ms' ms'' F P]; subst; try (split; [reflexivity|auto]; fail).
  - assert (Forall2 (fun x y => (nesting y <= nesting x)%N /\ (all_fit x -> all_fit y)) l l') as K.
    { clear S. induction F as [|x y l l' X F IHF]; constructor; inversion IH; subst; auto. }
    clear IH F S. split.
    + cbn [nesting]. cut (fold_right N.max 0 (map nesting l') <= fold_right N.max 0 (map nesting l))%N; [lia|].
      induction K as [|x y l l' [X _] K IHK]; cbn [map fold_right]; lia.
    + intros A. inversion A as [| | | |l0 G|]; subst. constructor. refine (forall2_impl _ all_fit all_fit l l' _ G). clear -K. induction K as [|? ? ? ? [_ ?]]; constructor; auto.
  - assert (Forall2 (fun x y => (nesting (snd y) <= nesting (snd x))%N /\ (all_fit (snd x) -> all_fit (snd y))) ms ms') as K.
    { clear S P. induction F as [|x y l l' [_ X] F IHF]; constructor; inversion IH; subst; auto. }
    clear IH F S. split.
    + cbn [nesting]. cut (fold_right N.max 0 (map (fun m => nesting (snd m)) ms'') <= fold_right N.max 0 (map (fun m => nesting (snd m)) ms))%N; [lia|].
      apply max_le. apply Forall_map. apply (Permutation_Forall P). apply (proj1 (Forall_map (fun m : string * json => nesting (snd m)) (fun n => (n <= _)%N) ms')), max_le.
      clear P. induction K as [|x y l l' [X _] K IHK]; cbn [map fold_right]; lia.
    + intros A. inversion A as [| | | | |ms0 G]; subst. constructor. apply (Permutation_Forall P).
      refine (forall2_impl _ (fun m => all_fit (snd m)) (fun m => all_fit (snd m)) ms ms' _ G). clear -K. induction K as [|? ? ? ? [_ ?]]; constructor; auto.
Qed.
Lemma rewritten_bytes v h d : document_json v h d ->
  exists j, marshal_document v h d = Ok j /\ forall j' s, shuffled j j' -> json_text j' s -> json_read_into s = Ok (v, d).
Proof.
  intros D. destruct (JsonHooks.json_any_order h v d D) as (j & M & R). exists j. split; [exact M|]. intros j' s S T.
  destruct (round_trip_bytes v h "" d blank_nil D) as (s0 & W & X). apply read_into_iff in X as (j0 & T0 & N0 & F0 & R0).
  destruct (write_text v h "" d s0 blank_nil W) as (j1 & M1 & T1 & N1). rewrite M in M1. injection M1 as <-.
  pose proof (json_text_unique s0 _ _ T0 T1). subst j0. destruct (shuffled_keeps j j' S) as [A B].
  apply read_into_iff. exists j'. repeat apply conj; auto. lia.
Qed.
Lemma write_layout v h ind d s : json_write v h ind d = Ok s <->
  exists j, marshal_document v h d = Ok j /\ ((ind = "" /\ s = text j ++ LF) \/ (ind <> "" /\ s = page ind (rows 0 "" j ""))).
Proof.
  unfold json_write. destruct (marshal_document v h d) as [j|e|]; cbn [bindR]; [|split; [discriminate|intros (j & E & _); discriminate]..].
  split.
  - intros E. injection E as <-. exists j. split; [reflexivity|]. destruct ind as [|a r]; [left; split; reflexivity|right; split; [discriminate|]].
    rewrite pretty_page. reflexivity.
  - intros (j' & E & [[-> ->]|[N ->]]); injection E as <-; [reflexivity|]. destruct ind as [|a r]; [now destruct N|]. rewrite pretty_page. reflexivity.
Qed.
