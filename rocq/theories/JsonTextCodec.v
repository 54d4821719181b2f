(** Lemmas about JSON text: the values the encoder makes can be written and read back. *)
From Verif Require Import GoStr GoStrFacts Types TvUtil Json JsonSpdx JsonCodec JsonHooks JsonText SpecTv SpecId SpecDoc SpecWrite SpecJson SpecJsonText JsonTextFacts JsonTextParse JsonTextWrite.
From Verif Require JsonReadFacts.
Local Open Scope string_scope.

(** ** Well-formed and shallow *)
Definition neat (k : nat) (j : json) : Prop := lit j /\ (nesting j <= N.of_nat k)%N.
Definition good {X} (k : nat) (c : codec X) : Prop := forall x j, enc c x = Ok j -> neat k j.
Lemma nest_arr l : nesting (JArr l) = (1 + nest_list l)%N. Proof. reflexivity. Qed.
Lemma nest_obj l : nesting (JObj l) = (1 + nest_members l)%N. Proof. reflexivity. Qed.
Lemma nest_list_le l k : (nest_list l <= k)%N <-> Forall (fun j => nesting j <= k)%N l.
Proof.
  unfold nest_list. induction l as [|j l IH]; cbn [map fold_right]; [split; [constructor|lia]|].
  rewrite N.max_lub_iff, IH. split; [intros []; now constructor|intros H; inversion H; auto].
Qed.
Lemma nest_members_le l k : (nest_members l <= k)%N <-> Forall (fun m => nesting (snd m) <= k)%N l.
Proof.
  unfold nest_members. induction l as [|j l IH]; cbn [map fold_right]; [split; [constructor|lia]|].
  rewrite N.max_lub_iff, IH. split; [intros []; now constructor|intros H; inversion H; auto].
Qed.
Lemma neat_arr k l : Forall (neat k) l -> neat (S k) (JArr l).
Proof.
  intros F. split; [apply lit_arr; eapply Forall_impl; [|exact F]; now intros ? []|].
  rewrite nest_arr. assert (nest_list l <= N.of_nat k)%N; [|lia]. apply nest_list_le. eapply Forall_impl; [|exact F]. now intros ? [].
Qed.
Definition neat_member (k : nat) (m : string * json) : Prop := chars (fst m) /\ neat k (snd m).
Lemma neat_obj k ms : Forall (neat_member k) ms <-> neat (S k) (JObj ms).
Proof.
  unfold neat. rewrite lit_obj, nest_obj. assert ((1 + nest_members ms <= N.of_nat (S k))%N <-> (nest_members ms <= N.of_nat k)%N) as -> by lia.
  rewrite nest_members_le, !Forall_forall. unfold neat_member, neat. split; [intros H; split; intros m I; destruct (H m I) as (? & ? & ?); auto|].
  intros [H K] m I. destruct (H m I). auto.
Qed.
Lemma mapR_all {A B} (f : A -> res B) (P : B -> Prop) l : (forall a b, f a = Ok b -> P b) -> forall l', mapR f l = Ok l' -> Forall P l'.
Proof.
  intros H. induction l as [|a l IH]; intros l' E; cbn [mapR] in E; [injection E as <-; constructor|].
  destruct (f a) as [b| |] eqn:F; try discriminate. cbn [bindR] in E. destruct (mapR f l) as [bs| |]; try discriminate.
  injection E as <-. constructor; eauto.
Qed.
Lemma neat_up k j : neat k j -> neat (S k) j.
Proof. intros [L D]. split; [exact L|]. lia. Qed.
Lemma good_string k : good k c_string.
Proof. intros x j E. injection E as <-. split; [apply escape_chars|]. cbn. lia. Qed.
Lemma good_text {X} k (m : X -> res string) u : good k (c_text m u).
Proof. intros x j E. cbn [enc c_text] in E. destruct (m x); try discriminate. injection E as <-. split; [apply escape_chars|cbn; lia]. Qed.
Lemma good_bool k : good k c_bool.
Proof. intros x j E. injection E as <-. split; [exact I|cbn; lia]. Qed.
Lemma good_int k : good k c_int.
Proof. intros x j E. injection E as <-. split; [apply show_number|cbn; lia]. Qed.
Lemma good_slice {X} k (c : codec X) z : good k c -> good (S k) (c_slice c z).
Proof.
  intros G x j E. cbn [enc c_slice] in E. destruct x as [|a x]; [injection E as <-; split; [exact I|cbn; lia]|].
  destruct (mapR (enc c) (a :: x)) as [js| |] eqn:M; try discriminate. injection E as <-. apply neat_arr.
  exact (mapR_all _ _ _ G _ M).
Qed.
Lemma good_ptr {X} k (c : codec X) z : good k c -> good k (c_ptr c z).
Proof. intros G [x|] j E; cbn [enc c_ptr] in E; [eauto|]. injection E as <-. split; [exact I|cbn; lia]. Qed.
Lemma good_ptrs {X} k (c : codec X) z : good k c -> good (S k) (c_ptrs c z).
Proof. intros G x j E. exact (good_slice k _ None (good_ptr k c z G) _ _ E). Qed.
Lemma good_struct {A} k (fs : list (field A)) : fold_right and True (map (fun f => good k (f_codec f)) fs) -> good (S k) (c_struct fs).
Proof.
  intros G a j E. apply fold_all in G. cbn [enc c_struct] in E. destruct (enc_fields fs a) as [ms| |] eqn:M; try discriminate. injection E as <-.
  apply neat_obj. revert ms M. induction G as [|f fs GF G IH]; intros ms M; cbn [enc_fields] in M; [injection M as <-; constructor|].
  unfold f_enc in M. destruct (f_omit f && _)%bool.
  - cbn [bindR] in M. destruct (enc_fields fs a) as [ms'| |]; try discriminate. injection M as <-. auto.
  - destruct (enc (f_codec f) (f_get f a)) as [j| |] eqn:F; try discriminate. cbn [bindR] in M.
    destruct (enc_fields fs a) as [ms'| |]; try discriminate. injection M as <-. constructor; [|auto].
    split; [apply escape_chars|]. exact (GF _ _ F).
Qed.
Lemma good_strings k : good (S k) c_strings. Proof. apply good_slice, good_string. Qed.
Create HintDb good.
Global Hint Resolve good_string good_bool good_int good_strings : good.
Ltac good_fields := intros; apply good_struct; cbn [map fold_right app]; cbv [req opt]; cbn [f_codec];
  repeat apply conj; repeat first [exact I | solve [auto with good] | apply good_text | apply good_ptrs | apply good_slice | apply good_ptr].
Lemma good_element_id k : good k c_element_id. Proof. apply good_text. Qed.
Lemma good_reference k : good k c_doc_element_id. Proof. apply good_text. Qed.
Lemma good_checksum k : good (S k) c_checksum. Proof. good_fields. Qed.
Lemma good_code k : good (S (S k)) c_verification_code. Proof. good_fields. Qed.
Lemma good_pointer k : good (S k) c_range_pointer. Proof. good_fields. Qed.
Global Hint Resolve good_checksum good_code good_pointer : good.
Lemma good_range k : good (S (S k)) c_range. Proof. good_fields. Qed.
Lemma good_external_document k : good (S (S k)) c_external_document_ref. Proof. good_fields. Qed.
Lemma good_creation k : good (S (S k)) c_creation_info. Proof. good_fields. Qed.
Lemma good_relationship k : good (S k) c_relationship. Proof. good_fields. Qed.
Lemma good_annotation k : good (S k) c_annotation. Proof. good_fields. Qed.
Lemma good_license k : good (S (S k)) c_other_license. Proof. good_fields. Qed.
Lemma good_artifact k : good (S k) c_artifact. Proof. good_fields. Qed.
Lemma good_plain_ref k : good (S k) (c_struct external_ref_fields). Proof. good_fields. Qed.
Global Hint Resolve good_range good_external_document good_creation good_relationship good_annotation good_license good_artifact : good.
Lemma good_external_ref v k : good (S k) (c_external_ref v).
Proof. destruct v; [exact (good_plain_ref k)|..]; intros x j E; exact (good_plain_ref k _ _ E). Qed.
Lemma good_snippet v k : good (S (S (S (S k)))) (c_snippet v). Proof. destruct v; good_fields. Qed.
Lemma good_file v k : good (S (S (S k))) (c_file v). Proof. destruct v; good_fields. Qed.
Lemma good_package_code v k : good (S (S k)) (c_package_code v).
Proof. destruct v; [..|cbn [c_package_code]; apply good_ptr; auto with good]; intros o j E; exact (good_code k _ _ E). Qed.
Global Hint Resolve good_external_ref good_snippet good_file good_package_code : good.
Lemma good_package_struct v k : good (S (S (S (S (S k))))) (c_struct (package_fields v)).
Proof. destruct v; cbv [package_fields opt_in_23 app]; good_fields. Qed.

(** ** Through an interface{} *)
Lemma put_sorted_all {V} (P : string -> V -> Prop) k v l : P k v -> Forall (fun m => P (fst m) (snd m)) l -> Forall (fun m => P (fst m) (snd m)) (put_sorted k v l).
Proof.
  intros H F. induction F as [|[k' v'] l H' F IH]; cbn [put_sorted]; [constructor; [exact H|constructor]|].
  destruct (String.eqb k k'); [constructor; auto|]. destruct (str_ltb k k'); constructor; auto.
Qed.
Lemma fold_put_all {V} (P : V -> Prop) (ms : list (string * V)) : Forall (fun m => P (snd m)) ms ->
  forall acc, Forall (fun m => P (snd m)) acc -> Forall (fun m => P (snd m)) (fold_left (fun acc m => put_sorted (fst m) (snd m) acc) ms acc).
Proof.
  induction 1 as [|m ms H F IH]; intros acc A; cbn [fold_left]; [exact A|]. apply IH.
  apply (put_sorted_all (fun _ v => P v)); assumption.
Qed.
Lemma through_neat j : forall k, neat k j -> neat k (through_any j).
Proof.
  induction j as [|b|t|r|l IH|ms IH] using json_ind'; intros k H; try exact H.
  - cbn [through_any]. split; [apply escape_chars|apply H].
  - destruct k as [|k]; [destruct H as [_ H]; rewrite nest_arr in H; lia|].
    cbn [through_any]. apply neat_arr. rewrite Forall_map. destruct H as [L D]. apply lit_arr in L. rewrite nest_arr in D.
    assert (nest_list l <= N.of_nat k)%N as D' by lia. apply nest_list_le in D'. rewrite Forall_forall in *.
    intros x I. apply IH; [exact I|]. split; auto.
  - destruct k as [|k]; [destruct H as [_ H]; rewrite nest_obj in H; lia|].
    apply neat_obj in H. cbn [through_any]. apply neat_obj. rewrite Forall_map.
    assert (Forall (fun m : string * json => neat k (snd m)) (map (fun m => (requote (fst m), through_any (snd m))) ms)) as K.
    { rewrite Forall_map. cbn [snd]. rewrite Forall_forall in *. intros m I. apply IH; [exact I|]. now apply H. }
    pose proof (fold_put_all (neat k) _ K [] (Forall_nil _)) as F. rewrite Forall_forall in *.
    intros m I. split; [apply escape_chars|]. exact (F m I).
Qed.
Lemma delete_neat n k j : neat k j -> neat k (delete_member n j).
Proof.
  destruct j as [| | | | |ms]; try (intros H; exact H). intros H. destruct k as [|k]; [destruct H as [_ H]; rewrite nest_obj in H; lia|].
  apply neat_obj in H. cbn [delete_member]. apply neat_obj. rewrite Forall_forall in *. intros m I. apply filter_In in I as [I _]. auto.
Qed.
Lemma good_package v k : good (S (S (S (S (S k))))) (c_package v).
Proof.
  intros p j E. destruct v; cbn [enc c_package] in E; try exact (good_package_struct _ k _ _ E).
  unfold marshal_package_22 in E. destruct (enc (c_struct (package_fields V22)) (fst p)) as [j0| |] eqn:E0; try discriminate.
  apply (good_package_struct V22 k) in E0. cbn [bindR] in E.
  destruct (p_VerificationCode (fst p)) as [c|]; [destruct (zero_code c)|]; injection E as <-; try exact E0; now apply delete_neat, through_neat.
Qed.
Global Hint Resolve good_package : good.
Lemma good_document v k : good (S (S (S (S (S (S (S k))))))) (c_document_struct v). Proof. good_fields. Qed.
Lemma html_neat j : forall k, neat k j -> neat k (html j).
Proof.
  induction j as [|b|t|r|l IH|ms IH] using json_ind'; intros k H; try exact H.
  - cbn [html]. split; [apply html_chars; apply H|apply H].
  - destruct k as [|k]; [destruct H as [_ H]; rewrite nest_arr in H; lia|].
    cbn [html]. apply neat_arr. rewrite Forall_map. destruct H as [L D]. apply lit_arr in L. rewrite nest_arr in D.
    assert (nest_list l <= N.of_nat k)%N as D' by lia. apply nest_list_le in D'. rewrite Forall_forall in *.
    intros x I. apply IH; [exact I|]. split; auto.
  - destruct k as [|k]; [destruct H as [_ H]; rewrite nest_obj in H; lia|].
    apply neat_obj in H. cbn [html]. apply neat_obj. rewrite Forall_map, Forall_forall in *.
    intros m I. destruct (H m I) as [C N]. split; [now apply html_chars|]. cbn [snd]. now apply IH.
Qed.
Lemma marshal_neat v h d j : marshal_document v h d = Ok j -> lit j /\ (nesting j <= max_depth)%N.
Proof.
  unfold marshal_document. cbv zeta. intros E.
  match type of E with bindR ?e _ = _ => destruct e as [j0| |] eqn:E0; try discriminate end.
  apply (good_document v 0) in E0. cbn [bindR] in E.
  assert (neat 7 j) as [L D] by (destruct h; injection E as <-; [now apply html_neat|exact E0]).
  split; [exact L|]. change (N.of_nat 7) with 7%N in D. unfold max_depth. lia.
Qed.

(** ** Numbers *)
Definition fits {X} (ok : X -> Prop) (c : codec X) : Prop := forall x j, ok x -> enc c x = Ok j -> floats_ok j = true.
Definition quiet {X} (c : codec X) : Prop := fits (fun _ => True) c.
Definition field_fits {A} (ok : A -> Prop) (f : field A) : Prop := forall a j, ok a -> enc (f_codec f) (f_get f a) = Ok j -> floats_ok j = true.
Lemma fits_struct {A} ok (fs : list (field A)) : fold_right and True (map (field_fits ok) fs) -> fits ok (c_struct fs).
Proof.
  intros G a j K E. apply fold_all in G. cbn [enc c_struct] in E. destruct (enc_fields fs a) as [ms| |] eqn:M; try discriminate. injection E as <-.
  cbn [floats_ok]. revert ms M. induction G as [|f fs GF G IH]; intros ms M; cbn [enc_fields] in M; [injection M as <-; reflexivity|].
  unfold f_enc in M. destruct (f_omit f && _)%bool.
  - cbn [bindR] in M. destruct (enc_fields fs a) as [ms'| |]; try discriminate. injection M as <-. auto.
  - destruct (enc (f_codec f) (f_get f a)) as [j| |] eqn:F; try discriminate. cbn [bindR] in M.
    destruct (enc_fields fs a) as [ms'| |]; try discriminate. injection M as <-. cbn [forallb snd].
    rewrite (GF a j K F). cbn [andb]. now apply IH.
Qed.
Lemma quiet_string : quiet c_string. Proof. intros x j _ E. now injection E as <-. Qed.
Lemma quiet_bool : quiet c_bool. Proof. intros x j _ E. now injection E as <-. Qed.
Lemma quiet_text {X} (m : X -> res string) u : quiet (c_text m u).
Proof. intros x j _ E. cbn [enc c_text] in E. destruct (m x); try discriminate. now injection E as <-. Qed.
Lemma fits_slice {X} ok (c : codec X) z : fits ok c -> fits (Forall ok) (c_slice c z).
Proof.
  intros G x j K E. cbn [enc c_slice] in E. destruct x as [|a x]; [now injection E as <-|].
  destruct (mapR (enc c) (a :: x)) as [js| |] eqn:M; try discriminate. injection E as <-. cbn [floats_ok].
  revert js M. induction K as [|y l Y K IH]; intros js M; cbn [mapR] in M; [injection M as <-; reflexivity|].
  destruct (enc c y) as [j| |] eqn:F; try discriminate. cbn [bindR] in M. destruct (mapR (enc c) l) as [js'| |]; try discriminate.
  injection M as <-. cbn [forallb]. rewrite (G y j Y F). now apply IH.
Qed.
Lemma quiet_slice {X} (c : codec X) z : quiet c -> quiet (c_slice c z).
Proof. intros G x j _ E. apply (fits_slice _ c z G x j); [|exact E]. apply Forall_forall. auto. Qed.
Lemma quiet_ptr {X} (c : codec X) z : quiet c -> quiet (c_ptr c z).
Proof. intros G [x|] j _ E; cbn [enc c_ptr] in E; [exact (G x j I E)|]. now injection E as <-. Qed.
Lemma quiet_ptrs {X} (c : codec X) z : quiet c -> quiet (c_ptrs c z).
Proof. intros G x j _ E. exact (quiet_slice _ None (quiet_ptr c z G) _ _ I E). Qed.
Lemma quiet_strings : quiet c_strings. Proof. apply quiet_slice, quiet_string. Qed.
Lemma quiet_field {A} ok (f : field A) : quiet (f_codec f) -> field_fits ok f.
Proof. intros Q a j _ E. exact (Q _ _ I E). Qed.
Create HintDb quiet.
Global Hint Resolve quiet_string quiet_bool quiet_strings : quiet.
Ltac quiet_fields := apply fits_struct; cbn [map fold_right app];
  repeat split; try exact I; apply quiet_field; cbv [req opt]; cbn [f_codec];
  repeat first [solve [auto with quiet] | apply quiet_text | apply quiet_ptrs | apply quiet_slice | apply quiet_ptr].
Lemma quiet_checksum : quiet c_checksum. Proof. quiet_fields. Qed.
Lemma quiet_code : quiet c_verification_code. Proof. quiet_fields. Qed.
Global Hint Resolve quiet_checksum quiet_code : quiet.
Lemma quiet_external_document : quiet c_external_document_ref. Proof. quiet_fields. Qed.
Lemma quiet_creation : quiet c_creation_info. Proof. quiet_fields. Qed.
Lemma quiet_relationship : quiet c_relationship. Proof. quiet_fields. Qed.
Lemma quiet_annotation : quiet c_annotation. Proof. quiet_fields. Qed.
Lemma quiet_license : quiet c_other_license. Proof. quiet_fields. Qed.
Lemma quiet_artifact : quiet c_artifact. Proof. quiet_fields. Qed.
Lemma quiet_plain_ref : quiet (c_struct external_ref_fields). Proof. quiet_fields. Qed.
Global Hint Resolve quiet_external_document quiet_creation quiet_relationship quiet_annotation quiet_license quiet_artifact : quiet.
Lemma quiet_external_ref v : quiet (c_external_ref v).
Proof. destruct v; [exact quiet_plain_ref|..]; intros x j _ E; exact (quiet_plain_ref _ _ I E). Qed.
Lemma quiet_file v : quiet (c_file v). Proof. destruct v; quiet_fields. Qed.
Lemma quiet_package_code v : quiet (c_package_code v).
Proof. destruct v; [..|cbn [c_package_code]; apply quiet_ptr; auto with quiet]; intros o j _ E; exact (quiet_code _ _ I E). Qed.
Global Hint Resolve quiet_external_ref quiet_file quiet_package_code : quiet.
Lemma quiet_package_struct v : quiet (c_struct (package_fields v)).
Proof. destruct v; cbv [package_fields opt_in_23 app]; quiet_fields. Qed.
Lemma floats_arr l : floats_ok (JArr l) = true <-> Forall (fun j => floats_ok j = true) l.
Proof. cbn [floats_ok]. rewrite forallb_forall, Forall_forall. tauto. Qed.
Lemma floats_obj l : floats_ok (JObj l) = true <-> Forall (fun m => floats_ok (snd m) = true) l.
Proof. cbn [floats_ok]. rewrite forallb_forall, Forall_forall. tauto. Qed.
Lemma through_floats j : floats_ok j = true -> floats_ok (through_any j) = true.
Proof.
  induction j as [|b|t|r|l IH|ms IH] using json_ind'; intros H; try exact H.
  - cbn [through_any]. apply floats_arr in H. apply floats_arr. rewrite Forall_map, Forall_forall in *. auto.
  - cbn [through_any]. apply floats_obj in H. apply floats_obj. rewrite Forall_map. cbn [snd].
    apply (fold_put_all (fun j => floats_ok j = true)); [|constructor]. rewrite Forall_map. cbn [snd]. rewrite Forall_forall in *. auto.
Qed.
Lemma delete_floats n j : floats_ok j = true -> floats_ok (delete_member n j) = true.
Proof.
  destruct j as [| | | | |ms]; try (intros H; exact H). intros H. apply floats_obj in H. cbn [delete_member]. apply floats_obj.
  rewrite Forall_forall in *. intros m I. apply filter_In in I as [I _]. auto.
Qed.
Lemma quiet_package v : quiet (c_package v).
Proof.
  intros p j _ E. destruct v; cbn [enc c_package] in E; try exact (quiet_package_struct _ _ _ I E).
  unfold marshal_package_22 in E. destruct (enc (c_struct (package_fields V22)) (fst p)) as [j0| |] eqn:E0; try discriminate.
  apply (quiet_package_struct V22) in E0; [|exact I]. cbn [bindR] in E.
  destruct (p_VerificationCode (fst p)) as [c|]; [destruct (zero_code c)|]; injection E as <-; try exact E0; now apply delete_floats, through_floats.
Qed.
Global Hint Resolve quiet_package : quiet.
Lemma html_floats j : floats_ok (html j) = floats_ok j.
Proof.
  induction j as [|b|t|r|l IH|ms IH] using json_ind'; try reflexivity; cbn [html floats_ok].
  - induction IH as [|x l H F IHl]; cbn [map forallb]; [reflexivity|]. now rewrite H, IHl.
  - induction IH as [|x l H F IHl]; cbn [map forallb snd]; [reflexivity|]. now rewrite H, IHl.
Qed.
Lemma show_float z : in_int z = true -> float_ok (show_Z z) = true.
Proof.
  intros B. unfold in_int in B. apply Bool.andb_true_iff in B as [B1 B2]. apply Z.leb_le in B1, B2.
  assert (decimal (show_N (Z.abs_N z)) (Z.abs_N z)) as D by (apply decimal_iff, read_show_N).
  assert (number (show_Z z) (Z.abs_N z) 0%Z) as N.
  { destruct (show_number z) as (m & k & N). unfold show_Z in *.
    assert (int_part (show_N (Z.abs_N z))) as I.
    { destruct (N.eqb_spec (Z.abs_N z) 0) as [->|NZ]; [now left|]. right. split; [eauto|]. now apply show_no_zero. }
    destruct (z <? 0)%Z; [exists "-"|exists ""]; exists (show_N (Z.abs_N z)), "", "", "", 0%Z;
    (split; [now rewrite app_nil_r_s|]; split; [unfold sign_part; auto|]; split; [exact I|]; split; [left; auto|]; split; [left; auto|]; split; [now rewrite app_nil_r_s|reflexivity]). }
  rewrite (float_number _ _ _ N). unfold float_in. cbn [Z.leb Z.compare]. apply Z.ltb_lt. rewrite Z.pow_0_r, Z.mul_1_r, N2Z.inj_abs_N.
  assert (Z.abs z < 2 ^ 64)%Z as L by (unfold int_min, int_max in *; lia).
  eapply Z.lt_trans; [exact L|]. vm_compute. reflexivity.
Qed.
Lemma fits_int : fits (fun z => in_int z = true) c_int.
Proof. intros z j B E. injection E as <-. now apply show_float. Qed.
Section Ints.
  Definition pointer_int (p : RangePointer) : Prop := in_int (rp_Offset p) = true /\ in_int (rp_LineNumber p) = true.
  Definition range_int (r : SnippetRange) : Prop := pointer_int (sr_StartPointer r) /\ pointer_int (sr_EndPointer r).
  Definition snippet_int (s : Snippet) : Prop := Forall range_int (s_Ranges s).
  Lemma fits_pointer : fits pointer_int c_range_pointer.
  Proof.
    apply fits_struct. cbn [map fold_right]. split; [|split; [|split; [|exact I]]].
    - intros a j [K _] E. exact (fits_int _ _ K E).
    - intros a j [_ K] E. exact (fits_int _ _ K E).
    - apply quiet_field. apply quiet_text.
  Qed.
  Lemma fits_range : fits range_int c_range.
  Proof.
    apply fits_struct. cbn [map fold_right]. split; [|split; [|exact I]]; intros a j [K K'] E; now apply (fits_pointer _ _) in E.
  Qed.
  Lemma fits_snippet v : fits snippet_int (c_snippet v).
  Proof.
    apply fits_struct. destruct v; cbn [map fold_right opt_in_23]; repeat split; try exact I;
      try (apply quiet_field; cbv [req opt]; cbn [f_codec]; solve [apply quiet_text|auto with quiet]).
    all: intros a j K E; exact (fits_slice _ _ _ fits_range _ _ K E).
  Qed.
  Lemma fits_document v : fits (fun d : jdocument => Forall snippet_int (d_Snippets d)) (c_document_struct v).
  Proof.
    apply fits_struct. cbn [map fold_right]. repeat split; try exact I;
      try (apply quiet_field; cbv [req opt]; cbn [f_codec];
           solve [repeat first [solve [auto with quiet] | apply quiet_text | apply quiet_ptrs | apply quiet_slice | apply quiet_ptr]]).
    all: intros a j K E; exact (fits_slice _ _ _ (fits_snippet v) _ _ K E).
  Qed.
End Ints.
Lemma marshal_floats v h d j : Forall snippet_int (d_Snippets d) -> marshal_document v h d = Ok j -> floats_ok j = true.
Proof.
  intros K. unfold marshal_document. cbv zeta. intros E.
  match type of E with bindR ?e _ = _ => destruct e as [j0| |] eqn:E0; try discriminate end.
  apply (fits_document v) in E0; [|exact K]. cbn [bindR] in E.
  destruct h; injection E as <-; [now rewrite html_floats|exact E0].
Qed.
Lemma all_fit_iff j : lit j -> floats_ok j = true <-> all_fit j.
Proof.
  induction j as [|b|t|r|l IH|ms IH] using json_ind'; intros L; try (split; [constructor|reflexivity]).
  - cbn [floats_ok]. rewrite float_ok_iff by exact L. split; [now constructor|now inversion 1].
  - rewrite floats_arr. apply lit_arr in L. rewrite Forall_forall in *. split.
    + intros H. constructor. apply Forall_forall. intros x I. apply IH; auto.
    + intros H. inversion H as [| | | |l' F|]; subst. rewrite Forall_forall in F. intros x I. apply IH; auto.
  - rewrite floats_obj. apply lit_obj in L. rewrite Forall_forall in *. split.
    + intros H. constructor. apply Forall_forall. intros x I. apply IH; auto. now apply L.
    + intros H. inversion H as [| | | | |l' F]; subst. rewrite Forall_forall in F. intros x I. apply IH; auto. now apply L.
Qed.
