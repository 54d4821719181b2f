(** * Lemmas about a member that occurs twice. *)
From Coq Require Import Permutation.
From Verif Require Import GoStr GoStrFacts Types TvUtil Json JsonSpdx JsonText SpecJson SpecJsonText SpecRestate
  JsonCodec JsonHooks JsonTextParse JsonTextLaws.
Local Open Scope string_scope.

Lemma bindR_get {A B} (r : res A) (k : A -> res B) b : bindR r k = Ok b -> exists a, r = Ok a /\ k a = Ok b.
Proof. destruct r; cbn; try discriminate. eauto. Qed.

(** Decoding an object after another one is decoding their members together. *)
Definition joins {X} (d : json -> X -> res X) : Prop :=
  forall ms ms' old x, d (JObj ms) old = Ok x -> d (JObj (ms ++ ms')) old = d (JObj ms') x.
Lemma joins_struct A (fs : list (field A)) : joins (dec (c_struct fs)).
Proof. intros ms ms' old x E. cbn [dec c_struct] in *. rewrite dec_members_app, E. reflexivity. Qed.
Lemma joins_ptr X (c : codec X) z : joins (dec c) -> joins (dec (c_ptr c z)).
Proof.
  intros J ms ms' old x E. cbn [dec c_ptr] in *. apply bindR_get in E as (y & E & K). injection K as <-.
  rewrite (J _ ms' _ _ E). reflexivity.
Qed.

Lemma elements_together X (d : json -> X -> res X) z : joins d -> forall l l' a b, all_objects l -> all_objects l' ->
  dec_elements d z l [] = Ok a -> dec_elements d z l' a = Ok b -> dec_elements d z (put_together l l') [] = Ok b.
Proof.
  intros J. induction l as [|j r IH]; intros l' a b O O' E E'.
  - cbn in E. injection E as <-. exact E'.
  - inversion O as [|? ? (ms & ->) Or]; subst. cbn [dec_elements tl] in E.
    apply bindR_get in E as (x & Ex & E). apply bindR_get in E as (xs & Exs & E). injection E as <-.
    destruct l' as [|j' r']; [exact E'|]. inversion O' as [|? ? (ms' & ->) Or']; subst. cbn [dec_elements tl] in E'.
    apply bindR_get in E' as (y & Ey & E'). apply bindR_get in E' as (ys & Eys & E'). injection E' as <-.
    cbn [put_together dec_elements tl]. rewrite (J _ ms' _ _ Ex), Ey. cbn [bindR]. now rewrite (IH _ _ _ Or Or' Exs Eys).
Qed.

Lemma floats_together l : forall l', forallb floats_ok l = true -> forallb floats_ok l' = true -> forallb floats_ok (put_together l l') = true.
Proof.
  induction l as [|[| | | | |ms] r IH]; intros l' H H'; try exact H'. destruct l' as [|[| | | | |ms'] r']; try exact H'.
  cbn [forallb floats_ok put_together] in *. apply andb_prop in H as (H1 & H2). apply andb_prop in H' as (H3 & H4).
  rewrite forallb_app, H1, H3. cbn [andb]. now apply IH.
Qed.
Lemma nest_members_app a b : nest_members (a ++ b) = N.max (nest_members a) (nest_members b).
Proof. induction a as [|m a IH]; unfold nest_members in *; cbn [app map fold_right]; [lia|]. rewrite IH. lia. Qed.
Lemma nest_together l : forall l', (nest_list (put_together l l') <= N.max (nest_list l) (nest_list l'))%N.
Proof.
  induction l as [|[| | | | |ms] r IH]; intros l'; try (cbn [put_together]; lia). destruct l' as [|[| | | | |ms'] r']; try (cbn [put_together]; lia).
  cbn [put_together]. specialize (IH r'). unfold nest_list in *. cbn [map fold_right].
  change (nesting (JObj (ms ++ ms'))) with (1 + nest_members (ms ++ ms'))%N.
  change (nesting (JObj ms)) with (1 + nest_members ms)%N. change (nesting (JObj ms')) with (1 + nest_members ms')%N.
  rewrite nest_members_app. lia.
Qed.

Lemma document_together v n l l' rest d : In n element_lists -> all_objects l -> all_objects l' ->
  dec (c_document_struct v) (JObj ((n, JArr l) :: (n, JArr l') :: rest)) zero_jdocument = Ok d ->
  dec (c_document_struct v) (JObj ((n, JArr (put_together l l')) :: rest)) zero_jdocument = Ok d.
Proof.
  intros I O O' E. unfold c_document_struct in *. cbn [dec c_struct dec_members] in *.
  apply bindR_get in E as (a & E1 & E). apply bindR_get in E as (b & E2 & E).
  match goal with |- bindR ?t _ = _ => assert (t = Ok b) as -> end; [|exact E]. clear E.
  destruct I as [<-|[<-|[<-|[<-|[<-|[<-|[]]]]]]]; unfold dec_member in *; cbn [fst snd] in *;
    (match type of E1 with match unescape ?s with _ => _ end = _ => change (unescape s) with (Some s) in * end); cbv iota in *;
    (match type of E1 with match ?t with _ => _ end = _ => let u := eval cbv [find_field find_exact find_folded req opt f_name String.eqb Ascii.eqb Bool.eqb] in t in change t with u in * end);
    cbv iota in *; unfold f_dec in *; cbn [f_codec f_get f_set] in *;
    apply bindR_get in E1 as (x & E1 & K); injection K as <-; apply bindR_get in E2 as (y & E2 & K); injection K as <-;
    unfold c_ptrs in *; cbn [dec c_slice] in *;
    (match goal with |- bindR ?t _ = _ => assert (t = Ok y) as -> end;
     [refine (elements_together _ _ _ _ _ _ _ _ O O' E1 E2); first [apply joins_ptr, joins_struct|apply joins_struct]|]); reflexivity.
Qed.
Lemma describes_together n l l' rest : In n element_lists ->
  dec c_describes (JObj ((n, JArr l) :: (n, JArr l') :: rest)) [] = dec c_describes (JObj ((n, JArr (put_together l l')) :: rest)) [].
Proof. intros I. destruct I as [<-|[<-|[<-|[<-|[<-|[<-|[]]]]]]]; reflexivity. Qed.
Lemma version_together n l l' rest : In n element_lists ->
  last_member "spdxVersion" ((n, JArr l) :: (n, JArr l') :: rest) = last_member "spdxVersion" ((n, JArr (put_together l l')) :: rest).
Proof.
  intros I. cbn [last_member]. destruct (last_member "spdxVersion" rest); [reflexivity|].
  destruct I as [<-|[<-|[<-|[<-|[<-|[<-|[]]]]]]]; reflexivity.
Qed.
Lemma unmarshal_together v n l l' rest d : In n element_lists -> all_objects l -> all_objects l' ->
  unmarshal_document v (JObj ((n, JArr l) :: (n, JArr l') :: rest)) = Ok d ->
  unmarshal_document v (JObj ((n, JArr (put_together l l')) :: rest)) = Ok d.
Proof.
  intros I O O'. unfold unmarshal_document. intros E. apply bindR_get in E as (e & E1 & E).
  rewrite (document_together v n l l' rest e I O O' E1). cbn [bindR]. destruct v; [exact E|..]; now rewrite <- describes_together.
Qed.
Lemma read_together n l l' rest s s' v d : In n element_lists -> all_objects l -> all_objects l' ->
  json_text (JObj ((n, JArr l) :: (n, JArr l') :: rest)) s -> json_text (JObj ((n, JArr (put_together l l')) :: rest)) s' ->
  json_read_into s = Ok (v, d) -> json_read_into s' = Ok (v, d).
Proof.
  intros I O O' T T' E. unfold json_read_into in *.
  destruct (parse_text s) as [j|] eqn:P; [|discriminate]. pose proof (proj1 (parse_text_iff s j) P) as (T1 & N).
  assert (j = JObj ((n, JArr l) :: (n, JArr l') :: rest)) as -> by (eapply json_text_unique; eassumption).
  assert (parse_text s' = Some (JObj ((n, JArr (put_together l l')) :: rest))) as ->.
  { apply parse_text_iff. split; [exact T'|]. eapply N.le_trans; [|exact N]. cbn [nesting map fold_right snd].
    pose proof (nest_together l l') as H. unfold nest_list in H. lia. }
  destruct (floats_ok _) eqn:F in E; [|discriminate]. cbn [floats_ok forallb snd] in F.
  apply andb_prop in F as (F1 & F). apply andb_prop in F as (F2 & F3).
  cbn [floats_ok forallb snd]. rewrite (floats_together l l' F1 F2), F3. cbn [andb].
  unfold read_value in *. rewrite <- version_together by assumption. destruct (last_member _ _) as [[| | |r| |]|]; try discriminate.
  repeat (destruct (String.eqb _ _); [apply bindR_get in E as (e & E1 & E); now rewrite (unmarshal_together _ _ _ _ _ _ I O O' E1)|]).
  discriminate.
Qed.

(** ** A part given again as null *)
Lemma document_null v n j rest d : In n droppable ->
  dec (c_document_struct v) (JObj ((n, j) :: (n, JNull) :: rest)) zero_jdocument = Ok d ->
  dec (c_document_struct v) (JObj rest) zero_jdocument = Ok d.
Proof.
  intros I E. unfold c_document_struct in *. cbn [dec c_struct] in *. cbn [dec_members] in E.
  apply bindR_get in E as (a & E1 & E). apply bindR_get in E as (b & E2 & E).
  assert (b = zero_jdocument) as ->; [|exact E]. clear E.
  repeat (destruct I as [<-|I]); try (destruct I; fail); unfold dec_member in *; cbn [fst snd] in *;
    (match type of E1 with match unescape ?s with _ => _ end = _ => change (unescape s) with (Some s) in * end); cbv iota in *;
    (match type of E1 with match ?t with _ => _ end = _ => let u := eval cbv [find_field find_exact find_folded req opt f_name String.eqb Ascii.eqb Bool.eqb] in t in change t with u in * end);
    cbv iota in *; unfold f_dec in *; cbn [f_codec f_get f_set] in *;
    apply bindR_get in E1 as (x & E1 & K); injection K as <-; apply bindR_get in E2 as (y & E2 & K); injection K as <-;
    unfold c_ptrs in *; cbn [dec c_slice c_ptr] in E2; injection E2 as <-; reflexivity.
Qed.
Lemma describes_null n j rest : In n droppable -> dec c_describes (JObj ((n, j) :: (n, JNull) :: rest)) [] = dec c_describes (JObj rest) [].
Proof. intros I. repeat (destruct I as [<-|I]); try (destruct I; fail); reflexivity. Qed.
Lemma version_null n j rest : In n droppable -> last_member "spdxVersion" ((n, j) :: (n, JNull) :: rest) = last_member "spdxVersion" rest.
Proof.
  intros I. cbn [last_member]. destruct (last_member "spdxVersion" rest); [reflexivity|].
  repeat (destruct I as [<-|I]); try (destruct I; fail); reflexivity.
Qed.
Lemma read_null n j rest s s' v d : In n droppable -> json_text (JObj ((n, j) :: (n, JNull) :: rest)) s -> json_text (JObj rest) s' ->
  json_read_into s = Ok (v, d) -> json_read_into s' = Ok (v, d).
Proof.
  intros I T T' E. unfold json_read_into in *.
  destruct (parse_text s) as [k|] eqn:P; [|discriminate]. pose proof (proj1 (parse_text_iff s k) P) as (T1 & N).
  assert (k = JObj ((n, j) :: (n, JNull) :: rest)) as -> by (eapply json_text_unique; eassumption).
  assert (parse_text s' = Some (JObj rest)) as ->.
  { apply parse_text_iff. split; [exact T'|]. eapply N.le_trans; [|exact N]. cbn [nesting map fold_right snd]. lia. }
  destruct (floats_ok _) eqn:F in E; [|discriminate]. cbn [floats_ok forallb snd] in F. apply andb_prop in F as (_ & F). cbn [andb] in F.
  cbn [floats_ok]. rewrite F. unfold read_value in *. rewrite version_null in E by assumption.
  destruct (last_member _ _) as [[| | |r| |]|]; try discriminate.
  assert (U : forall w e, unmarshal_document w (JObj ((n, j) :: (n, JNull) :: rest)) = Ok e -> unmarshal_document w (JObj rest) = Ok e).
  { intros w e. unfold unmarshal_document. intros H. apply bindR_get in H as (x & E1 & H). rewrite (document_null w n j rest x I E1). cbn [bindR].
    destruct w; [exact H|..]; now rewrite describes_null in H. }
  repeat (destruct (String.eqb _ _); [apply bindR_get in E as (e & E1 & E); now rewrite (U _ _ E1)|]). discriminate.
Qed.

(** ** Members with different names are moved past each other *)
Definition free {A} (fs : list (field A)) : Prop :=
  forall f g, In f fs -> In g fs -> f_name f <> f_name g ->
  (forall x a, f_get g (f_set f x a) = f_get g a) /\ (forall x y a, f_set g y (f_set f x a) = f_set f x (f_set g y a)).
Lemma swap_members A (fs : list (field A)) m m' a b : free fs -> names_apart m m' ->
  (let* x := dec_member fs m a in dec_member fs m' x) = Ok b -> (let* x := dec_member fs m' a in dec_member fs m x) = Ok b.
Proof.
  intros F (n & n' & U & U' & D) E. apply bindR_get in E as (c & E1 & E2). unfold dec_member in *. rewrite U in *. rewrite U' in *.
  destruct (find_field fs n) as [f|] eqn:P; destruct (find_field fs n') as [g|] eqn:Q.
  - apply find_field_some in P as (If & Pf). apply find_field_some in Q as (Ig & Qg).
    assert (f_name f <> f_name g) as N by congruence.
    destruct (F f g If Ig N) as (G1 & S1). destruct (F g f Ig If (fun e => N (eq_sym e))) as (G2 & _).
    unfold f_dec in *. apply bindR_get in E1 as (x & E1 & K). injection K as <-. apply bindR_get in E2 as (y & E2 & K). injection K as <-.
    rewrite G1 in E2. rewrite E2. cbn [bindR]. rewrite G2, E1. cbn [bindR]. now rewrite S1.
  - injection E2 as <-. cbn [bindR]. exact E1.
  - injection E1 as <-. rewrite E2. reflexivity.
  - injection E1 as <-. injection E2 as <-. reflexivity.
Qed.
Lemma dec_moved A (fs : list (field A)) l l' : free fs -> moved l l' -> forall a b, dec_members fs l a = Ok b -> dec_members fs l' a = Ok b.
Proof.
  intros F. induction 1 as [l|p m m' r D|l l' l'' _ IH1 _ IH2]; intros a b E; [exact E| |auto].
  rewrite dec_members_app in *. apply bindR_get in E as (c & E1 & E). rewrite E1. cbn [bindR]. clear E1. cbn [dec_members] in *.
  apply bindR_get in E as (x & E1 & E). apply bindR_get in E as (y & E2 & E).
  assert ((let* x := dec_member fs m' c in dec_member fs m x) = Ok y) as K.
  { apply swap_members; [assumption..|]. rewrite E1. exact E2. }
  apply bindR_get in K as (z & K1 & K2). rewrite K1. cbn [bindR]. rewrite K2. exact E.
Qed.
Lemma free_document v : exists fs, c_document_struct v = c_struct fs /\ free fs.
Proof.
  eexists. split; [reflexivity|]. intros f g If Ig N. cbn [In] in If, Ig.
  repeat (destruct If as [<-|If]); try (destruct If; fail); repeat (destruct Ig as [<-|Ig]); try (destruct Ig; fail);
    first [exfalso; apply N; reflexivity|split; reflexivity].
Qed.
Lemma free_describes : exists fs, c_describes = c_struct fs /\ free fs.
Proof.
  eexists. split; [reflexivity|]. intros f g If Ig N. cbn [In] in If, Ig. destruct If as [<-|[]], Ig as [<-|[]]. now exfalso.
Qed.
Lemma version_moved l l' : moved l l' -> last_member "spdxVersion" l = last_member "spdxVersion" l'.
Proof.
  induction 1 as [l|p (n, j) (n', j') r (a & a' & U & U' & D)|l l' l'' _ IH1 _ IH2]; [reflexivity| |congruence].
  induction p as [|(k, x) p IH]; cbn [app last_member]; [|now rewrite IH].
  destruct (last_member _ r); [reflexivity|]. cbn [fst] in U, U'. unfold requote. rewrite U, U'.
  destruct (String.eqb_spec a' "spdxVersion") as [->|_]; destruct (String.eqb_spec a "spdxVersion") as [->|_]; congruence.
Qed.
Lemma value_moved l l' x : moved l l' -> read_value (JObj l) = Ok x -> read_value (JObj l') = Ok x.
Proof.
  intros M. unfold read_value. rewrite <- (version_moved l l' M). destruct (last_member _ l) as [[| | |r| |]|]; try discriminate. cbv zeta.
  assert (U : forall w e, unmarshal_document w (JObj l) = Ok e -> unmarshal_document w (JObj l') = Ok e).
  { intros w e. unfold unmarshal_document. destruct (free_document w) as (fs & -> & F). intros H. apply bindR_get in H as (y & E1 & H).
    cbn [dec c_struct] in *. rewrite (dec_moved _ _ _ _ F M _ _ E1). cbn [bindR].
    destruct free_describes as (gs & Eg & G). rewrite Eg in *. cbn [dec c_struct] in *.
    destruct w; [exact H|..]; apply bindR_get in H as (z & E2 & H); rewrite (dec_moved _ _ _ _ G M _ _ E2); exact H. }
  intros E. repeat (destruct (String.eqb _ _); [apply bindR_get in E as (e & E1 & E); now rewrite (U _ _ E1)|]). discriminate.
Qed.
Lemma moved_permutes l l' : moved l l' -> Permutation l l'.
Proof.
  induction 1 as [l|p m m' r _|l l' l'' _ IH1 _ IH2]; [reflexivity|apply Permutation_app_head, perm_swap|now transitivity l'].
Qed.
Lemma moved_back l l' : moved l l' -> moved l' l.
Proof.
  induction 1 as [l|p m m' r (a & a' & U & U' & D)|l l' l'' _ IH1 _ IH2]; [constructor| |eapply moved_on; eassumption].
  apply moved_swap. exists a', a. repeat split; congruence.
Qed.
Lemma nest_permutes l l' : Permutation l l' -> nesting (JObj l) = nesting (JObj l').
Proof.
  intros P. change (1 + nest_members l = 1 + nest_members l')%N. f_equal. unfold nest_members.
  induction P; cbn [map fold_right]; try lia; congruence.
Qed.
Lemma floats_permutes l l' : Permutation l l' -> floats_ok (JObj l) = floats_ok (JObj l').
Proof.
  intros P. cbn [floats_ok]. induction P as [|x l l' _ IH|x y l|]; cbn [forallb]; [reflexivity|now rewrite IH| |congruence].
  destruct (floats_ok (snd x)), (floats_ok (snd y)); reflexivity.
Qed.
Lemma read_moved l l' s s' x : moved l l' -> json_text (JObj l) s -> json_text (JObj l') s' ->
  json_read_into s = Ok x -> json_read_into s' = Ok x.
Proof.
  intros M T T' E. unfold json_read_into in *.
  destruct (parse_text s) as [k|] eqn:P; [|discriminate]. pose proof (proj1 (parse_text_iff s k) P) as (T1 & N).
  assert (k = JObj l) as -> by (eapply json_text_unique; eassumption). pose proof (moved_permutes _ _ M) as Q.
  assert (parse_text s' = Some (JObj l')) as ->.
  { apply parse_text_iff. split; [exact T'|]. now rewrite <- (nest_permutes _ _ Q). }
  rewrite <- (floats_permutes _ _ Q). destruct (floats_ok _); [|discriminate]. now apply (value_moved l).
Qed.

(** ** The packages *)
Lemma bindR_twice {A B C} (r : res A) (f : A -> res B) (g : B -> res C) : bindR (bindR r f) g = bindR r (fun x => bindR (f x) g).
Proof. now destruct r. Qed.
Definition packages_read (v : version) (j : json) (old : list (option jpackage)) := dec (c_slice (c_ptr (c_package v) zero_jpackage) None) j old.
Lemma document_packages v j rest a : dec (c_document_struct v) (JObj (("packages", j) :: rest)) a =
  let* x := packages_read v j (d_Packages a) in dec (c_document_struct v) (JObj rest) (set_d_Packages x a).
Proof.
  unfold packages_read, c_document_struct. cbn [dec c_struct]. cbn [dec_members]. unfold dec_member at 1. cbn [fst snd].
  change (unescape "packages") with (Some "packages"). cbv iota.
  match goal with |- context [find_field ?fs "packages"] => let u := eval cbv [find_field find_exact find_folded req opt f_name String.eqb Ascii.eqb Bool.eqb] in (find_field fs "packages") in change (find_field fs "packages") with u end.
  cbv iota. unfold f_dec at 1. cbn [f_codec f_get f_set]. exact (bindR_twice _ _ _).
Qed.
Lemma fresh_elements X (d : json -> X -> res X) z l : (forall j a b, d j a = d j b) -> forall o o', dec_elements d z l o = dec_elements d z l o'.
Proof. intros H. induction l as [|j r IH]; intros o o'; [reflexivity|]. cbn [dec_elements]. rewrite (H j _ (match o' with x :: _ => x | [] => z end)), (IH (tl o) (tl o')). reflexivity. Qed.
Lemma packages_fresh v j o o' : v <> V21 -> packages_read v j o = packages_read v j o'.
Proof.
  intros N. unfold packages_read. cbn [dec c_slice]. destruct j; try reflexivity. apply fresh_elements. intros j a b.
  cbn [dec c_ptr c_package]. destruct v; [congruence|..]; reflexivity.
Qed.
Lemma describes_skip j rest : dec c_describes (JObj (("packages", j) :: rest)) [] = dec c_describes (JObj rest) [].
Proof. reflexivity. Qed.
Lemma version_skip j rest : last_member "spdxVersion" (("packages", j) :: rest) = last_member "spdxVersion" rest.
Proof. cbn [last_member]. now destruct (last_member "spdxVersion" rest). Qed.
Lemma set_packages_twice x y (d : jdocument) : set_d_Packages y (set_d_Packages x d) = set_d_Packages y d.
Proof. reflexivity. Qed.
Lemma read_packages (ok : version -> Prop) j j' k rest s s' v d : ok v ->
  (nesting k <= N.max (nesting j) (nesting j'))%N -> (floats_ok j = true -> floats_ok j' = true -> floats_ok k = true) ->
  (forall w x y, ok w -> packages_read w j [] = Ok x -> packages_read w j' x = Ok y -> packages_read w k [] = Ok y) ->
  json_text (JObj (("packages", j) :: ("packages", j') :: rest)) s -> json_text (JObj (("packages", k) :: rest)) s' ->
  json_read_into s = Ok (v, d) -> json_read_into s' = Ok (v, d).
Proof.
  intros O Hn Hf R T T' E. unfold json_read_into in *.
  destruct (parse_text s) as [t|] eqn:P; [|discriminate]. pose proof (proj1 (parse_text_iff s t) P) as (T1 & N).
  assert (t = JObj (("packages", j) :: ("packages", j') :: rest)) as -> by (eapply json_text_unique; eassumption).
  assert (parse_text s' = Some (JObj (("packages", k) :: rest))) as ->.
  { apply parse_text_iff. split; [exact T'|]. eapply N.le_trans; [|exact N]. cbn [nesting map fold_right snd]. lia. }
  destruct (floats_ok _) eqn:F in E; [|discriminate]. cbn [floats_ok forallb snd] in F.
  apply andb_prop in F as (F1 & F). apply andb_prop in F as (F2 & F3).
  cbn [floats_ok forallb snd]. rewrite (Hf F1 F2), F3. cbn [andb].
  unfold read_value in *. rewrite !version_skip in *. destruct (last_member _ _) as [[| | |r| |]|]; try discriminate.
  assert (U : forall w e, ok w -> unmarshal_document w (JObj (("packages", j) :: ("packages", j') :: rest)) = Ok e -> unmarshal_document w (JObj (("packages", k) :: rest)) = Ok e).
  { intros w e Ow. unfold unmarshal_document. rewrite !describes_skip. rewrite !document_packages. intros H.
    apply bindR_get in H as (a & E1 & H). apply bindR_get in E1 as (x & E1 & E2). rewrite document_packages in E2.
    apply bindR_get in E2 as (y & E2 & E3).
    change (d_Packages zero_jdocument) with (@nil (option jpackage)) in *. rewrite (R w x y Ow E1 E2). cbn [bindR]. rewrite set_packages_twice in E3. rewrite E3. exact H. }
  cbv zeta in *.
  repeat (destruct (String.eqb _ _); [apply bindR_get in E as (e & E1 & E); injection E as <- <-; rewrite (U _ _ O E1); reflexivity|]). discriminate.
Qed.
Lemma read_packages_anew j j' rest s s' v d : v <> V21 ->
  json_text (JObj (("packages", j) :: ("packages", j') :: rest)) s -> json_text (JObj (("packages", j') :: rest)) s' ->
  json_read_into s = Ok (v, d) -> json_read_into s' = Ok (v, d).
Proof.
  intros N. apply (read_packages (fun w => w <> V21)); [exact N|lia|auto|]. intros w x y Nw _ E. now rewrite (packages_fresh w j' [] x Nw).
Qed.
Lemma joins_package_21 : joins (dec (c_package V21)).
Proof.
  intros ms ms' old x E. cbn [dec c_package] in *. apply bindR_get in E as (q & E & K). injection K as <-.
  rewrite (joins_struct _ _ ms ms' _ _ E). reflexivity.
Qed.
Lemma read_packages_together l l' rest s s' d : all_objects l -> all_objects l' ->
  json_text (JObj (("packages", JArr l) :: ("packages", JArr l') :: rest)) s -> json_text (JObj (("packages", JArr (put_together l l')) :: rest)) s' ->
  json_read_into s = Ok (V21, d) -> json_read_into s' = Ok (V21, d).
Proof.
  intros O O'. apply (read_packages (fun w => w = V21)); [reflexivity| |apply floats_together|].
  - change (1 + nest_list (put_together l l') <= N.max (1 + nest_list l) (1 + nest_list l'))%N. pose proof (nest_together l l'). lia.
  - intros w x y -> E1 E2. exact (elements_together _ _ _ (joins_ptr _ _ _ joins_package_21) _ _ _ _ O O' E1 E2).
Qed.

(** ** References and agents read into values that hold others *)
Lemma or_else_some a b : a <> "" -> or_else a b = a.
Proof. destruct a; [congruence|reflexivity]. Qed.
Lemma ref_over j old : dec c_doc_element_id j old = let* r := dec c_doc_element_id j (MkDEID "" "" "") in Ok (laid_over r old).
Proof.
  cbn [dec c_doc_element_id c_text]. unfold unmarshal_doc_element_id. cbv zeta. set (s := unquote_trim (text j)).
  destruct (String.eqb s "NONE" || String.eqb s "NOASSERTION")%bool eqn:S.
  { cbn [bindR]. f_equal. unfold laid_over. cbn [set_de_SpecialID de_DocumentRefID de_ElementRefID de_SpecialID or_else].
    rewrite or_else_some; [now destruct old|]. intros ->. discriminate S. }
  destruct (has_prefix document_ref s); [destruct (cut ":" s) as [(x, y)|]|].
  - destruct (trim_id_prefix document_ref x) as [a| |] eqn:A; try reflexivity. cbn [bindR].
    destruct (trim_id_prefix spdx_ref y) as [b| |] eqn:B; try reflexivity. cbn [bindR].
    apply trim_id_exact in A as (Na & _). apply trim_id_exact in B as (Nb & _). unfold laid_over.
    cbn [set_de_DocumentRefID set_de_ElementRefID de_DocumentRefID de_ElementRefID de_SpecialID or_else]. now rewrite !or_else_some.
  - destruct (trim_id_prefix document_ref s) as [a| |] eqn:A; try reflexivity. cbn [bindR].
    apply trim_id_exact in A as (Na & _). unfold laid_over.
    cbn [set_de_DocumentRefID de_DocumentRefID de_ElementRefID de_SpecialID or_else]. now rewrite !or_else_some.
  - destruct (trim_id_prefix spdx_ref s) as [b| |] eqn:B; try reflexivity. cbn [bindR].
    apply trim_id_exact in B as (Nb & _). unfold laid_over.
    cbn [set_de_ElementRefID de_DocumentRefID de_ElementRefID de_SpecialID or_else]. now rewrite !or_else_some.
Qed.
Lemma ref_reused s old d : no_quote s ->
  dec c_doc_element_id (JStr s) old = Ok d <-> exists r, ref_meaning s r /\ d = laid_over r old.
Proof.
  intros Q. rewrite ref_over. split.
  - intros E. apply bindR_get in E as (r & E & K). injection K as <-. exists r. split; [|reflexivity]. now apply ref_exact.
  - intros (r & M & ->). apply (ref_exact s r Q) in M. rewrite M. reflexivity.
Qed.
