(** * Reading JSON values exactly: structs, slices, pointers and hooks. *)
From Coq Require Import Permutation.
From Verif Require Import GoStr GoStrFacts Types TvUtil TvUtilFacts TvParser SpecTv SpecId SpecDoc Json JsonSpdx SpecJson JsonFacts JsonCodec JsonHooks SpecJsonRead.
Local Open Scope string_scope.

(** ** Generic *)
Lemma bindR_ok_iff A B (r : res A) (k : A -> res B) y :
  bindR r k = Ok y <-> exists x, r = Ok x /\ k x = Ok y.
Proof.
  destruct r as [x| |]; cbn; split; intros H.
  - eauto.
  - destruct H as (z & E & K). injection E as ->. exact K.
  - discriminate.
  - destruct H as (z & E & K). discriminate.
  - discriminate.
  - destruct H as (z & E & K). discriminate.
Qed.

Lemma clear_arr l : clear (JArr l) <-> Forall clear l.
Proof. cbn [clear]. apply fold_and. Qed.
Lemma clear_obj ms : clear (JObj ms) <->
  NoDup (map (fun m => option_map fold_name (unescape (fst m))) ms) /\ Forall (fun m => clear (snd m)) ms.
Proof. cbn [clear]. now rewrite fold_and. Qed.

(** [c] reads exactly the values [R] describes. *)
Definition exactly {X} (c : codec X) (zero : X) (R : json -> X -> Prop) : Prop :=
  forall j x, clear j -> (dec c j zero = Ok x <-> R j x).

Lemma exactly_string : exactly c_string "" text_is.
Proof.
  intros j x _. unfold text_is. destruct j; cbn; split; intros H; try discriminate.
  - injection H as <-. auto.
  - destruct H as [(_ & ->)|(r & E & _)]; [reflexivity|discriminate].
  - destruct H as [(E & _)|(r & E & _)]; discriminate.
  - destruct H as [(E & _)|(r & E & _)]; discriminate.
  - right. exists raw. destruct (unescape raw); [|discriminate]. injection H as ->. auto.
  - destruct H as [(E & _)|(r & E & U)]; [discriminate|]. injection E as ->. now rewrite U.
  - destruct H as [(E & _)|(r & E & _)]; discriminate.
  - destruct H as [(E & _)|(r & E & _)]; discriminate.
Qed.
Lemma exactly_bool : exactly c_bool false flag_is.
Proof.
  intros j x _. unfold flag_is. destruct j; cbn; split; intros H; try discriminate;
    try (destruct H as [(E & K)|E]; try discriminate; congruence).
  - injection H as <-. auto.
  - injection H as ->. auto.
Qed.
Lemma exactly_int : exactly c_int 0%Z number_is.
Proof.
  intros j x _. unfold number_is. destruct j; cbn; split; intros H; try discriminate;
    try (destruct H as [(E & K)|(t & E & K)]; try discriminate; congruence).
  - injection H as <-. auto.
  - right. eauto.
Qed.
Lemma mapR_iff A B (f : A -> res B) l : forall m, mapR f l = Ok m <-> Forall2 (fun a b => f a = Ok b) l m.
Proof.
  induction l as [|a r IH]; intros m; cbn [mapR].
  - split; intros H; [injection H as <-; constructor|now inversion H].
  - rewrite bindR_ok_iff. split.
    + intros (b & E & K). apply bindR_ok_iff in K as (bs & Eb & K). injection K as <-.
      constructor; [assumption|]. now apply IH.
    + intros H. inversion H as [|? b ? bs E F]; subst. exists b. split; [assumption|].
      apply IH in F. rewrite F. reflexivity.
Qed.
Lemma Forall2_iff A B (P Q : A -> B -> Prop) l : (forall a b, In a l -> (P a b <-> Q a b)) ->
  forall m, Forall2 P l m <-> Forall2 Q l m.
Proof.
  induction l as [|a r IH]; intros H m; split; intros F; inversion F; subst; constructor;
    try (apply H; [now left|assumption]); (apply IH; [intros; apply H; now right|assumption]).
Qed.
Lemma exactly_slice X (c : codec X) zero R : exactly c zero R ->
  forall j x, clear j -> (dec (c_slice c zero) j [] = Ok x <-> list_is R j x).
Proof.
  intros E j x C. unfold list_is. destruct j; cbn [dec c_slice]; rewrite ?dec_elements_fresh; split; intros H; try discriminate;
    try (destruct H as [(K & K')|(t & K & K')]; try discriminate; congruence).
  - injection H as <-. auto.
  - right. exists l. split; [reflexivity|]. apply mapR_iff in H. apply clear_arr in C.
    eapply Forall2_iff; [|exact H]. intros a b Ia. symmetry. apply E. exact (proj1 (Forall_forall _ _) C a Ia).
  - destruct H as [(K & _)|(t & K & K')]; [discriminate|]. injection K as <-. apply mapR_iff. apply clear_arr in C.
    eapply Forall2_iff; [|exact K']. intros a b Ia. apply E. exact (proj1 (Forall_forall _ _) C a Ia).
Qed.
Lemma exactly_list X (c : codec X) zero R : exactly c zero R -> exactly (c_slice c zero) [] (list_is R).
Proof. intros E j x. now apply exactly_slice. Qed.
Lemma exactly_ptr X (c : codec X) zero R : exactly c zero R -> exactly (c_ptr c zero) None (nullable R).
Proof.
  intros E j x C. cbn [dec c_ptr]. unfold nullable.
  destruct j; [split; [intros H; injection H as <-; auto|destruct x as [y|]; [intros (K & _); congruence|reflexivity]]|..];
  (rewrite bindR_ok_iff; split;
   [intros (y & D & K); injection K as <-; split; [discriminate|apply E; assumption]
   |destruct x as [y|]; [intros (_ & D); exists y; split; [apply E; assumption|reflexivity]|discriminate]]).
Qed.
Lemma Forall2_map_r A B C (P : A -> C -> Prop) (f : B -> C) l : forall m,
  Forall2 P l (map f m) <-> Forall2 (fun a b => P a (f b)) l m.
Proof.
  induction l as [|a r IH]; intros [|b m]; cbn; split; intros H; inversion H; subst; constructor; auto;
    match goal with K : Forall2 _ r _ |- _ => apply IH in K; exact K end.
Qed.
Lemma exactly_ptrs X (c : codec X) zero R : exactly c zero R -> exactly (c_ptrs c zero) [] (list_is (nullable R)).
Proof. intros E. unfold c_ptrs. now apply exactly_list, exactly_ptr. Qed.

(** ** Structs *)
Section Struct.
  Context {A I : Type}.
  Variable ign : A -> I.
  Variable fs : list (field A).
  Variable zero : A.
  Hypothesis Hlens : lenses ign fs.
  Hypothesis Hnames : NoDup (map (fun f => fold_name (f_name f)) fs).
  Hypothesis Hext : forall a b, ign a = ign b -> fold_right and True (map (fun f => f_get f a = f_get f b) fs) -> a = b.

  Lemma names_nodup : NoDup (map f_name fs).
  Proof.
    clear - Hnames. induction fs as [|f r IH]; cbn in *; [constructor|]. inversion Hnames; subst. constructor; auto.
    intros K. match goal with W : ~ In _ _ |- _ => apply W end. apply in_map_iff in K as (g & E & K).
    apply in_map_iff. exists g. now rewrite E.
  Qed.
  Lemma folded_unique f g : In f fs -> In g fs -> fold_name (f_name f) = fold_name (f_name g) -> f = g.
  Proof.
    clear - Hnames. induction fs as [|e r IH]; cbn in *; [tauto|]. inversion Hnames as [|? ? Nf Nr]; subst.
    intros [->|If] [->|Ig] E; auto; exfalso; apply Nf; apply in_map_iff; eauto.
  Qed.
  Lemma find_folded_iff (gs : list (field A)) k f : find_folded gs k = Some f -> In f gs /\ fold_name (f_name f) = fold_name k.
  Proof.
    induction gs as [|g r IH]; cbn; [discriminate|].
    destruct (String.eqb_spec (fold_name (f_name g)) (fold_name k)) as [E|E].
    - intros H. injection H as <-. auto.
    - intros H. apply IH in H. tauto.
  Qed.
  Lemma find_folded_none (gs : list (field A)) k : find_folded gs k = None ->
    forall f, In f gs -> fold_name (f_name f) <> fold_name k.
  Proof.
    induction gs as [|g r IH]; cbn; [tauto|].
    destruct (String.eqb_spec (fold_name (f_name g)) (fold_name k)) as [E|E]; [discriminate|].
    intros H f [<-|If]; auto.
  Qed.
  Lemma find_exact_some (gs : list (field A)) k f : find_exact gs k = Some f -> In f gs /\ f_name f = k.
  Proof.
    induction gs as [|g r IH]; cbn; [discriminate|].
    destruct (String.eqb_spec (f_name g) k) as [E|E].
    - intros H. injection H as <-. auto.
    - intros H. apply IH in H. tauto.
  Qed.
  Lemma find_field_iff k f : find_field fs k = Some f <-> In f fs /\ fold_name (f_name f) = fold_name k.
  Proof.
    unfold find_field. destruct (find_exact fs k) as [g|] eqn:E.
    - apply find_exact_some in E as (Ig & Ek). split.
      + intros H. injection H as <-. now rewrite Ek.
      + intros (If & Ef). f_equal. apply folded_unique; auto. now rewrite Ek.
    - split; [apply find_folded_iff|]. intros (If & Ef). destruct (find_folded fs k) as [g|] eqn:F.
      + apply find_folded_iff in F as (Ig & Eg). f_equal. apply folded_unique; auto. congruence.
      + exfalso. exact (find_folded_none _ _ F f If Ef).
  Qed.
  Lemma find_field_none k : find_field fs k = None <-> forall f, In f fs -> fold_name (f_name f) <> fold_name k.
  Proof.
    split.
    - intros H f If Ef. assert (find_field fs k = Some f) by (now apply find_field_iff). congruence.
    - intros H. destruct (find_field fs k) as [f|] eqn:E; [|reflexivity]. apply find_field_iff in E as (If & Ef).
      destruct (H f If Ef).
  Qed.

  (** What the members say about field [f] when decoding starts from [a0]. *)
  Definition said (ms : list (string * json)) (a0 a : A) (f : field A) : Prop :=
    at_member ms (f_name f) (f_get f a0) (fun j x => dec (f_codec f) j (f_get f a0) = Ok x) (f_get f a).

  Lemma set_other f g : In f fs -> In g fs -> f <> g -> forall x a, f_get g (f_set f x a) = f_get g a.
  Proof.
    intros If Ig Ne. apply (lenses_apart _ _ Hlens names_nodup f g If Ig). intros E. apply Ne.
    apply folded_unique; auto. now rewrite E.
  Qed.

  Lemma dec_members_said ms : NoDup (map (fun m => option_map fold_name (unescape (fst m))) ms) ->
    forall a0 a, dec_members fs ms a0 = Ok a <->
      named ms /\ ign a = ign a0 /\ Forall (said ms a0 a) fs.
  Proof.
    induction ms as [|m r IH]; intros N a0 a.
    - cbn [dec_members]. split.
      + intros H. injection H as <-. split; [constructor|]. split; [reflexivity|].
        apply Forall_forall. intros f If. left. split; [constructor|reflexivity].
      + intros (_ & Ei & F). f_equal. apply Hext; [congruence|]. apply fold_and. eapply Forall_impl; [|exact F].
        intros f [(_ & E)|(m & [] & _)]. congruence.
    - cbn [map] in N. inversion N as [|? ? Nm Nr]; subst. cbn [dec_members]. unfold dec_member.
      destruct (unescape (fst m)) as [k|] eqn:U.
      2:{ split; [discriminate|]. intros (Nn & _). inversion Nn as [|? ? (n & E) _]; subst. congruence. }
      assert (forall f : field A, fold_name (f_name f) = fold_name k -> Forall (fun m => ~ called (f_name f) m) r) as Away.
      { intros f Ef. apply Forall_forall. intros m' Im (n & U' & E'). apply Nm. apply in_map_iff. exists m'.
        rewrite U'. cbn. split; [congruence|assumption]. }
      rewrite bindR_ok_iff.
      destruct (find_field fs k) as [f|] eqn:Ff.
      + apply find_field_iff in Ff as (If & Ef).
        pose proof (proj1 (Forall_forall _ _) (lenses_self _ _ Hlens) f If) as (Self & SelfI).
        unfold f_dec. split.
        * intros (a1 & D & K). apply bindR_ok_iff in D as (x & D & D'). injection D' as <-.
          apply (IH Nr) in K as (Nn & Ei & F). split; [|split].
          -- constructor; [eauto|assumption].
          -- now rewrite Ei, SelfI.
          -- apply Forall_forall. intros g Ig.
             pose proof (proj1 (Forall_forall _ _) F g Ig) as Sg.
             assert (f = g \/ f <> g) as [<-|Ne].
             { destruct (string_dec (fold_name (f_name f)) (fold_name (f_name g))) as [E|E].
               - left. now apply folded_unique.
               - right. intros ->. now apply E. }
             ++ right. exists m. split; [now left|]. split; [exists k; auto|].
                destruct Sg as [(_ & E)|(m' & Im & Cm & _)].
                ** rewrite E, Self. exact D.
                ** exfalso. exact (proj1 (Forall_forall _ _) (Away f Ef) m' Im Cm).
             ++ unfold said in Sg. rewrite (set_other f g If Ig Ne) in Sg.
                assert (~ called (f_name g) m) as Nc.
                { intros (n & U' & E'). apply Ne. apply folded_unique; auto. congruence. }
                destruct Sg as [(Ab & E)|(m' & Im & Cm & E)].
                ** left. split; [constructor; assumption|assumption].
                ** right. exists m'. split; [now right|auto].
        * intros (Nn & Ei & F). inversion Nn as [|? ? _ Nn']; subst.
          pose proof (proj1 (Forall_forall _ _) F f If) as Sf.
          assert (dec (f_codec f) (snd m) (f_get f a0) = Ok (f_get f a)) as D.
          { destruct Sf as [(Ab & _)|(m' & [<-|Im] & Cm & D)].
            - inversion Ab as [|? ? Nc _]; subst. exfalso. apply Nc. exists k. auto.
            - exact D.
            - exfalso. exact (proj1 (Forall_forall _ _) (Away f Ef) m' Im Cm). }
          exists (f_set f (f_get f a) a0). split; [rewrite D; reflexivity|]. apply (IH Nr).
          split; [assumption|]. split; [now rewrite SelfI|]. apply Forall_forall. intros g Ig.
          pose proof (proj1 (Forall_forall _ _) F g Ig) as Sg. unfold said.
          assert (f = g \/ f <> g) as [<-|Ne].
          { destruct (string_dec (fold_name (f_name f)) (fold_name (f_name g))) as [E|E].
            - left. now apply folded_unique.
            - right. intros ->. now apply E. }
          -- left. split; [now apply Away|now rewrite Self].
          -- rewrite (set_other f g If Ig Ne). destruct Sg as [(Ab & E)|(m' & [<-|Im] & Cm & E)].
             ++ inversion Ab; subst. left. auto.
             ++ exfalso. destruct Cm as (n & U' & E'). apply Ne. apply folded_unique; auto. congruence.
             ++ right. exists m'. auto.
      + rewrite find_field_none in Ff. split.
        * intros (a1 & D & K). injection D as <-. apply (IH Nr) in K as (Nn & Ei & F).
          split; [constructor; eauto|]. split; [assumption|]. apply Forall_forall. intros g Ig.
          pose proof (proj1 (Forall_forall _ _) F g Ig) as [(Ab & E)|(m' & Im & Cm & E)].
          -- left. split; [|assumption]. constructor; [|assumption]. intros (n & U' & E'). apply (Ff g Ig). congruence.
          -- right. exists m'. split; [now right|auto].
        * intros (Nn & Ei & F). inversion Nn; subst. exists a0. split; [reflexivity|]. apply (IH Nr).
          split; [assumption|]. split; [assumption|]. apply Forall_forall. intros g Ig.
          pose proof (proj1 (Forall_forall _ _) F g Ig) as [(Ab & E)|(m' & [<-|Im] & Cm & E)].
          -- inversion Ab; subst. left. auto.
          -- exfalso. destruct Cm as (n & U' & E'). apply (Ff g Ig). congruence.
          -- right. exists m'. auto.
  Qed.

  Lemma struct_said j a : clear j ->
    (dec (c_struct fs) j zero = Ok a <->
     (j = JNull /\ a = zero) \/
     (exists ms, j = JObj ms /\ Forall (fun m => clear (snd m)) ms /\ named ms /\ ign a = ign zero /\
        fold_right and True (map (said ms zero a) fs))).
  Proof.
    intros C. destruct j; cbn [dec c_struct]; split; intros H; try discriminate;
      try (destruct H as [(K & K')|(t & K & _)]; try discriminate; congruence).
    - injection H as <-. auto.
    - right. apply clear_obj in C as (N & C). exists ms. split; [reflexivity|]. split; [assumption|].
      rewrite fold_and. now apply dec_members_said.
    - destruct H as [(K & _)|(t & K & _ & H)]; [discriminate|]. injection K as <-.
      apply clear_obj in C as (N & C). rewrite fold_and in H. now apply dec_members_said.
  Qed.
End Struct.

(** One member. *)
Lemma at_member_iff X ms k (d : X) (P Q : json -> X -> Prop) x :
  Forall (fun m => clear (snd m)) ms -> (forall j, clear j -> (P j x <-> Q j x)) ->
  (at_member ms k d P x <-> at_member ms k d Q x).
Proof.
  intros C H. unfold at_member. split; (intros [K|(m & Im & Cm & K)]; [now left|right]);
    exists m; repeat split; auto; (apply H; [exact (proj1 (Forall_forall _ _) C m Im)|assumption]).
Qed.
Lemma member_exactly X (c : codec X) d R ms k x : Forall (fun m => clear (snd m)) ms -> exactly c d R ->
  (at_member ms k d (fun j y => dec c j d = Ok y) x <-> at_member ms k d R x).
Proof. intros C E. apply at_member_iff; [assumption|]. intros j Cj. now apply E. Qed.
