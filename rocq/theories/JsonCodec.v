(** * Codecs that return what they were given. *)
From Coq Require Import Permutation.
From Verif Require Import GoStr GoStrFacts Json SpecJson JsonFacts.
Local Open Scope string_scope.

(** Induction on JSON values. *)
Section Ind.
  Variable P : json -> Prop.
  Hypothesis Hnull : P JNull.
  Hypothesis Hbool : forall b, P (JBool b).
  Hypothesis Hnum : forall t, P (JNum t).
  Hypothesis Hstr : forall r, P (JStr r).
  Hypothesis Harr : forall l, Forall P l -> P (JArr l).
  Hypothesis Hobj : forall ms, Forall (fun m => P (snd m)) ms -> P (JObj ms).
  Fixpoint json_ind' (j : json) : P j :=
    match j with
    | JNull => Hnull
    | JBool b => Hbool b
    | JNum t => Hnum t
    | JStr r => Hstr r
    | JArr l => Harr l ((fix go l : Forall P l :=
        match l with [] => Forall_nil _ | x :: r => Forall_cons _ (json_ind' x) (go r) end) l)
    | JObj ms => Hobj ms ((fix go ms : Forall (fun m => P (snd m)) ms :=
        match ms with [] => Forall_nil _ | m :: r => Forall_cons _ (json_ind' (snd m)) (go r) end) ms)
    end.
End Ind.

(** The same value: members in any order, literals HTML-escaped if [h]. *)
Inductive sim (h : bool) : json -> json -> Prop :=
| sim_null : sim h JNull JNull
| sim_bool b : sim h (JBool b) (JBool b)
| sim_num t : sim h (JNum t) (JNum t)
| sim_str r : sim h (JStr r) (JStr (hl h r))
| sim_arr l l' : Forall2 (sim h) l l' -> sim h (JArr l) (JArr l')
| sim_obj ms ms' ms'' :
    Forall2 (fun m m' => fst m' = hl h (fst m) /\ sim h (snd m) (snd m')) ms ms' ->
    Permutation ms' ms'' -> sim h (JObj ms) (JObj ms'').

(** Values as the encoder makes them: literals quoted by [escape], distinct
    member names. *)
Definition quoted_text (raw : string) : Prop := exists s, utf8_ok s /\ raw = escape false s.
Fixpoint canon (j : json) : Prop :=
  match j with
  | JStr r => quoted_text r
  | JArr l => fold_right and True (map canon l)
  | JObj ms =>
      Forall quoted_text (map fst ms) /\ NoDup (map fst ms) /\
      fold_right and True (map (fun m => canon (snd m)) ms)
  | _ => True
  end.
Lemma fold_and {A} (P : A -> Prop) l : fold_right and True (map P l) <-> Forall P l.
Proof.
  induction l as [|a l IH]; cbn; [split; auto|]. rewrite IH. split.
  - intros (H & K). now constructor.
  - intros H. inversion H. tauto.
Qed.
Lemma canon_arr l : canon (JArr l) <-> Forall canon l.
Proof. cbn [canon]. apply fold_and. Qed.
Lemma canon_obj ms : canon (JObj ms) <->
  Forall quoted_text (map fst ms) /\ NoDup (map fst ms) /\ Forall (fun m => canon (snd m)) ms.
Proof. cbn [canon]. now rewrite fold_and. Qed.

(** [x], encoded by [c], is read back into [old]. *)
Definition good (h : bool) {X} (c : codec X) (old x : X) : Prop :=
  exists j, enc c x = Ok j /\ canon j /\ forall j', sim h j j' -> dec c j' old = Ok x.
(** ... and is not null. *)
Definition good_some (h : bool) {X} (c : codec X) (old x : X) : Prop :=
  exists j, enc c x = Ok j /\ j <> JNull /\ canon j /\ forall j', sim h j j' -> dec c j' old = Ok x.
Lemma good_of_some h X (c : codec X) old x : good_some h c old x -> good h c old x.
Proof. intros (j & E & _ & C & D). exists j. auto. Qed.

Lemma good_string h old s : utf8_ok s -> good h c_string old s.
Proof.
  intros U. exists (JStr (escape false s)). repeat split.
  - exists s. auto.
  - intros j' S. inversion S; subst. cbn. now rewrite unescape_hl.
Qed.
Lemma good_bool h old b : good h c_bool old b.
Proof. exists (JBool b). repeat split. intros j' S. now inversion S. Qed.

Lemma good_mapR h X (c : codec X) zero (l : list X) :
  Forall (good h c zero) l ->
  exists js, mapR (enc c) l = Ok js /\ Forall canon js /\
    forall js', Forall2 (sim h) js js' -> mapR (fun e => dec c e zero) js' = Ok l.
Proof.
  induction 1 as [|x l (j & E & C & D) _ (js & Es & Cs & Ds)].
  - exists []. repeat split; auto. intros js' H. now inversion H.
  - exists (j :: js). cbn. rewrite E. cbn. rewrite Es. cbn. repeat split; auto.
    intros js' H. inversion H as [|? ? ? ? H1 H2]; subst. cbn. rewrite (D _ H1). cbn. now rewrite (Ds _ H2).
Qed.
Lemma dec_elements_fresh X (d : json -> X -> res X) zero l : dec_elements d zero l [] = mapR (fun e => d e zero) l.
Proof. induction l as [|j r IH]; [reflexivity|]. cbn [dec_elements mapR tl]. now rewrite IH. Qed.
Lemma good_slice h X (c : codec X) zero (l : list X) :
  Forall (good h c zero) l -> good h (c_slice c zero) [] l.
Proof.
  intros H. destruct l as [|x r].
  - exists JNull. repeat split. intros j' S. now inversion S.
  - destruct (good_mapR h _ c zero _ H) as (js & E & C & D).
    exists (JArr js). cbn [enc c_slice]. rewrite E. repeat split; auto.
    + now apply canon_arr.
    + intros j' S. inversion S; subst. cbn [dec c_slice]. rewrite dec_elements_fresh. apply D. assumption.
Qed.
Lemma good_strings h l : texts l -> good h (c_slice c_string "") [] l.
Proof. intros H. apply good_slice. eapply Forall_impl; [|exact H]. intros s. apply good_string. Qed.

Lemma good_ptr h X (c : codec X) zero (o : option X) :
  match o with Some x => good_some h c zero x | None => True end ->
  good h (c_ptr c zero) None o.
Proof.
  destruct o as [x|]; intros H.
  - destruct H as (j & E & N & C & D). exists j. cbn. repeat split; auto.
    intros j' S. destruct j'; try (rewrite (D _ S); reflexivity).
    inversion S; subst. congruence.
  - exists JNull. repeat split. intros j' S. now inversion S.
Qed.

Lemma good_text h X (m : X -> res string) u old x s :
  m x = Ok s -> plain h s -> u (quoted s) old = Ok x -> good_some h (c_text m u) old x.
Proof.
  intros E P U. exists (JStr (escape false s)). cbn. rewrite E. repeat split.
  - discriminate.
  - exists s. split; auto. eapply plain_utf8; eauto.
  - intros j' S. inversion S; subst. cbn. rewrite hl_plain; assumption.
Qed.

(** ** Structs *)

(** Fields do not overlap, and together with the untagged part [ign] they
    determine the struct. *)
Definition apart {A} (f g : field A) : Prop :=
  (forall x a, f_get g (f_set f x a) = f_get g a) /\ (forall x a, f_get f (f_set g x a) = f_get f a).
Fixpoint lenses {A I} (ign : A -> I) (fs : list (field A)) : Prop :=
  match fs with
  | [] => True
  | f :: r =>
      (forall x a, f_get f (f_set f x a) = x) /\ (forall x a, ign (f_set f x a) = ign a) /\
      fold_right and True (map (apart f) r) /\ lenses ign r
  end.

Definition field_good (h : bool) {A} (zero x : A) (f : field A) : Prop :=
  good h (f_codec f) (f_get f zero) (f_get f x) /\
  (f_omit f = true -> is_empty (f_codec f) (f_get f x) = true -> f_get f x = f_get f zero).

Lemma lenses_self {A I} (ign : A -> I) fs : lenses ign fs ->
  Forall (fun f => (forall x a, f_get f (f_set f x a) = x) /\ (forall x a, ign (f_set f x a) = ign a)) fs.
Proof. induction fs as [|f r IH]; cbn; [auto|]. intros (H1 & H2 & _ & H). constructor; auto. Qed.
Lemma lenses_apart {A I} (ign : A -> I) fs : lenses ign fs -> NoDup (map f_name fs) ->
  forall f g, In f fs -> In g fs -> f_name f <> f_name g -> forall x a, f_get g (f_set f x a) = f_get g a.
Proof.
  induction fs as [|e r IH]; cbn; [tauto|]. intros (_ & _ & Ap & L) N f g If Ig Ne.
  rewrite fold_and, Forall_forall in Ap. inversion N; subst.
  destruct If as [<-|If], Ig as [<-|Ig]; try tauto.
  - exact (proj1 (Ap g Ig)).
  - exact (proj2 (Ap f If)).
  - now apply IH.
Qed.
Lemma find_exact_name {A} (fs : list (field A)) f :
  NoDup (map f_name fs) -> In f fs -> find_exact fs (f_name f) = Some f.
Proof.
  induction fs as [|e r IH]; cbn; [tauto|]. intros N [->|I].
  - now rewrite String.eqb_refl.
  - inversion N; subst. destruct (String.eqb_spec (f_name e) (f_name f)) as [E|E]; [|now apply IH].
    exfalso. match goal with K : ~ In _ _ |- _ => apply K end. rewrite E. now apply in_map.
Qed.

Section Struct.
  Variable h : bool.
  Context {A I : Type}.
  Variable ign : A -> I.
  Variable fs : list (field A).
  Variable zero x : A.
  Hypothesis Hlens : lenses ign fs.
  Hypothesis Hnames : NoDup (map f_name fs).
  Hypothesis Hutf8 : Forall utf8_ok (map f_name fs).
  Hypothesis Hgood : Forall (field_good h zero x) fs.
  Hypothesis Hign : ign x = ign zero.
  Hypothesis Hext : forall a, ign a = ign x -> (forall f, In f fs -> f_get f a = f_get f x) -> a = x.

  Definition omitted (f : field A) : bool := f_omit f && is_empty (f_codec f) (f_get f x).
  Definition item (f : field A) (j : json) : Prop :=
    In f fs /\ canon j /\
    forall j', sim h j j' -> dec (f_codec f) j' (f_get f zero) = Ok (f_get f x).

  Lemma enc_fields_ok gs : incl gs fs ->
    exists items : list (field A * json),
      enc_fields gs x = Ok (map (fun p => (escape false (f_name (fst p)), snd p)) items) /\
      map fst items = filter (fun f => negb (omitted f)) gs /\
      Forall (fun p => item (fst p) (snd p)) items.
  Proof.
    induction gs as [|f r IH]; intros Hin.
    - exists []. cbn. auto.
    - destruct IH as (its & E & F & G); [intros g Hg; apply Hin; now right|].
      assert (In f fs) as If by (apply Hin; now left).
      pose proof (proj1 (Forall_forall _ _) Hgood f If) as ((j & Ej & C & D) & _).
      cbn [enc_fields filter]. unfold f_enc. fold (omitted f). destruct (omitted f) eqn:O.
      + exists its. cbn. rewrite E. cbn. repeat split; auto.
      + exists ((f, j) :: its). rewrite Ej. cbn. rewrite E. cbn. rewrite F. repeat split; auto.
        constructor; [|assumption]. repeat split; auto.
  Qed.

  Lemma dec_items (items : list (field A * json)) : forall (ms : list (string * json)) a,
    Forall2 (fun p m => fst m = hl h (escape false (f_name (fst p))) /\ sim h (snd p) (snd m)) items ms ->
    Forall (fun p => item (fst p) (snd p)) items ->
    NoDup (map (fun p => f_name (fst p)) items) ->
    ign a = ign zero ->
    (forall g, In g fs -> In (f_name g) (map (fun p => f_name (fst p)) items) -> f_get g a = f_get g zero) ->
    (forall g, In g fs -> ~ In (f_name g) (map (fun p => f_name (fst p)) items) -> f_get g a = f_get g x) ->
    dec_members fs ms a = Ok x.
  Proof.
    induction items as [|(f, j) r IH]; intros ms a F2 It Nd Ig Z X.
    - inversion F2; subst. cbn. f_equal. apply Hext; [congruence|]. intros g Hg. apply X; auto.
    - inversion F2 as [|? (k, j') ? ms' (Ek & S) F2']; subst. cbn [fst snd] in *.
      inversion It as [|? ? (If & C & D) It']; subst. cbn [fst snd] in *.
      inversion Nd as [|? ? Nf Nd']; subst.
      cbn [dec_members]. unfold dec_member. cbn [fst snd]. rewrite unescape_hl.
      2:{ apply (proj1 (Forall_forall _ _) Hutf8). now apply in_map. }
      unfold find_field. rewrite (find_exact_name fs f Hnames If). unfold f_dec.
      rewrite (Z f If) by (now left). rewrite (D _ S). cbn [bindR].
      pose proof (proj1 (Forall_forall _ _) (lenses_self _ _ Hlens) f If) as (Self & SelfI).
      apply IH; auto.
      + now rewrite SelfI.
      + intros g Ig' In'. rewrite (lenses_apart _ _ Hlens Hnames f g If Ig').
        * apply Z; [assumption|now right].
        * intros E. apply Nf. now rewrite E.
      + intros g Ig' Out. destruct (string_dec (f_name f) (f_name g)) as [E|E].
        * assert (g = f) as ->.
          { pose proof (find_exact_name fs f Hnames If) as E1.
            pose proof (find_exact_name fs g Hnames Ig') as E2. rewrite <- E in E2. congruence. }
          apply Self.
        * rewrite (lenses_apart _ _ Hlens Hnames f g If Ig' E). apply X; [assumption|].
          cbn [map fst]. intros [K|K]; [congruence|tauto].
  Qed.

  Lemma NoDup_filter_map (B : field A -> bool) (gs : list (field A)) :
    NoDup (map f_name gs) -> NoDup (map f_name (filter B gs)).
  Proof.
    induction gs as [|g r IH]; cbn; intros N; [constructor|]. inversion N; subst.
    destruct (B g); cbn; [|auto]. constructor; auto.
    intros K. apply in_map_iff in K as (e & E & K). apply filter_In in K as (K & _).
    match goal with W : ~ In _ _ |- _ => apply W end. rewrite <- E. now apply in_map.
  Qed.

  Theorem struct_good : good_some h (c_struct fs) zero x.
  Proof.
    destruct (enc_fields_ok fs) as (its & E & F & G); [apply incl_refl|].
    assert (map (fun p => f_name (fst p)) its = map f_name (filter (fun f => negb (omitted f)) fs)) as Fn.
    { rewrite <- F, map_map. reflexivity. }
    assert (NoDup (map (fun p => f_name (fst p)) its)) as Nd.
    { rewrite Fn. now apply NoDup_filter_map. }
    assert (forall p, In p its -> In (fst p) fs) as Iin.
    { intros p Hp. exact (proj1 (proj1 (Forall_forall _ _) G p Hp)). }
    exists (JObj (map (fun p => (escape false (f_name (fst p)), snd p)) its)).
    cbn [enc c_struct]. rewrite E. cbn [bindR].
    split; [reflexivity|]. split; [discriminate|]. split.
    - apply canon_obj. rewrite map_map. cbn [fst]. repeat split.
      + apply Forall_forall. intros k Hk. apply in_map_iff in Hk as (p & <- & Hp).
        exists (f_name (fst p)). split; auto.
        apply (proj1 (Forall_forall _ _) Hutf8). apply in_map. auto.
      + clear E F Fn. revert Nd Iin. clear G. induction its as [|p r IH]; cbn; intros Nd Iin; [constructor|].
        inversion Nd; subst. constructor; [|apply IH; auto].
        intros K. apply in_map_iff in K as (q & K & Hq).
        match goal with W : ~ In _ _ |- _ => apply W end. apply in_map_iff. exists q. split; auto.
        assert (utf8_ok (f_name (fst q)) /\ utf8_ok (f_name (fst p))) as (U1 & U2).
        { split; apply (proj1 (Forall_forall _ _) Hutf8); apply in_map; auto. }
        apply (unescape_escape false) in U1, U2. congruence.
      + apply Forall_forall. intros m Hm. apply in_map_iff in Hm as (p & <- & Hp).
        exact (proj1 (proj2 (proj1 (Forall_forall _ _) G p Hp))).
    - intros j' S. inversion S as [| | | | |ms ms' ms'' F2 Pm]; subst. cbn [dec c_struct].
      assert (exists its', Permutation its its' /\
         Forall2 (fun p m => fst m = hl h (escape false (f_name (fst p))) /\ sim h (snd p) (snd m)) its' ms'') as (its' & Pi & F3).
      { assert (Forall2 (fun m p => fst m = hl h (escape false (f_name (fst p))) /\ sim h (snd p) (snd m)) ms' its) as F4.
        { clear - F2. revert ms' F2. induction its as [|p r IH]; intros ms' F2; inversion F2; subst; constructor; auto. }
        destruct (Permutation_Forall2 Pm F4) as (its' & Pi & F5). exists its'. split; auto.
        clear - F5. induction F5; constructor; auto. }
      apply (dec_items its').
      + exact F3.
      + eapply Permutation_Forall; eauto.
      + eapply Permutation_NoDup; [|exact Nd]. now apply Permutation_map.
      + reflexivity.
      + reflexivity.
      + intros g Hg Out. symmetry.
        assert (omitted g = true) as Om.
        { destruct (omitted g) eqn:O; auto. exfalso. apply Out.
          apply (Permutation_in (l := map (fun p => f_name (fst p)) its)); [now apply Permutation_map|].
          rewrite Fn. apply in_map. apply filter_In. rewrite O. auto. }
        unfold omitted in Om. apply andb_prop in Om as (O1 & O2).
        exact (proj2 (proj1 (Forall_forall _ _) Hgood g Hg) O1 O2).
  Qed.
End Struct.

(** ** The same with premises that compute *)
Fixpoint nodupb (l : list string) : bool :=
  match l with [] => true | x :: r => negb (existsb (String.eqb x) r) && nodupb r end.
Lemma nodupb_ok l : nodupb l = true -> NoDup l.
Proof.
  induction l as [|x r IH]; cbn; [constructor|]. intros H. apply andb_prop in H as (H & K).
  constructor; auto. intros I. apply negb_true_iff in H.
  assert (existsb (String.eqb x) r = true); [|congruence].
  apply existsb_exists. exists x. split; auto. apply String.eqb_refl.
Qed.
Fixpoint asciib (s : string) : bool :=
  match s with "" => true | String a r => (code a <? 128)%N && asciib r end.
Lemma asciib_ok s : asciib s = true -> utf8_ok s.
Proof.
  induction s as [|a s IH]; cbn; [constructor|]. intros H. apply andb_prop in H as (H & K).
  apply utf8_one; [now apply N.ltb_lt|auto].
Qed.
Lemma struct_good' h A I (ign : A -> I) (fs : list (field A)) zero x :
  lenses ign fs ->
  nodupb (map f_name fs) = true -> forallb asciib (map f_name fs) = true ->
  fold_right and True (map (field_good h zero x) fs) ->
  ign x = ign zero ->
  (forall a, ign a = ign x -> fold_right and True (map (fun f => f_get f a = f_get f x) fs) -> a = x) ->
  good_some h (c_struct fs) zero x.
Proof.
  intros L N U G Ig Ext. apply (struct_good h ign); auto.
  - now apply nodupb_ok.
  - apply Forall_forall. intros s Hs. rewrite forallb_forall in U. apply asciib_ok. auto.
  - now apply fold_and.
  - intros a Ia H. apply Ext; auto. apply fold_and. now apply Forall_forall.
Qed.

Lemma field_req h A X name (c : codec X) get set (zero x : A) :
  good h c (get zero) (get x) -> field_good h zero x (req name c get set).
Proof. intros G. split; [exact G|]. discriminate. Qed.
Lemma field_opt h A X name (c : codec X) get set (zero x : A) :
  good h c (get zero) (get x) -> (is_empty c (get x) = true -> get x = get zero) ->
  field_good h zero x (opt name c get set).
Proof. intros G E. split; [exact G|]. intros _. exact E. Qed.
Lemma opt_string h A name get set (zero x : A) : utf8_ok (get x) -> get zero = "" ->
  field_good h zero x (opt name c_string get set).
Proof.
  intros U Z. apply field_opt; [now apply good_string|]. cbn. rewrite Z. apply String.eqb_eq.
Qed.
Lemma opt_slice h A X name (c : codec X) z get set (zero x : A) : Forall (good h c z) (get x) -> get zero = [] ->
  field_good h zero x (opt name (c_slice c z) get set).
Proof.
  intros U Z. apply field_opt; [rewrite Z; now apply good_slice|]. cbn. rewrite Z. destruct (get x); congruence.
Qed.
Lemma opt_strings h A name get set (zero x : A) : texts (get x) -> get zero = [] ->
  field_good h zero x (opt name (c_slice c_string "") get set).
Proof.
  intros U Z. apply opt_slice; [|assumption]. eapply Forall_impl; [|exact U]. intros s. apply good_string.
Qed.
Lemma opt_ptr h A X name (c : codec X) z get set (zero x : A) :
  match get x with Some y => good_some h c z y | None => True end -> get zero = None ->
  field_good h zero x (opt name (c_ptr c z) get set).
Proof.
  intros U Z. apply field_opt; [rewrite Z; now apply good_ptr|]. cbn. rewrite Z. destruct (get x); congruence.
Qed.

(** ** Re-encoding *)
Lemma sim_html j : sim true j (html j).
Proof.
  induction j as [| | | |l IH|ms IH] using json_ind'; cbn [html]; try constructor.
  - induction IH; constructor; auto.
  - eapply sim_obj; [|apply Permutation_refl]. induction IH; constructor; auto.
Qed.
Lemma sim_refl j : sim false j j.
Proof.
  induction j as [| | | |l IH|ms IH] using json_ind'; try constructor.
  - induction IH; constructor; auto.
  - eapply sim_obj; [|apply Permutation_refl]. induction IH; constructor; auto.
Qed.
Lemma sim_encoded h j : sim h j (if h then html j else j).
Proof. destruct h; [apply sim_html|apply sim_refl]. Qed.

Lemma sim_trans h a : forall b c, sim false a b -> sim h b c -> sim h a c.
Proof.
  induction a as [| | | |l IH|ms IH] using json_ind'; intros y z H K;
    inversion H as [| | | |? l1 F1|? m1 m2 F1 P1]; subst; try assumption.
  - inversion K as [| | | |? l2 F2|]; subst. constructor. clear H K. revert l1 l2 F1 F2.
    induction IH as [|x r Hx _ IHl]; intros l1 l2 F1 F2.
    + inversion F1; subst. inversion F2. constructor.
    + inversion F1; subst. inversion F2; subst. constructor; eauto.
  - inversion K as [| | | | |? ns ns' F2 P2]; subst.
    destruct (Permutation_Forall2 (Permutation_sym P1) F2) as (ns1 & P3 & F3).
    apply (sim_obj h ms ns1 ns'); [|eapply Permutation_trans; [apply Permutation_sym; exact P3|exact P2]].
    clear - IH F1 F3. revert m1 ns1 F1 F3.
    induction IH as [|m r Hm _ IHm]; intros m1 ns1 F1 F3.
    + inversion F1; subst. inversion F3. constructor.
    + inversion F1 as [|? y ? ? (Ek & S) F']; subst. inversion F3 as [|? z ? ? (Ek' & S') F1']; subst.
      constructor; [|eauto]. split; [|eauto]. cbn in Ek. now rewrite Ek', Ek.
Qed.

Lemma put_sorted_perm V k (x : V) l : ~ In k (map fst l) -> Permutation (put_sorted k x l) ((k, x) :: l).
Proof.
  induction l as [|(k', y) r IH]; cbn; intros N; [apply Permutation_refl|].
  destruct (String.eqb_spec k k') as [->|E]; [tauto|].
  destruct (str_ltb k k'); [apply Permutation_refl|].
  eapply Permutation_trans; [apply perm_skip, IH; tauto|]. apply perm_swap.
Qed.
Lemma fold_put_perm V (l : list (string * V)) : forall acc, NoDup (map fst (acc ++ l)%list) ->
  Permutation (fold_left (fun acc m => put_sorted (fst m) (snd m) acc) l acc) (acc ++ l)%list.
Proof.
  induction l as [|(k, x) r IH]; cbn [fold_left]; intros acc N; [rewrite app_nil_r; apply Permutation_refl|].
  cbn [fst snd]. rewrite map_app in N.
  assert (~ In k (map fst acc)) as Nk.
  { intros K. apply NoDup_remove_2 in N. apply N, in_or_app. auto. }
  pose proof (put_sorted_perm V k x acc Nk) as P.
  eapply Permutation_trans; [apply IH|].
  - eapply Permutation_NoDup; [|exact N].
    rewrite map_app. apply Permutation_sym.
    eapply Permutation_trans; [apply Permutation_app_tail, Permutation_map, P|].
    cbn. apply Permutation_middle.
  - eapply Permutation_trans; [apply Permutation_app_tail, P|]. cbn. apply Permutation_middle.
Qed.

Lemma requote_escape s : utf8_ok s -> requote (escape false s) = s.
Proof. intros U. unfold requote. now rewrite unescape_escape. Qed.
Lemma requote_quoted r : quoted_text r -> escape false (requote r) = r.
Proof. intros (s & U & ->). now rewrite requote_escape. Qed.

Theorem sim_through_any j : canon j -> sim false j (through_any j).
Proof.
  induction j as [| | | |l IH|ms IH] using json_ind'; intros C; cbn [through_any]; try constructor.
  - cbn in C. rewrite requote_quoted by assumption. apply (sim_str false r).
  - apply canon_arr in C. induction IH; cbn; constructor; inversion C; auto.
  - apply canon_obj in C as (Q & N & C).
    apply (sim_obj false ms (map (fun m => (fst m, through_any (snd m))) ms)).
    + clear Q N. induction IH; cbn; constructor; inversion C; cbn; auto.
    + assert (map (fun m => (fst m, through_any (snd m))) ms =
              map (fun m => (escape false (fst m), snd m)) (map (fun m => (requote (fst m), through_any (snd m))) ms)) as ->.
      { rewrite map_map. apply map_ext_in. intros (k, x) I. cbn. rewrite requote_quoted; [reflexivity|].
        apply (proj1 (Forall_forall _ _) Q). apply (in_map fst) in I. exact I. }
      apply Permutation_map, Permutation_sym.
      eapply Permutation_trans; [apply fold_put_perm|apply Permutation_refl].
      cbn. rewrite map_map. cbn. clear IH C. induction ms as [|(k, x) r IHr]; cbn; [constructor|].
      inversion Q as [|? ? Qk Qr]; inversion N as [|? ? Nk Nr]; subst. constructor; [|auto].
      intros K. apply in_map_iff in K as ((k', y) & E & K). cbn in E, Nk, Qk.
      apply Nk. apply in_map_iff. exists (k', y). split; auto. cbn.
      assert (quoted_text k') as Qk'.
      { apply (proj1 (Forall_forall _ _) Qr). apply in_map_iff. exists (k', y). auto. }
      rewrite <- (requote_quoted k' Qk'), <- (requote_quoted k Qk). now rewrite E.
Qed.
Lemma canon_sim_false j : canon j -> forall j', sim false j j' -> canon j'.
Proof.
  induction j as [| | | |l IH|ms IH] using json_ind'; intros C j' S;
    inversion S as [| | | |? l1 F1|? m1 m2 F1 P1]; subst; try assumption.
  - apply canon_arr in C. apply canon_arr. clear S. revert l1 F1.
    induction IH; intros l1 F1; inversion F1; subst; constructor; inversion C; auto.
  - apply canon_obj in C as (Q & N & C).
    assert (map fst m1 = map fst ms /\ Forall (fun m => canon (snd m)) m1) as (E1 & C1).
    { clear - F1 IH C. revert m1 F1. induction IH as [|m r Hm _ IHm]; intros m1 F;
        inversion F as [|? y ? ? (Ek & S) F']; subst; [cbn; auto|].
      inversion C; subst. destruct (IHm ltac:(assumption) _ F') as (E & G).
      cbn. rewrite E. cbn in Ek. rewrite Ek. split; eauto. }
    apply canon_obj. split; [|split].
    + eapply Permutation_Forall; [apply Permutation_map; eassumption|]. now rewrite E1.
    + eapply Permutation_NoDup; [apply Permutation_map; eassumption|]. now rewrite E1.
    + eapply Permutation_Forall; eassumption.
Qed.

(** ** The members of an encoded struct *)
Lemma enc_fields_members {A} (fs : list (field A)) x ms : enc_fields fs x = Ok ms ->
  Forall (fun m => exists f j, In f fs /\ m = (escape false (f_name f), j) /\
            enc (f_codec f) (f_get f x) = Ok j) ms /\
  (forall f, In f fs -> f_omit f && is_empty (f_codec f) (f_get f x) = false ->
     exists j, In (escape false (f_name f), j) ms /\ enc (f_codec f) (f_get f x) = Ok j).
Proof.
  revert ms. induction fs as [|f r IH]; cbn [enc_fields]; intros ms E.
  - injection E as <-. split; [constructor|]. intros f [].
  - unfold f_enc in E. destruct (f_omit f && is_empty (f_codec f) (f_get f x))%bool eqn:O.
    + cbn in E. destruct (enc_fields r x) as [ms'| |] eqn:Er; try discriminate. cbn in E. injection E as <-.
      destruct (IH _ eq_refl) as (F & G). split.
      * eapply Forall_impl; [|exact F]. intros m (g & j & Ig & H). exists g, j. split; [now right|exact H].
      * intros g [<-|Ig] Og; [congruence|now apply G].
    + destruct (enc (f_codec f) (f_get f x)) as [j| |] eqn:Ej; try discriminate. cbn in E.
      destruct (enc_fields r x) as [ms'| |] eqn:Er; try discriminate. cbn in E. injection E as <-.
      destruct (IH _ eq_refl) as (F & G). split.
      * constructor; [exists f, j; repeat split; auto; now left|].
        eapply Forall_impl; [|exact F]. intros m (g & k & Ig & H). exists g, k. split; [now right|exact H].
      * intros g [<-|Ig] Og; [exists j; split; [now left|assumption]|].
        destruct (G g Ig Og) as (k & I & Hk). exists k. split; [now right|assumption].
Qed.
(** ... and of what an encoder makes of it. *)
Lemma sim_members h {A} (fs : list (field A)) x j j' :
  forallb asciib (map f_name fs) = true -> nodupb (map f_name fs) = true ->
  enc (c_struct fs) x = Ok j -> canon j -> sim h j j' ->
  exists ms, j' = JObj ms /\ NoDup (map fst ms) /\
  Forall (fun m => exists f j0, In f fs /\ unescape (fst m) = Some (f_name f) /\
            fst m = hl h (escape false (f_name f)) /\
            enc (f_codec f) (f_get f x) = Ok j0 /\ sim h j0 (snd m)) ms /\
  (forall f, In f fs -> f_omit f && is_empty (f_codec f) (f_get f x) = false ->
     exists m j0, In m ms /\ fst m = hl h (escape false (f_name f)) /\
       enc (f_codec f) (f_get f x) = Ok j0 /\ sim h j0 (snd m)).
Proof.
  intros U N E C S. cbn in E. destruct (enc_fields fs x) as [ms0| |] eqn:E0; try discriminate. cbn in E.
  injection E as <-. inversion S as [| | | | |? ms1 ms2 F2 P]; subst.
  destruct (enc_fields_members _ _ _ E0) as (F & G).
  assert (forall f, In f fs -> utf8_ok (f_name f)) as Un.
  { intros f If. apply asciib_ok. rewrite forallb_forall in U. apply U. now apply in_map. }
  exists ms2. split; [reflexivity|]. split; [|split].
  - apply canon_obj in C as (Q & Nd & _).
    eapply Permutation_NoDup; [apply Permutation_map, P|].
    clear - F2 Q Nd. revert ms1 F2. induction ms0 as [|m r IH]; intros ms1 F2; inversion F2 as [|? y ? ? (Ek & _) F']; subst; [constructor|].
    inversion Q as [|? ? Qm Qr]; inversion Nd as [|? ? Nm Nr]; subst. cbn. constructor; [|auto].
    intros K. apply Nm. clear IH.
    assert (exists m', In m' r /\ hl h (fst m') = fst y) as (m' & I' & E').
    { clear - F' K. induction F' as [|a b ? ? (E & _) _ IH]; [destruct K|].
      destruct K as [K|K]; [exists a; split; [now left|congruence]|].
      destruct (IH K) as (m' & I & E'). exists m'. split; [now right|assumption]. }
    rewrite Ek in E'. rewrite in_map_iff. exists m'. split; [|assumption].
    destruct Qm as (s & Us & Es). assert (quoted_text (fst m')) as (s' & Us' & Es').
    { apply (proj1 (Forall_forall _ _) Qr). now apply in_map. }
    rewrite Es, Es' in E'. apply (f_equal unescape) in E'. rewrite !unescape_hl in E' by assumption. congruence.
  - eapply Permutation_Forall; [exact P|]. clear - F2 F Un.
    induction F2 as [|m m' r r' (Ek & Sm) _ IH]; [constructor|].
    inversion F as [|? ? (f & j & If & -> & Ej) Fr]; subst. constructor; [|auto].
    cbn in Ek, Sm. exists f, j. rewrite Ek. repeat split; auto. apply unescape_hl. auto.
  - intros f If Of. destruct (G f If Of) as (j & Ij & Ej).
    assert (exists m, In m ms1 /\ fst m = hl h (escape false (f_name f)) /\ sim h j (snd m)) as (m & Im & Em & Sm).
    { clear - F2 Ij. induction F2 as [|a b ? ? (E & Sa) _ IH]; [destruct Ij|].
      destruct Ij as [->|Ij]; [exists b; repeat split; auto; now left|].
      destruct (IH Ij) as (m & I & H). exists m. split; [now right|assumption]. }
    exists m, j. repeat split; auto. eapply Permutation_in; eauto.
Qed.

Lemma dec_members_ext {A} (fs gs : list (field A)) :
  Forall2 (fun f g => f_name f = f_name g /\ forall j a, f_dec f j a = f_dec g j a) fs gs ->
  forall ms a, dec_members fs ms a = dec_members gs ms a.
Proof.
  intros F.
  assert (forall k j a, match find_field fs k with Some f => f_dec f j a | None => Ok a end =
                        match find_field gs k with Some f => f_dec f j a | None => Ok a end) as M.
  { intros k j a. unfold find_field.
    assert (match find_exact fs k, find_exact gs k with
            | Some f, Some g => forall j a, f_dec f j a = f_dec g j a
            | None, None => True | _, _ => False end) as E1.
    { clear - F. induction F as [|f g ? ? (En & Ed) _ IH]; cbn; [exact I|]. rewrite <- En.
      destruct (String.eqb (f_name f) k); auto. }
    assert (match find_folded fs k, find_folded gs k with
            | Some f, Some g => forall j a, f_dec f j a = f_dec g j a
            | None, None => True | _, _ => False end) as E2.
    { clear - F. induction F as [|f g ? ? (En & Ed) _ IH]; cbn; [exact I|]. rewrite <- En.
      destruct (String.eqb (fold_name (f_name f)) (fold_name k)); auto. }
    destruct (find_exact fs k), (find_exact gs k); try tauto; auto.
    destruct (find_folded fs k), (find_folded gs k); try tauto; auto. }
  induction ms as [|m r IH]; intros a; [reflexivity|]. cbn [dec_members]. unfold dec_member.
  destruct (unescape (fst m)); [|reflexivity]. rewrite M.
  destruct (find_field gs s) as [g|]; [destruct (f_dec g (snd m) a)|]; cbn; auto.
Qed.

(** Deleting a member. *)
Lemma sim_delete k ms j' : sim false (JObj ms) j' ->
  sim false (JObj (filter (fun m => negb (String.eqb (requote (fst m)) k)) ms)) (delete_member k j').
Proof.
  intros S. inversion S as [| | | | |? ms1 ms2 F P]; subst. cbn [delete_member].
  apply (sim_obj false _ (filter (fun m => negb (String.eqb (requote (fst m)) k)) ms1)).
  - clear - F. induction F as [|m m' r r' (Ek & Sm) _ IH]; [constructor|]. cbn [filter].
    cbn in Ek. rewrite Ek. destruct (negb _); [constructor; auto|assumption].
  - clear - P. induction P; cbn [filter].
    + constructor.
    + destruct (negb _); [now constructor|assumption].
    + destruct (negb _), (negb _); try apply perm_swap; try apply perm_skip; apply Permutation_refl.
    + eapply Permutation_trans; eassumption.
Qed.
Lemma enc_fields_app {A} (fs gs : list (field A)) x :
  enc_fields (fs ++ gs) x = let* a := enc_fields fs x in let* b := enc_fields gs x in Ok (a ++ b)%list.
Proof.
  induction fs as [|f r IH]; cbn [app enc_fields].
  - cbn. destruct (enc_fields gs x); reflexivity.
  - rewrite IH. destruct (f_enc f x) as [o| |]; try reflexivity. cbn.
    destruct (enc_fields r x) as [a| |]; try reflexivity. cbn.
    destruct (enc_fields gs x) as [b| |]; try reflexivity. cbn. destruct o; reflexivity.
Qed.
