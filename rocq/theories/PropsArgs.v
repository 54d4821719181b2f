(** * Property C53: arguments that are not documents *)
From Verif Require Import GoStr GoStrFacts Types TvUtil Json Args SpecArgs.
Local Open Scope string_scope.

Lemma from_points x n a : points x n a -> from_ptr_value a = from_ptr_value x.
Proof. induction 1; [reflexivity|assumption]. Qed.
Lemma version_eqb_refl v : version_eqb v v = true.
Proof. now destruct v. Qed.
Lemma points_pointer x n a : points x (S n) a -> exists t y, a = PtrV t (Some y) /\ points x n y.
Proof. intros H. inversion H; subst. eauto. Qed.

Lemma from_no_error a e : from_ptr a <> Err e.
Proof.
  destruct a as [a|]; [|discriminate]. cbn [from_ptr]. revert a. fix IH 1. intros [v d|p n c|t [x|]|x]; cbn [from_ptr_value]; try discriminate. apply IH.
Qed.

(** convert.Document between values of the same version: through any number of
    pointers to the source, and exactly one to the target. *)
Theorem C53_convert : forall chain v d old n k from to, typed to ->
  points (DocV v d) n from -> points (DocV v old) k to ->
  document chain (Some from) (Some to) =
    match k with
    | 0 => Err "struct to convert to must be a pointer"
    | 1 => Ok (PtrV (DocT v) (Some (DocV v d)))
    | _ => Panic
    end.
Proof.
  intros chain v d old n k from to T F P. unfold document. cbn [from_ptr]. rewrite (from_points _ _ _ F), (from_points _ _ _ P).
  destruct P as [|k t y P]; [reflexivity|]. cbn [is_ptr bindR negb from_ptr_value same_type type_of atype_eqb]. rewrite version_eqb_refl.
  cbn [typed] in T. destruct T as [<- T]. destruct P as [|k t y P]; cbn [type_of assign atype_eqb]; [|reflexivity].
  now rewrite version_eqb_refl.
Qed.
Print Assumptions C53_convert.
(** … or to a variable of interface type that holds a document of that version. *)
Theorem C53_convert_any : forall chain v d old n from, points (DocV v d) n from ->
  document chain (Some from) (Some (PtrV AnyT (Some (AnyV (Some (DocV v old)))))) = Ok (PtrV AnyT (Some (AnyV (Some (DocV v d))))).
Proof.
  intros chain v d old n from F. unfold document. cbn [from_ptr]. rewrite (from_points _ _ _ F).
  cbn [is_ptr bindR negb from_ptr_value same_type type_of atype_eqb]. now rewrite version_eqb_refl.
Qed.
Print Assumptions C53_convert_any.
(** Values of the same other type are stored just as well; values of different types
    are left to the conversion library, without the pointers to the source. *)
Lemma version_eqb_iff v w : version_eqb v w = true <-> v = w.
Proof. destruct v, w; cbn; split; congruence. Qed.
Lemma atype_eqb_iff a b : atype_eqb a b = true <-> a = b.
Proof.
  revert b. induction a as [v|p n|t IH|]; intros [w|q m|u|]; cbn [atype_eqb]; try (split; congruence).
  - rewrite version_eqb_iff. split; congruence.
  - rewrite andb_true_iff, !String.eqb_eq. split; [intros [-> ->]; reflexivity|intros [= -> ->]; now split].
  - rewrite IH. split; congruence.
Qed.
Definition direct (x : aval) : Prop := match x with DocV _ _ | OtherV _ _ _ => True | _ => False end.
Theorem C53_convert_other : forall chain x y n from, direct x -> direct y -> points x n from ->
  (type_of x = type_of y -> document chain (Some from) (Some (PtrV (type_of y) (Some y))) = Ok (PtrV (type_of y) (Some x))) /\
  (type_of x <> type_of y -> forall r, chain (Some x) (PtrV (type_of y) (Some y)) = r ->
     document chain (Some from) (Some (PtrV (type_of y) (Some y))) =
       match r with Ok z => Ok (PtrV (type_of y) (Some z)) | Err e => Err e | Panic => Panic end).
Proof.
  intros chain x y n from X Y F. unfold document. cbn [from_ptr is_ptr bindR negb from_ptr_value]. rewrite (from_points _ _ _ F).
  replace (from_ptr_value x) with (Ok (Some x)) by now destruct x. replace (from_ptr_value y) with (Ok (Some y)) by now destruct y.
  cbn [bindR same_type]. split.
  - intros E. rewrite (proj2 (atype_eqb_iff _ _) E). cbn [assign]. rewrite (proj2 (atype_eqb_iff _ _) E). destruct y; try contradiction; reflexivity.
  - intros N r <-. destruct (atype_eqb (type_of x) (type_of y)) eqn:E; [now apply atype_eqb_iff in E|]. reflexivity.
Qed.
Print Assumptions C53_convert_other.
(** nil, or pointers that end in nil, on either side panic. *)
Theorem C53_convert_nil : forall chain from to,
  (document chain from None = Panic) /\
  (is_pointer to -> dangling from \/ dangling (Some to) -> document chain from (Some to) = Panic).
Proof.
  assert (forall a, dangling a -> from_ptr a = Panic) as H.
  { intros [a|]; [|reflexivity]. intros (n & t & P). cbn [from_ptr]. now rewrite (from_points _ _ _ P). }
  intros chain from to. split; [reflexivity|]. intros (t & x & ->) [D|D]; unfold document; cbn [is_ptr bindR negb].
  - now rewrite (H _ D).
  - rewrite (H _ D). destruct (from_ptr from) as [f|e|] eqn:E; [reflexivity| |reflexivity]. now apply from_no_error in E.
Qed.
Print Assumptions C53_convert_nil.

(** ReadInto (JSON, YAML, tag-value, RDF) with something that is not a pointer
    returns an error and reads nothing, whatever the content is. *)
Theorem C53_read_into : forall R chain (load : R -> res aval * R) content a, ~ is_pointer a ->
  read_into_any chain load content (Some a) = (Err "doc to read into must be a pointer", content).
Proof.
  intros R chain load content a N. destruct a as [v d|p n c|t x|x]; try reflexivity. contradiction N. now exists t, x.
Qed.
Print Assumptions C53_read_into.
(** With a pointer to a document of the version read the document is stored there,
    and an error of the reader is returned. *)
Theorem C53_read_into_same : forall R chain (load : R -> res aval * R) content rest v d old n x,
  (load content = (Ok x, rest) -> points (DocV v d) n x ->
   read_into_any chain load content (Some (PtrV (DocT v) (Some (DocV v old)))) = (Ok (PtrV (DocT v) (Some (DocV v d))), rest)) /\
  (forall e to, is_pointer to -> load content = (Err e, rest) -> read_into_any chain load content (Some to) = (Err e, rest)).
Proof.
  intros R chain load content rest v d old n x. split.
  - intros L P. unfold read_into_any. cbn [is_ptr]. rewrite L. cbn [bindR].
    assert (typed (PtrV (DocT v) (Some (DocV v old)))) as T by now split.
    rewrite (C53_convert chain v d old n 1 x _ T P (points_next _ 0 _ _ (points_here _))). reflexivity.
  - intros e to (t & y & ->) L. unfold read_into_any. cbn [is_ptr]. now rewrite L.
Qed.
Print Assumptions C53_read_into_same.

(** tagvalue.Write: documents through any number of pointers are written as they are *)
Theorem C53_write : forall capacity printed render v d n a, points (DocV v d) n a ->
  write_any capacity printed render (Some a) = render v d.
Proof. intros. unfold write_any. cbn [from_ptr]. now rewrite (from_points _ _ _ H). Qed.
Print Assumptions C53_write.
(** … nothing else is written except what a variable of interface type holds *)
Theorem C53_write_only : forall capacity printed render a text, write_any capacity printed render a = Ok text ->
  exists x n v d, a = Some x /\ (points (DocV v d) n x \/ points (AnyV (Some (DocV v d))) n x) /\ render v d = Ok text.
Proof.
  intros capacity printed render [x|] text; [|discriminate]. unfold write_any. cbn [from_ptr].
  destruct (from_ptr_value x) as [y|e|] eqn:F; try discriminate. cbn [bindR].
  intros H. assert (exists v d, y = Some (DocV v d) /\ render v d = Ok text) as (v & d & -> & R).
  { destruct y as [[v d|p n c|t z|z]|]; cbn [describe] in H; try (now exists v, d); exfalso.
    - destruct (describe_value capacity printed "" (OtherV p n c)); discriminate.
    - destruct (describe_value capacity printed "" (PtrV t z)); discriminate.
    - destruct (describe_value capacity printed "" (AnyV z)); discriminate.
    - discriminate. }
  assert (exists n, points (DocV v d) n x \/ points (AnyV (Some (DocV v d))) n x) as (n & P).
  { clear H R. revert F. generalize x. fix IH 1. intros [w e|p m c|t [z|]|z]; cbn [from_ptr_value]; intros F; try discriminate.
    - injection F as -> ->. exists 0. left. constructor.
    - destruct (IH z F) as (n & [P|P]); exists (S n); [left|right]; now constructor.
    - injection F as ->. exists 0. right. constructor. }
  exists x, n, v, d. now repeat split.
Qed.
Print Assumptions C53_write_only.
Theorem C53_write_nil : forall capacity printed render a, dangling a -> write_any capacity printed render a = Panic.
Proof. intros capacity printed render [a|]; [|reflexivity]. intros (n & t & P). unfold write_any. cbn [from_ptr]. now rewrite (from_points _ _ _ P). Qed.
Print Assumptions C53_write_nil.

(** ** Descriptions in error messages *)
Lemma runes_text cs : Forall character cs -> runes (text_of cs) = cs.
Proof.
  assert (forall a b, utf8_2 a b = true -> (code a <? 128)%N = false) as K.
  { intros a b. unfold utf8_2, between. intros H. apply N.ltb_ge. destruct (N.leb_spec 194 (code a)); [lia|discriminate]. }
  assert (forall a b, (code a < 128)%N -> utf8_2 a b = false) as A2.
  { intros a b L. unfold utf8_2, between. destruct (N.leb_spec 194 (code a)); [lia|reflexivity]. }
  assert (forall a b c, (code a < 128)%N -> utf8_3 a b c = false) as A3.
  { intros a b c L. unfold utf8_3, between.
    destruct (N.leb_spec 224 (code a)), (N.leb_spec 225 (code a)), (N.leb_spec 237 (code a)), (N.leb_spec 238 (code a)); try lia; reflexivity. }
  assert (forall a b c d, (code a < 128)%N -> utf8_4 a b c d = false) as A4.
  { intros a b c d L. unfold utf8_4, between.
    destruct (N.leb_spec 240 (code a)), (N.leb_spec 241 (code a)), (N.leb_spec 244 (code a)); try lia; reflexivity. }
  assert (forall a b c, utf8_3 a b c = true -> utf8_2 a b = false) as B2.
  { intros a b c. unfold utf8_3, utf8_2, between. destruct (N.leb_spec (code a) 223) as [L|L]; [|now rewrite andb_false_r].
    destruct (N.leb_spec 224 (code a)), (N.leb_spec 225 (code a)), (N.leb_spec 237 (code a)), (N.leb_spec 238 (code a)); try lia; discriminate. }
  assert (forall a b c d, utf8_4 a b c d = true -> utf8_2 a b = false /\ utf8_3 a b c = false) as B4.
  { intros a b c d. unfold utf8_4, utf8_3, utf8_2, between. intros H.
    assert (240 <= code a)%N as L.
    { destruct (N.leb_spec 240 (code a)), (N.leb_spec 241 (code a)), (N.leb_spec 244 (code a)); try lia; discriminate. }
    split.
    - destruct (N.leb_spec (code a) 223); [lia|]. now rewrite andb_false_r.
    - destruct (N.leb_spec (code a) 224), (N.leb_spec (code a) 236), (N.leb_spec (code a) 237), (N.leb_spec (code a) 239); try lia;
      rewrite !andb_false_r; reflexivity. }
  intros F. induction F as [|c cs H F IH]; [reflexivity|].
  assert (text_of (c :: cs) = c ++ text_of cs) as ->.
  { unfold text_of. destruct cs as [|c' cs]; cbn [String.concat]; [now rewrite app_nil_r_s|reflexivity]. }
  destruct c as [|a [|b [|c [|d [|]]]]]; cbn [character] in H; try contradiction; cbn [append].
  - assert ((code a <? 128)%N = true) as L by now apply N.ltb_lt. cbn [runes]. rewrite L, IH. set (s := text_of cs) in *.
    destruct s as [|b [|c [|d s4]]]; rewrite ?A2, ?A3, ?A4 by assumption; try (now rewrite <- IH); try (rewrite IH; reflexivity).
  - cbn [runes]. now rewrite H, IH.
  - cbn [runes]. now rewrite (B2 _ _ _ H), H, IH.
  - destruct (B4 _ _ _ _ H) as [H2 H3]. cbn [runes]. now rewrite H2, H3, H, IH.
Qed.
Lemma text_app a b : text_of (a ++ b) = text_of a ++ text_of b.
Proof.
  assert (forall c cs, text_of (c :: cs) = c ++ text_of cs) as H.
  { intros c [|c' cs]; unfold text_of; cbn [String.concat]; [now rewrite app_nil_r_s|reflexivity]. }
  induction a as [|c a IH]; [reflexivity|]. cbn [List.app]. now rewrite !H, IH, app_assoc_s.
Qed.

(** A text of characters is shown as it is if it has at most [n]+3 bytes, and as its
    first [n] characters and three dots if it has [n] characters. *)
Theorem C53_limit : forall capacity cs n, (forall k, k <= capacity k) -> Forall character cs ->
  (n = 0 \/ String.length (text_of cs) <= n + 3 -> limit capacity (text_of cs) n = Ok (text_of cs)) /\
  (n <> 0 -> n + 3 < String.length (text_of cs) -> n <= List.length cs -> limit capacity (text_of cs) n = Ok (text_of (firstn n cs) ++ "...")).
Proof.
  intros capacity cs n G F. unfold limit. rewrite (runes_text cs F). split.
  - intros [->|L]; [reflexivity|]. apply Nat.leb_le in L. now rewrite L, orb_true_r.
  - intros Z L M. apply Nat.eqb_neq in Z. apply Nat.leb_gt in L. rewrite Z, L. cbn [orb].
    assert (n <= capacity (List.length cs)) as H by (specialize (G (List.length cs)); lia). apply Nat.leb_le in H. rewrite H.
    rewrite firstn_app. replace (n - List.length cs) with 0 by lia. cbn [firstn]. now rewrite app_nil_r.
Qed.
Print Assumptions C53_limit.
(** With more bytes and fewer characters than that it panics, or shows characters
    that are not in the text. *)
Theorem C53_limit_panics : forall capacity cs n, Forall character cs ->
  n + 3 < String.length (text_of cs) -> List.length cs < n ->
  if Nat.leb n (capacity (List.length cs))
  then limit capacity (text_of cs) n = Ok (text_of cs ++ text_of (repeat (String "000" "") (n - List.length cs)) ++ "...")
  else limit capacity (text_of cs) n = Panic.
Proof.
  intros capacity cs n F L M. unfold limit. rewrite (runes_text cs F). replace (Nat.eqb n 0) with false by (symmetry; apply Nat.eqb_neq; lia).
  apply Nat.leb_gt in L. rewrite L. cbn [orb]. destruct (Nat.leb_spec n (capacity (List.length cs))) as [C|C]; [|reflexivity].
  rewrite firstn_app, firstn_all2 by lia. change (String.concat "") with text_of. rewrite text_app, <- app_assoc_s. do 4 f_equal.
  rewrite <- (firstn_skipn (n - List.length cs) (repeat (String "000" "") (capacity (List.length cs) - List.length cs))) at 1.
  rewrite firstn_app, firstn_firstn, Nat.min_id, firstn_length, repeat_length.
  replace (n - List.length cs - Nat.min (n - List.length cs) (capacity (List.length cs) - List.length cs)) with 0 by lia. cbn [firstn]. rewrite app_nil_r.
  replace (capacity (List.length cs) - List.length cs) with ((n - List.length cs) + (capacity (List.length cs) - n)) by lia.
  rewrite repeat_app, firstn_app, repeat_length, Nat.sub_diag. cbn [firstn]. rewrite app_nil_r. apply firstn_all2. rewrite repeat_length. lia.
Qed.
Print Assumptions C53_limit_panics.

(** Describe: what the value is called, with a star for each pointer, and what it
    prints as, or the first 300 characters of that. *)
Lemma star_prefix n prefix : (prefix ++ "*") ++ stars n = prefix ++ stars (S n).
Proof. now rewrite app_assoc_s. Qed.
Theorem C53_describe : forall capacity printed x n a path name cs,
  (forall k, k <= capacity k) -> Forall character cs -> printed (Some x) = text_of cs ->
  points x n a -> called x path name ->
  (String.length (text_of cs) <= 303 -> describe capacity printed (Some a) = Ok (path ++ "." ++ stars n ++ name ++ ": " ++ text_of cs)) /\
  (303 < String.length (text_of cs) -> 300 <= List.length cs ->
     describe capacity printed (Some a) = Ok (path ++ "." ++ stars n ++ name ++ ": " ++ text_of (firstn 300 cs) ++ "...")).
Proof.
  intros capacity printed x n a path name cs G F P H C. destruct (C53_limit capacity cs 300 G F) as [L1 L2].
  assert (D : forall shown prefix, limit capacity (text_of cs) 300 = Ok shown ->
    describe_value capacity printed prefix a = Ok (path ++ "." ++ (prefix ++ stars n) ++ name ++ ": " ++ shown)).
  { intros shown prefix L. revert prefix. induction H as [|n t y H IH]; intros prefix.
    - cbn [stars]. rewrite app_nil_r_s. destruct x as [[] d|p m c|t z|z]; try contradiction; destruct C as [-> ->]; cbn [describe_value]; rewrite P, L; reflexivity.
    - cbn [describe_value]. now rewrite IH, star_prefix. }
  split; [intros S; exact (D _ "" (L1 (or_intror S)))|]. intros S T. exact (D _ "" (L2 ltac:(discriminate) S T)).
Qed.
Print Assumptions C53_describe.
(** tagvalue.Write of a value that is not a document returns an error with its
    description if that is short or has 300 characters. *)
Theorem C53_write_other : forall capacity printed render path name content cs,
  (forall k, k <= capacity k) -> Forall character cs -> printed (Some (OtherV path name content)) = text_of cs ->
  String.length (text_of cs) <= 303 \/ 300 <= List.length cs ->
  exists shown, (shown = text_of cs \/ shown = text_of (firstn 300 cs) ++ "...") /\
  write_any capacity printed render (Some (OtherV path name content)) = Err ("unsupported document type: " ++ path ++ "." ++ name ++ ": " ++ shown).
Proof.
  intros capacity printed render path name content cs G F P H. unfold write_any. cbn [from_ptr from_ptr_value bindR describe describe_value]. rewrite P.
  destruct (C53_limit capacity cs 300 G F) as [L1 L2]. destruct (Nat.le_gt_cases (String.length (text_of cs)) 303) as [S|S].
  - exists (text_of cs). split; [now left|]. rewrite L1 by (right; lia). reflexivity.
  - exists (text_of (firstn 300 cs) ++ "..."). split; [now right|]. rewrite L2 by lia. reflexivity.
Qed.
Print Assumptions C53_write_other.

(** a string of 100 characters of four bytes *)
Definition w_smile : string := String (ch 240) (String (ch 159) (String (ch 152) (String (ch 128) ""))).
Lemma w_smile_character : character w_smile.
Proof. reflexivity. Qed.
(** … otherwise it can panic *)
Theorem C53_write_panics_refuted : exists path name content, forall capacity printed render,
  printed (Some (OtherV path name content)) = content -> capacity (List.length (runes content)) < 300 ->
  write_any capacity printed render (Some (OtherV path name content)) = Panic.
Proof.
  exists "", "string", (text_of (repeat w_smile 100)). intros capacity printed render P C.
  assert (Forall character (repeat w_smile 100)) as F by (apply Forall_forall; intros c H; apply repeat_spec in H; subst c; reflexivity).
  rewrite runes_text, repeat_length in C by exact F.
  unfold write_any. cbn [from_ptr from_ptr_value bindR describe describe_value]. rewrite P.
  pose proof (C53_limit_panics capacity (repeat w_smile 100) 300 F) as L. rewrite repeat_length in L.
  assert (String.length (text_of (repeat w_smile 100)) = 400) as E by (vm_compute; reflexivity). rewrite E in L.
  replace (Nat.leb 300 (capacity 100)) with false in L by (symmetry; now apply Nat.leb_gt). rewrite L by lia. reflexivity.
Qed.
Print Assumptions C53_write_panics_refuted.

Definition w_doc : Document := set_d_DocumentName "d" zero_DocumentOf.
Definition w_ptr : aval := PtrV (PtrT (DocT V22)) (Some (PtrV (DocT V22) (Some (DocV V22 w_doc)))).
Example C53_witness : points (DocV V22 w_doc) 2 w_ptr /\ typed w_ptr /\ is_pointer w_ptr /\ dangling (Some (PtrV (DocT V23) None)) /\
  ~ is_pointer (DocV V22 w_doc) /\ direct (DocV V22 w_doc) /\ type_of (OtherV "p" "T" "") <> type_of (OtherV "q" "T" "") /\ Forall character ["a"; w_smile] /\
  document (fun _ _ => Panic) (Some w_ptr) (Some w_ptr) = Panic.
Proof.
  split; [repeat constructor|]. split; [repeat split|]. split; [now exists (PtrT (DocT V22)), (Some (PtrV (DocT V22) (Some (DocV V22 w_doc))))|].
  split; [exists 0, (DocT V23); constructor|]. split; [intros (t & x & [=])|]. split; [exact I|]. split; [discriminate|]. split; [repeat constructor|reflexivity].
Qed.
