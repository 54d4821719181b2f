(** Lists, segments and structured texts for the declarative reading. *)
From Verif Require Import GoStr GoStrFacts Types TvState TvUtil TvReader TvParser SpecTv SpecId SpecDoc SpecRead
  TvReaderFacts TvUtilFacts TvParserFacts.

(** ** update_last *)
Fixpoint update_last {A} (f : A -> A) (l : list A) : list A :=
  match l with
  | [] => []
  | [x] => [f x]
  | x :: r => x :: update_last f r
  end.
Lemma update_last_app {A} (f : A -> A) l x : update_last f (l ++ [x]) = (l ++ [f x])%list.
Proof. induction l as [|y [|z l] IH]; simpl in *; auto. now rewrite IH. Qed.
Lemma list_last_case {A} (l : list A) : l = [] \/ exists l' x, l = (l' ++ [x])%list.
Proof. destruct l as [|a l]; [auto|]. right. destruct (exists_last (l := a :: l)) as (l' & x & E); [discriminate|eauto]. Qed.
Lemma update_last_length {A} (f : A -> A) l : length (update_last f l) = length l.
Proof. destruct (list_last_case l) as [->|(l' & x & ->)]; [reflexivity|]. rewrite update_last_app, !app_length. reflexivity. Qed.
Lemma update_last_id {A} (f : A -> A) l : (forall x, f x = x) -> update_last f l = l.
Proof. intros H. destruct (list_last_case l) as [->|(l' & x & ->)]; [reflexivity|]. now rewrite update_last_app, H. Qed.
Lemma update_last_map {A B} (g : A -> B) (f : A -> A) l : (forall x, g (f x) = g x) -> map g (update_last f l) = map g l.
Proof. intros H. destruct (list_last_case l) as [->|(l' & x & ->)]; [reflexivity|]. rewrite update_last_app, !map_app. simpl. now rewrite H. Qed.
Lemma map_update_last {A B} (g : A -> B) (f : A -> A) (f' : B -> B) l :
  (forall x, g (f x) = f' (g x)) -> map g (update_last f l) = update_last f' (map g l).
Proof.
  intros H. destruct (list_last_case l) as [->|(l' & x & ->)]; [reflexivity|].
  rewrite update_last_app, !map_app. simpl. now rewrite update_last_app, H.
Qed.
Lemma update_last_nil {A} (f : A -> A) l : update_last f l = [] <-> l = [].
Proof.
  destruct (list_last_case l) as [->|(l' & x & ->)]; [tauto|]. rewrite update_last_app.
  split; intros H; now apply app_eq_nil in H as [? ?].
Qed.
Lemma Forall2_stable {A B} (R : A -> B -> Prop) f L M :
  (forall a b, R a b -> R (f a) b) -> Forall2 R L M -> Forall2 R (update_last f L) M.
Proof.
  intros H. induction 1 as [|a b L M Hab HF IH]; simpl; [constructor|].
  destruct L as [|a' L]; [inversion HF; subst; auto|]. auto.
Qed.
Lemma Forall2_update {A B} (R : A -> B -> Prop) f g L M :
  (forall a b, R a b -> R (f a) (g b)) -> Forall2 R L M -> Forall2 R (update_last f L) (update_last g M).
Proof.
  intros H. induction 1 as [|a b L M Hab HF IH]; simpl; [constructor|].
  destruct L as [|a' L], M as [|b' M]; inversion HF; subst; auto.
Qed.
Lemma Forall2_snoc {A B} (R : A -> B -> Prop) L M a b : Forall2 R L M -> R a b -> Forall2 R (L ++ [a]) (M ++ [b]).
Proof. intros H1 H2. apply Forall2_app; auto. Qed.
Lemma Forall2_impl {A B} (R S : A -> B -> Prop) L M :
  (forall a b, R a b -> S a b) -> Forall2 R L M -> Forall2 S L M.
Proof. intros H. induction 1; auto. Qed.
Lemma Forall2_len {A B} (R : A -> B -> Prop) L M : Forall2 R L M -> length L = length M.
Proof. induction 1; simpl; auto. Qed.
Lemma Forall2_snoc_l {A B} (R : A -> B -> Prop) L a M : Forall2 R (L ++ [a]) M ->
  exists M' b, M = (M' ++ [b])%list /\ Forall2 R L M' /\ R a b.
Proof.
  intros H. apply Forall2_app_inv_l in H as (M1 & M2 & H1 & H2 & ->).
  inversion H2 as [|? b ? M3 R1 R2]; subst. inversion R2; subst. eauto.
Qed.
Lemma last_snoc {A} (l : list A) x d : last (l ++ [x]) d = x.
Proof. apply last_last. Qed.
Lemma concat_update_last {A} (F : list A -> list A) (G : list (list A)) g :
  concat (update_last F (G ++ [g])) = (concat G ++ F g)%list.
Proof. rewrite update_last_app, List.concat_app. simpl. now rewrite app_nil_r. Qed.

(** pointer to the last element *)
Definition ptr (n : nat) : option nat := match n with O => None | S k => Some k end.
Lemma update_nth_ptr {A} (f : A -> A) l i l' : ptr (length l) = Some i -> update_nth i f l = Some l' -> l' = update_last f l.
Proof.
  destruct (list_last_case l) as [->|(l0 & x & ->)]; [discriminate|].
  rewrite app_length, Nat.add_comm. simpl. intros H. inversion H; subst.
  rewrite update_nth_last, update_last_app. congruence.
Qed.
Lemma nth_ptr {A} (l : list A) i x : ptr (length l) = Some i -> nth_error l i = Some x -> exists l', l = (l' ++ [x])%list.
Proof.
  destruct (list_last_case l) as [->|(l0 & y & ->)]; [discriminate|].
  rewrite app_length, Nat.add_comm. simpl. intros H. inversion H; subst.
  rewrite nth_app_last. intros E. inversion E; subst. eauto.
Qed.
Lemma ptr_snoc {A} (l : list A) x : ptr (length (l ++ [x])) = Some (length l).
Proof. rewrite app_length, Nat.add_comm. reflexivity. Qed.

(** ** values and segments *)
Definition add (p : string * string) (seg : string * pairs) : string * pairs := (fst seg, snd seg ++ [p])%list.

Lemma values_app t a b : values t (a ++ b) = (values t a ++ values t b)%list.
Proof. unfold values. now rewrite filter_app, map_app. Qed.
Lemma values_snoc t h k x : values t (h ++ [(k, x)]) = (if k =? t then values t h ++ [x] else values t h)%list.
Proof.
  rewrite values_app. unfold values at 2. simpl. destruct (k =? t); simpl; [reflexivity|apply app_nil_r].
Qed.
Lemma last_value_snoc t h k x : last_value t (h ++ [(k, x)]) = if k =? t then x else last_value t h.
Proof. unfold last_value. rewrite values_snoc. destruct (k =? t); [apply last_snoc|reflexivity]. Qed.

Lemma segs_snoc t h k x : segs t (h ++ [(k, x)]) =
  (if k =? t then (head_of t h, parts_of t h ++ [(x, [])])
   else match parts_of t h with
        | [] => (head_of t h ++ [(k, x)], [])
        | _ => (head_of t h, update_last (add (k, x)) (parts_of t h))
        end)%list.
Proof.
  unfold head_of, parts_of. induction h as [|[k' y] h IH].
  - simpl. destruct (k =? t); reflexivity.
  - cbn [app]. change (segs t ((k', y) :: h ++ [(k, x)]))
      with (let (h0, ss) := segs t (h ++ [(k, x)]) in
            if String.eqb k' t then ([], (y, h0) :: ss) else ((k', y) :: h0, ss)).
    rewrite IH. change (segs t ((k', y) :: h)) with (let (h0, ss) := segs t h in
            if String.eqb k' t then ([], (y, h0) :: ss) else ((k', y) :: h0, ss)).
    destruct (segs t h) as [h0 ss]. cbn [fst snd].
    destruct (k =? t), (k' =? t); cbn [fst snd]; destruct ss as [|s0 ss]; reflexivity.
Qed.
Lemma parts_snoc t h k x : parts_of t (h ++ [(k, x)]) =
  (if k =? t then parts_of t h ++ [(x, [])] else update_last (add (k, x)) (parts_of t h))%list.
Proof.
  unfold parts_of at 1. rewrite segs_snoc. destruct (k =? t); [reflexivity|].
  destruct (parts_of t h); reflexivity.
Qed.
Lemma head_snoc t h k x : head_of t (h ++ [(k, x)]) =
  (if k =? t then head_of t h
   else match parts_of t h with [] => head_of t h ++ [(k, x)] | _ => head_of t h end)%list.
Proof.
  unfold head_of at 1. rewrite segs_snoc. destruct (k =? t); [reflexivity|].
  destruct (parts_of t h); reflexivity.
Qed.
Lemma values_head_snoc t' t h k x : k <> t' -> values t' (head_of t (h ++ [(k, x)])) = values t' (head_of t h).
Proof.
  intros H. rewrite head_snoc. destruct (k =? t); [reflexivity|].
  destruct (parts_of t h); [|reflexivity]. rewrite values_snoc.
  destruct (String.eqb_spec k t'); [contradiction|reflexivity].
Qed.
Lemma range_pairs_snoc h k x : range_pairs (h ++ [(k, x)]) =
  (if (k =? "SnippetByteRange") || (k =? "SnippetLineRange") then range_pairs h ++ [(k, x)] else range_pairs h)%list.
Proof.
  unfold range_pairs. rewrite filter_app. cbn [filter fst].
  destruct ((k =? "SnippetByteRange") || (k =? "SnippetLineRange")); [reflexivity|apply app_nil_r].
Qed.
Lemma flag_snoc l x : flag_of (l ++ [x]) =
  if x =? "false" then false else if x =? "true" then true else flag_of l.
Proof. unfold flag_of. now rewrite fold_left_app. Qed.

Lemma opt_text_snoc {A} (R : string -> A -> Prop) l x y : R x y -> opt_text_of R (l ++ [x]) (Some y).
Proof.
  intros H. unfold opt_text_of. destruct (l ++ [x])%list as [|z r] eqn:E; [now apply app_eq_nil in E as [? ?]|].
  exists y. rewrite <- E, last_snoc. auto.
Qed.
Lemma id_text_snoc l x id : x = "SPDXRef-" ++ id -> id_text_of (l ++ [x]) id.
Proof.
  intros H. unfold id_text_of. destruct (l ++ [x])%list as [|z r] eqn:E; [now apply app_eq_nil in E as [? ?]|].
  now rewrite <- E, last_snoc.
Qed.
Lemma nonempty_snoc {A} (l : list A) x : match (l ++ [x])%list with [] => true | _ => false end = false.
Proof. destruct l; reflexivity. Qed.

(** ** Structured texts *)
Lemma kind_name_iff x k n : extract_subs x = Ok (k, n) <-> kind_name x k n.
Proof. apply extract_subs_iff. Qed.
Lemma actor_text_iff kinds x k n : extract_actor kinds x = Ok (k, n) <-> actor_text kinds x k n.
Proof.
  unfold extract_actor, actor_text. rewrite <- kind_name_iff.
  destruct (extract_subs x) as [[k' n']| |]; simpl; [|split; [discriminate|intros [? ?]; discriminate]..].
  destruct (mem k' kinds) eqn:E.
  - apply mem_In in E. split; [intros H; inversion H; subst; auto|]. intros [H _]. now inversion H.
  - split; [discriminate|]. intros [H Hin]. inversion H; subst. apply mem_In in Hin. congruence.
Qed.
Lemma checksum_text_iff v x c : extract_checksum v x = Ok c <-> checksum_text v x c.
Proof.
  unfold extract_checksum, checksum_text, checksum_ok. rewrite <- (kind_name_iff x). rewrite <- (algs_algorithms v).
  destruct (extract_subs x) as [[k' n']| |]; simpl; [|split; [discriminate|intros [? ?]; discriminate]..].
  destruct (mem k' (algs v)) eqn:E.
  - apply mem_In in E. split; [intros H; inversion H; subst; auto|]. intros [H _]. inversion H. now destruct c.
  - split; [discriminate|]. intros [H Hin]. inversion H; subst. apply mem_In in Hin. congruence.
Qed.
Lemma words_fields x : words x = fields_sp x.
Proof. reflexivity. Qed.

Lemma relationship_text_iff v x a r b c :
  extract_relationship v x = Ok (a, r, b) <-> relationship_text v x (MkRln a b r c).
Proof.
  unfold extract_relationship, relationship_text. cbn [r_RefA r_RefB r_Relationship].
  change (words x) with (fields_sp x).
  pose proof (fields_sp_words x) as W.
  destruct (fields_sp x) as [|wa [|wr [|wb [|z l]]]] eqn:F;
    try (split; [discriminate|intros (? & ? & ? & _); discriminate]).
  assert (trim_space wa = wa /\ trim_space wr = wr /\ trim_space wb = wb) as (Ta & Tr & Tb).
  { repeat split; apply W; simpl; auto. }
  rewrite Ta, Tr, Tb. split.
  - destruct (extract_doc_element_id wa) as [ida| |] eqn:Ea; simpl; try discriminate.
    match goal with |- context [bindR ?e _] => destruct e as [idb| |] eqn:Eb end; simpl; try discriminate.
    intros H. inversion H; subst. clear H.
    apply extract_doc_element_id_iff in Ea. exists wa, wb. split; [reflexivity|]. split; [apply Ea|]. split; [apply Ea|].
    destruct v.
    + left. now apply extract_doc_element_id_iff in Eb.
    + apply extract_special_iff in Eb as [[Hin ->]|(_ & ?)]; [right|left; assumption].
      split; [discriminate|]. split; [|reflexivity]. destruct Hin as [<-|[<-|[]]]; auto.
    + apply extract_special_iff in Eb as [[Hin ->]|(_ & ?)]; [right|left; assumption].
      split; [discriminate|]. split; [|reflexivity]. destruct Hin as [<-|[<-|[]]]; auto.
  - intros (wa' & wb' & E & P & T & B). inversion E; subst wa' r wb'. clear E.
    rewrite (proj2 (extract_doc_element_id_iff wa a) (conj P T)). simpl.
    assert (X : match v with
                | V21 => extract_doc_element_id wb
                | _ => extract_doc_element_special wb ["NONE"; "NOASSERTION"]
                end = Ok b).
    { destruct B as [[B1 B2]|(Hv & B1 & ->)].
      - assert (N : ~ In wb ["NONE"; "NOASSERTION"]).
        { apply ref_text_head in B2. intros [E|[E|[]]]; rewrite <- E in B2; destruct B2; discriminate. }
        destruct v; [apply extract_doc_element_id_iff; auto| |]; apply extract_special_iff; right; auto.
      - destruct v; [congruence| |]; apply extract_special_iff; left; split; auto; destruct B1 as [->| ->]; simpl; auto. }
    rewrite X. reflexivity.
Qed.

Lemma has_suffix_colon_iff a : has_suffix ":" a = true <-> exists b, a = b ++ ":".
Proof.
  unfold has_suffix, has_prefix. change (srev ":") with ":". split.
  - destruct (strip_prefix ":" (srev a)) as [r|] eqn:E; [|discriminate]. intros _.
    apply strip_prefix_spec in E. exists (srev r). rewrite <- (srev_involutive a), E, srev_app_distr. reflexivity.
  - intros [b ->]. rewrite srev_app_distr. reflexivity.
Qed.
Lemma trim_suffix_colon b : trim_suffix ":" (b ++ ":") = b.
Proof.
  unfold trim_suffix. rewrite (proj2 (has_suffix_colon_iff (b ++ ":"))) by eauto.
  rewrite srev_app_distr. change (srev ":") with ":".
  unfold trim_prefix. cbn [append strip_prefix]. rewrite Ascii.eqb_refl. cbn. apply srev_involutive.
Qed.

Lemma trim_document_ref d : trim_prefix document_ref ("DocumentRef-" ++ d) = d.
Proof. reflexivity. Qed.
Lemma app_inj_l p (a b : string) : p ++ a = p ++ b -> a = b.
Proof. induction p as [|c p IH]; simpl; intros H; [exact H|]. inversion H; auto. Qed.
Lemma edr_text_iff x e : extract_external_document_reference x = Ok e <-> edr_text x e.
Proof.
  unfold extract_external_document_reference, edr_text. change (words x) with (fields_sp x). split.
  - match goal with |- bindR ?r _ = _ -> _ => destruct r as [[[[d u] a] c]| |] eqn:E end;
      cbn [bindR]; try discriminate.
    destruct (has_prefix document_ref d) eqn:P; cbn [negb]; [|discriminate]. apply trim_prefix_some in P.
    destruct (String.eqb_spec (trim_prefix document_ref d) "") as [|n]; [discriminate|].
    remember (trim_prefix document_ref d) as d' eqn:Ed. clear Ed.
    intros H. inversion H; subst e; clear H. cbn [edr_DocumentRefID edr_URI edr_Checksum ck_Algorithm ck_Value]. split; [assumption|].
    change "DocumentRef-" with document_ref. rewrite <- P. clear P.
    destruct (fields_sp x) as [|f1 [|f2 [|f3 [|f4 [|f5 l]]]]]; try discriminate.
    + right. destruct (cut ":" f3) as [[y z]|] eqn:C; [|discriminate]. inversion E; subst.
      apply cut_byte_some in C as [-> B]. split; [reflexivity|]. now apply not_occurs_byte.
    + left. destruct (has_suffix ":" f3) eqn:S; [|discriminate]. inversion E; subst.
      apply has_suffix_colon_iff in S as [b ->]. now rewrite trim_suffix_colon.
  - destruct e as [d u [a c]]. cbn [edr_DocumentRefID edr_URI edr_Checksum ck_Algorithm ck_Value]. intros (N & [H|[H B]]); rewrite H.
    + rewrite (proj2 (has_suffix_colon_iff (a ++ ":"))) by eauto. cbn [bindR].
      rewrite trim_suffix_colon. change (has_prefix document_ref ("DocumentRef-" ++ d)) with true. cbn [negb].
      rewrite trim_document_ref. destruct (String.eqb_spec d ""); [contradiction|reflexivity].
    + apply not_occurs_byte in B. change (":" ++ c) with (String ":" c). rewrite cut_byte_app by assumption.
      cbn [bindR]. change (has_prefix document_ref ("DocumentRef-" ++ d)) with true. cbn [negb].
      rewrite trim_document_ref. destruct (String.eqb_spec d ""); [contradiction|reflexivity].
Qed.

Lemma code_text_iff x c : extract_code_and_excludes x = c <-> code_text x c.
Proof.
  unfold extract_code_and_excludes, code_text.
  destruct (cut "(excludes:" x) as [[a b]|] eqn:E.
  - apply cut_first_cut in E as F. split.
    + intros <-. right. exists a, b.
      destruct (cut ")" b) as [[n r]|] eqn:E2.
      * exists n. split; [assumption|]. split; [|reflexivity]. left. exists r. now apply cut_first_cut.
      * exists b. split; [assumption|]. split; [|reflexivity]. right. split; [now apply not_occurs|reflexivity].
    + intros [[N _]|(a' & b' & n & C & D & ->)].
      * apply not_occurs in N. congruence.
      * apply cut_first_cut in C. rewrite E in C. inversion C; subst a' b'.
        destruct D as [(r & D)|[D ->]].
        -- apply cut_first_cut in D. now rewrite D.
        -- apply not_occurs in D. now rewrite D.
  - pose proof (proj2 (not_occurs _ _) E) as N. split.
    + intros <-. now left.
    + intros [[_ ->]|(a' & b' & n & C & _)]; [reflexivity|]. apply cut_first_cut in C. congruence.
Qed.
Lemma range_text_iff x a b : extract_range x = Ok (a, b) <-> range_text x a b.
Proof.
  unfold extract_range, range_text. split.
  - destruct (extract_subs x) as [[p q]| |] eqn:E; simpl; try discriminate.
    destruct (atoi p) eqn:P; simpl; try discriminate. destruct (atoi q) eqn:Q; simpl; try discriminate.
    intros H. inversion H; subst. exists p, q. rewrite <- kind_name_iff. auto.
  - intros (p & q & K & P & Q). apply kind_name_iff in K. rewrite K. simpl. rewrite P. simpl. now rewrite Q.
Qed.
Lemma external_ref_text_iff x c t l : extract_package_external_reference x = Ok (c, t, l) <-> words x = [c; t; l].
Proof.
  unfold extract_package_external_reference. change (words x) with (fields_sp x).
  destruct (fields_sp x) as [|f1 [|f2 [|f3 [|f4 r]]]]; split; intros H; try discriminate; congruence.
Qed.
