(** * Facts: trimming removes exactly the Unicode white space at the ends. *)
From Coq Require Import Lia.
From Verif Require Import GoStr GoStrFacts SpecSpace.

Lemma ascii_code a n : code a = n -> a = ascii_of_N n.
Proof. intros <-. unfold code. symmetry. apply ascii_N_embedding. Qed.

Lemma blank_cases w : blank w ->
  (exists a, w = String a "" /\ is_space1 a = true) \/
  (exists a b, w = String a (String b "") /\ is_space1 a = false /\ is_space2 a b = true /\ is_space1 b = false) \/
  (exists a b c, w = String a (String b (String c "")) /\ is_space1 a = false /\ is_space2 a b = false /\
     is_space3 a b c = true /\ is_space1 c = false /\ is_space2 b c = false).
Proof.
  intros (n & H & ->). unfold white_space in H. cbn [In] in H.
  repeat (destruct H as [<-|H]); [..|destruct H].
  1-6: left; eexists; split; [vm_compute; reflexivity|reflexivity].
  1-2: right; left; do 2 eexists; split; [vm_compute; reflexivity|repeat split].
  all: right; right; do 3 eexists; split; [vm_compute; reflexivity|repeat split].
Qed.

Ltac in_table n := exists n; split; [unfold white_space; cbn [In]; tauto|reflexivity].

Lemma space1_blank a : is_space1 a = true -> blank (String a "").
Proof.
  unfold is_space1. cbv zeta. rewrite orb_true_iff, andb_true_iff, !N.leb_le, N.eqb_eq. intros H.
  assert (C : (code a = 9 \/ code a = 10 \/ code a = 11 \/ code a = 12 \/ code a = 13 \/ code a = 32)%N) by lia.
  destruct C as [C|[C|[C|[C|[C|C]]]]]; apply ascii_code in C; subst a;
    [in_table 9%N|in_table 10%N|in_table 11%N|in_table 12%N|in_table 13%N|in_table 32%N].
Qed.
Lemma space2_blank a b : is_space2 a b = true -> blank (String a (String b "")).
Proof.
  unfold is_space2. rewrite andb_true_iff, orb_true_iff, !N.eqb_eq. intros [A [B|B]];
    apply ascii_code in A; apply ascii_code in B; subst; [in_table 133%N|in_table 160%N].
Qed.
Lemma space3_blank a b c : is_space3 a b c = true -> blank (String a (String b (String c ""))).
Proof.
  unfold is_space3. cbv zeta.
  rewrite !orb_true_iff, !andb_true_iff, !orb_true_iff, !andb_true_iff, !N.leb_le, !N.eqb_eq. intros H.
  assert (K : ((code a = 225 /\ code b = 154 /\ code c = 128) \/
    (code a = 226 /\ code b = 128 /\ (code c = 128 \/ code c = 129 \/ code c = 130 \/ code c = 131 \/ code c = 132 \/
      code c = 133 \/ code c = 134 \/ code c = 135 \/ code c = 136 \/ code c = 137 \/ code c = 138 \/
      code c = 168 \/ code c = 169 \/ code c = 175)) \/
    (code a = 226 /\ code b = 129 /\ code c = 159) \/ (code a = 227 /\ code b = 128 /\ code c = 128))%N) by lia.
  destruct K as [(A & B & C)|[(A & B & C)|[(A & B & C)|(A & B & C)]]]; apply ascii_code in A; apply ascii_code in B.
  - apply ascii_code in C; subst; in_table 5760%N.
  - repeat (destruct C as [C|C]; [apply ascii_code in C; subst a b c|]); [..|apply ascii_code in C; subst a b c].
    + in_table 8192%N. + in_table 8193%N. + in_table 8194%N. + in_table 8195%N. + in_table 8196%N.
    + in_table 8197%N. + in_table 8198%N. + in_table 8199%N. + in_table 8200%N. + in_table 8201%N.
    + in_table 8202%N. + in_table 8232%N. + in_table 8233%N. + in_table 8239%N.
  - apply ascii_code in C; subst; in_table 8287%N.
  - apply ascii_code in C; subst; in_table 12288%N.
Qed.

Lemma starts_blank s : starts_space s = true <-> exists w r, blank w /\ s = w ++ r.
Proof.
  unfold starts_space. split.
  - destruct s as [|a [|b [|c s]]]; simpl; [discriminate| | |].
    + rewrite orb_false_r. intros H. exists (String a ""), "". split; [now apply space1_blank|reflexivity].
    + rewrite orb_false_r, orb_true_iff. intros [H|H].
      * exists (String a ""), (String b ""). split; [now apply space1_blank|reflexivity].
      * exists (String a (String b "")), "". split; [now apply space2_blank|reflexivity].
    + rewrite !orb_true_iff. intros [H|[H|H]].
      * exists (String a ""), (String b (String c s)). split; [now apply space1_blank|reflexivity].
      * exists (String a (String b "")), (String c s). split; [now apply space2_blank|reflexivity].
      * exists (String a (String b (String c ""))), s. split; [now apply space3_blank|reflexivity].
  - intros (w & r & B & ->). destruct (blank_cases w B) as [(a & -> & A)|[(a & b & -> & A & A2 & _)|(a & b & c & -> & A & A2 & A3 & _)]]; simpl.
    + now rewrite A. + now rewrite A, A2. + now rewrite A, A2, A3.
Qed.

Lemma ends_blank s : ends_space s = true <-> exists r w, blank w /\ s = r ++ w.
Proof.
  unfold ends_space. split.
  - intros H. destruct (srev s) as [|a [|b [|c t]]] eqn:E; simpl in H; [discriminate| | |];
      apply (f_equal srev) in E; rewrite srev_involutive in E; rewrite !srev_cons in E; rewrite ?app_assoc_s in E; cbn [append] in E.
    + rewrite orb_false_r in H. exists (srev ""), (String a ""). split; [now apply space1_blank|exact E].
    + rewrite orb_false_r, orb_true_iff in H. destruct H as [H|H].
      * exists (srev "" ++ String b ""), (String a ""). split; [now apply space1_blank|rewrite app_assoc_s; exact E].
      * exists (srev ""), (String b (String a "")). split; [now apply space2_blank|exact E].
    + rewrite !orb_true_iff in H. destruct H as [H|[H|H]].
      * exists (srev t ++ String c (String b "")), (String a ""). split; [now apply space1_blank|rewrite app_assoc_s; exact E].
      * exists (srev t ++ String c ""), (String b (String a "")). split; [now apply space2_blank|rewrite app_assoc_s; exact E].
      * exists (srev t), (String c (String b (String a ""))). split; [now apply space3_blank|exact E].
  - intros (r & w & B & ->). rewrite srev_app_distr.
    destruct (blank_cases w B) as [(a & -> & A)|[(a & b & -> & A & A2 & A3)|(a & b & c & -> & A & A2 & A3 & A4 & A5)]];
      rewrite !srev_cons; simpl.
    + now rewrite A. + now rewrite A2, orb_true_r. + now rewrite A3, !orb_true_r.
Qed.

(** ** what the left and the right trimming take away *)
Lemma trim_left_taken s : exists p, blanks p /\ s = p ++ trim_left s.
Proof.
  unfold trim_left. remember (String.length s) as n eqn:Hn. revert s Hn.
  induction n as [n IH] using lt_wf_ind. intros s Hn.
  destruct (starts_space s) eqn:S; [|exists ""; split; [constructor|]; apply trim_left_id in S; unfold trim_left in S; now rewrite S].
  apply starts_blank in S as (w & r & B & ->).
  assert (T : trim_gen is_space2 is_space3 (w ++ r) = trim_gen is_space2 is_space3 r).
  { destruct (blank_cases w B) as [(a & -> & A)|[(a & b & -> & A & A2 & _)|(a & b & c & -> & A & A2 & A3 & _)]]; simpl;
      [now rewrite A|now rewrite A, A2|now rewrite A, A2, A3]. }
  assert (L : String.length r < n).
  { subst n. rewrite app_length_s. destruct (blank_cases w B) as [(a & -> & _)|[(a & b & -> & _)|(a & b & c & -> & _)]]; simpl; lia. }
  destruct (IH _ L r eq_refl) as (p & P & E). exists (w ++ p). split; [now constructor|].
  rewrite T, app_assoc_s. now rewrite <- E.
Qed.

Lemma trim_left_blank w r : blank w -> trim_left (w ++ r) = trim_left r.
Proof.
  intros B. unfold trim_left.
  destruct (blank_cases w B) as [(a & -> & A)|[(a & b & -> & A & A2 & _)|(a & b & c & -> & A & A2 & A3 & _)]]; simpl;
    [now rewrite A|now rewrite A, A2|now rewrite A, A2, A3].
Qed.
Lemma trim_left_blanks p r : blanks p -> trim_left (p ++ r) = trim_left r.
Proof. induction 1 as [|w q B _ IH]; [reflexivity|]. rewrite app_assoc_s, trim_left_blank by exact B. exact IH. Qed.

Lemma trim_right_blank r w : blank w -> trim_right (r ++ w) = trim_right r.
Proof.
  intros B. unfold trim_right. f_equal. rewrite srev_app_distr.
  destruct (blank_cases w B) as [(a & -> & A)|[(a & b & -> & A & A2 & A3)|(a & b & c & -> & A & A2 & A3 & A4 & A5)]];
    rewrite !srev_cons; simpl; [now rewrite A|now rewrite A3, A2|now rewrite A4, A5, A3].
Qed.
Lemma trim_right_blanks q : blanks q -> forall r, trim_right (r ++ q) = trim_right r.
Proof.
  induction 1 as [|w p B _ IH]; intros r; [now rewrite app_nil_r_s|].
  rewrite <- app_assoc_s, IH. now apply trim_right_blank.
Qed.
Lemma blanks_app p q : blanks p -> blanks q -> blanks (p ++ q).
Proof. induction 1 as [|w r B _ IH]; intros Q; [exact Q|]. rewrite app_assoc_s. constructor; auto. Qed.
Lemma blanks_one w : blank w -> blanks w.
Proof. intros B. rewrite <- (app_nil_r_s w). constructor; [exact B|constructor]. Qed.

Lemma trim_right_taken s : exists q, blanks q /\ s = trim_right s ++ q.
Proof.
  remember (String.length s) as n eqn:Hn. revert s Hn.
  induction n as [n IH] using lt_wf_ind. intros s Hn.
  destruct (ends_space s) eqn:S; [|exists ""; split; [constructor|]; apply trim_right_id in S; now rewrite S, app_nil_r_s].
  apply ends_blank in S as (r & w & B & ->). rewrite trim_right_blank by exact B.
  assert (L : String.length r < n).
  { subst n. rewrite app_length_s. destruct (blank_cases w B) as [(a & -> & _)|[(a & b & -> & _)|(a & b & c & -> & _)]]; simpl; lia. }
  destruct (IH _ L r eq_refl) as (q & Q & E). exists (q ++ w). split; [apply blanks_app; [exact Q|now apply blanks_one]|].
  rewrite <- app_assoc_s. now rewrite <- E.
Qed.

Lemma blanks_lead q a r : blanks q -> q = String a r ->
  forall x y, is_space2 x a = false /\ is_space3 x a y = false /\ is_space3 x y a = false.
Proof.
  intros B E x y. destruct B as [|w p W _]; [discriminate|].
  assert (K : (code a <= 127 \/ 192 <= code a)%N).
  { destruct (blank_cases w W) as [(b & -> & A)|[(b & c & -> & _ & A & _)|(b & c & d & -> & _ & _ & A & _)]]; injection E as -> _.
    - unfold is_space1 in A. cbv zeta in A. rewrite orb_true_iff, andb_true_iff, !N.leb_le, N.eqb_eq in A. lia.
    - unfold is_space2 in A. rewrite andb_true_iff, N.eqb_eq in A. lia.
    - unfold is_space3 in A. cbv zeta in A.
      rewrite !orb_true_iff, !andb_true_iff, !orb_true_iff, !andb_true_iff, !N.leb_le, !N.eqb_eq in A. lia. }
  repeat split; apply not_true_is_false; intros H.
  - unfold is_space2 in H. rewrite andb_true_iff, orb_true_iff, !N.eqb_eq in H. lia.
  - unfold is_space3 in H. cbv zeta in H.
    rewrite !orb_true_iff, !andb_true_iff, !orb_true_iff, !andb_true_iff, !N.leb_le, !N.eqb_eq in H. lia.
  - unfold is_space3 in H. cbv zeta in H.
    rewrite !orb_true_iff, !andb_true_iff, !orb_true_iff, !andb_true_iff, !N.leb_le, !N.eqb_eq in H. lia.
Qed.

Lemma starts_space_before t q : t <> "" -> blanks q -> starts_space t = false -> starts_space (t ++ q) = false.
Proof.
  intros N B S. unfold starts_space in *. destruct t as [|a [|b [|c t]]]; [congruence| | |exact S].
  - cbn [append]. destruct q as [|x q]; [exact S|]. simpl in *. rewrite orb_false_r in S. rewrite S. simpl.
    destruct (blanks_lead _ x q B eq_refl a x) as (-> & _ & _). simpl. destruct q as [|y q]; [reflexivity|].
    now destruct (blanks_lead _ x (String y q) B eq_refl a y) as (_ & -> & _).
  - cbn [append]. destruct q as [|x q]; [exact S|]. simpl in *. rewrite orb_false_r in S. apply orb_false_iff in S as [-> ->]. simpl.
    now destruct (blanks_lead _ x q B eq_refl a b) as (_ & _ & ->).
Qed.

Lemma trim_right_starts t : starts_space t = false -> starts_space (trim_right t) = false.
Proof.
  intros S. destruct (trim_right_prefix t) as (q & E). apply not_true_is_false. intros H.
  apply starts_blank in H as (w & r & B & E2). rewrite E2 in E.
  assert (C : starts_space t = true).
  { apply starts_blank. exists w, (r ++ q). split; [exact B|]. rewrite <- app_assoc_s. exact E. }
  congruence.
Qed.

Theorem trim_space_iff s t : trim_space s = t <-> stripped s t.
Proof.
  unfold trim_space. split.
  - intros <-. destruct (trim_left_taken s) as (p & P & E1). destruct (trim_right_taken (trim_left s)) as (q & Q & E2).
    exists p, q. split; [now rewrite <- E2|]. split; [exact P|]. split; [exact Q|].
    assert (S : starts_space (trim_left s) = false).
    { apply trim_left_id. unfold trim_left. apply trim_gen_id. apply trim_gen_starts. }
    apply trim_right_starts in S. pose proof (trim_right_ends (trim_left s)) as N. split.
    + intros w r B E. enough (C : starts_space (trim_right (trim_left s)) = true) by congruence.
      apply starts_blank. exists w, r. auto.
    + intros r w B E. enough (C : ends_space (trim_right (trim_left s)) = true) by congruence.
      apply ends_blank. exists r, w. auto.
  - intros (p & q & -> & P & Q & A & B). rewrite trim_left_blanks by exact P.
    assert (S : starts_space t = false).
    { apply not_true_is_false. rewrite starts_blank. intros (w & r & W & E). exact (A w r W E). }
    assert (N : ends_space t = false).
    { apply not_true_is_false. rewrite ends_blank. intros (r & w & W & E). exact (B r w W E). }
    destruct t as [|a t'] eqn:E.
    + cbn [append]. rewrite <- (app_nil_r_s q), trim_left_blanks by exact Q. reflexivity.
    + rewrite <- E in *. assert (L : trim_left (t ++ q) = t ++ q).
      { apply trim_left_id. apply starts_space_before; [congruence|exact Q|exact S]. }
      rewrite L, trim_right_blanks by exact Q. now apply trim_right_id.
Qed.

Lemma trim_left_empty s : trim_left s = "" <-> blanks s.
Proof.
  split.
  - intros H. destruct (trim_left_taken s) as (p & P & E). rewrite H, app_nil_r_s in E. now subst.
  - intros H. rewrite <- (app_nil_r_s s), trim_left_blanks by exact H. reflexivity.
Qed.
