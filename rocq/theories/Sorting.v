(** * Sorting: sort.Slice and sort.Strings of the Go standard library.

    sort.Slice with [less(i, j) = key(l[i]) < key(l[j])] is not stable.  The
    model is parameterised by an arbitrary sorting function that returns a
    permutation ordered by key; nothing else is assumed. *)
From Coq Require Export Permutation Sorted.
From Verif Require Import GoStr GoStrFacts.

Definition ordered {A} (key : A -> string) : list A -> Prop :=
  StronglySorted (fun x y => str_leb (key x) (key y) = true).

Record sorter := MkSorter {
  sort_by : forall A : Type, (A -> string) -> list A -> list A;
  sort_by_perm : forall A key l, Permutation (sort_by A key l) l;
  sort_by_ordered : forall A key l, ordered key (sort_by A key l)
}.
Arguments sort_by s {A} key l.

(** Insertion sort is such a function (used in examples). *)
Fixpoint insert {A} (key : A -> string) (x : A) (l : list A) : list A :=
  match l with
  | [] => [x]
  | y :: r => if str_leb (key x) (key y) then x :: l else y :: insert key x r
  end.
Definition isort {A} (key : A -> string) (l : list A) : list A := fold_right (insert key) [] l.

Lemma insert_perm {A} (key : A -> string) x l : Permutation (insert key x l) (x :: l).
Proof.
  induction l as [|y l IH]; simpl; [reflexivity|].
  destruct (str_leb (key x) (key y)); [reflexivity|].
  rewrite IH. apply perm_swap.
Qed.
Lemma isort_perm A (key : A -> string) l : Permutation (isort key l) l.
Proof.
  induction l as [|x l IH]; simpl; [reflexivity|]. rewrite insert_perm. now constructor.
Qed.
Lemma insert_ordered {A} (key : A -> string) x l : ordered key l -> ordered key (insert key x l).
Proof.
  induction l as [|y l IH]; simpl; intros H.
  - repeat constructor.
  - destruct (str_leb (key x) (key y)) eqn:E.
    + constructor; [assumption|]. constructor; [assumption|].
      inversion H; subst. eapply Forall_impl; [|eassumption]. simpl.
      intros z Hz. eapply str_leb_trans; eauto.
    + inversion H as [|? ? H1 H2]; subst. constructor; [now apply IH|].
      eapply Permutation_Forall; [symmetry; apply insert_perm|].
      constructor; [|assumption].
      destruct (str_leb_total (key x) (key y)); congruence.
Qed.
Lemma isort_ordered A (key : A -> string) l : ordered key (isort key l).
Proof. induction l as [|x l IH]; simpl; [constructor|]. now apply insert_ordered. Qed.

Definition insertion_sorter : sorter := MkSorter (@isort) isort_perm isort_ordered.

(** With pairwise distinct keys the result does not depend on the sorting
    function nor on the input order. *)
Lemma ordered_perm_unique {A} (key : A -> string) l1 l2 :
  NoDup (map key l1) -> Permutation l1 l2 -> ordered key l1 -> ordered key l2 -> l1 = l2.
Proof.
  revert l2. induction l1 as [|x l1 IH]; intros l2 Hnd Hp Ho1 Ho2.
  - apply Permutation_nil in Hp. now subst.
  - destruct l2 as [|y l2]; [symmetry in Hp; apply Permutation_nil in Hp; discriminate|].
    inversion Ho1 as [|? ? Ho1' Hf1]; subst. inversion Ho2 as [|? ? Ho2' Hf2]; subst.
    assert (x = y) as ->.
    { assert (In y (x :: l1)) as Hy by (eapply Permutation_in; [symmetry; exact Hp|now left]).
      assert (In x (y :: l2)) as Hx by (eapply Permutation_in; [exact Hp|now left]).
      destruct Hy as [->|Hy]; [reflexivity|]. destruct Hx as [->|Hx]; [reflexivity|].
      rewrite Forall_forall in Hf1, Hf2.
      pose proof (str_leb_antisym _ _ (Hf1 _ Hy) (Hf2 _ Hx)) as Hk.
      inversion Hnd as [|? ? Hn _]; subst. exfalso. apply Hn. rewrite Hk.
      now apply in_map. }
    f_equal. apply IH; auto.
    + now inversion Hnd.
    + eapply Permutation_cons_inv. exact Hp.
Qed.

Lemma sort_by_unique {A} (s1 s2 : sorter) (key : A -> string) l1 l2 :
  NoDup (map key l1) -> Permutation l1 l2 -> sort_by s1 key l1 = sort_by s2 key l2.
Proof.
  intros Hnd Hp. apply (ordered_perm_unique key).
  - eapply Permutation_NoDup; [|exact Hnd]. apply Permutation_map. symmetry. apply sort_by_perm.
  - rewrite sort_by_perm, Hp. symmetry. apply sort_by_perm.
  - apply sort_by_ordered.
  - apply sort_by_ordered.
Qed.
Lemma sort_by_id {A} (s : sorter) (key : A -> string) l :
  NoDup (map key l) -> ordered key l -> sort_by s key l = l.
Proof.
  intros Hnd Ho. symmetry. apply (ordered_perm_unique key); auto.
  - symmetry. apply sort_by_perm.
  - apply sort_by_ordered.
Qed.
Lemma sort_by_in {A} (s : sorter) (key : A -> string) l x : In x (sort_by s key l) <-> In x l.
Proof.
  split; apply Permutation_in; [|symmetry]; apply sort_by_perm.
Qed.
