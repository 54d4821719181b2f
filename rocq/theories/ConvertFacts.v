(** Lemmas about the conversion of structures. *)
From Verif Require Import GoStr Types TvUtil TvParser Convert SpecConvert.

(** ** Induction on types and values *)
Section Ind.
  Variable P : gty -> Prop.
  Hypothesis H1 : P TStr.
  Hypothesis H2 : P TBool.
  Hypothesis H3 : P TInt.
  Hypothesis H4 : forall t, P t -> P (TPtr t).
  Hypothesis H5 : forall t, P t -> P (TSlice t).
  Hypothesis H6 : forall t, P t -> P (TMap t).
  Hypothesis H7 : forall fs, Forall (fun f => P (snd f)) fs -> P (TStruct fs).
  Fixpoint gty_ind' (t : gty) : P t :=
    match t with
    | TStr => H1 | TBool => H2 | TInt => H3
    | TPtr u => H4 u (gty_ind' u)
    | TSlice u => H5 u (gty_ind' u)
    | TMap u => H6 u (gty_ind' u)
    | TStruct fs => H7 fs ((fix go (fs : list (string * gty)) : Forall (fun f => P (snd f)) fs :=
        match fs with [] => Forall_nil _ | f :: r => Forall_cons f (gty_ind' (snd f)) (go r) end) fs)
    end.
End Ind.
Section IndV.
  Variable P : gval -> Prop.
  Hypothesis H1 : forall s, P (VStr s).
  Hypothesis H2 : forall b, P (VBool b).
  Hypothesis H3 : forall n, P (VInt n).
  Hypothesis H4 : P VNil.
  Hypothesis H5 : forall v, P v -> P (VPtr v).
  Hypothesis H6 : forall l, Forall P l -> P (VSlice l).
  Hypothesis H7 : forall m, Forall (fun e => P (snd e)) m -> P (VMap m).
  Hypothesis H8 : forall fs, Forall (fun e => P (snd e)) fs -> P (VStruct fs).
  Fixpoint gval_ind' (v : gval) : P v :=
    match v with
    | VStr s => H1 s | VBool b => H2 b | VInt n => H3 n | VNil => H4
    | VPtr w => H5 w (gval_ind' w)
    | VSlice l => H6 l ((fix go (l : list gval) : Forall P l :=
        match l with [] => Forall_nil _ | x :: r => Forall_cons x (gval_ind' x) (go r) end) l)
    | VMap m => H7 m ((fix go (l : list (string * gval)) : Forall (fun e => P (snd e)) l :=
        match l with [] => Forall_nil _ | x :: r => Forall_cons x (gval_ind' (snd x)) (go r) end) m)
    | VStruct m => H8 m ((fix go (l : list (string * gval)) : Forall (fun e => P (snd e)) l :=
        match l with [] => Forall_nil _ | x :: r => Forall_cons x (gval_ind' (snd x)) (go r) end) m)
    end.
End IndV.

(** ** Association lists *)
Lemma assoc_in {A} k (l : list (string * A)) x : assoc k l = Some x -> In (k, x) l.
Proof.
  induction l as [|[n y] l IH]; cbn [assoc]; [discriminate|]. destruct (String.eqb_spec n k) as [->|]; intros E.
  - inversion E; subst. now left.
  - right. auto.
Qed.
Lemma in_assoc {A} k (l : list (string * A)) x : NoDup (map fst l) -> In (k, x) l -> assoc k l = Some x.
Proof.
  induction l as [|[n y] l IH]; cbn [assoc map fst]; intros ND I; [destruct I|]. inversion ND as [|? ? N ND']; subst.
  destruct I as [E|I].
  - inversion E; subst. now rewrite String.eqb_refl.
  - destruct (String.eqb_spec n k) as [->|]; [|auto]. exfalso. apply N. now apply (in_map fst) in I.
Qed.
Lemma assoc_none {A} k (l : list (string * A)) : assoc k l = None <-> ~ In k (map fst l).
Proof.
  induction l as [|[n y] l IH]; cbn [assoc map fst]; [tauto|]. destruct (String.eqb_spec n k) as [->|N].
  - split; [discriminate|]. intros H. destruct H. now left.
  - rewrite IH. cbn. intuition.
Qed.
Lemma assoc_map {A B} k (l : list (string * A)) (f : string -> A -> B) :
  assoc k (map (fun e => (fst e, f (fst e) (snd e))) l) = option_map (f k) (assoc k l).
Proof.
  induction l as [|[n y] l IH]; cbn [assoc map fst snd]; [reflexivity|].
  destruct (String.eqb_spec n k) as [->|]; [reflexivity|exact IH].
Qed.
Lemma put_map {A} k (y : A) l : NoDup (map fst l) ->
  put k y l = map (fun e => (fst e, if String.eqb (fst e) k then y else snd e)) l.
Proof.
  induction l as [|[n x] l IH]; cbn [put map fst snd]; [reflexivity|]. intros ND. inversion ND as [|? ? N ND']; subst.
  destruct (String.eqb_spec n k) as [->|]; f_equal; auto.
  rewrite <- (map_id l) at 1. apply map_ext_in. intros [m z] I. cbn.
  destruct (String.eqb_spec m k) as [->|]; [|reflexivity]. destruct N. now apply (in_map fst) in I.
Qed.
Lemma assoc_put {A} k k' (y : A) l : assoc k (put k' y l) =
  if String.eqb k k' then (if assoc k l then Some y else None) else assoc k l.
Proof.
  induction l as [|[n x] l IH]; cbn [put assoc].
  - now destruct (k =? k').
  - destruct (String.eqb_spec n k') as [->|N]; cbn [assoc].
    + destruct (String.eqb_spec k' k) as [->|N']; [now rewrite String.eqb_refl|].
      destruct (String.eqb_spec k k'); [congruence|reflexivity].
    + destruct (String.eqb_spec n k) as [->|]; [|exact IH]. destruct (String.eqb_spec k k'); [congruence|reflexivity].
Qed.
Lemma put_fst {A} k (y : A) l : map fst (put k y l) = map fst l.
Proof. induction l as [|[n x] l IH]; cbn [put map fst]; [reflexivity|]. destruct (n =? k); cbn [map fst]; congruence. Qed.

(** ** Well-formed types, compatible types, extensions of a type *)
Fixpoint distinct (l : list string) : bool := match l with [] => true | x :: r => negb (existsb (String.eqb x) r) && distinct r end.
Lemma distinct_ok l : distinct l = true -> NoDup l.
Proof.
  induction l as [|x l IH]; cbn; intros H; [constructor|]. apply andb_prop in H as [H1 H2]. constructor; [|auto].
  intros I. rewrite (proj2 (existsb_exists _ _)) in H1; [discriminate|]. exists x. split; [exact I|apply String.eqb_refl].
Qed.
Fixpoint wf (t : gty) : bool :=
  match t with
  | TStr | TBool | TInt => true
  | TPtr u => match u with TStruct _ => wf u | _ => false end
  | TSlice u => wf u
  | TMap u => wf u
  | TStruct fs => distinct (map fst fs) && (fix go (fs : list (string * gty)) :=
      match fs with [] => true | (_, u) :: r => wf u && go r end) fs
  end.
Fixpoint compat (t t' : gty) : bool :=
  match t with
  | TStr => match base t' with TStr => true | _ => false end
  | TBool => match base t' with TBool => true | _ => false end
  | TInt => match base t' with TInt => true | _ => false end
  | TPtr u => compat u t'
  | TSlice u => match base t' with TSlice u' => compat u u' | _ => false end
  | TMap u => match base t' with TMap u' => compat u u' | _ => false end
  | TStruct ts =>
      match base t' with
      | TStruct ts' => (fix go (ts : list (string * gty)) :=
          match ts with
          | [] => true
          | (n, u) :: r => match assoc n ts' with Some u' => compat u u' | None => true end && go r
          end) ts
      | _ => false
      end
  end.
(** [lift]: a structure may become a pointer to a structure *)
Fixpoint sub (lift : bool) (t t' : gty) : bool :=
  match t with
  | TStr => match t' with TStr => true | _ => false end
  | TBool => match t' with TBool => true | _ => false end
  | TInt => match t' with TInt => true | _ => false end
  | TPtr u => match t' with TPtr u' => sub lift u u' | _ => false end
  | TSlice u => match t' with TSlice u' => sub lift u u' | _ => false end
  | TMap u => match u, t' with TPtr _, TMap u' => sub lift u u' | _, _ => false end
  | TStruct ts =>
      match (if lift then base t' else t') with
      | TStruct ts' => (fix go (ts : list (string * gty)) :=
          match ts with
          | [] => true
          | (n, u) :: r => match assoc n ts' with Some u' => sub lift u u' | None => false end && go r
          end) ts
      | _ => false
      end
  end.
Lemma wf_struct fs : wf (TStruct fs) = true <-> distinct (map fst fs) = true /\ Forall (fun f => wf (snd f) = true) fs.
Proof.
  cbn [wf]. rewrite andb_true_iff. apply and_iff_compat_l.
  induction fs as [|[n u] r IH]; [split; [constructor|reflexivity]|]. rewrite andb_true_iff, IH. split.
  - intros [? ?]. now constructor.
  - intros F. now inversion F.
Qed.
Lemma compat_struct ts ts' : compat (TStruct ts) (TStruct ts') = true <->
  Forall (fun f => forall u', assoc (fst f) ts' = Some u' -> compat (snd f) u' = true) ts.
Proof.
  cbn [compat base]. induction ts as [|[n u] r IH]; [split; [constructor|reflexivity]|]. rewrite andb_true_iff, IH. split.
  - intros [A B]. constructor; [|exact B]. cbn [fst snd]. intros u' E. now rewrite E in A.
  - intros F. inversion F as [|? ? A B]; subst. cbn [fst snd] in A. split; [|exact B]. destruct (assoc n ts'); auto.
Qed.
Lemma sub_struct lift ts ts' : sub lift (TStruct ts) (TStruct ts') = true <->
  Forall (fun f => exists u', assoc (fst f) ts' = Some u' /\ sub lift (snd f) u' = true) ts.
Proof.
  cbn [sub]. replace (if lift then base (TStruct ts') else TStruct ts') with (TStruct ts') by (now destruct lift).
  induction ts as [|[n u] r IH]; [split; [constructor|reflexivity]|]. rewrite andb_true_iff, IH. split.
  - intros [A B]. constructor; [|exact B]. cbn [fst snd]. destruct (assoc n ts'); [eauto|discriminate].
  - intros F. inversion F as [|? ? A B]; subst. cbn [fst snd] in A. split; [|exact B]. destruct A as (u' & -> & A). exact A.
Qed.

(** ** Zero values *)
Lemma zero_struct ts : zero (TStruct ts) = VStruct (map (fun f => (fst f, zero (snd f))) ts).
Proof. cbn [zero]. f_equal. induction ts as [|[n u] r IH]; cbn; congruence. Qed.
Lemma is_zero_struct fs : is_zero (VStruct fs) = forallb (fun e => is_zero (snd e)) fs.
Proof. cbn [is_zero]. induction fs as [|[n u] r IH]; cbn; congruence. Qed.
Lemma typed_zero t : typed t (zero t).
Proof.
  induction t using gty_ind'; try (now cbn; constructor). rewrite zero_struct. constructor.
  induction H as [|[n u] r H F IH]; cbn; constructor; auto.
Qed.
Lemma zero_unique v : forall t, typed t v -> is_zero v = true -> v = zero t.
Proof.
  induction v using gval_ind'; intros t T Z; inversion T; subst; cbn in *.
  - apply String.eqb_eq in Z. congruence.
  - destruct b; [discriminate|reflexivity].
  - apply Z.eqb_eq in Z. congruence.
  - reflexivity.
  - reflexivity.
  - reflexivity.
  - discriminate.
  - discriminate.
  - discriminate.
  - change (VStruct fs = zero (TStruct ts)). rewrite zero_struct. f_equal. change (is_zero (VStruct fs) = true) in Z. rewrite is_zero_struct in Z.
    clear T. match goal with F : Forall2 _ _ _ |- _ => rename F into F2 end. revert fs H F2 Z. induction ts as [|[n u] ts IH]; intros fs H F Z; inversion F as [|? [m x] ? ? [E TX] F']; subst; [reflexivity|].
    cbn in Z, E, TX |- *. apply andb_prop in Z as [Z1 Z2]. inversion H as [|? ? HX HR]; subst. f_equal; [|now apply IH].
    f_equal. now apply HX.
Qed.

Ltac tinv T :=
  inversion T; subst;
  try match goal with F : NoDup (map fst ?m), G : Forall (fun e => typed _ (snd e)) ?m |- _ => rename F into NM; rename G into FT end;
  try match goal with F : Forall2 _ _ _ |- _ => rename F into FT end;
  try match goal with F : Forall (typed _) _ |- _ => rename F into FT end;
  try match goal with F : typed _ ?v, v : gval |- _ => lazymatch type of T with typed _ (VPtr v) => rename F into FT end end.

(** ** The conversion, piece by piece *)
Section Facts.
  Variable dz : bool.
  Notation conv := (conv dz).
  Fixpoint conv_list (te : gty) (l : list gval) : res (list gval) :=
    match l with
    | [] => Ok []
    | x :: r => let* y := conv te x in
                let* r' := conv_list te r in
                Ok (match y with Some z => z | None => zero te end :: r')
    end.
  Fixpoint conv_map (te : gty) (m : list (string * gval)) : res (list (string * gval)) :=
    match m with
    | [] => Ok []
    | (k, x) :: r => let* y := conv te x in
                     let* r' := conv_map te r in
                     Ok (match y with Some z => (k, z) :: r' | None => r' end)
    end.
  Fixpoint conv_fields (ts : list (string * gty)) (fs : list (string * gval)) (acc : list (string * gval)) : res (list (string * gval)) :=
    match fs with
    | [] => Ok acc
    | (n, x) :: r =>
        match assoc n ts with
        | None => conv_fields ts r acc
        | Some tf => let* y := conv tf x in
                     conv_fields ts r (match y with Some z => put n z acc | None => acc end)
        end
    end.
  Lemma conv_slice t te l : base t = TSlice te ->
    conv t (VSlice l) = let* l' := conv_list te l in Ok (Some (wrap t (VSlice l'))).
  Proof.
    intros E. cbn [Convert.conv]. rewrite E. apply (f_equal (fun r => let* l' := r in Ok (Some (wrap t (VSlice l'))))).
    induction l as [|x r IH]; [reflexivity|]. cbn [conv_list]. now rewrite <- IH.
  Qed.
  Lemma conv_mapv t te l : base t = TMap te ->
    conv t (VMap l) = let* l' := conv_map te l in Ok (Some (wrap t (VMap l'))).
  Proof.
    intros E. cbn [Convert.conv]. rewrite E. apply (f_equal (fun r => let* l' := r in Ok (Some (wrap t (VMap l'))))).
    induction l as [|[k x] r IH]; [reflexivity|]. cbn [conv_map]. now rewrite <- IH.
  Qed.
  Lemma conv_struct t ts fs : base t = TStruct ts ->
    conv t (VStruct fs) = let* l' := conv_fields ts fs (map (fun f => (fst f, zero (snd f))) ts) in Ok (Some (wrap t (VStruct l'))).
  Proof.
    intros E. cbn [Convert.conv]. rewrite E. apply (f_equal (fun r => let* l' := r in Ok (Some (wrap t (VStruct l'))))).
    generalize (map (fun f => (fst f, zero (snd f))) ts). induction fs as [|[k x] r IH]; intros acc; [reflexivity|]. cbn [conv_fields].
    destruct (assoc k ts); [|apply IH]. destruct (conv g x); [apply IH|reflexivity..].
  Qed.

  Definition out (t : gty) (v : gval) : gval := match conv t v with Ok (Some z) => z | _ => zero t end.
  Definition fine (t : gty) (v : gval) : Prop := exists o, conv t v = Ok o.

  Lemma list_out te l : Forall (fine te) l -> conv_list te l = Ok (map (out te) l).
  Proof.
    intros F. induction F as [|x l [o E] F IH]; [reflexivity|]. cbn [conv_list map]. rewrite E, IH. cbn [bindR].
    unfold out at 2. rewrite E. now destruct o.
  Qed.
  Lemma map_out te m : Forall (fun e => fine te (snd e)) m ->
    exists m', conv_map te m = Ok m' /\
    m' = map (fun e => (fst e, out te (snd e))) (filter (fun e => match conv te (snd e) with Ok (Some _) => true | _ => false end) m).
  Proof.
    intros F. induction F as [|[k x] l [o E] F (m' & IH & D)]; [now eexists|]. cbn [conv_map map snd fst filter] in *.
    rewrite E, IH. cbn [bindR]. destruct o as [z|]; eexists; (split; [reflexivity|]); [|exact D]. cbn [map fst snd]. rewrite <- D.
    unfold out. now rewrite E.
  Qed.
  Lemma fields_out ts fs : NoDup (map fst fs) ->
    Forall (fun e => forall u, assoc (fst e) ts = Some u -> fine u (snd e)) fs ->
    forall acc, NoDup (map fst acc) ->
    conv_fields ts fs acc =
    Ok (map (fun e => (fst e, match assoc (fst e) fs, assoc (fst e) ts with
                              | Some x, Some u => match conv u x with Ok (Some z) => z | _ => snd e end
                              | _, _ => snd e end)) acc).
  Proof.
    induction fs as [|[n x] r IH]; intros ND F acc NA; cbn [conv_fields].
    - rewrite <- (map_id acc) at 1. f_equal. apply map_ext. now intros [].
    - inversion ND as [|? ? N ND']; subst. inversion F as [|? ? F1 F2]; subst. cbn [fst snd] in F1.
      assert (K : forall m, m <> n -> assoc m ((n, x) :: r) = assoc m r).
      { intros e Ne. cbn [assoc]. destruct (String.eqb_spec n e); [congruence|reflexivity]. }
      assert (KN : assoc n r = None) by (now apply assoc_none).
      destruct (assoc n ts) as [u|] eqn:A.
      + destruct (F1 u eq_refl) as [o E]. rewrite E. cbn [bindR]. rewrite IH; auto.
        2: { destruct o; [now rewrite put_fst|exact NA]. }
        f_equal. destruct o as [z|].
        * rewrite put_map by exact NA. rewrite map_map. apply map_ext. intros [m y]. cbn [fst snd].
          destruct (String.eqb_spec m n) as [->|Nm].
          -- rewrite KN. cbn [assoc]. now rewrite String.eqb_refl, A, E.
          -- now rewrite (K m) by exact Nm.
        * apply map_ext. intros [m y]. cbn [fst snd]. destruct (String.eqb_spec m n) as [->|Nm].
          -- rewrite KN. cbn [assoc]. now rewrite String.eqb_refl, A, E.
          -- now rewrite (K m) by exact Nm.
      + rewrite IH; auto. f_equal. apply map_ext. intros [m y]. cbn [fst snd]. destruct (String.eqb_spec m n) as [->|Nm].
        * rewrite KN, A. cbn [assoc]. now rewrite String.eqb_refl.
        * now rewrite (K m) by exact Nm.
  Qed.
  Definition field_out (fs : list (string * gval)) (f : string * gty) : string * gval :=
    (fst f, match assoc (fst f) fs with Some x => out (snd f) x | None => zero (snd f) end).
  Lemma struct_out ts fs : NoDup (map fst ts) -> NoDup (map fst fs) ->
    Forall (fun e => forall u, assoc (fst e) ts = Some u -> fine u (snd e)) fs ->
    conv_fields ts fs (map (fun f => (fst f, zero (snd f))) ts) = Ok (map (field_out fs) ts).
  Proof.
    intros NT NF F. rewrite fields_out; auto.
    2: { rewrite map_map. cbn [fst]. exact NT. }
    f_equal. rewrite map_map. apply map_ext_in. intros [n u] I. cbn [fst snd]. unfold field_out. cbn [fst snd].
    rewrite (in_assoc n ts u NT I). destruct (assoc n fs) as [x|]; [|reflexivity]. reflexivity.
  Qed.
  Lemma typed_fst ts fs : Forall2 (fun (f : string * gty) (e : string * gval) => fst f = fst e /\ typed (snd f) (snd e)) ts fs -> map fst fs = map fst ts.
  Proof. induction 1 as [|f e ts fs [E _] F IH]; cbn; congruence. Qed.
  Lemma typed_assoc ts fs n u : Forall2 (fun (f : string * gty) (e : string * gval) => fst f = fst e /\ typed (snd f) (snd e)) ts fs ->
    assoc n ts = Some u -> exists x, assoc n fs = Some x /\ typed u x.
  Proof.
    induction 1 as [|[m w] [m' x] ts fs [E T] F IH]; cbn [assoc]; [discriminate|]. cbn in E, T. subst m'.
    destruct (m =? n); [|exact IH]. intros Q. inversion Q; subst. eauto.
  Qed.
  Lemma typed_assoc' ts fs n x : Forall2 (fun (f : string * gty) (e : string * gval) => fst f = fst e /\ typed (snd f) (snd e)) ts fs ->
    assoc n fs = Some x -> exists u, assoc n ts = Some u /\ typed u x.
  Proof.
    induction 1 as [|[m w] [m' y] ts fs [E T] F IH]; cbn [assoc]; [discriminate|]. cbn in E, T. subst m'.
    destruct (m =? n); [|exact IH]. intros Q. inversion Q; subst. eauto.
  Qed.
  Lemma wf_assoc ts n u : wf (TStruct ts) = true -> assoc n ts = Some u -> wf u = true.
  Proof.
    intros W A. apply wf_struct in W as [_ W]. rewrite Forall_forall in W. apply assoc_in in A. now apply W in A.
  Qed.
  Lemma wf_nodup ts : wf (TStruct ts) = true -> NoDup (map fst ts).
  Proof. intros W. apply wf_struct in W as [W _]. now apply distinct_ok. Qed.
  Lemma wf_base t : wf t = true -> wf (base t) = true.
  Proof. destruct t; cbn; auto. destruct t; auto; discriminate. Qed.

  (** ** No errors *)
  Lemma conv_fine v : forall t t', wf t = true -> compat t t' = true -> typed t v -> wf t' = true -> fine t' v.
  Proof.
    induction v using gval_ind'; intros t t' W C T W'; tinv T; unfold fine.
    - cbn in C |- *. destruct (base t'); try discriminate. eauto.
    - cbn in C |- *. destruct (base t'); try discriminate. eauto.
    - cbn in C |- *. destruct (base t'); try discriminate. eauto.
    - cbn. eauto.
    - cbn. eauto.
    - cbn. eauto.
    - cbn. destruct (dz && is_zero v); [eauto|]. apply (IHv t0); auto. cbn in W. destruct t0; auto; discriminate.
    - cbn in C. destruct (base t') as [| | | |te| |] eqn:B; try discriminate. rewrite (conv_slice _ _ _ B).
      rewrite list_out; [cbn; eauto|]. apply wf_base in W'. rewrite B in W'. rewrite Forall_forall in H, FT |- *.
      intros x I. apply (H x I t0 te); auto.
    - cbn in C. destruct (base t') as [| | | | |te|] eqn:B; try discriminate. rewrite (conv_mapv _ _ _ B).
      destruct (map_out te m) as (m' & -> & _); [|cbn; eauto]. apply wf_base in W'. rewrite B in W'.
      rewrite Forall_forall in H, FT |- *. intros x I. apply (H x I t0 te); auto.
    - cbn [compat] in C. destruct (base t') as [| | | | | |ts'] eqn:B; try discriminate. rewrite (conv_struct _ _ _ B).
      apply wf_base in W'. rewrite B in W'. change (compat (TStruct ts) (TStruct ts') = true) in C.
      assert (NT : NoDup (map fst ts)) by (now apply wf_nodup).
      rewrite struct_out; [cbn; eauto|now apply wf_nodup|now rewrite (typed_fst ts fs)|].
      rewrite Forall_forall in H |- *. intros [n x] I u A. cbn [fst snd] in A.
      destruct (typed_assoc' ts fs n x FT) as (w & AW & TX).
      { apply in_assoc; [now rewrite (typed_fst ts fs)|exact I]. }
      apply (H (n, x) I w u); [exact (wf_assoc _ _ _ W AW)| |exact TX|exact (wf_assoc _ _ _ W' A)].
      apply compat_struct in C. rewrite Forall_forall in C. apply assoc_in in AW. now apply (C (n, w)).
  Qed.

  (** ** The image of a value *)
  Lemma out_slice t te u l : base t = TSlice te -> Forall (typed u) l -> wf u = true -> compat u te = true -> wf te = true ->
    out t (VSlice l) = wrap t (VSlice (map (out te) l)).
  Proof.
    intros B F W C W'. unfold out at 1. rewrite (conv_slice _ _ _ B), list_out; [reflexivity|].
    eapply Forall_impl; [|exact F]. intros x T. apply (conv_fine _ u); auto.
  Qed.
  Definition kept (te : gty) (m : list (string * gval)) : list (string * gval) :=
    filter (fun e => match conv te (snd e) with Ok (Some _) => true | _ => false end) m.
  Lemma out_map t te u m : base t = TMap te -> Forall (fun e => typed u (snd e)) m -> wf u = true -> compat u te = true -> wf te = true ->
    out t (VMap m) = wrap t (VMap (map (fun e => (fst e, out te (snd e))) (kept te m))).
  Proof.
    intros B F W C W'. unfold out at 1. rewrite (conv_mapv _ _ _ B). destruct (map_out te m) as (m' & -> & ->); [|reflexivity].
    eapply Forall_impl; [|exact F]. intros x T. apply (conv_fine _ u); auto.
  Qed.
  Lemma out_struct t ts ts' fs : base t = TStruct ts' -> wf t = true -> wf (TStruct ts) = true -> compat (TStruct ts) (TStruct ts') = true ->
    typed (TStruct ts) (VStruct fs) -> out t (VStruct fs) = wrap t (VStruct (map (field_out fs) ts')).
  Proof.
    intros B W' W C T. unfold out at 1. rewrite (conv_struct _ _ _ B). tinv T.
    apply wf_base in W'. rewrite B in W'.
    assert (NT : NoDup (map fst ts)) by (now apply wf_nodup).
    rewrite struct_out; [reflexivity|now apply wf_nodup|now rewrite (typed_fst ts fs)|].
    rewrite Forall_forall. intros [n x] I u A. cbn [fst snd] in A.
    destruct (typed_assoc' ts fs n x FT) as (w & AW & TX).
    { apply in_assoc; [now rewrite (typed_fst ts fs)|exact I]. }
    apply (conv_fine x w u); [exact (wf_assoc _ _ _ W AW)| |exact TX|exact (wf_assoc _ _ _ W' A)].
    apply compat_struct in C. rewrite Forall_forall in C. apply assoc_in in AW. now apply (C (n, w)).
  Qed.
  Lemma out_ptr t w : out t (VPtr w) = if dz && is_zero w then zero t else out t w.
  Proof. unfold out. cbn. now destruct (dz && is_zero w). Qed.
  Lemma assoc_field_out fs ts n u : assoc n ts = Some u ->
    assoc n (map (field_out fs) ts) = Some (match assoc n fs with Some x => out u x | None => zero u end).
  Proof.
    intros A. unfold field_out.
    rewrite (assoc_map n ts (fun m w => match assoc m fs with Some x => out w x | None => zero w end)), A. reflexivity.
  Qed.
  Lemma compat_assoc ts ts' n u u' : compat (TStruct ts) (TStruct ts') = true -> assoc n ts = Some u -> assoc n ts' = Some u' ->
    compat u u' = true.
  Proof. intros C A A'. apply compat_struct in C. rewrite Forall_forall in C. apply assoc_in in A. now apply (C (n, u)). Qed.

  (** ** Types of the results *)
  Lemma typed_wrap t z : typed (base t) z -> typed t (wrap t z).
  Proof. destruct t; cbn; auto. intros. now constructor. Qed.
  Lemma NoDup_filter_map {B} (f : string * gval -> bool) (g : string * gval -> B) m :
    NoDup (map fst m) -> NoDup (map fst (map (fun e => (fst e, g e)) (filter f m))).
  Proof.
    rewrite map_map. cbn [fst]. induction m as [|e m IH]; cbn [map filter]; intros ND; [constructor|].
    inversion ND as [|? ? N ND']; subst. destruct (f e); [|auto]. cbn [map]. constructor; [|auto].
    intros I. apply N. apply in_map_iff in I as (y & <- & I). apply filter_In in I as [I _]. now apply in_map.
  Qed.
  Lemma out_typed v : forall t t', wf t = true -> compat t t' = true -> typed t v -> wf t' = true -> typed t' (out t' v).
  Proof.
    induction v using gval_ind'; intros t t' W C T W'; tinv T.
    - unfold out. cbn in C |- *. destruct (base t') eqn:B; try discriminate. apply typed_wrap. rewrite B. constructor.
    - unfold out. cbn in C |- *. destruct (base t') eqn:B; try discriminate. apply typed_wrap. rewrite B. constructor.
    - unfold out. cbn in C |- *. destruct (base t') eqn:B; try discriminate. apply typed_wrap. rewrite B. constructor.
    - apply typed_zero.
    - apply typed_zero.
    - apply typed_zero.
    - rewrite out_ptr. destruct (dz && is_zero v); [apply typed_zero|]. apply (IHv t0); auto. cbn in W. destruct t0; auto; discriminate.
    - cbn [compat] in C. destruct (base t') as [| | | |te| |] eqn:B; try discriminate. apply wf_base in W' as WB. rewrite B in WB.
      rewrite (out_slice t' te t0 l B FT W C WB). apply typed_wrap. rewrite B. constructor. apply Forall_map.
      rewrite Forall_forall in H, FT |- *. intros x I. apply (H x I t0 te); auto.
    - cbn [compat] in C. destruct (base t') as [| | | | |te|] eqn:B; try discriminate. apply wf_base in W' as WB. rewrite B in WB.
      rewrite (out_map t' te t0 m B FT W C WB). apply typed_wrap. rewrite B. constructor; [now apply NoDup_filter_map|].
      apply Forall_map. unfold kept. rewrite Forall_forall in H, FT |- *. intros x I. apply filter_In in I as [I _]. cbn [snd]. apply (H x I t0 te); auto.
    - cbn [compat] in C. destruct (base t') as [| | | | | |ts'] eqn:B; try discriminate. change (compat (TStruct ts) (TStruct ts') = true) in C.
      rewrite (out_struct t' ts ts' fs B W' W C T). apply typed_wrap. rewrite B. constructor.
      apply wf_base in W' as WB. rewrite B in WB.
      assert (G : Forall (fun f => typed (snd f) (snd (field_out fs f))) ts').
      { rewrite Forall_forall. intros [n u'] I. unfold field_out. cbn [fst snd].
        destruct (assoc n fs) as [x|] eqn:A; [|apply typed_zero]. destruct (typed_assoc' ts fs n x FT A) as (w & AW & TX).
        assert (A' : assoc n ts' = Some u') by (apply in_assoc; [now apply wf_nodup|exact I]).
        apply assoc_in in A as IA. rewrite Forall_forall in H. apply (H (n, x) IA w u'); [exact (wf_assoc _ _ _ W AW)|exact (compat_assoc _ _ _ _ _ C AW A')|exact TX|exact (wf_assoc _ _ _ WB A')]. }
      clear -G. induction G as [|f r G F IH]; cbn [map]; constructor; auto.
  Qed.

  (** ** What can be read *)
  Lemma get_base t v p : wf t = true -> get t v p = get (fst (target t v)) (snd (target t v)) p.
  Proof.
    intros W. destruct t; try reflexivity. cbn [target fst snd]. cbn in W. destruct t; try discriminate.
    destruct p as [|s r]; reflexivity.
  Qed.
  Lemma target_wrap t z : target t (wrap t z) = (base t, z).
  Proof. destruct t; reflexivity. Qed.
  Lemma target_zero t : target t (zero t) = (base t, zero (base t)).
  Proof. destruct t; reflexivity. Qed.
  Lemma path_base t p : path_of t p = path_of (base t) p \/ exists u, t = TPtr (TPtr u).
  Proof. destruct t as [| | |[]| | |]; try (left; destruct p; reflexivity). right. eauto. Qed.
  Lemma path_base' t p : wf t = true -> path_of t p = path_of (base t) p.
  Proof. intros W. destruct (path_base t p) as [|(u & ->)]; [auto|discriminate]. Qed.

  Lemma base_base t : wf t = true -> base (base t) = base t.
  Proof. destruct t as [| | |[]| | |]; cbn; auto; discriminate. Qed.
  Lemma compat_base t t' : wf t = true -> wf t' = true -> compat t t' = true -> compat (base t) (base t') = true.
  Proof.
    intros W W' C. pose proof (base_base t' W') as BB.
    destruct t as [| | |[]| | |]; cbn in W; try discriminate; cbn [base compat] in *; rewrite ?BB; exact C.
  Qed.
  Lemma get_zero p : forall t t', wf t = true -> wf t' = true -> compat t t' = true -> path_of t p = true -> path_of t' p = true ->
    get t' (zero t') p = get t (zero t) p.
  Proof.
    induction p as [|s p IH]; intros t t' W W' C P P'; rewrite (get_base t'), (get_base t) by assumption; rewrite !target_zero; cbn [fst snd].
    - rewrite path_base' in P, P' by assumption. apply wf_base in W as WB, W' as WB'.
      apply (compat_base t t' W W') in C as CB.
      clear C. destruct (base t) as [| | |[]| | |]; cbn in P; try discriminate; destruct (base t') as [| | |[]| | |]; try discriminate; reflexivity.
    - rewrite path_base' in P, P' by assumption. apply wf_base in W as WB, W' as WB'.
      apply (compat_base t t' W W') in C as CB.
      pose proof (base_base t W) as BB. pose proof (base_base t' W') as BB'. clear C. destruct s as [n|i|k].
      + cbn [path_of] in P, P'. destruct (base t) as [| | |[]| | |ts]; try discriminate.
        destruct (base t') as [| | |[]| | |ts']; try discriminate. cbn [base] in P, P'. rewrite !zero_struct. cbn [get target].
        destruct (assoc n ts) as [u|] eqn:A; [|discriminate]. destruct (assoc n ts') as [u'|] eqn:A'; [|discriminate].
        rewrite !(assoc_map n _ (fun _ w => zero w)), A, A'. cbn [option_map].
        apply IH; auto; [exact (wf_assoc _ _ _ WB A)|exact (wf_assoc _ _ _ WB' A')|exact (compat_assoc _ _ _ _ _ CB A A')].
      + cbn [path_of] in P, P'. destruct (base t) as [| | |[]| | |]; try discriminate.
        destruct (base t') as [| | |[]| | |]; try discriminate. reflexivity.
      + cbn [path_of] in P, P'. destruct (base t) as [| | |[]| |u|]; try discriminate.
        destruct (base t') as [| | |[]| |u'|]; try discriminate. cbn [base] in P, P'. cbn [get target zero]. apply IH; auto.
  Qed.
  (** values that are neither pointers nor nil *)
  Definition direct (v : gval) : Prop := match v with VNil | VPtr _ => False | _ => True end.
  Lemma out_wrap t v : wf t = true -> direct v -> fine t v -> out t v = wrap t (out (base t) v).
  Proof.
    intros W D [o E]. destruct t as [| | |u| | |]; try reflexivity. cbn [base]. cbn in W. destruct u; try discriminate.
    unfold out. rewrite E. destruct v; cbn in D; try contradiction; try (cbn in E; discriminate).
    rewrite (conv_struct (TPtr (TStruct fs)) fs _ eq_refl) in E. rewrite (conv_struct (TStruct fs) fs _ eq_refl).
    destruct (conv_fields fs fs0 _); cbn in *; [|discriminate..]. inversion E; subst. reflexivity.
  Qed.
  Lemma typed_direct t v : typed t v -> direct v -> base t = t.
  Proof. intros T D. tinv T; auto; destruct D. Qed.

  Lemma get_conv p : forall t t' v, wf t = true -> wf t' = true -> compat t t' = true -> typed t v ->
    path_of t p = true -> path_of t' p = true -> get t' (out t' v) p = get t v p.
  Proof.
    induction p as [|s p IH].
    - (* the scalar itself *)
      intros t t' v W W' C T P P'. rewrite path_base' in P, P' by assumption. cbn in P, P'.
      assert (B : forall t, wf t = true -> scalar (base t) = true -> base t = t).
      { intros [| | |u| | |] Wt S; auto. cbn in Wt, S. destruct u; discriminate. }
      assert (WB : base (base t) = base t) by (destruct t as [| | |[]| | |]; try discriminate; reflexivity).
      assert (WB' : base (base t') = base t') by (destruct t' as [| | |[]| | |]; try discriminate; reflexivity).
      rewrite WB in P. rewrite WB' in P'. rewrite (B t W P) in P. rewrite (B t' W' P') in P'.
      destruct t; try discriminate; tinv T; cbn in C; destruct t' as [| | |[]| | |]; try discriminate; reflexivity.
    - (* a direct value first *)
      assert (DIR : forall t t' v, wf t = true -> wf t' = true -> compat t t' = true -> typed t v -> direct v ->
                path_of t (s :: p) = true -> path_of t' (s :: p) = true -> get t' (out t' v) (s :: p) = get t v (s :: p)).
      { intros t t' v W W' C T D P P'. pose proof (conv_fine v t t' W C T W') as FI. pose proof (typed_direct t v T D) as BT.
        rewrite (out_wrap t' v W' D FI), (get_base t'), target_wrap by assumption. cbn [fst snd].
        apply (compat_base t t' W W') in C as CB. rewrite BT in CB. rewrite path_base' in P' by assumption.
        apply wf_base in W' as WB'. assert (BB : base (base t') = base t').
        { destruct t' as [| | |[]| | |]; try discriminate; reflexivity. }
        set (b := base t') in *. clearbody b. clear C W' FI t'.
        destruct v; cbn in D; try contradiction; tinv T; cbn [path_of] in P; destruct s as [n0|i|k]; try discriminate.
        - (* slice *) cbn [path_of] in P'. cbn [base] in P. destruct b as [| | |[]|u| |]; try discriminate. cbn [compat base] in CB.
          rewrite (out_slice (TSlice u) u t0 l eq_refl FT W CB WB'). cbn [wrap get target]. rewrite nth_error_map.
          destruct (nth_error l i) as [x|] eqn:N; cbn [option_map]; [|reflexivity].
          apply IH; auto. rewrite Forall_forall in FT. apply FT. now apply nth_error_In in N.
        - (* map *) cbn [path_of] in P'. cbn [base] in P. destruct b as [| | |[]| |u|]; try discriminate. cbn [compat base] in CB.
          rewrite (out_map (TMap u) u t0 m eq_refl FT W CB WB'). cbn [wrap get target].
          rewrite (assoc_map k (kept u m) (fun _ x => out u x)).
          assert (KA : assoc k (kept u m) = match assoc k m with
                                            | Some x => match conv u x with Ok (Some _) => Some x | _ => None end
                                            | None => None end).
          { clear -NM. unfold kept. induction m as [|[n x] m IH]; [reflexivity|]. cbn [map fst] in NM. inversion NM as [|? ? N ND]; subst.
            cbn [filter snd assoc]. destruct (conv u x) as [[z|]| |] eqn:E; cbn [assoc]; destruct (String.eqb_spec n k) as [->|Nk]; auto; try (now rewrite E);
              rewrite IH by exact ND; rewrite (proj2 (assoc_none k m) N), E; reflexivity. }
          rewrite KA. destruct (assoc k m) as [x|] eqn:AM; cbn [option_map].
          + assert (TX : typed t0 x) by (rewrite Forall_forall in FT; apply assoc_in in AM; now apply (FT (k, x))).
            rewrite <- (IH t0 u x W WB' CB TX P P'). unfold out. destruct (conv u x) as [[z|]| |] eqn:EC; cbn [option_map]; rewrite ?EC; reflexivity.
          + apply get_zero; auto.
        - (* struct *) cbn [path_of] in P'. cbn [base] in P. destruct b as [| | |[]| | |ts']; try discriminate.
          rewrite (out_struct (TStruct ts') ts ts' fs eq_refl WB' W CB T). cbn [wrap get target base] in *.
          destruct (assoc n0 ts) as [u|] eqn:A; [|discriminate]. destruct (assoc n0 ts') as [u'|] eqn:A'; [|discriminate].
          rewrite (assoc_field_out fs ts' n0 u' A'). destruct (typed_assoc ts fs n0 u FT A) as (x & AX & TX). rewrite AX.
          apply IH; auto; [exact (wf_assoc _ _ _ W A)|exact (wf_assoc _ _ _ WB' A')|exact (compat_assoc _ _ _ _ _ CB A A')]. }
      intros t t' v W W' C T P P'. destruct v as [| | | |w| | |]; try (now apply DIR).
      + (* nil *)
        change (out t' VNil) with (zero t'). assert (Z : zero t = VNil) by (inversion T; reflexivity). rewrite <- Z. now apply get_zero.
      + (* pointer *)
        inversion T as [| | | | | |u ? TW| | |]; subst. rewrite (get_base (TPtr u) (VPtr w)) by exact W. cbn [target fst snd].
        assert (WU : wf u = true) by (cbn in W; destruct u; try discriminate; exact W).
        rewrite path_base' in P by exact W. cbn [base] in P. cbn [compat] in C.
        rewrite out_ptr. destruct (dz && is_zero w) eqn:Z.
        * apply andb_prop in Z as [_ Z]. rewrite (zero_unique w u TW Z). now apply get_zero.
        * apply DIR; auto. cbn in W. destruct u; try discriminate. inversion TW; subst. exact I.
  Qed.
End Facts.
