(** Proofs about the programs that load and save ([Transfer.v]). *)
From Verif Require Import GoStr GoStrFacts Sorting Types TvUtil TvReader TvParser Convert ConvertGo Json JsonSpdx JsonText TvWriter Formats Stream Yaml Transfer.
From Verif Require Import SpecUpgrade SpecConvert SpecDoc SpecStream SpecTransfer SpecFormats JsonPart FormatsFacts JsonWriteCalm TvParserFacts StreamFacts YamlFacts JsonReadFacts JsonReadDoc ConvertFacts ConvertDoc ConvertGoFacts ConvertRecord JsonTextRead.

(** ** Records and Go values *)
Lemma every_map {A B} (f : A -> B) (g : B -> option A) l : (forall x, g (f x) = Some x) -> every g (map f l) = Some l.
Proof. intros H. induction l as [|x l IH]; cbn [every map]; [reflexivity|]. now rewrite H, IH. Qed.
Lemma of_go_list {A} (f : A -> gval) g l : (forall x, g (f x) = Some x) -> of_list g (go_list f l) = Some l.
Proof. intros H. destruct l as [|x l]; [reflexivity|]. unfold go_list, of_list. now apply every_map. Qed.
Lemma of_go_ptr {A} (f : A -> gval) g o : (forall x, g (f x) = Some x) -> of_ptr g (go_ptr f o) = Some o.
Proof. intros H. destruct o; cbn [of_ptr go_ptr]; [now rewrite H|reflexivity]. Qed.
Lemma of_go_map {A} (f : A -> gval) g m : (forall x, g (f x) = Some x) -> of_map g (go_map f m) = Some m.
Proof.
  intros H. destruct m as [|e m]; [reflexivity|]. unfold go_map, of_map. apply every_map. intros [k x]. cbn [snd fst]. now rewrite H.
Qed.
Lemma of_go_strs l : of_strs (go_strs l) = Some l.
Proof. now apply of_go_list. Qed.
Lemma of_go_ref x : of_ref (go_ref x) = Some x. Proof. now destruct x. Qed.
Lemma of_go_checksum x : of_checksum (go_checksum x) = Some x. Proof. now destruct x. Qed.
Lemma of_go_creator x : of_creator (go_creator x) = Some x. Proof. now destruct x. Qed.
Lemma of_go_annotator x : of_annotator (go_annotator x) = Some x. Proof. now destruct x. Qed.
Lemma of_go_supplier x : of_supplier (go_supplier x) = Some x. Proof. now destruct x. Qed.
Lemma of_go_originator x : of_originator (go_originator x) = Some x. Proof. now destruct x. Qed.
Lemma of_go_pointer x : of_pointer (go_pointer x) = Some x. Proof. now destruct x. Qed.
Lemma of_go_review x : of_review (go_review x) = Some x. Proof. now destruct x. Qed.
Lemma of_go_artifact x : of_artifact (go_artifact x) = Some x. Proof. now destruct x. Qed.
Lemma of_go_external_ref x : of_external_ref (go_external_ref x) = Some x. Proof. now destruct x. Qed.
Lemma of_go_code x : of_code (go_code x) = Some x.
Proof. destruct x as [a l]. unfold go_code, of_code. cbn [vc_Value vc_ExcludedFiles]. now rewrite of_go_strs. Qed.
Lemma of_go_range x : of_range (go_range x) = Some x.
Proof. destruct x as [a b]. unfold go_range, of_range. cbn [sr_StartPointer sr_EndPointer]. now rewrite !of_go_pointer. Qed.
Lemma of_go_annotation x : of_annotation (go_annotation x) = Some x.
Proof. unfold go_annotation, of_annotation. rewrite of_go_annotator, of_go_ref. now destruct x. Qed.
Lemma of_go_creation_info x : of_creation_info (go_creation_info x) = Some x.
Proof.
  unfold go_creation_info, of_creation_info. cbn [app].
  rewrite (of_go_list _ _ _ of_go_creator). now destruct x.
Qed.
Lemma of_go_external_document x : of_external_document (go_external_document x) = Some x.
Proof. unfold go_external_document, of_external_document. rewrite of_go_checksum. now destruct x. Qed.
Lemma of_go_license x : of_license (go_license x) = Some x.
Proof.
  unfold go_license, of_license. cbn [app].
  rewrite of_go_strs. now destruct x.
Qed.
Lemma of_go_relationship x : of_relationship (go_relationship x) = Some x.
Proof. unfold go_relationship, of_relationship. rewrite !of_go_ref. now destruct x. Qed.
Lemma of_go_snippet x : of_snippet (go_snippet V23 x) = Some x.
Proof.
  unfold go_snippet, of_snippet. cbn [app].
  rewrite (of_go_list _ _ _ of_go_range), !of_go_strs. now destruct x.
Qed.
Lemma of_go_file x : of_file (go_jfile V23 x) = Some x.
Proof.
  unfold go_jfile, go_file_of, of_file. cbn [app].
  rewrite !of_go_strs, (of_go_list _ _ _ of_go_checksum), (of_go_list _ _ _ (fun o => of_go_ptr _ _ o of_go_artifact)),
    (of_go_map _ _ _ of_go_snippet), (of_go_list _ _ _ of_go_annotation). now destruct x.
Qed.
Lemma of_go_package x : of_package (go_jpackage V23 x) = Some x.
Proof.
  unfold go_jpackage, go_package_of, of_package.
  cbn [app].
  rewrite (of_go_ptr _ _ _ of_go_supplier), (of_go_ptr _ _ _ of_go_originator), (of_go_ptr _ _ _ of_go_code), !of_go_strs,
    (of_go_list _ _ _ of_go_checksum), (of_go_list _ _ _ (fun o => of_go_ptr _ _ o of_go_external_ref)),
    (of_go_list _ _ _ (fun o => of_go_ptr _ _ o of_go_file)), (of_go_list _ _ _ of_go_annotation). now destruct x.
Qed.
Lemma of_go_document x : of_document (go_jdocument V23 x) = Some x.
Proof.
  unfold go_jdocument, go_document_of, of_document, go_ptrs.
  cbn [app].
  rewrite (of_go_list _ _ _ of_go_external_document), (of_go_ptr _ _ _ of_go_creation_info), (of_go_list _ _ _ (fun o => of_go_ptr _ _ o of_go_package)),
    (of_go_list _ _ _ (fun o => of_go_ptr _ _ o of_go_file)), (of_go_list _ _ _ (fun o => of_go_ptr _ _ o of_go_license)),
    (of_go_list _ _ _ (fun o => of_go_ptr _ _ o of_go_relationship)), (of_go_list _ _ _ (fun o => of_go_ptr _ _ o of_go_annotation)),
    (of_go_list _ _ _ of_go_snippet). cbn [obind].
  rewrite (of_go_list _ (the of_review)) by (intros r; cbn [the]; apply of_go_review). now destruct x.
Qed.
Lemma of_go_plain d : of_document (go_document V23 d) = Some (jdoc d).
Proof. rewrite <- go_jdocument_plain. apply of_go_document. Qed.

(** ** Everything the readers return has a record *)
(** The values of maps are pointers to something. *)
Inductive mapped : gval -> Prop :=
| mp_str s : mapped (VStr s)
| mp_bool b : mapped (VBool b)
| mp_int n : mapped (VInt n)
| mp_nil : mapped VNil
| mp_ptr v : mapped v -> mapped (VPtr v)
| mp_slice l : Forall mapped l -> mapped (VSlice l)
| mp_map m : Forall (fun e => exists w, snd e = VPtr w /\ mapped w) m -> mapped (VMap m)
| mp_struct fs : Forall (fun e => mapped (snd e)) fs -> mapped (VStruct fs).
Fixpoint pointed (t : gty) : bool :=
  match t with
  | TStr | TBool | TInt => true
  | TPtr u | TSlice u => pointed u
  | TMap u => match u with TPtr w => pointed w | _ => false end
  | TStruct ts => (fix go (l : list (string * gty)) := match l with [] => true | f :: r => pointed (snd f) && go r end) ts
  end.
Lemma pointed_struct ts : pointed (TStruct ts) = true -> Forall (fun f => pointed (snd f) = true) ts.
Proof. cbn [pointed]. induction ts as [|f ts IH]; intros H; constructor; apply andb_prop in H as [A B]; auto. Qed.
Lemma pointed_base t : pointed t = true -> pointed (base t) = true.
Proof. now destruct t. Qed.
Lemma zero_mapped t : mapped (zero t).
Proof.
  induction t using gty_ind'; [cbn [zero]; constructor..|]. rewrite zero_struct. constructor. apply Forall_map. exact H.
Qed.
Lemma wrap_mapped t v : mapped v -> mapped (wrap t v).
Proof. destruct t; cbn [wrap]; auto. now constructor. Qed.

Section Mapped.
  Variable dz : bool.
  Lemma conv_pointer u v : forall z, conv dz (TPtr u) v = Ok (Some z) -> exists w, z = VPtr w.
  Proof.
    assert (B : forall x z : gval, Ok (Some (wrap (TPtr u) x)) = Ok (Some z) -> exists w, z = VPtr w) by (intros x z E; inversion E; cbn [wrap]; eauto).
    induction v using gval_ind'; intros z C.
    - cbn [conv base] in C. destruct u; try discriminate C. now apply B in C.
    - cbn [conv base] in C. destruct u; try discriminate C. now apply B in C.
    - cbn [conv base] in C. destruct u; try discriminate C. now apply B in C.
    - discriminate C.
    - cbn [conv] in C. destruct (dz && is_zero v); [discriminate C|auto].
    - destruct (base (TPtr u)) eqn:E; try (cbn [conv] in C; rewrite E in C; discriminate C). rewrite (conv_slice dz _ _ _ E) in C.
      apply bindR_ok_iff in C as (y & _ & C). now apply B in C.
    - destruct (base (TPtr u)) eqn:E; try (cbn [conv] in C; rewrite E in C; discriminate C). rewrite (conv_mapv dz _ _ _ E) in C.
      apply bindR_ok_iff in C as (y & _ & C). now apply B in C.
    - destruct (base (TPtr u)) eqn:E; try (cbn [conv] in C; rewrite E in C; discriminate C). rewrite (conv_struct dz _ _ _ E) in C.
      apply bindR_ok_iff in C as (y & _ & C). now apply B in C.
  Qed.
  Lemma put_mapped n z l : mapped z -> Forall (fun e : string * gval => mapped (snd e)) l -> Forall (fun e => mapped (snd e)) (put n z l).
  Proof. intros Z F. induction F as [|[k x] l A F IH]; cbn [put]; [constructor|]. destruct (String.eqb k n); constructor; auto. Qed.
  Lemma conv_mapped v : forall t z, pointed t = true -> conv dz t v = Ok (Some z) -> mapped z.
  Proof.
    induction v using gval_ind'; intros t z P C.
    - cbn [conv] in C. destruct (base t); try discriminate C. inversion C. apply wrap_mapped. constructor.
    - cbn [conv] in C. destruct (base t); try discriminate C. inversion C. apply wrap_mapped. constructor.
    - cbn [conv] in C. destruct (base t); try discriminate C. inversion C. apply wrap_mapped. constructor.
    - discriminate C.
    - cbn [conv] in C. destruct (dz && is_zero v); [discriminate C|eauto].
    - apply pointed_base in P. destruct (base t) as [| | | |te| |] eqn:E; try (cbn [conv] in C; rewrite E in C; discriminate C). rewrite (conv_slice dz _ _ _ E) in C.
      apply bindR_ok_iff in C as (y & C & D). inversion D; subst. apply wrap_mapped. constructor. clear D E. revert y C. cbn [pointed] in P.
      induction H as [|x l F _ IH]; cbn [conv_list]; intros y C; [inversion C; constructor|]. apply bindR_ok_iff in C as (o & C1 & C). apply bindR_ok_iff in C as (r & C2 & C).
      inversion C; subst. constructor; [|auto]. destruct o; [eapply F; eassumption|apply zero_mapped].
    - apply pointed_base in P. destruct (base t) as [| | | | |te|] eqn:E; try (cbn [conv] in C; rewrite E in C; discriminate C). rewrite (conv_mapv dz _ _ _ E) in C.
      apply bindR_ok_iff in C as (y & C & D). inversion D; subst. apply wrap_mapped. constructor. clear D E. revert y C. cbn [pointed] in P.
      destruct te as [| | |u| | |]; try discriminate P.
      induction H as [|[k x] l F _ IH]; cbn [conv_map]; intros y C; [inversion C; constructor|]. apply bindR_ok_iff in C as (o & C1 & C). apply bindR_ok_iff in C as (r & C2 & C).
      inversion C; subst. destruct o as [z|]; [|auto]. constructor; [|auto]. cbn [snd]. destruct (conv_pointer _ _ _ C1) as (w & ->). exists w. split; [reflexivity|].
      cbn [snd] in F. specialize (F (TPtr u) _ P C1). now inversion F.
    - apply pointed_base in P. destruct (base t) as [| | | | | |ts] eqn:E; try (cbn [conv] in C; rewrite E in C; discriminate C). rewrite (conv_struct dz _ _ _ E) in C.
      apply bindR_ok_iff in C as (y & C & D). inversion D; subst. apply wrap_mapped. constructor. clear D E. apply pointed_struct in P.
      assert (A : Forall (fun e : string * gval => mapped (snd e)) (map (fun f => (fst f, zero (snd f))) ts)) by (apply Forall_map, Forall_forall; intros f _; apply zero_mapped).
      revert A C. generalize (map (fun f : string * gty => (fst f, zero (snd f))) ts) as acc.
      induction H as [|[n x] l F _ IH]; cbn [conv_fields]; intros acc A C; [inversion C; now subst|].
      destruct (assoc n ts) as [tf|] eqn:N; [|eauto]. apply bindR_ok_iff in C as (o & C1 & C). refine (IH _ _ C). destruct o as [z|]; [|exact A].
      apply put_mapped; [|exact A]. apply assoc_in in N. rewrite Forall_forall in P. exact (F _ _ (P _ N) C1).
  Qed.
  Local Transparent T_Document.
  Lemma doc_pointed v : pointed (T_Document v) = true.
  Proof. destruct v; vm_compute; reflexivity. Qed.
  Local Opaque T_Document.
  Lemma set_mapped v d : mapped d -> mapped (set_version v d).
  Proof. destruct 1; cbn [set_version]; try (now constructor). constructor. now apply put_mapped; [constructor|]. Qed.
  Lemma step_mapped to d d' : convert_step dz to d = Ok d' -> mapped d'.
  Proof.
    unfold convert_step. intros C. apply bindR_ok_iff in C as (o & C & E). inversion E. apply set_mapped. destruct o; [|apply zero_mapped].
    exact (conv_mapped _ _ _ (doc_pointed to) C).
  Qed.
  Lemma convert_mapped from to d d' : mapped d -> convert_document dz from to d = Ok d' -> mapped d'.
  Proof.
    unfold convert_document. generalize (route from to). intros r M. revert d M. induction r as [|v r IH]; cbn [follow]; intros d M C; [inversion C; now subst|].
    apply bindR_ok_iff in C as (e & C1 & C). apply (IH e); [|exact C]. eapply step_mapped; eauto.
  Qed.
End Mapped.

Definition has {A} (f : gval -> option A) (t : gty) : Prop := forall v, typed t v -> mapped v -> exists x, f v = Some x.
Lemma every_has {A} (f : gval -> option A) t l : has f t -> Forall (typed t) l -> Forall mapped l -> exists y, every f l = Some y.
Proof.
  intros H T M. revert M. induction T as [|v l T _ IH]; intros M; [exists []; reflexivity|]. inversion M as [|? ? M1 M2]; subst.
  destruct (H v T M1) as (x & E). destruct (IH M2) as (y & F). exists (x :: y). cbn [every]. now rewrite E; cbn [obind]; rewrite F.
Qed.
Lemma has_list {A} (f : gval -> option A) t : has f t -> has (of_list f) (TSlice t).
Proof. intros H v T M. inversion T; subst; [exists []; reflexivity|]. inversion M; subst. cbn [of_list]. eapply every_has; eauto. Qed.
Lemma has_ptr {A} (f : gval -> option A) t : has f t -> has (of_ptr f) (TPtr t).
Proof.
  intros H v T M. inversion T; subst; [exists None; reflexivity|]. inversion M; subst. cbn [of_ptr]. edestruct H as (x & ->); [eassumption|eassumption|]. now exists (Some x).
Qed.
Lemma has_map {A} (f : gval -> option A) t : has f t -> has (of_map f) (TMap (TPtr t)).
Proof.
  intros H v T M. inversion T as [| | | | | | | |? m N F|]; subst; [exists []; reflexivity|]. inversion M as [| | | | | |? G|]; subst. cbn [of_map]. clear T M N.
  induction F as [|[k v] m T F IH]; [exists []; reflexivity|]. inversion G as [|? ? [w [E M]] G']; subst. cbn [snd] in *. subst v.
  inversion T; subst. destruct (H w ltac:(assumption) M) as (x & X). destruct (IH G') as (y & Y). exists ((k, x) :: y). cbn [every snd fst]. rewrite X. cbn [obind].
  now rewrite Y.
Qed.
Lemma has_str : has of_str TStr. Proof. intros v T _. inversion T; subst. cbn. eauto. Qed.
Lemma has_strs : has of_strs (TSlice TStr). Proof. apply has_list, has_str. Qed.
(** the fields of a structure, one by one *)
Definition agree (ts : list (string * gty)) (fs : list (string * gval)) : Prop :=
  Forall2 (fun f e => fst f = fst e /\ typed (snd f) (snd e)) ts fs /\ Forall (fun e => mapped (snd e)) fs.
Lemma agree_struct ts v : typed (TStruct ts) v -> mapped v -> exists fs, v = VStruct fs /\ agree ts fs.
Proof. intros T M. inversion T; subst. inversion M; subst. eexists. split; [reflexivity|]. now split. Qed.
Lemma agree_cons n t ts fs : agree ((n, t) :: ts) fs -> exists x r, fs = (n, x) :: r /\ typed t x /\ mapped x /\ agree ts r.
Proof.
  intros [F M]. inversion F as [|? [m x] ? r [E T] F']; subst. inversion M; subst. cbn in *. subst m. exists x, r. repeat split; auto.
Qed.
Lemma agree_nil fs : agree [] fs -> fs = [].
Proof. intros [F _]. now inversion F. Qed.
Lemma str_is v : typed TStr v -> exists s, v = VStr s. Proof. inversion 1; eauto. Qed.
Lemma bool_is v : typed TBool v -> exists s, v = VBool s. Proof. inversion 1; eauto. Qed.
Lemma int_is v : typed TInt v -> exists s, v = VInt s. Proof. inversion 1; eauto. Qed.
Ltac take_fields :=
  repeat match goal with
  | H : agree (_ :: _) _ |- _ => apply agree_cons in H as (?x & ?r & -> & ?T & ?M & H)
  | H : agree [] _ |- _ => apply agree_nil in H as ->
  | H : typed TStr ?x |- _ => apply str_is in H as (?s & ->)
  | H : typed TBool ?x |- _ => apply bool_is in H as (?s & ->)
  | H : typed TInt ?x |- _ => apply int_is in H as (?s & ->)
  end.
Create HintDb has.
#[local] Hint Resolve has_strs has_list has_ptr has_map : has.
Ltac find_parts :=
  repeat match goal with
  | T : typed ?t ?x |- context [obind (?f ?x) _] =>
      let E := fresh "E" in
      let H := fresh "H" in
      assert (H : has f t) by (auto with has); destruct (H x T ltac:(assumption)) as (?y & E); rewrite E; cbn [obind]; clear T E H
  end.
Ltac has_struct := intros v T M; apply agree_struct in T as (fs & -> & A); [|exact M]; clear M; take_fields.
Lemma has_ref : has of_ref T_DocElementID. Proof. has_struct. cbn. eauto. Qed.
Lemma has_checksum : has of_checksum T_Checksum. Proof. has_struct. cbn. eauto. Qed.
Lemma has_creator : has of_creator T_Creator. Proof. has_struct. cbn. eauto. Qed.
Lemma has_annotator : has of_annotator T_Annotator. Proof. has_struct. cbn. eauto. Qed.
Lemma has_supplier : has of_supplier T_Supplier. Proof. has_struct. cbn. eauto. Qed.
Lemma has_originator : has of_originator T_Originator. Proof. has_struct. cbn. eauto. Qed.
Lemma has_pointer : has of_pointer T_RangePointer. Proof. has_struct. cbn. eauto. Qed.
Lemma has_review : has of_review T_Review. Proof. has_struct. cbn. eauto. Qed.
Lemma has_artifact : has of_artifact T_Artifact. Proof. has_struct. cbn. eauto. Qed.
Lemma has_external_ref : has of_external_ref T_ExternalRef. Proof. has_struct. cbn. eauto. Qed.
#[local] Hint Resolve has_ref has_checksum has_creator has_annotator has_supplier has_originator has_pointer has_review has_artifact has_external_ref : has.
Lemma has_code : has of_code T_VerificationCode. Proof. has_struct. unfold of_code. find_parts. eauto. Qed.
Lemma has_range : has of_range T_Range. Proof. has_struct. unfold of_range. find_parts. eauto. Qed.
Lemma has_annotation : has of_annotation T_Annotation. Proof. has_struct. unfold of_annotation. find_parts. eauto. Qed.
Lemma has_creation_info : has of_creation_info T_CreationInfo. Proof. has_struct. unfold of_creation_info. find_parts. eauto. Qed.
Lemma has_external_document : has of_external_document T_ExternalDocumentRef. Proof. has_struct. unfold of_external_document. find_parts. eauto. Qed.
Lemma has_license : has of_license T_OtherLicense. Proof. has_struct. unfold of_license. find_parts. eauto. Qed.
Lemma has_relationship : has of_relationship T_Relationship. Proof. has_struct. unfold of_relationship. find_parts. eauto. Qed.
#[local] Hint Resolve has_code has_range has_annotation has_creation_info has_external_document has_license has_relationship : has.
Lemma has_snippet : has of_snippet (T_Snippet V23). Proof. unfold T_Snippet. cbn [app]. has_struct. unfold of_snippet. find_parts. eauto. Qed.
#[local] Hint Resolve has_snippet : has.
Lemma has_file : has of_file (T_File V23). Proof. unfold T_File. cbn [app]. has_struct. unfold of_file. find_parts. eauto. Qed.
#[local] Hint Resolve has_file : has.
Lemma has_package : has of_package (T_Package V23). Proof. unfold T_Package. cbn [app]. has_struct. unfold of_package. find_parts. eauto. Qed.
#[local] Hint Resolve has_package : has.
(** No review is missing: every one has a type. *)
Definition reviews_there (g : gval) : Prop :=
  forall i z, get (T_Document V23) g [Fld "Reviews"; Idx i; Fld "ReviewerType"] = Some z -> is_zero z = false.
Local Transparent T_Document.
Lemma has_document g : typed (T_Document V23) g -> mapped g -> reviews_there g -> exists d, of_document g = Some d.
Proof.
  intros T M R. unfold T_Document in T. apply agree_struct in T as (fs & -> & A); [|exact M]. clear M. take_fields. unfold of_document.
  match goal with |- context [of_list (the of_review) ?l] => assert (H : exists y, of_list (the of_review) l = Some y) end.
  { assert (Q : forall i w, x13 = VSlice w -> nth_error w i = Some VNil -> False).
    { intros i w -> N. specialize (R i). cbn in R. rewrite N in R. cbn in R. specialize (R _ eq_refl). discriminate R. }
    inversion T13; subst; [exists []; reflexivity|]. inversion M13; subst. cbn [of_list].
    assert (Q' : ~ In VNil l) by (intros I; apply In_nth_error in I as [i N]; now apply (Q i l)). clear Q R T13 M13.
    induction H0 as [|v l T0 _ IH]; [exists []; reflexivity|]. inversion H1; subst. destruct IH as (y & E); [assumption|intros I; apply Q'; now right|].
    inversion T0; subst; [exfalso; apply Q'; now left|].
    match goal with K : mapped (VPtr _) |- _ => inversion K; subst end. edestruct has_review as (x & X); [eassumption|eassumption|]. exists (x :: y). cbn [every the]. rewrite X. cbn [obind].
    now rewrite E. }
  destruct H as (revs & H). find_parts. rewrite H. cbn [obind]. eauto.
Qed.
Local Opaque T_Document.

Lemma mapped_list {A} (f : A -> gval) l : (forall x, mapped (f x)) -> mapped (go_list f l).
Proof. intros H. destruct l; [constructor|]. constructor. apply Forall_map, Forall_forall. auto. Qed.
Lemma mapped_ptr {A} (f : A -> gval) o : (forall x, mapped (f x)) -> mapped (go_ptr f o).
Proof. intros H. destruct o; constructor. auto. Qed.
Lemma mapped_map {A} (f : A -> gval) m : (forall x, mapped (f x)) -> mapped (go_map f m).
Proof. intros H. destruct m; [constructor|]. constructor. apply Forall_map, Forall_forall. intros e _. cbn [snd]. eauto. Qed.
Lemma mapped_strs l : mapped (go_strs l). Proof. apply mapped_list. constructor. Qed.
Create HintDb mapped.
#[local] Hint Resolve mapped_strs mapped_list mapped_ptr mapped_map : mapped.
#[local] Hint Constructors mapped : mapped.
Ltac fill := unfold go_ptrs; constructor; repeat (apply Forall_cons || apply Forall_nil); cbn [snd]; auto with mapped.
Lemma mapped_ref x : mapped (go_ref x). Proof. fill. Qed.
Lemma mapped_checksum x : mapped (go_checksum x). Proof. fill. Qed.
Lemma mapped_creator x : mapped (go_creator x). Proof. fill. Qed.
Lemma mapped_annotator x : mapped (go_annotator x). Proof. fill. Qed.
Lemma mapped_supplier x : mapped (go_supplier x). Proof. fill. Qed.
Lemma mapped_originator x : mapped (go_originator x). Proof. fill. Qed.
Lemma mapped_code x : mapped (go_code x). Proof. fill. Qed.
Lemma mapped_pointer x : mapped (go_pointer x). Proof. fill. Qed.
Lemma mapped_license x : mapped (go_license x). Proof. fill. Qed.
Lemma mapped_review x : mapped (go_review x). Proof. fill. Qed.
Lemma mapped_artifact x : mapped (go_artifact x). Proof. fill. Qed.
Lemma mapped_external_ref x : mapped (go_external_ref x). Proof. fill. Qed.
#[local] Hint Resolve mapped_ref mapped_checksum mapped_creator mapped_annotator mapped_supplier mapped_originator mapped_code mapped_pointer mapped_license mapped_review mapped_artifact mapped_external_ref : mapped.
Lemma mapped_range x : mapped (go_range x). Proof. fill. Qed.
Lemma mapped_annotation x : mapped (go_annotation x). Proof. fill. Qed.
Lemma mapped_creation_info x : mapped (go_creation_info x). Proof. fill. Qed.
Lemma mapped_external_document x : mapped (go_external_document x). Proof. fill. Qed.
Lemma mapped_relationship x : mapped (go_relationship x). Proof. fill. Qed.
#[local] Hint Resolve mapped_range mapped_annotation mapped_creation_info mapped_external_document mapped_relationship : mapped.
Lemma mapped_snippet v x : mapped (go_snippet v x). Proof. unfold go_snippet. destruct v; cbn [app]; fill. Qed.
#[local] Hint Resolve mapped_snippet : mapped.
Lemma mapped_file v x : mapped (go_jfile v x). Proof. unfold go_jfile, go_file_of. destruct v; cbn [app]; fill. Qed.
#[local] Hint Resolve mapped_file : mapped.
Lemma mapped_package v x : mapped (go_jpackage v x). Proof. unfold go_jpackage, go_package_of. destruct v; cbn [app]; fill. Qed.
#[local] Hint Resolve mapped_package : mapped.
Lemma mapped_document v x : mapped (go_jdocument v x). Proof. unfold go_jdocument, go_document_of. fill. Qed.

Local Transparent T_Document.
Lemma review_path v i : path_of (T_Document v) [Fld "Reviews"; Idx i; Fld "ReviewerType"] = true.
Proof. destruct v; reflexivity. Qed.
Lemma get_review v (d : JDocument) i z : get (T_Document v) (go_jdocument v d) [Fld "Reviews"; Idx i; Fld "ReviewerType"] = Some z ->
  exists r, In r (d_Reviews d) /\ z = VStr (rv_ReviewerType r).
Proof.
  unfold go_jdocument, go_document_of, go_ptrs. intros G. cbn in G. destruct (d_Reviews d) as [|r0 l]; cbn in G; [discriminate G|].
  destruct i as [|i]; cbn in G.
  - exists r0. split; [now left|]. congruence.
  - rewrite nth_error_map in G. destruct (nth_error l i) as [r|] eqn:N; cbn in G; [|discriminate G]. exists r. split; [right; eapply nth_error_In; eauto|congruence].
Qed.
Local Opaque T_Document.
Definition reviews_typed (d : JDocument) : Prop := Forall (fun r => rv_ReviewerType r <> "") (d_Reviews d).
(** A document of any version, made a 2.3 document, has a record. *)
Lemma converted dz v (d : JDocument) : typed (T_Document v) (go_jdocument v d) -> reviews_typed d ->
  exists g e, convert_document dz v V23 (go_jdocument v d) = Ok g /\ of_document g = Some e.
Proof.
  intros T R. destruct (convert_ok dz v V23 _ T) as (g & C & T'). exists g. destruct (has_document g T') as (e & E); [|..|eauto].
  - exact (convert_mapped dz _ _ _ _ (mapped_document v d) C).
  - intros i z G. rewrite (convert_get dz v V23 _ _ _ T C) in G; [|apply review_path|apply review_path|discriminate].
    apply get_review in G as (r & I & ->). unfold reviews_typed in R. rewrite Forall_forall in R. specialize (R r I). cbn [is_zero]. destruct (rv_ReviewerType r); [congruence|reflexivity].
Qed.

Lemma reviews_read v j x : dec (c_document_struct v) j zero_jdocument = Ok x -> d_Reviews x = [].
Proof.
  intros E. refine (stays_struct _ (fun d : jdocument => d_Reviews d = []) _ j zero_jdocument x _ eq_refl E).
  unfold c_document_struct. cbn [map fold_right]. cbv [req opt]. cbn [f_codec]. repeat apply conj; try exact I; intros j0 b y P D; exact P.
Qed.
Lemma unmarshal_bare v j d : unmarshal_document v j = Ok d -> bare_JDocument d /\ d_Reviews d = [].
Proof.
  unfold unmarshal_document. intros E. apply bindR_ok_iff in E as (d0 & E1 & E). pose proof (reviews_read _ _ _ E1) as N. apply document_struct_read in E1 as [F P].
  assert (G : Forall (fun o => match o with Some p => bare_package p | None => True end) (map drop_has_files (d_Packages d0))).
  { apply Forall_map. eapply Forall_impl; [|exact P]. intros [[p fs]|]; [intros X; exact X|intros _; exact I]. }
  destruct v; [inversion E; subst; repeat split; assumption|..]; apply bindR_ok_iff in E as (y & E2 & E); inversion E; subst; repeat split; assumption.
Qed.
Lemma unmarshal_converted dz v j d : unmarshal_document v j = Ok d ->
  exists g e, convert_document dz v V23 (go_jdocument v d) = Ok g /\ of_document g = Some e.
Proof.
  intros U. destruct (unmarshal_bare _ _ _ U) as [B N]. apply converted; [now apply typed_jdocument|]. unfold reviews_typed. rewrite N. constructor.
Qed.
Lemma read_value_converted dz j v d : read_value j = Ok (v, d) ->
  exists g e, convert_document dz v V23 (go_jdocument v d) = Ok g /\ of_document g = Some e.
Proof. intros R. apply YamlFacts.read_value_split in R as [_ U]. eapply unmarshal_converted; eauto. Qed.

(** ** The three readers: a document with a record, or an error *)
Definition loads (r : res gval) : Prop := (exists g d, r = Ok g /\ of_document g = Some d) \/ (exists m, r = Err m).
Lemma tag_loads dz s : loads (tagvalue_read_from dz V23 s).
Proof.
  assert (P : forall v l, l <> [] -> loads (let* d := parse_tag_values v l in match d with Some d => convert_document dz v V23 (go_document v d) | None => Panic end)).
  { intros v l N. pose proof (parse_tag_values_ok v l N) as W. destruct (parse_tag_values v l) as [[d|]|m|]; cbn [bindR]; try contradiction; [|right; eauto].
    left. rewrite <- go_jdocument_plain. apply converted.
    - rewrite go_jdocument_plain. apply typed_document. exact (well_formed_keys v d W).
    - unfold reviews_typed. assert (F : Forall review_ok (d_Reviews d)) by (unfold well_formed in W; tauto). cbn [jdoc d_Reviews]. eapply Forall_impl; [|exact F].
      intros r I E. unfold review_ok in I. rewrite E in I. cbn in I. intuition discriminate. }
  assert (Q : forall v (r : res (option Document)),
    (let* (from, d) := (let* d := r in Ok (v, d)) in match d with Some d => convert_document dz from V23 (go_document from d) | None => Panic end) =
    (let* d := r in match d with Some d => convert_document dz v V23 (go_document v d) | None => Panic end)).
  { intros v [d|m|]; reflexivity. }
  unfold tagvalue_read_from. destruct (read_tag_values_from s) as [l|m|] eqn:R; [|right; exists m; reflexivity|].
  - cbn [bindR]. destruct l as [|x l]; [right; eexists; reflexivity|]. set (ps := x :: l) in *. assert (N : ps <> []) by discriminate.
    destruct (first_version ps =? "SPDX-2.1")%string; [rewrite Q; now apply P|]. destruct (first_version ps =? "SPDX-2.2")%string; [rewrite Q; now apply P|].
    destruct (first_version ps =? "SPDX-2.3")%string; [rewrite Q; now apply P|]. right. eexists. reflexivity.
  - exfalso. unfold read_tag_values_from in R. destruct (scan_all (S (calls s)) tvr_init (scanner_init s)) as [r|m|] eqn:E; cbn [bindR] in R; [|discriminate R|].
    + unfold finalize in R. destruct (tv_midtext r); discriminate R.
    + clear -E. revert E. generalize (S (calls s)), tvr_init, (scanner_init s). intros n. induction n as [|n IH]; intros r sc; cbn [scan_all].
      * destruct (scan 0 sc) as [[line|] sc']; [|destruct (sc_err sc') as [[[|]| |]|]; discriminate].
        destruct (read_next_line_ok_or_err r line) as [[r' ->]|[m ->]]; cbn [bindR]; discriminate.
      * destruct (scan (S n) sc) as [[line|] sc']; [|destruct (sc_err sc') as [[[|]| |]|]; discriminate].
        destruct (read_next_line_ok_or_err r line) as [[r' ->]|[m ->]]; cbn [bindR]; [apply IH|discriminate].
Qed.
Lemma json_loads dz c : loads (json_read dz V23 c).
Proof.
  unfold json_read. destruct (json_read_into c) as [[v d]|m|] eqn:R; cbn [bindR].
  - left. unfold json_read_into in R. destruct (parse_text c) as [j|]; [|discriminate R]. destruct (floats_ok j); [|discriminate R]. eapply read_value_converted; eauto.
  - right. eauto.
  - exfalso. unfold json_read_into in R. destruct (parse_text c) as [j|]; [|discriminate R]. destruct (floats_ok j); [|discriminate R]. now apply read_no_panic in R.
Qed.
Lemma yaml_loads to_json dz c : (forall target s, to_json target s <> Panic) -> loads (yaml_read to_json dz V23 c).
Proof.
  intros H. unfold yaml_read. destruct (yaml_read_into to_json c) as [[v d]|m|] eqn:R; cbn [bindR].
  - left. unfold yaml_read_into in R. apply bindR_ok_iff in R as (t & _ & R). destruct (parse_text t) as [j|]; [|discriminate R]. destruct (floats_ok j); [|discriminate R].
    apply bindR_ok_iff in R as (w & _ & R). apply bindR_ok_iff in R as (t' & _ & R). destruct (parse_text t') as [j'|]; [|discriminate R].
    apply bindR_ok_iff in R as (e & U & R). inversion R; subst. eapply unmarshal_converted; eauto.
  - right. eauto.
  - exfalso. now apply yaml_read_no_panic in R.
Qed.
Lemma json_loads_from room dz s : (forall n, (0 < room n)%N) -> loads (json_read_from room dz V23 s).
Proof.
  intros P. rewrite (json_stream room dz V23 s P). destruct (ends s); [apply json_loads|right; eauto].
Qed.
Lemma yaml_loads_from to_json room dz s : (forall target s, to_json target s <> Panic) -> (forall n, (0 < room n)%N) -> loads (yaml_read_from to_json room dz V23 s).
Proof.
  intros H P. rewrite (yaml_stream to_json room dz V23 s P). destruct (ends s); [now apply yaml_loads|right; eauto].
Qed.

(** ** Runs *)
Lemma tag_saves so k d : exists r t, save_tag so k d = (r, t) /\
  ((r = Panic /\ t = None /\ d_CreationInfo d <> None /\ document_nil d) \/
   (exists m, r = Err m /\ t = Some "" /\ d_CreationInfo d = None) \/
   (exists e u, r = Ok tt /\ t = Some u /\ d = jdoc e /\ d_CreationInfo d <> None /\ tagvalue_write_to k so V23 e = (Ok tt, u))).
Proof.
  unfold save_tag. destruct (d_CreationInfo d) as [ci|] eqn:C.
  - destruct (plain_document d) as [e|] eqn:E.
    + pose proof (plain_document_back _ _ E) as ->. destruct (tagvalue_write_to k so V23 e) as [r u] eqn:W.
      assert (r = Ok tt) as ->. { cbn [jdoc d_CreationInfo] in C. unfold tagvalue_write_to, render_document_chunks in W. rewrite C in W. now inversion W. }
      exists (Ok tt), (Some u). split; [reflexivity|]. right. right. exists e, u. repeat split; auto. discriminate.
    + exists Panic, None. split; [reflexivity|]. left. repeat split; auto; [discriminate|]. now apply plain_document_nil.
  - exists (Err "Document had nil CreationInfo section"), (Some ""). split; [reflexivity|]. right. left. eauto.
Qed.
Lemma json_saves k d : exists t, save_json k d = (Ok tt, Some t) /\ json_write V23 true "" d = Ok t \/ exists m, save_json k d = (Err m, Some t).
Proof.
  unfold save_json, json_write_to. pose proof (json_write_no_panic V23 true "" d) as N. destruct (json_write V23 true "" d) as [t|m|]; [|eauto|congruence].
  destruct (k 0); eauto.
Qed.
Lemma yaml_saves to_yaml k d : (forall t, to_yaml t <> Panic) -> exists t,
  save_yaml to_yaml k d = (Ok tt, Some t) /\ yaml_write to_yaml V23 d = Ok t \/ exists m, save_yaml to_yaml k d = (Err m, Some t).
Proof.
  intros H. unfold save_yaml, yaml_write_to. assert (N : yaml_write to_yaml V23 d <> Panic).
  { unfold yaml_write. pose proof (marshal_no_panic V23 true d). destruct (marshal_document V23 true d); cbn [bindR]; [apply H|discriminate|congruence]. }
  destruct (yaml_write to_yaml V23 d) as [t|m|]; [|eauto|congruence]. destruct (k 0); eauto.
Qed.
Lemma transfer_ends load save h n i o : (forall s, loads (load s)) ->
  (forall k d, (exists t, save k d = (Ok tt, Some t)) \/ (exists m t, save k d = (Err m, Some t)) \/ save k d = (Panic, None)) ->
  ending i o (transfer load save h [n; i; o]).
Proof.
  intros L W. unfold transfer. destruct (opens h i) as [s|]; [|constructor]. destruct (L s) as [(g & d & -> & O)|(m & ->)]; [|constructor].
  destruct (creates h o); [|constructor]. rewrite O. destruct (W (takes h) d) as [(t & ->)|[(m & t & ->)| ->]]; constructor.
Qed.
Lemma transfer_leaves load save h n i o s g d t : opens h i = Some s -> load s = Ok g -> of_document g = Some d -> creates h o = true ->
  save (takes h) d = (Ok tt, Some t) -> transfer load save h [n; i; o] = leaves i o t.
Proof. intros A B C D E. unfold transfer. now rewrite A, B, D, C, E. Qed.
Lemma yaml_write_part to_yaml v d : yaml_write to_yaml v (json_part v d) = yaml_write to_yaml v d.
Proof. unfold yaml_write. now rewrite marshal_part. Qed.
