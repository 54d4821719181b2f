(** Lemmas about the conversion of documents. *)
From Verif Require Import GoStr Types TvUtil TvParser Convert SpecConvert ConvertFacts ConvertBack.

Lemma doc_wf v : wf (T_Document v) = true.
Proof. destruct v; vm_compute; reflexivity. Qed.
Lemma doc_compat v v' : compat (T_Document v) (T_Document v') = true.
Proof. destruct v, v'; vm_compute; reflexivity. Qed.
Lemma doc_sub v v' : older v v' -> sub true (T_Document v) (T_Document v') = true.
Proof. intros []; vm_compute; reflexivity. Qed.
Lemma doc_sub_12 : sub false (T_Document V21) (T_Document V22) = true.
Proof. vm_compute; reflexivity. Qed.
Definition doc_fields (v : version) : list (string * gty) := match T_Document v with TStruct ts => ts | _ => [] end.
Lemma doc_struct v : T_Document v = TStruct (doc_fields v).
Proof. reflexivity. Qed.
Lemma doc_version v : assoc "SPDXVersion" (doc_fields v) = Some TStr.
Proof. reflexivity. Qed.
Global Opaque T_Document.

Lemma path_sub p : forall lift t t', wf t = true -> wf t' = true -> sub lift t t' = true -> path_of t p = true -> path_of t' p = true.
Proof.
  assert (BS : forall lift t t', wf t = true -> wf t' = true -> sub lift t t' = true -> sub lift (base t) (base t') = true).
  { intros lift t t' W W' S. destruct t as [| | |[]| | |]; cbn in W; try discriminate; cbn [sub base] in *;
      destruct t' as [| | |[]| | |]; cbn in W'; try discriminate; try exact S; destruct lift; try discriminate; exact S. }
  induction p as [|s p IH]; intros lift t t' W W' S P; rewrite path_base' in P |- * by assumption;
    apply (BS lift t t' W W') in S; apply wf_base in W as WB, W' as WB'; pose proof (base_base t W) as BB; pose proof (base_base t' W') as BB'.
  - cbn in *. rewrite BB in P. rewrite BB'. destruct (base t); try discriminate; destruct (base t'); try discriminate; reflexivity.
  - cbn [path_of] in *. rewrite BB in P. rewrite BB'. destruct s as [n|i|k]; destruct (base t) as [| | |[]|u|u|ts]; try discriminate.
    + assert (G : exists ts', base t' = TStruct ts' /\ sub lift (TStruct ts) (TStruct ts') = true).
      { cbn [sub] in S. rewrite BB' in S. destruct lift; destruct (base t') as [| | | | | |ts'] eqn:B; try discriminate;
          (exists ts'; split; [reflexivity|exact S]). }
      destruct G as (ts' & B & G). rewrite B in WB' |- *. destruct (assoc n ts) as [u|] eqn:A; [|discriminate].
      destruct (sub_assoc lift ts ts' n u G A) as (u' & A' & S'). rewrite A'.
      apply (IH lift u u'); auto; [exact (wf_assoc _ _ _ WB A)|exact (wf_assoc _ _ _ WB' A')].
    + cbn [sub] in S. destruct (base t') as [| | | |u'| |]; try discriminate. now apply (IH lift u u').
    + cbn [sub] in S. destruct u as [| | |u0| | |]; try discriminate. destruct (base t') as [| | | | |u'|]; try discriminate.
      now apply (IH lift (TPtr u0) u').
Qed.

Section Doc.
  Variable dz : bool.
  Notation out := (out dz).
  Definition next (to : version) (d : gval) : gval := set_version to (out (T_Document to) d).
  Lemma step_ok from to d : typed (T_Document from) d -> convert_step dz to d = Ok (next to d).
  Proof.
    intros T. unfold convert_step, next, ConvertFacts.out.
    destruct (conv_fine dz d (T_Document from) (T_Document to) (doc_wf _) (doc_compat _ _) T (doc_wf _)) as [o ->]. cbn [bindR]. now destruct o.
  Qed.
  Lemma set_typed v w d : typed (T_Document v) d -> typed (T_Document v) (set_version w d).
  Proof.
    rewrite doc_struct. intros T. tinv T. cbn [set_version]. constructor.
    assert (A : forall ts fs, Forall2 (fun (f : string * gty) (e : string * gval) => fst f = fst e /\ typed (snd f) (snd e)) ts fs ->
       (forall u, In ("SPDXVersion", u) ts -> u = TStr) ->
       Forall2 (fun (f : string * gty) (e : string * gval) => fst f = fst e /\ typed (snd f) (snd e)) ts
               (put "SPDXVersion" (VStr (version_string w)) fs)).
    { clear. intros ts fs F. induction F as [|[n u] [m x] ts fs [E T] F IH]; intros G; cbn [put]; [constructor|]. cbn in E. subst m.
      destruct (String.eqb_spec n "SPDXVersion") as [->|]; constructor; auto.
      - split; [reflexivity|]. cbn [snd]. rewrite (G u (or_introl eq_refl)). constructor.
      - apply IH. intros u' I. apply G. now right. }
    apply A; [exact FT|]. intros u I. pose proof (doc_wf v) as W. rewrite doc_struct in W. apply wf_nodup in W.
    pose proof (in_assoc _ _ _ W I) as E. rewrite doc_version in E. congruence.
  Qed.
  Lemma next_typed from to d : typed (T_Document from) d -> typed (T_Document to) (next to d).
  Proof.
    intros T. apply set_typed. exact (out_typed dz d _ _ (doc_wf _) (doc_compat _ _) T (doc_wf _)).
  Qed.
  Lemma get_set v w d p : typed (T_Document v) d -> (forall r, p <> Fld "SPDXVersion" :: r) ->
    get (T_Document v) (set_version w d) p = get (T_Document v) d p.
  Proof.
    rewrite doc_struct. intros T N. tinv T. destruct p as [|s p]; [reflexivity|]. destruct s as [n|i|k]; try reflexivity.
    cbn [get target set_version]. rewrite assoc_put. destruct (String.eqb_spec n "SPDXVersion") as [->|]; [|reflexivity].
    now destruct (N p).
  Qed.
  Lemma get_set_version v w d : typed (T_Document v) d ->
    get (T_Document v) (set_version w d) [Fld "SPDXVersion"] = Some (VStr (version_string w)).
  Proof.
    rewrite doc_struct. intros T. tinv T. cbn [get target set_version]. rewrite assoc_put, doc_version, String.eqb_refl.
    destruct (typed_assoc _ _ _ _ FT (doc_version v)) as (x & -> & _). reflexivity.
  Qed.
  Lemma version_path v r : path_of (T_Document v) (Fld "SPDXVersion" :: r) = true -> r = [].
  Proof.
    rewrite doc_struct. cbn [path_of base]. rewrite doc_version. destruct r as [|[]]; [reflexivity|discriminate..].
  Qed.
  Lemma next_get from to d p : typed (T_Document from) d -> path_of (T_Document from) p = true -> path_of (T_Document to) p = true ->
    p <> [Fld "SPDXVersion"] -> get (T_Document to) (next to d) p = get (T_Document from) d p.
  Proof.
    intros T P P' N. unfold next. rewrite get_set.
    - exact (get_conv dz p _ _ d (doc_wf _) (doc_wf _) (doc_compat _ _) T P P').
    - exact (out_typed dz d _ _ (doc_wf _) (doc_compat _ _) T (doc_wf _)).
    - intros r ->. apply version_path in P as ->. now destruct N.
  Qed.
  Lemma next_new from to d p z : typed (T_Document from) d -> path_of (T_Document from) p = false -> path_of (T_Document to) p = true ->
    get (T_Document to) (next to d) p = Some z -> is_zero z = true.
  Proof.
    intros T P P' G. unfold next in G. rewrite get_set in G.
    - exact (get_new dz p _ _ d z (doc_wf _) (doc_wf _) (doc_compat _ _) T P P' G).
    - exact (out_typed dz d _ _ (doc_wf _) (doc_compat _ _) T (doc_wf _)).
    - intros r ->. apply version_path in P' as ->. rewrite doc_struct in P. cbn [path_of base] in P. rewrite doc_version in P. discriminate.
  Qed.
  Lemma next_version from to d : typed (T_Document from) d ->
    get (T_Document to) (next to d) [Fld "SPDXVersion"] = Some (VStr (version_string to)).
  Proof. intros T. apply get_set_version. exact (out_typed dz d _ _ (doc_wf _) (doc_compat _ _) T (doc_wf _)). Qed.

  (** the version commutes with the copying of fields *)
  Lemma out_set from to w d : typed (T_Document from) d ->
    out (T_Document to) (set_version w d) = set_version w (out (T_Document to) d).
  Proof.
    intros T. pose proof (set_typed from w d T) as T2. pose proof (doc_wf from) as W. pose proof (doc_wf to) as W'.
    pose proof (doc_compat from to) as C. rewrite (doc_struct from) in *. rewrite (doc_struct to) in *. tinv T. cbn [set_version] in *.
    rewrite (out_struct dz (TStruct (doc_fields to)) _ (doc_fields to) _ eq_refl W' W C T2).
    rewrite (out_struct dz (TStruct (doc_fields to)) _ (doc_fields to) _ eq_refl W' W C T). cbn [wrap set_version]. f_equal.
    rewrite (put_map _ _ (map (field_out dz fs) (doc_fields to))) by (rewrite map_map; cbn [field_out fst]; now apply wf_nodup). rewrite map_map. apply map_ext_in. intros [n u] I.
    unfold field_out. cbn [fst snd]. f_equal. rewrite assoc_put. destruct (String.eqb_spec n "SPDXVersion") as [->|]; [|reflexivity].
    destruct (typed_assoc _ _ _ _ FT (doc_version from)) as (x & -> & _).
    pose proof (in_assoc _ _ _ (wf_nodup _ W') I) as E. rewrite doc_version in E. inversion E; subst. reflexivity.
  Qed.
  Lemma set_set v w d : set_version v (set_version w d) = set_version v d.
  Proof.
    destruct d; try reflexivity. cbn [set_version]. f_equal. generalize (VStr (version_string v)), (VStr (version_string w)). intros a b.
    induction fs as [|[n x] fs IH]; [reflexivity|]. cbn [put]. destruct (String.eqb_spec n "SPDXVersion") as [->|N]; cbn [put].
    - now rewrite String.eqb_refl.
    - destruct (String.eqb_spec n "SPDXVersion"); [congruence|]. now rewrite IH.
  Qed.
  Lemma set_same v d : typed (T_Document v) d -> get (T_Document v) d [Fld "SPDXVersion"] = Some (VStr (version_string v)) ->
    set_version v d = d.
  Proof.
    rewrite doc_struct. intros T. tinv T. cbn [get target set_version]. rewrite doc_version.
    destruct (typed_assoc _ _ _ _ FT (doc_version v)) as (x & A & TX). rewrite A. cbn. intros E. inversion E; subst. f_equal.
    clear -A. induction fs as [|[n x] fs IH]; [reflexivity|]. cbn [put assoc] in *. destruct (String.eqb_spec n "SPDXVersion") as [->|N].
    - congruence.
    - f_equal. auto.
  Qed.
  Lemma next_back v v' d : older v v' -> typed (T_Document v) d -> solid d -> next v (next v' d) = set_version v d.
  Proof.
    intros O T S. unfold next at 1, next.
    rewrite (out_set v' v) by exact (out_typed dz d _ _ (doc_wf _) (doc_compat _ _) T (doc_wf _)).
    rewrite set_set. f_equal. exact (out_back dz d true _ _ (doc_wf _) (doc_wf _) (doc_sub v v' O) (doc_compat _ _) T S).
  Qed.
  Lemma set_solid v d : solid d -> solid (set_version v d).
  Proof.
    intros S. inversion S; subst; try exact S. cbn [set_version]. constructor.
    match goal with F : Forall _ fs |- _ => induction F as [|[n x] r F0 F IH]; cbn [put]; [constructor|] end.
    destruct (n =? "SPDXVersion"); constructor; auto; cbn.
    - constructor.
    - apply IH. now constructor.
  Qed.
  Lemma next_solid d : typed (T_Document V21) d -> solid d -> solid (next V22 d).
  Proof. intros T S. apply set_solid. exact (out_solid dz d _ _ (doc_wf _) (doc_wf _) doc_sub_12 T S). Qed.

  (** ** The chain *)
  Lemma convert_ok from to d : typed (T_Document from) d -> exists d', convert_document dz from to d = Ok d' /\ typed (T_Document to) d'.
  Proof.
    intros T. destruct from, to; unfold convert_document; cbn [route follow]; try (exists d; split; [reflexivity|exact T]).
    all: rewrite (step_ok _ _ _ T); cbn [bindR].
    all: match goal with |- context [next ?v ?dd] => pose proof (next_typed _ v _ T) as T' end.
    all: try (eexists; split; [reflexivity|exact T']).
    all: rewrite (step_ok _ _ _ T'); cbn [bindR]; eexists; (split; [reflexivity|]); exact (next_typed _ _ _ T').
  Qed.
  Lemma older_path v v' p : older v v' -> path_of (T_Document v) p = true -> path_of (T_Document v') p = true.
  Proof. intros O. exact (path_sub p true _ _ (doc_wf _) (doc_wf _) (doc_sub _ _ O)). Qed.
  Lemma convert_get from to d d' p : typed (T_Document from) d -> convert_document dz from to d = Ok d' ->
    path_of (T_Document from) p = true -> path_of (T_Document to) p = true -> p <> [Fld "SPDXVersion"] ->
    get (T_Document to) d' p = get (T_Document from) d p.
  Proof.
    intros T C P P' N. destruct from, to; unfold convert_document in C; cbn [route follow] in C; try (inversion C; subst; reflexivity).
    all: rewrite (step_ok _ _ _ T) in C; cbn [bindR] in C.
    all: try (inversion C; subst; now apply next_get).
    all: match goal with C : context [next ?v ?dd] |- _ => pose proof (next_typed _ v _ T) as T' end;
      rewrite (step_ok _ _ _ T') in C; cbn [bindR] in C; inversion C; subst.
    - assert (P2 : path_of (T_Document V22) p = true) by (apply (older_path V21); [constructor|exact P]).
      rewrite (next_get V22) by assumption. now apply next_get.
    - assert (P2 : path_of (T_Document V22) p = true) by (apply (older_path V21); [constructor|exact P']).
      rewrite (next_get V22) by assumption. now apply next_get.
  Qed.
  Lemma convert_new from to d d' p z : typed (T_Document from) d -> convert_document dz from to d = Ok d' ->
    path_of (T_Document from) p = false -> path_of (T_Document to) p = true -> get (T_Document to) d' p = Some z -> is_zero z = true.
  Proof.
    intros T C P P' G. destruct from, to; unfold convert_document in C; cbn [route follow] in C; try congruence.
    all: rewrite (step_ok _ _ _ T) in C; cbn [bindR] in C.
    all: try (inversion C; subst; now apply (next_new _ _ _ _ _ T P P' G)).
    all: match goal with C : context [next ?v ?dd] |- _ => pose proof (next_typed _ v _ T) as T' end;
      rewrite (step_ok _ _ _ T') in C; cbn [bindR] in C; inversion C; subst.
    - destruct (path_of (T_Document V22) p) eqn:P2.
      + rewrite (next_get V22) in G; auto; [|intros ->; rewrite doc_struct in P; cbn [path_of base] in P; rewrite doc_version in P; discriminate].
        exact (next_new _ _ _ _ _ T P P2 G).
      + exact (next_new _ _ _ _ _ T' P2 P' G).
    - rewrite (older_path V21 V23 p) in P; [discriminate|constructor|exact P'].
  Qed.
  Lemma convert_version from to d d' : typed (T_Document from) d -> convert_document dz from to d = Ok d' -> from <> to ->
    get (T_Document to) d' [Fld "SPDXVersion"] = Some (VStr (version_string to)).
  Proof.
    intros T C N. destruct from, to; unfold convert_document in C; cbn [route follow] in C; try congruence.
    all: rewrite (step_ok _ _ _ T) in C; cbn [bindR] in C.
    all: try (inversion C; subst; now apply (next_version _ _ _ T)).
    all: match goal with C : context [next ?v ?dd] |- _ => pose proof (next_typed _ v _ T) as T' end;
      rewrite (step_ok _ _ _ T') in C; cbn [bindR] in C; inversion C; subst; exact (next_version _ _ _ T').
  Qed.
  Lemma convert_back v v' d : older v v' -> typed (T_Document v) d -> solid d ->
    get (T_Document v) d [Fld "SPDXVersion"] = Some (VStr (version_string v)) ->
    exists d', convert_document dz v v' d = Ok d' /\ convert_document dz v' v d' = Ok d.
  Proof.
    intros O T S V. pose proof (set_same v d T V) as SD. destruct O; unfold convert_document; cbn [route follow].
    - pose proof (next_typed _ V22 _ T) as T'. rewrite (step_ok _ _ _ T). cbn [bindR]. eexists. split; [reflexivity|].
      rewrite (step_ok _ _ _ T'). cbn [bindR]. rewrite next_back by (auto; constructor). now rewrite SD.
    - pose proof (next_typed _ V23 _ T) as T'. rewrite (step_ok _ _ _ T). cbn [bindR]. eexists. split; [reflexivity|].
      rewrite (step_ok _ _ _ T'). cbn [bindR]. rewrite next_back by (auto; constructor). now rewrite SD.
    - pose proof (next_typed _ V22 _ T) as T1. pose proof (next_typed _ V23 _ T1) as T2. rewrite (step_ok _ _ _ T). cbn [bindR].
      rewrite (step_ok _ _ _ T1). cbn [bindR]. eexists. split; [reflexivity|]. rewrite (step_ok _ _ _ T2). cbn [bindR].
      pose proof (next_solid d T S) as S1. rewrite (next_back V22 V23) by (auto; constructor).
      assert (E : set_version V22 (next V22 d) = next V22 d) by (unfold next; apply set_set).
      rewrite E. rewrite (step_ok _ _ _ T1). cbn [bindR]. rewrite (next_back V21 V22) by (auto; constructor). now rewrite SD.
  Qed.
End Doc.
