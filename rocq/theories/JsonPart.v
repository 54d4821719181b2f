(** What is written in JSON is the JSON part of the document. *)
From Verif Require Import GoStr Types TvUtil Json JsonSpdx SpecJson SpecFormats.

Lemma fields_alike {A} (fs : list (field A)) x y : Forall (fun f => f_enc f x = f_enc f y) fs -> enc_fields fs x = enc_fields fs y.
Proof. induction 1 as [|f r H F IH]; [reflexivity|]. cbn [enc_fields]. now rewrite H, IH. Qed.
Lemma struct_alike {A} (fs : list (field A)) x y : Forall (fun f => f_enc f x = f_enc f y) fs -> enc (c_struct fs) x = enc (c_struct fs) y.
Proof. intros F. unfold c_struct. cbn [enc]. now rewrite (fields_alike fs x y F). Qed.
Lemma mapR_alike {A B} (f : A -> res B) g l : (forall x, f (g x) = f x) -> mapR f (map g l) = mapR f l.
Proof. intros H. induction l as [|a l IH]; [reflexivity|]. cbn [map mapR]. now rewrite H, IH. Qed.
Lemma slice_alike {X} (c : codec X) z g l : (forall x, enc c (g x) = enc c x) -> enc (c_slice c z) (map g l) = enc (c_slice c z) l.
Proof. intros H. destruct l as [|a l]; [reflexivity|]. unfold c_slice. cbn [enc]. rewrite (mapR_alike (enc c) g (a :: l) H). reflexivity. Qed.
Lemma slice_empty {X} (c : codec X) z (g : X -> X) l : is_empty (c_slice c z) (map g l) = is_empty (c_slice c z) l.
Proof. now destruct l. Qed.
Lemma ptrs_alike {X} (c : codec X) z g l : (forall x, enc c (g x) = enc c x) ->
  enc (c_ptrs c z) (map (option_map g) l) = enc (c_ptrs c z) l.
Proof. intros H. apply slice_alike. intros [x|]; [exact (H x)|reflexivity]. Qed.
Lemma ptrs_empty {X} (c : codec X) z (g : X -> X) l : is_empty (c_ptrs c z) (map (option_map g) l) = is_empty (c_ptrs c z) l.
Proof. now destruct l. Qed.
Lemma field_alike {A X} name om (c : codec X) get set (x y : A) : enc c (get x) = enc c (get y) -> is_empty c (get x) = is_empty c (get y) ->
  f_enc (Field X name om c get set) x = f_enc (Field X name om c get set) y.
Proof.
  intros E I. unfold f_enc. change ((if om && is_empty c (get x) then Ok None else let* j := enc c (get x) in Ok (Some j)) =
    (if om && is_empty c (get y) then Ok None else let* j := enc c (get y) in Ok (Some j))). now rewrite E, I.
Qed.

Lemma annotation_alike a : enc c_annotation (json_annotation a) = enc c_annotation a.
Proof. reflexivity. Qed.
Lemma snippet_alike v s : enc (c_snippet v) (json_snippet s) = enc (c_snippet v) s.
Proof. destruct v; reflexivity. Qed.
Ltac parts := repeat (apply Forall_cons || apply Forall_nil); try reflexivity.
Lemma file_alike v f : enc (c_file v) (json_file v f) = enc (c_file v) f.
Proof.
  unfold c_file. apply struct_alike. destruct v; cbn [app]; parts;
    (apply field_alike; [apply slice_alike, annotation_alike|apply slice_empty]).
Qed.
Lemma code_alike v c : enc (c_package_code v) (json_code v c) = enc (c_package_code v) c.
Proof. destruct v, c as [[[|a s] [|e l]]|]; reflexivity. Qed.
Lemma code_empty v c : is_empty (c_package_code v) (json_code v c) = is_empty (c_package_code v) c.
Proof. destruct v, c as [[[|a s] [|e l]]|]; reflexivity. Qed.
Notation jpackage_part v := (json_package (option_map (json_file v)) v).
Lemma package_fields_alike v p : enc (c_struct (package_fields v)) (jpackage_part v p) = enc (c_struct (package_fields v)) p.
Proof.
  apply struct_alike. unfold package_fields. destruct v; cbn [app]; parts;
    (apply field_alike; first [apply slice_alike, annotation_alike|apply slice_empty|apply ptrs_alike, file_alike|apply ptrs_empty|exact (code_alike _ _)|exact (code_empty _ _)]).
Qed.
Lemma package_alike v p : enc (c_package v) (jpackage_part v (fst p), snd p) = enc (c_package v) p.
Proof.
  destruct p as [p fs]. unfold c_package. cbn [enc fst snd]. destruct v; try exact (package_fields_alike _ p).
  unfold marshal_package_22. rewrite (package_fields_alike V22 p). destruct (enc (c_struct (package_fields V22)) p); [|reflexivity..]. cbn [bindR].
  change (p_VerificationCode (jpackage_part V22 p)) with (json_code V22 (@p_VerificationCode (option JFile) (option ExternalRef) p)).
  destruct (@p_VerificationCode (option JFile) (option ExternalRef) p) as [[[|b s] [|e l]]|]; reflexivity.
Qed.
Theorem marshal_part v h d : marshal_document v h (json_part v d) = marshal_document v h d.
Proof.
  unfold marshal_document. cbv zeta. set (add := fun p : option JPackage => match p return option jpackage with Some q => Some (q, []) | None => None end).
  assert (E : enc (c_document_struct v) (with_packages (map add (d_Packages (json_part v d))) (d_Relationships (json_part v d)) (json_part v d)) =
              enc (c_document_struct v) (with_packages (map add (d_Packages d)) (d_Relationships d) d)).
  { apply struct_alike. parts; (apply field_alike; [|]).
    - change (enc (c_slice (c_ptr (c_package v) zero_jpackage) None) (map add (map (option_map (jpackage_part v)) (d_Packages d))) =
              enc (c_slice (c_ptr (c_package v) zero_jpackage) None) (map add (d_Packages d))).
      rewrite map_map. rewrite (map_ext _ (fun p => option_map (fun q => (jpackage_part v (fst q), snd q)) (add p))) by (now intros []).
      rewrite <- (map_map add). apply slice_alike. intros [p|]; [exact (package_alike v p)|reflexivity].
    - cbn [is_empty]. now destruct d as [? ? ? ? ? ? ? ? [|]].
    - exact (ptrs_alike _ _ (json_file v) (d_Files d) (file_alike v)).
    - exact (ptrs_empty _ _ (json_file v) (d_Files d)).
    - exact (ptrs_alike _ _ json_annotation (d_Annotations d) annotation_alike).
    - exact (ptrs_empty _ _ json_annotation (d_Annotations d)).
    - exact (slice_alike _ _ json_snippet (d_Snippets d) (snippet_alike v)).
    - exact (slice_empty _ _ json_snippet (d_Snippets d)). }
  now rewrite E.
Qed.
