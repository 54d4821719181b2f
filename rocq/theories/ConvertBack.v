(** Lemmas about new fields and about converting there and back. *)
From Verif Require Import GoStr Types TvUtil TvParser Convert SpecConvert ConvertFacts.

Section Back.
  Variable dz : bool.
  Notation conv := (conv dz).
  Notation out := (out dz).
  Notation field_out := (field_out dz).

  (** ** New fields *)
  Lemma get_zero_zero p : forall t z, wf t = true -> get t (zero t) p = Some z -> is_zero z = true.
  Proof.
    induction p as [|s p IH]; intros t z W; rewrite (get_base t) by exact W; rewrite target_zero; cbn [fst snd];
      apply wf_base in W as WB; pose proof (base_base t W) as BB.
    - destruct (base t) as [| | |[]| | |]; try discriminate; cbn; intros E; inversion E; reflexivity.
    - destruct s as [n|i|k]; destruct (base t) as [| | |[]|u|u|ts]; try discriminate.
      + rewrite zero_struct. cbn [get target]. destruct (assoc n ts) as [u|] eqn:A; [|discriminate].
        rewrite (assoc_map n _ (fun _ w => zero w)), A. cbn [option_map]. apply IH. exact (wf_assoc _ _ _ WB A).
      + cbn [get target zero]. now apply IH.
  Qed.
  Lemma get_new p : forall t t' v z, wf t = true -> wf t' = true -> compat t t' = true -> typed t v ->
    path_of t p = false -> path_of t' p = true -> get t' (out t' v) p = Some z -> is_zero z = true.
  Proof.
    induction p as [|s p IH].
    - intros t t' v z W W' C T P P'. exfalso. apply (compat_base t t' W W') in C. pose proof (base_base t' W') as BB'. apply wf_base in W as WB.
      rewrite path_base' in P, P' by assumption. cbn in P, P'. rewrite BB' in P'. rewrite (base_base t W) in P.
      destruct (base t'); try discriminate; destruct (base t) as [| | |[]| | |]; discriminate.
    - assert (DIR : forall t t' v z, wf t = true -> wf t' = true -> compat t t' = true -> typed t v -> direct v ->
                path_of t (s :: p) = false -> path_of t' (s :: p) = true -> get t' (out t' v) (s :: p) = Some z -> is_zero z = true).
      { intros t t' v z W W' C T D P P'. pose proof (conv_fine dz v t t' W C T W') as FI. pose proof (typed_direct t v T D) as BT.
        rewrite (out_wrap dz t' v W' D FI), (get_base t'), target_wrap by assumption. cbn [fst snd].
        apply (compat_base t t' W W') in C as CB. rewrite BT in CB. rewrite path_base' in P' by assumption.
        apply wf_base in W' as WB'. assert (BB : base (base t') = base t') by (now apply base_base).
        set (b := base t') in *. clearbody b. clear C W' FI t'.
        destruct s as [n0|i|k]; cbn [path_of] in P'; destruct b as [| | |[]|u|u|ts']; try discriminate; cbn [base] in P';
          destruct v; cbn in D; try contradiction; tinv T; try discriminate; cbn [path_of base] in P.
        - (* struct *)
          rewrite (out_struct dz (TStruct ts') ts ts' fs eq_refl WB' W CB T). cbn [wrap get target].
          destruct (assoc n0 ts') as [u'|] eqn:A'; [|discriminate]. rewrite (assoc_field_out dz fs ts' n0 u' A').
          destruct (assoc n0 fs) as [x|] eqn:AX.
          + destruct (typed_assoc' ts fs n0 x FT AX) as (w & AW & TX). rewrite AW in P.
            apply (IH w u' x z); auto; [exact (wf_assoc _ _ _ W AW)|exact (wf_assoc _ _ _ WB' A')|exact (compat_assoc _ _ _ _ _ CB AW A')].
          + apply get_zero_zero. exact (wf_assoc _ _ _ WB' A').
        - (* slice *)
          cbn [compat base] in CB. rewrite (out_slice dz (TSlice u) u t0 l eq_refl FT W CB WB'). cbn [wrap get target]. rewrite nth_error_map.
          destruct (nth_error l i) as [x|] eqn:N; cbn [option_map]; [|discriminate].
          apply (IH t0 u x z); auto. rewrite Forall_forall in FT. apply FT. now apply nth_error_In in N.
        - (* map *)
          cbn [compat base] in CB. rewrite (out_map dz (TMap u) u t0 m eq_refl FT W CB WB'). cbn [wrap get target].
          rewrite (assoc_map k (kept dz u m) (fun _ x => out u x)).
          destruct (assoc k (kept dz u m)) as [x|] eqn:AM; cbn [option_map]; [|now apply get_zero_zero].
          apply (IH t0 u x z); auto. rewrite Forall_forall in FT. apply assoc_in in AM. unfold kept in AM. apply filter_In in AM as [AM _].
          now apply (FT (k, x)). }
      intros t t' v z W W' C T P P'. destruct v as [| | | |w| | |]; try (now apply (DIR t)).
      + change (out t' VNil) with (zero t'). now apply get_zero_zero.
      + inversion T as [| | | | | |u ? TW| | |]; subst.
        assert (WU : wf u = true) by (cbn in W; destruct u; try discriminate; exact W).
        rewrite path_base' in P by exact W. cbn [base] in P. cbn [compat] in C.
        rewrite out_ptr. destruct (dz && is_zero w) eqn:Z; [now apply get_zero_zero|].
        apply (DIR u); auto. cbn in W. destruct u; try discriminate. inversion TW; subst. exact I.
  Qed.

  (** ** There and back *)
  Lemma sub_assoc lift ts ts' n u : sub lift (TStruct ts) (TStruct ts') = true -> assoc n ts = Some u ->
    exists u', assoc n ts' = Some u' /\ sub lift u u' = true.
  Proof. intros C A. apply sub_struct in C. rewrite Forall_forall in C. apply assoc_in in A. now apply (C (n, u)). Qed.
  Lemma sub_compat t : forall lift t', wf t = true -> wf t' = true -> sub lift t t' = true -> compat t t' = true.
  Proof.
    induction t using gty_ind'; intros lift t' W W' S; cbn [sub] in S.
    - destruct t'; try discriminate. reflexivity.
    - destruct t'; try discriminate. reflexivity.
    - destruct t'; try discriminate. reflexivity.
    - destruct t' as [| | |t'| | |]; try discriminate. cbn [compat]. cbn in W, W'. destruct t; try discriminate.
      destruct t'; try discriminate. apply (IHt lift (TStruct fs0)) in S; auto.
    - destruct t'; try discriminate. cbn in W, W' |- *. eauto.
    - destruct t; try discriminate. destruct t'; try discriminate. cbn [compat base]. eapply IHt; eauto.
    - assert (G : exists ts', base t' = TStruct ts' /\ sub lift (TStruct fs) (TStruct ts') = true).
      { destruct lift.
        - destruct (base t') as [| | | | | |ts'] eqn:B; try discriminate. exists ts'. split; [reflexivity|exact S].
        - destruct t' as [| | | | | |ts']; try discriminate. exists ts'. split; [reflexivity|exact S]. }
      destruct G as (ts' & B & G). apply wf_base in W' as WB. rewrite B in WB.
      assert (K : compat (TStruct fs) (TStruct ts') = true).
      { apply compat_struct. rewrite Forall_forall in H |- *. intros [n u] I u' A'. cbn [fst snd] in *.
        assert (A : assoc n fs = Some u) by (apply in_assoc; [now apply wf_nodup|exact I]).
        destruct (sub_assoc lift fs ts' n u G A) as (u'' & A'' & S'). rewrite A' in A''. inversion A''; subst.
        apply (H (n, u) I lift u''); auto; [exact (wf_assoc _ _ _ W A)|exact (wf_assoc _ _ _ WB A')]. }
      cbn [compat base] in K |- *. rewrite B. exact K.
  Qed.
  Lemma solid_fields fs n x : solid (VStruct fs) -> assoc n fs = Some x -> solid x.
  Proof. intros S A. inversion S as [| | | | | | |? F]; subst. rewrite Forall_forall in F. apply assoc_in in A. now apply (F (n, x)). Qed.
  Lemma not_kept te x : wf te = true -> direct x -> fine dz te x -> exists z, conv te x = Ok (Some z).
  Proof.
    intros W D [o E]. destruct o as [z|]; [eauto|]. exfalso. destruct x; cbn in D; try contradiction.
    - cbn in E. destruct (base te); discriminate.
    - cbn in E. destruct (base te); discriminate.
    - cbn in E. destruct (base te); discriminate.
    - destruct (base te) eqn:B; try (cbn in E; rewrite B in E; discriminate). rewrite (conv_slice dz _ _ _ B) in E.
      destruct (conv_list dz g l); discriminate.
    - destruct (base te) eqn:B; try (cbn in E; rewrite B in E; discriminate). rewrite (conv_mapv dz _ _ _ B) in E.
      destruct (conv_map dz g m); discriminate.
    - destruct (base te) eqn:B; try (cbn in E; rewrite B in E; discriminate). rewrite (conv_struct dz _ _ _ B) in E.
      destruct (conv_fields dz fs0 fs _); discriminate.
  Qed.
  Definition filled (x : gval) : Prop := exists w, x = VPtr w /\ is_zero w = false.
  Lemma kept_all u te m : wf u = true -> wf te = true -> compat u te = true -> Forall (fun e => typed u (snd e)) m ->
    Forall (fun e => filled (snd e)) m -> kept dz te m = m.
  Proof.
    intros W W' C F S. unfold kept. induction m as [|[k x] m IH]; [reflexivity|]. inversion F as [|? ? F1 F2]; subst.
    inversion S as [|? ? S1 S2]; subst. cbn [filter snd]. cbn [snd] in F1, S1. destruct S1 as (w & -> & Z).
    rewrite (IH F2 S2). inversion F1; subst. cbn [Convert.conv]. rewrite Z, andb_false_r.
    cbn in W. destruct t; try discriminate. match goal with H : typed (TStruct _) w |- _ => pose proof H as T; inversion H; subst end.
    destruct (not_kept te (VStruct fs0)) as [z ->]; [exact W'|exact I| |reflexivity]. apply (conv_fine dz _ (TStruct fs)); auto.
  Qed.
  Lemma out_nonzero v : forall lift t t', wf t = true -> wf t' = true -> sub lift t t' = true -> typed t v -> solid v ->
    is_zero v = false -> is_zero (out t' v) = false.
  Proof.
    induction v using gval_ind'; intros lift t t' W W' S T SO Z; pose proof (sub_compat t lift t' W W' S) as C; tinv T; try discriminate.
    - cbn in S. destruct t'; try discriminate. exact Z.
    - cbn in S. destruct t'; try discriminate. exact Z.
    - cbn in S. destruct t'; try discriminate. exact Z.
    - inversion SO as [| | | |? NZ SV| | |]; subst. rewrite out_ptr, NZ, andb_false_r. cbn [sub] in S. destruct t' as [| | |t'| | |]; try discriminate.
      cbn in W. destruct t0; try discriminate. inversion FT; subst.
      rewrite (out_wrap dz (TPtr t')); [reflexivity|exact W'|exact I|]. apply (conv_fine dz _ (TStruct fs)); auto.
    - cbn [sub] in S. destruct t' as [| | | |te| |]; try discriminate. rewrite (out_slice dz (TSlice te) te t0 l eq_refl FT W C W'). reflexivity.
    - cbn [sub] in S. destruct t0; try discriminate. destruct t' as [| | | | |te|]; try discriminate.
      rewrite (out_map dz (TMap te) te _ m eq_refl FT W C W'). reflexivity.
    - assert (G : exists ts', base t' = TStruct ts' /\ sub lift (TStruct ts) (TStruct ts') = true).
      { cbn [sub] in S. destruct lift.
        - destruct (base t') as [| | | | | |ts'] eqn:B; try discriminate. exists ts'. split; [reflexivity|exact S].
        - destruct t' as [| | | | | |ts']; try discriminate. exists ts'. split; [reflexivity|exact S]. }
      destruct G as (ts' & B & G). apply wf_base in W' as WB. rewrite B in WB. apply (compat_base _ t' W W') in C as CB. rewrite B in CB. cbn [base] in CB.
      rewrite (out_struct dz t' ts ts' fs B W' W CB T). destruct t' as [| | |[]| | |]; try discriminate; try reflexivity. cbn [wrap] in *.
      cbn [base] in B. inversion B; subst. rewrite is_zero_struct in Z |- *.
      apply not_true_is_false. intros Z'. apply not_true_iff_false in Z. apply Z. clear Z. rewrite forallb_forall in Z' |- *.
      intros [n x] I. cbn [snd].
      assert (A : assoc n fs = Some x) by (apply in_assoc; [rewrite (typed_fst ts fs FT); now apply wf_nodup|exact I]).
      destruct (typed_assoc' ts fs n x FT A) as (u & AU & TX). destruct (sub_assoc lift ts ts' n u G AU) as (u' & A' & S').
      apply assoc_in in A' as IA'. specialize (Z' (field_out fs (n, u')) (in_map _ _ _ IA')). unfold field_out in Z'. cbn [fst snd] in Z'.
      rewrite A in Z'. destruct (is_zero x) eqn:ZX; [reflexivity|]. exfalso. rewrite Forall_forall in H.
      pose proof (H (n, x) I lift u u' (wf_assoc _ _ _ W AU) (wf_assoc _ _ _ WB A') S' TX (solid_fields fs n x SO A) ZX) as Q. cbn [snd] in Q. congruence.
  Qed.
  Lemma struct_id ts fs (g : string * gty -> string * gval) : NoDup (map fst ts) ->
    Forall2 (fun (f : string * gty) (e : string * gval) => fst f = fst e /\ typed (snd f) (snd e)) ts fs ->
    (forall n u x, assoc n ts = Some u -> assoc n fs = Some x -> g (n, u) = (n, x)) -> map g ts = fs.
  Proof.
    intros ND F. induction F as [|[n u] [m x] ts fs [E T] F IH]; intros G; [reflexivity|]. cbn in E. subst m. cbn [map fst] in ND |- *.
    inversion ND as [|? ? N ND']; subst. f_equal.
    - apply G; cbn [assoc]; now rewrite String.eqb_refl.
    - apply IH; [exact ND'|]. intros n' u' x' A A'. apply G; cbn [assoc]; (destruct (String.eqb_spec n n') as [->|]; [|assumption]).
      + exfalso. apply N. apply assoc_in in A. now apply (in_map fst) in A.
      + exfalso. apply N. apply assoc_in in A. now apply (in_map fst) in A.
  Qed.
  Lemma out_back v : forall lift t t', wf t = true -> wf t' = true -> sub lift t t' = true -> compat t' t = true -> typed t v -> solid v ->
    out t (out t' v) = v.
  Proof.
    induction v using gval_ind'; intros lift t t' W W' S C' T SO; pose proof (sub_compat t lift t' W W' S) as C; tinv T.
    - cbn in S. destruct t'; try discriminate. reflexivity.
    - cbn in S. destruct t'; try discriminate. reflexivity.
    - cbn in S. destruct t'; try discriminate. reflexivity.
    - cbn [sub] in S. destruct t'; try discriminate. reflexivity.
    - cbn [sub] in S. destruct t'; try discriminate. reflexivity.
    - cbn [sub] in S. destruct t0; try discriminate. destruct t'; try discriminate. reflexivity.
    - inversion SO as [| | | |? NZ SV| | |]; subst. rewrite out_ptr, NZ, andb_false_r. cbn [sub] in S. destruct t' as [| | |t'| | |]; try discriminate.
      cbn in W. destruct t0 as [| | | | | |ts]; try discriminate. cbn in W'. destruct t' as [| | | | | |ts']; try discriminate.
      cbn [compat] in C, C'. assert (DV : direct v) by (inversion FT; subst; exact I).
      assert (FI : fine dz (TPtr (TStruct ts')) v) by (apply (conv_fine dz _ (TStruct ts)); auto).
      rewrite (out_wrap dz (TPtr (TStruct ts')) v W' DV FI). cbn [wrap base]. rewrite out_ptr.
      rewrite (out_nonzero v lift (TStruct ts) (TStruct ts') W W' S FT SV NZ), andb_false_r.
      assert (T' : typed (TStruct ts') (out (TStruct ts') v)) by (apply (out_typed dz v (TStruct ts)); auto).
      rewrite (out_wrap dz (TPtr (TStruct ts))); [|exact W|inversion T'; subst; exact I|apply (conv_fine dz _ (TStruct ts')); auto].
      cbn [wrap base]. f_equal. apply (IHv lift (TStruct ts) (TStruct ts')); auto.
    - cbn [sub] in S. destruct t' as [| | | |te| |]; try discriminate. cbn [compat base] in C, C'. inversion SO as [| | | | |? SL| |]; subst.
      rewrite (out_slice dz (TSlice te) te t0 l eq_refl FT W C W'). cbn [wrap].
      assert (TL : Forall (typed te) (map (out te) l)).
      { apply Forall_map. eapply Forall_impl; [|exact FT]. intros x TX. apply (out_typed dz x t0); auto. }
      rewrite (out_slice dz (TSlice t0) t0 te _ eq_refl TL W' C' W). cbn [wrap]. f_equal. rewrite map_map.
      rewrite <- (map_id l) at 2. apply map_ext_in. intros x I. rewrite Forall_forall in H, FT, SL. apply (H x I lift); auto.
    - cbn [sub] in S. destruct t0 as [| | |u| | |]; try discriminate. destruct t' as [| | | | |te|]; try discriminate.
      inversion SO as [| | | | | |? SM|]; subst.
      assert (CE : compat (TPtr u) te = true) by exact C. assert (CE' : compat te (TPtr u) = true) by exact C'.
      assert (KA : kept dz te m = m) by (
        apply (kept_all (TPtr u) te m); auto; rewrite Forall_forall in FT, SM |- *; intros [k x] I; specialize (FT _ I); specialize (SM _ I);
        cbn [snd] in *; destruct SM as [NX SX]; inversion FT; subst; [congruence|]; inversion SX; subst; eexists; eauto).
      rewrite (out_map dz (TMap te) te (TPtr u) m eq_refl FT W CE W'), KA. cbn [wrap].
      set (m' := map (fun e => (fst e, out te (snd e))) m).
      assert (TM : Forall (fun e => typed te (snd e)) m').
      { apply Forall_map. eapply Forall_impl; [|exact FT]. intros x TX. cbn [snd]. apply (out_typed dz (snd x) (TPtr u)); auto. }
      rewrite (out_map dz (TMap (TPtr u)) (TPtr u) te m' eq_refl TM W' CE' W). cbn [wrap].
      cbn [sub] in S. destruct te as [| | |u'| | |]; try discriminate.
      assert (KB : kept dz (TPtr u) m' = m').
      { apply (kept_all (TPtr u') (TPtr u) m'); auto. apply Forall_map. rewrite Forall_forall in FT, SM |- *. intros [k x] I. cbn [snd].
        specialize (FT _ I). specialize (SM _ I). cbn [snd] in FT, SM. destruct SM as [NX SX].
        inversion FT; subst; [congruence|]. inversion SX; subst.
        rewrite out_ptr. match goal with Z : is_zero v = false |- _ => rewrite Z, andb_false_r; rename Z into ZV end.
        match goal with Z : typed u v |- _ => rename Z into TV end.
        cbn in W. destruct u as [| | | | | |ts]; try discriminate. cbn in W'. destruct u' as [| | | | | |ts']; try discriminate.
        rewrite (out_wrap dz (TPtr (TStruct ts')));
          [|exact W'|inversion TV; subst; exact Logic.I|apply (conv_fine dz _ (TStruct ts)); auto].
        eexists. split; [reflexivity|]. apply (out_nonzero v lift (TStruct ts)); auto. }
      rewrite KB. unfold m'. rewrite map_map. cbn [fst snd]. f_equal. rewrite <- (map_id m) at 2. apply map_ext_in. intros [k x] I. cbn [fst snd].
      f_equal. rewrite Forall_forall in H, FT, SM. apply (H (k, x) I lift (TPtr u) (TPtr u') W W' S CE'); [exact (FT _ I)|exact (proj2 (SM _ I))].
    - assert (G : exists ts', base t' = TStruct ts' /\ sub lift (TStruct ts) (TStruct ts') = true).
      { cbn [sub] in S. destruct lift.
        - destruct (base t') as [| | | | | |ts'] eqn:B; try discriminate. exists ts'. split; [reflexivity|exact S].
        - destruct t' as [| | | | | |ts']; try discriminate. exists ts'. split; [reflexivity|exact S]. }
      destruct G as (ts' & B & G). apply wf_base in W' as WB. rewrite B in WB. apply (compat_base _ t' W W') in C as CB. rewrite B in CB. cbn [base] in CB.
      apply (compat_base t' _ W' W) in C' as CB'. rewrite B in CB'. cbn [base] in CB'.
      rewrite (out_struct dz t' ts ts' fs B W' W CB T).
      assert (K : out (TStruct ts) (VStruct (map (field_out fs) ts')) = VStruct fs).
      { assert (T' : typed (TStruct ts') (VStruct (map (field_out fs) ts'))).
        { pose proof (out_struct dz (TStruct ts') ts ts' fs eq_refl WB W CB T) as E. cbn [wrap] in E. rewrite <- E.
          apply (out_typed dz _ (TStruct ts)); auto. }
        rewrite (out_struct dz (TStruct ts) ts' ts _ eq_refl W WB CB' T'). cbn [wrap]. f_equal.
        apply struct_id; [now apply wf_nodup|exact FT|]. intros n u x A AX. unfold ConvertFacts.field_out at 1. cbn [fst snd]. f_equal.
        destruct (sub_assoc lift ts ts' n u G A) as (u' & A' & S'). rewrite (assoc_field_out dz fs ts' n u' A'), AX.
        destruct (typed_assoc ts fs n u FT A) as (x' & AX' & TX). rewrite AX in AX'. inversion AX'; subst x'.
        rewrite Forall_forall in H. apply assoc_in in AX as IX. apply (H (n, x) IX lift u u');
          [exact (wf_assoc _ _ _ W A)|exact (wf_assoc _ _ _ WB A')|exact S'|exact (compat_assoc _ _ _ _ _ CB' A' A)|exact TX|exact (solid_fields fs n x SO AX)]. }
      destruct t' as [| | |b| | |]; try discriminate; cbn [wrap base] in *; [|exact K].
      rewrite out_ptr. destruct (dz && is_zero (VStruct (map (field_out fs) ts'))) eqn:Z; [|exact K].
      apply andb_prop in Z as [_ Z]. symmetry. apply zero_unique; [exact T|].
      destruct (is_zero (VStruct fs)) eqn:ZV; [reflexivity|]. exfalso.
      pose proof (out_nonzero (VStruct fs) lift (TStruct ts) (TStruct ts') W WB G T SO ZV) as Q.
      rewrite (out_struct dz (TStruct ts') ts ts' fs eq_refl WB W CB T) in Q. cbn [wrap] in Q. congruence.
  Qed.

  (** solidity is kept when no structure becomes a pointer *)
  Lemma out_solid v : forall t t', wf t = true -> wf t' = true -> sub false t t' = true -> typed t v -> solid v -> solid (out t' v).
  Proof.
    induction v using gval_ind'; intros t t' W W' S T SO; pose proof (sub_compat t false t' W W' S) as C; tinv T.
    - cbn in S. destruct t'; try discriminate. constructor.
    - cbn in S. destruct t'; try discriminate. constructor.
    - cbn in S. destruct t'; try discriminate. constructor.
    - cbn [sub] in S. destruct t'; try discriminate. constructor.
    - cbn [sub] in S. destruct t'; try discriminate. constructor.
    - cbn [sub] in S. destruct t0; try discriminate. destruct t'; try discriminate. constructor.
    - inversion SO as [| | | |? NZ SV| | |]; subst. rewrite out_ptr, NZ, andb_false_r. cbn [sub] in S. destruct t' as [| | |t'| | |]; try discriminate.
      cbn in W. destruct t0 as [| | | | | |ts]; try discriminate. cbn in W'. destruct t' as [| | | | | |ts']; try discriminate.
      cbn [compat] in C. rewrite (out_wrap dz (TPtr (TStruct ts')) v); [|exact W'|inversion FT; subst; exact I|apply (conv_fine dz _ (TStruct ts)); auto].
      cbn [wrap base]. constructor; [apply (out_nonzero v false (TStruct ts)); auto|]. apply (IHv (TStruct ts)); auto.
    - cbn [sub] in S. destruct t' as [| | | |te| |]; try discriminate. cbn [compat base] in C. inversion SO as [| | | | |? SL| |]; subst.
      rewrite (out_slice dz (TSlice te) te t0 l eq_refl FT W C W'). cbn [wrap]. constructor. apply Forall_map.
      rewrite Forall_forall in H, FT, SL |- *. intros x I. apply (H x I t0); auto.
    - cbn [sub] in S. destruct t0 as [| | |u| | |]; try discriminate. destruct t' as [| | | | |te|]; try discriminate.
      inversion SO as [| | | | | |? SM|]; subst. assert (CE : compat (TPtr u) te = true) by exact C.
      rewrite (out_map dz (TMap te) te (TPtr u) m eq_refl FT W CE W'). cbn [wrap]. constructor. apply Forall_map. unfold kept.
      rewrite Forall_forall in H, FT, SM |- *. intros [k x] I. apply filter_In in I as [I _]. cbn [snd].
      specialize (FT _ I). specialize (SM _ I). cbn [snd] in FT, SM. destruct SM as [NX SX]. split; [|apply (H (k, x) I (TPtr u)); auto].
      intros E. assert (NZ : is_zero (out te x) = false); [|rewrite E in NZ; discriminate].
      apply (out_nonzero x false (TPtr u)); auto. inversion FT; subst; [congruence|reflexivity].
    - destruct t' as [| | | | | |ts']; try discriminate. change (sub false (TStruct ts) (TStruct ts') = true) in S.
      rewrite (out_struct dz (TStruct ts') ts ts' fs eq_refl W' W C T). cbn [wrap]. constructor. apply Forall_map.
      assert (ZS : forall t, solid (zero t)).
      { clear. induction t using gty_ind'; try (now cbn; constructor). rewrite zero_struct. constructor. apply Forall_map. exact H. }
      rewrite Forall_forall. intros [n u'] I'. unfold ConvertFacts.field_out. cbn [fst snd].
      destruct (assoc n fs) as [x|] eqn:A; [|apply ZS]. destruct (typed_assoc' ts fs n x FT A) as (u & AU & TX).
      destruct (sub_assoc false ts ts' n u S AU) as (u'' & A' & S').
      assert (A'' : assoc n ts' = Some u') by (apply in_assoc; [now apply wf_nodup|exact I']). rewrite A' in A''. inversion A''; subst u''.
      rewrite Forall_forall in H. apply assoc_in in A as IX. apply (H (n, x) IX u u');
        [exact (wf_assoc _ _ _ W AU)|exact (wf_assoc _ _ _ W' A')|exact S'|exact TX|exact (solid_fields fs n x SO A)].
  Qed.
End Back.
