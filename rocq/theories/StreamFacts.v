(** Lemmas about Stream. *)
From Verif Require Import GoStr GoStrFacts Sorting Types TvUtil TvReader TvReaderFacts TvParser Convert ConvertGo TvWriter Json JsonSpdx JsonText Stream SpecStream.

Lemma take_drop n s : take n s ++ drop n s = s.
Proof. revert s; induction n; intros [|a s]; simpl; auto. now rewrite IHn. Qed.
Lemma take_length n s : n <= String.length s -> String.length (take n s) = n.
Proof. revert s; induction n; intros [|a s] H; simpl in *; auto; [lia|]. rewrite IHn; lia. Qed.
Lemma drop_length n s : String.length (drop n s) = String.length s - n.
Proof. revert s; induction n; intros [|a s]; simpl; auto. Qed.
Lemma slen_app a b : slen (a ++ b) = (slen a + slen b)%N.
Proof. unfold slen. rewrite app_length_s. lia. Qed.

(** ** One call of Read *)
Lemma read_spec room s c e s' : (0 < room)%N -> read room s = (c, e, s') ->
  content s = c ++ content s' /\ ends s' = ends s /\ (slen c <= room)%N /\
  match e with
  | Some f => f = ends s /\ content s' = "" /\ String.length c + calls s' <= calls s /\ forall n, patient n s
  | None => String.length c + calls s' < calls s \/
            (c <> "" /\ String.length c + calls s' <= calls s)
  end.
Proof.
  intros Hr. destruct s as [d next|d f]; simpl; destruct (slen d <=? room)%N eqn:E; intros H; injection H; intros; subst; clear H.
  - apply N.leb_le in E. repeat split; auto; simpl; try lia; try (left; lia).
  - apply N.leb_gt in E. simpl. rewrite <- app_assoc_s, take_drop. unfold slen in *.
    rewrite take_length by lia. rewrite drop_length. repeat split; try lia.
    right. split; [|lia]. intros F. apply (f_equal String.length) in F. rewrite take_length in F by lia. simpl in F. lia.
  - apply N.leb_le in E. repeat split; auto; simpl; try lia; now rewrite app_nil_r_s.
  - apply N.leb_gt in E. simpl. rewrite take_drop. unfold slen in *.
    rewrite take_length by lia. rewrite drop_length. repeat split; try lia.
    right. split; [|lia]. intros F. apply (f_equal String.length) in F. rewrite take_length in F by lia. simpl in F. lia.
Qed.

(** ** bytes.Buffer *)
Lemma read_from_spec room : (forall n, (0 < room n)%N) -> forall fuel s buf, calls s <= S fuel ->
  read_from fuel room buf s = match ends s with Eof => Ok (buf ++ content s) | Broken => Err "read error" end.
Proof.
  intros Hr. induction fuel as [|k IH]; intros s buf Hc; simpl;
    destruct (read (room (slen buf)) s) as [[c e] s'] eqn:E;
    destruct (read_spec _ _ _ _ _ (Hr _) E) as (Hcont & He & _ & H).
  - destruct e as [f|].
    + destruct H as (-> & H0 & _ & _). rewrite Hcont, H0, app_nil_r_s. now destruct (ends s).
    + exfalso. assert (1 <= calls s') by (destruct s'; simpl; lia). destruct H as [H|[H1 H]]; [lia|].
      destruct c; [congruence|]. simpl in H. lia.
  - destruct e as [f|].
    + destruct H as (-> & H0 & _ & _). rewrite Hcont, H0, app_nil_r_s. now destruct (ends s).
    + rewrite IH; [|destruct H as [H|[H1 H]]; [lia|destruct c; [congruence|simpl in H; lia]]].
      rewrite He, Hcont, app_assoc_s. reflexivity.
Qed.

Lemma json_stream room dz to s : (forall n, (0 < room n)%N) ->
  json_read_from room dz to s = match ends s with Eof => json_read dz to (content s) | Broken => Err "read error" end.
Proof. intros Hr. unfold json_read_from. rewrite read_from_spec by (auto; lia). now destruct (ends s). Qed.

(** ** The scanner *)
Definition cap_ok (sc : scanner) : Prop := (sc_end sc <= sc_cap sc <= max_token)%N.
Definition rest_of (sc : scanner) : string := sc_buf sc ++ content (sc_src sc).

Lemma make_room_some sc sc' : cap_ok sc -> make_room sc = Some sc' ->
  cap_ok sc' /\ (sc_end sc' < sc_cap sc')%N /\ sc_buf sc' = sc_buf sc /\ sc_err sc' = sc_err sc /\ sc_src sc' = sc_src sc.
Proof.
  unfold make_room, cap_ok, sc_end. intros H.
  set (start := if _ && _ then 0%N else _).
  assert (start <= sc_start sc)%N by (unfold start; destruct (_ && _)%bool; lia). clearbody start.
  destruct (start + slen (sc_buf sc) =? sc_cap sc)%N eqn:E.
  - destruct (max_token <=? sc_cap sc)%N eqn:M; [discriminate|]. match goal with |- Some ?x = Some _ -> _ => intros K; assert (x = sc') as <- by congruence; clear K end. cbn [sc_cap sc_start sc_buf sc_err sc_src].
    apply N.eqb_eq in E. apply N.leb_gt in M. unfold max_token, start_size in *.
    destruct (sc_cap sc =? 0)%N eqn:Z; [apply N.eqb_eq in Z|apply N.eqb_neq in Z]; repeat split; lia.
  - match goal with |- Some ?x = Some _ -> _ => intros K; assert (x = sc') as <- by congruence; clear K end. cbn [sc_cap sc_start sc_buf sc_err sc_src]. apply N.eqb_neq in E. repeat split; lia.
Qed.
Lemma make_room_none sc : cap_ok sc -> make_room sc = None -> slen (sc_buf sc) = max_token.
Proof.
  unfold make_room, cap_ok, sc_end. intros H.
  destruct (0 <? sc_start sc)%N eqn:S; simpl; [apply N.ltb_lt in S|apply N.ltb_ge in S].
  - destruct (sc_start sc + slen (sc_buf sc) =? sc_cap sc)%N eqn:F; simpl.
    + apply N.eqb_eq in F. destruct (slen (sc_buf sc) =? sc_cap sc)%N eqn:E; [apply N.eqb_eq in E; lia|discriminate].
    + apply N.eqb_neq in F. destruct (sc_cap sc / 2 <? sc_start sc)%N; simpl.
      * destruct (slen (sc_buf sc) =? sc_cap sc)%N eqn:E; [apply N.eqb_eq in E; lia|discriminate].
      * destruct (sc_start sc + slen (sc_buf sc) =? sc_cap sc)%N eqn:E; [apply N.eqb_eq in E; lia|discriminate].
  - destruct (sc_start sc + slen (sc_buf sc) =? sc_cap sc)%N eqn:E; [|discriminate].
    destruct (max_token <=? sc_cap sc)%N eqn:M; [|discriminate]. intros _.
    apply N.eqb_eq in E. apply N.leb_le in M. lia.
Qed.

(** What [fill] does to a scanner that has room and no error yet *)
Lemma read_patient room s c s' n : (0 < room)%N -> read room s = (c, None, s') ->
  (c <> "" -> (patient n s <-> patient 100 s')) /\
  (c = "" -> (patient n s <-> (exists m, n = S m /\ patient m s'))).
Proof.
  intros Hr. destruct s as [d next|d f]; simpl; destruct (slen d <=? room)%N eqn:E; intros H; try discriminate H; injection H; intros; subst; clear H.
  - split; intros C.
    + destruct c; [congruence|]. reflexivity.
    + subst c. destruct n; [split; [tauto|intros (m & F & _); discriminate]|].
      split; [intros; exists n; auto|intros (m & F & P); injection F; intros; now subst].
  - apply N.leb_gt in E. unfold slen in E.
    assert (drop (N.to_nat room) d <> "") as D.
    { intros F. apply (f_equal String.length) in F. rewrite drop_length in F. simpl in F. lia. }
    assert (take (N.to_nat room) d <> "") as T.
    { intros F. apply (f_equal String.length) in F. rewrite take_length in F by lia. simpl in F. lia. }
    split; [|congruence]. intros _. destruct d; [exfalso; apply D; now destruct (N.to_nat room)|].
    simpl (patient 100 (Give _ _)). destruct (drop (N.to_nat room) (String a d)); [congruence|]. reflexivity.
  - split; [reflexivity|]. apply N.leb_gt in E. unfold slen in E. intros F.
    apply (f_equal String.length) in F. rewrite take_length in F by lia. simpl in F. lia.
Qed.

Lemma fill_spec loops sc : sc_err sc = None -> (sc_end sc < sc_cap sc <= max_token)%N ->
  let sc' := fill loops sc in
  rest_of sc' = rest_of sc /\ ends (sc_src sc') = ends (sc_src sc) /\ cap_ok sc' /\
  String.length (sc_buf sc') + calls (sc_src sc') <= String.length (sc_buf sc) + calls (sc_src sc) /\
  (sc_err sc' = None -> patient loops (sc_src sc) <-> lively (sc_src sc')) /\
  ((sc_err sc' = None /\ calls (sc_src sc') < calls (sc_src sc)) \/
   (sc_err sc' = Some (ReadError (ends (sc_src sc))) /\ content (sc_src sc') = "" /\ patient loops (sc_src sc)) \/
   (sc_err sc' = Some NoProgress /\ ~ patient loops (sc_src sc))).
Proof.
  revert sc. induction loops as [|k IH]; intros sc He Hroom; simpl;
    destruct (read (sc_cap sc - sc_end sc) (sc_src sc)) as [[c e] src] eqn:E;
    (assert (0 < sc_cap sc - sc_end sc)%N as Hr by lia);
    destruct (read_spec _ _ _ _ _ Hr E) as (Hcont & Hends & Hlen & H).
  - destruct e as [f|].
    + destruct H as (-> & H0 & H1 & H2). unfold rest_of, cap_ok, sc_end in *; simpl. rewrite Hcont, slen_app, app_length_s, app_assoc_s.
      repeat split; auto; try discriminate; try lia.
    + destruct (nonempty c) eqn:N.
      * apply nonempty_true in N. unfold rest_of, cap_ok, sc_end in *; simpl. rewrite Hcont, slen_app, app_length_s, app_assoc_s.
        destruct (read_patient _ _ _ _ 0 Hr E) as [P _].
        repeat split; auto; try lia; try (apply P; assumption).
        left. split; auto. destruct H as [H|[H1 H]]; [lia|destruct c; [congruence|simpl in H; lia]].
      * apply nonempty_false in N. subst c. unfold rest_of, cap_ok, sc_end in *; simpl. rewrite Hcont, app_nil_r_s.
        destruct (read_patient _ _ _ _ 0 Hr E) as [_ P].
        repeat split; auto; try discriminate; try lia.
        right. right. split; auto. intros F. apply P in F; auto. destruct F as (m & F & _). discriminate.
  - destruct e as [f|].
    + destruct H as (-> & H0 & H1 & H2). unfold rest_of, cap_ok, sc_end in *; simpl. rewrite Hcont, slen_app, app_length_s, app_assoc_s.
      repeat split; auto; try discriminate; try lia.
    + destruct (nonempty c) eqn:N.
      * apply nonempty_true in N. unfold rest_of, cap_ok, sc_end in *; simpl. rewrite Hcont, slen_app, app_length_s, app_assoc_s.
        destruct (read_patient _ _ _ _ (S k) Hr E) as [P _].
        repeat split; auto; try lia; try (apply P; assumption).
        left. split; auto. destruct H as [H|[H1 H]]; [lia|destruct c; [congruence|simpl in H; lia]].
      * apply nonempty_false in N. subst c.
        destruct (read_patient _ _ _ _ (S k) Hr E) as [_ P]. specialize (P eq_refl).
        set (sc1 := MkScanner (sc_cap sc) (sc_start sc) (sc_buf sc ++ "") (sc_err sc) src).
        assert (sc_end sc1 < sc_cap sc1 <= max_token)%N as Hroom1 by (unfold sc1, sc_end in *; simpl; rewrite app_nil_r_s; lia).
        destruct (IH sc1 He Hroom1) as (I1 & I2 & I3 & I4 & I5 & I6). clear IH.
        assert (String.length (sc_buf sc1) = String.length (sc_buf sc)) as L by (unfold sc1; simpl; now rewrite app_nil_r_s).
        assert (calls src < calls (sc_src sc)) as C by (destruct H as [H|[H1 H]]; [simpl in H; lia|congruence]).
        change (sc_src sc1) with src in *. rewrite Hends in *.
        repeat split.
        -- rewrite I1. unfold rest_of, sc1; simpl. rewrite app_nil_r_s, Hcont. reflexivity.
        -- exact I2.
        -- apply I3.
        -- apply I3.
        -- lia.
        -- intros Q. apply I5; auto. apply P in Q. destruct Q as (m & F & Q). injection F; intros; now subst.
        -- intros Q. apply P. exists k. split; auto. now apply I5.
        -- destruct I6 as [[I6 I7]|[[I6 I7]|[I6 I7]]].
           ++ left. split; auto. lia.
           ++ right; left. destruct I7. repeat split; auto. apply P. exists k; auto.
           ++ right; right. split; auto. intros Q. apply I7. apply P in Q. destruct Q as (m & F & Q). injection F; intros; now subst.
Qed.

Lemma fill_result loops sc sc' : fill loops sc = sc' -> sc_err sc = None -> (sc_end sc < sc_cap sc <= max_token)%N ->
  rest_of sc' = rest_of sc /\ ends (sc_src sc') = ends (sc_src sc) /\ cap_ok sc' /\
  String.length (sc_buf sc') + calls (sc_src sc') <= String.length (sc_buf sc) + calls (sc_src sc) /\
  (sc_err sc' = None -> patient loops (sc_src sc) <-> lively (sc_src sc')) /\
  ((sc_err sc' = None /\ calls (sc_src sc') < calls (sc_src sc)) \/
   (sc_err sc' = Some (ReadError (ends (sc_src sc))) /\ content (sc_src sc') = "" /\ patient loops (sc_src sc)) \/
   (sc_err sc' = Some NoProgress /\ ~ patient loops (sc_src sc))).
Proof. intros <-. apply fill_spec. Qed.
Arguments fill : simpl never.
Definition sound (sc : scanner) : Prop :=
  cap_ok sc /\ ((sc_err sc = None /\ lively (sc_src sc)) \/
                (sc_err sc = Some (ReadError (ends (sc_src sc))) /\ content (sc_src sc) = "")).
Definition left_to_do (sc : scanner) : nat := String.length (sc_buf sc) + calls (sc_src sc).

(** [l] is the first line of [t] and [t'] is what follows it *)
Definition first_line (t l t' : string) : Prop :=
  has_byte (byte 10) l = false /\
  ((t = l ++ LF ++ t' /\ (slen l < max_token)%N) \/ (t = l /\ l <> "" /\ t' = "" /\ (slen l <= max_token)%N)).

Lemma scan_unfold fuel sc : scan fuel sc =
  match scan_lines (sc_buf sc) (is_some (sc_err sc)) with
  | Some (line, rest) =>
      (Some line, MkScanner (sc_cap sc) (sc_end sc - slen rest) rest (sc_err sc) (sc_src sc))
  | None =>
      if is_some (sc_err sc) then (None, sc)
      else match make_room sc with
           | None => (None, set_err TooLong sc)
           | Some sc' => match fuel with O => (None, sc') | S k => scan k (fill max_empty_reads sc') end
           end
  end.
Proof. destruct fuel; reflexivity. Qed.

Lemma calls_pos s : 1 <= calls s.
Proof. destruct s; simpl; lia. Qed.

Lemma scan_spec fuel : forall sc, sound sc -> (sc_err sc = None -> calls (sc_src sc) <= fuel) ->
  let (o, sc') := scan fuel sc in
  match o with
  | Some tok => exists l, tok = drop_cr l /\ first_line (rest_of sc) l (rest_of sc') /\
                 sound sc' /\ ends (sc_src sc') = ends (sc_src sc) /\ left_to_do sc' < left_to_do sc
  | None => (sc_err sc' = Some (ReadError (ends (sc_src sc))) /\ rest_of sc = "") \/
            (sc_err sc' = Some TooLong /\ exists a b, rest_of sc = a ++ b /\ slen a = max_token /\ has_byte (byte 10) a = false)
  end.
Proof.
  induction fuel as [|k IH]; intros sc S Hf; rewrite scan_unfold; unfold scan_lines;
    destruct (cut LF (sc_buf sc)) as [[l rest]|] eqn:C.
  1, 3: abstract (apply cut_byte_some in C; destruct C as [C Cl]; change (String (byte 10) rest) with (LF ++ rest) in C; destruct S as [S1 S2];
    exists l; split; [reflexivity|]; unfold first_line, rest_of, sound, cap_ok, left_to_do, sc_end in *; simpl;
    rewrite C in *; rewrite !slen_app in *; change (slen LF) with 1%N in *; rewrite !app_length_s; change (String.length LF) with 1;
    rewrite !app_assoc_s; repeat match goal with |- _ /\ _ => apply conj end; auto; try lia; left; split; auto; unfold max_token in *; lia).
  all: apply cut_byte_none in C.
  all: destruct (sc_err sc) as [e|] eqn:E; simpl.
  1, 3: abstract (destruct S as [S1 [[S2 _]|[S2 S3]]]; [rewrite E in S2; discriminate|]; rewrite E in S2; injection S2; intros ->;
    unfold rest_of; rewrite S3, app_nil_r_s;
    destruct (nonempty (sc_buf sc)) eqn:N;
    [ apply nonempty_true in N; eexists; split; [reflexivity|]; unfold first_line, sound, cap_ok, left_to_do, sc_end in *; simpl;
      rewrite S3; repeat match goal with |- _ /\ _ => apply conj end; auto;
      try (change (slen "") with 0%N; lia);
      [ right; repeat split; auto; lia | destruct (sc_buf sc); [congruence|simpl; lia] ]
    | apply nonempty_false in N; left; rewrite E; auto ]).
  - destruct S as [S1 [[S2 S3]|[S2 _]]]; [|congruence]. specialize (Hf eq_refl). pose proof (calls_pos (sc_src sc)). lia.
  - destruct S as [S1 [[S2 S3]|[S2 _]]]; [|congruence].
    destruct (make_room sc) as [sc1|] eqn:M.
    + destruct (make_room_some _ _ S1 M) as (M1 & M2 & M3 & M4 & M5).
      assert (sc_err sc1 = None) as E1 by congruence.
      assert (sc_end sc1 < sc_cap sc1 <= max_token)%N as R1 by (unfold cap_ok in M1; lia).
      remember (fill max_empty_reads sc1) as sc2 eqn:X2. symmetry in X2.
      destruct (fill_result _ _ _ X2 E1 R1) as (F1 & F2 & F3 & F4 & F5 & F6). rewrite M5 in *. rewrite M3 in F4.
      assert (rest_of sc2 = rest_of sc) as R2 by (rewrite F1; unfold rest_of; now rewrite M3, M5).
      assert (sound sc2) as S4.
      { split; auto. destruct F6 as [[F6 F7]|[[F6 F7]|[F6 F7]]].
        - left. split; auto. now apply F5.
        - right. rewrite F2. destruct F7. auto.
        - now exfalso; apply F7. }
      specialize (IH sc2 S4).
      assert (sc_err sc2 = None -> calls (sc_src sc2) <= k) as Hk.
      { intros E2. specialize (Hf eq_refl). destruct F6 as [[F6 F7]|[[F6 F7]|[F6 F7]]]; [lia|congruence|congruence]. }
      specialize (IH Hk). destruct (scan k sc2) as [[tok|] sc3].
      * abstract (destruct IH as (l & I1 & I2 & I3 & I4 & I5); exists l; rewrite R2 in I2; unfold left_to_do in *;
        repeat match goal with |- _ /\ _ => apply conj end; auto; [congruence|lia]).
      * abstract (rewrite R2, F2 in IH; exact IH).
    + right. split; [reflexivity|]. exists (sc_buf sc), (content (sc_src sc)).
      abstract (repeat split; auto; now apply make_room_none).
Qed.

Lemma no_full_after l t : no_full_last_line (l ++ LF ++ t) -> no_full_last_line t.
Proof.
  intros H before line [-> | ->] N.
  - apply (H l line); auto.
  - apply (H (l ++ LF ++ before) line); auto. right. now rewrite !app_assoc_s.
Qed.

Lemma no_lf l : has_byte (byte 10) l = false -> forall a b, l <> a ++ LF ++ b.
Proof.
  intros H a b ->. rewrite !has_byte_app in H. simpl in H. now rewrite orb_true_r in H.
Qed.

Lemma scan_all_spec fuel : forall r sc, sound sc -> ends (sc_src sc) = Eof -> no_full_last_line (rest_of sc) ->
  left_to_do sc < fuel -> scan_all fuel r sc = read_all r (raw_lines (rest_of sc)).
Proof.
  induction fuel as [|k IH]; intros r sc S E N Hf; [lia|]. cbn [scan_all].
  assert (sc_err sc = None -> calls (sc_src sc) <= Datatypes.S k) as Hc by (unfold left_to_do in Hf; lia).
  pose proof (scan_spec (Datatypes.S k) sc S Hc) as H.
  destruct (scan (Datatypes.S k) sc) as [[tok|] sc'].
  - destruct H as (l & -> & (L & F) & S' & E' & D).
    destruct F as [[F1 F2]|(F1 & F2 & F3 & F4)].
    + rewrite F1, raw_lines_app, split_on_none by exact L. cbn [app read_all].
      unfold fits. unfold slen, max_token in F2. apply N.ltb_lt in F2. rewrite F2.
      destruct (read_next_line r (drop_cr l)); simpl; auto.
      apply IH; auto; [congruence| |lia]. rewrite F1 in N. now apply no_full_after in N.
    + rewrite F1. unfold raw_lines at 1. rewrite split_on_none by exact L. cbn [drop_last_empty].
      apply nonempty_true in F2 as ->. cbn [read_all]. unfold fits.
      assert (N.of_nat (String.length l) < 65536)%N as G.
      { unfold slen, max_token in F4. specialize (N "" l (or_introl F1) (no_lf _ L)). lia. }
      apply N.ltb_lt in G. rewrite G. destruct (read_next_line r (drop_cr l)); simpl; auto.
      rewrite IH; auto; [|congruence| |lia].
      * rewrite F3. reflexivity.
      * rewrite F3. intros before line [<- | X] _; [simpl; lia|]. destruct before; discriminate X.
  - destruct H as [[-> ->]|[-> (a & b & R & La & Na)]].
    + rewrite E. reflexivity.
    + rewrite R. destruct (cut LF b) as [[x y]|] eqn:C.
      * apply cut_byte_some in C as [-> C]. change (String (byte 10) y) with (LF ++ y). rewrite <- app_assoc_s, raw_lines_app.
        rewrite split_on_none by (rewrite has_byte_app, Na, C; reflexivity). cbn [app read_all].
        unfold fits. rewrite app_length_s. unfold slen, max_token in La.
        replace (N.of_nat (String.length a + String.length x) <? 65536)%N with false; [reflexivity|]. symmetry. apply N.ltb_ge. lia.
      * apply cut_byte_none in C. unfold raw_lines. rewrite split_on_none by (rewrite has_byte_app, Na, C; reflexivity).
        cbn [drop_last_empty]. replace (nonempty (a ++ b)) with true.
        2: { symmetry. apply nonempty_true. intros X. apply app_eq_nil_s in X as [-> _]. discriminate La. }
        cbn [read_all]. unfold fits. rewrite app_length_s. unfold slen, max_token in La.
        replace (N.of_nat (String.length a + String.length b) <? 65536)%N with false; [reflexivity|]. symmetry. apply N.ltb_ge. lia.
Qed.

Lemma sound_init s : lively s -> sound (scanner_init s).
Proof. intros H. split; [split; vm_compute; discriminate|]. left. auto. Qed.

Lemma tag_values_stream s : lively s -> ends s = Eof -> no_full_last_line (content s) ->
  read_tag_values_from s = read_tag_values (content s).
Proof.
  intros L E N. unfold read_tag_values_from, read_tag_values.
  rewrite scan_all_spec; auto using sound_init.
Qed.

Lemma tag_stream dz to s : lively s -> ends s = Eof -> no_full_last_line (content s) ->
  tagvalue_read_from dz to s = tagvalue_read dz to (content s).
Proof.
  intros L E N. unfold tagvalue_read_from. rewrite tag_values_stream by auto. unfold tagvalue_read, read_into.
  destruct (read_tag_values (content s)); reflexivity.
Qed.

(** ** Streams that break or get stuck *)
Definition doomed (sc : scanner) : Prop :=
  cap_ok sc /\ sc_err sc <> Some (ReadError Eof) /\
  (sc_err sc = None -> ends (sc_src sc) = Broken \/ ~ lively (sc_src sc)).

Lemma scan_doomed fuel : forall sc, doomed sc -> doomed (snd (scan fuel sc)) .
Proof.
  induction fuel as [|k IH]; intros sc (D1 & D2 & D3); rewrite scan_unfold; unfold scan_lines;
    destruct (cut LF (sc_buf sc)) as [[l rest]|] eqn:C.
  1, 3: apply cut_byte_some in C; destruct C as [C Cl]; change (String (byte 10) rest) with (LF ++ rest) in C;
    unfold doomed, cap_ok, sc_end in *; simpl; rewrite C in *; rewrite !slen_app in *; repeat split; auto; lia.
  all: destruct (is_some (sc_err sc) && nonempty (sc_buf sc))%bool eqn:B.
  1, 3: unfold doomed, cap_ok, sc_end in *; simpl; change (slen "") with 0%N; repeat split; auto; lia.
  all: destruct (sc_err sc) as [e|] eqn:E; cbn [is_some].
  1, 3: cbn [snd]; unfold doomed; rewrite E; repeat split; auto; apply D1.
  all: destruct (make_room sc) as [sc1|] eqn:M;
    [|cbn [snd]; unfold doomed, cap_ok, set_err, sc_end in *; simpl; repeat split; try discriminate; apply D1].
  - destruct (make_room_some _ _ D1 M) as (M1 & M2 & M3 & M4 & M5). cbn [snd]. unfold doomed. rewrite M4, E, M5. auto.
  - destruct (make_room_some _ _ D1 M) as (M1 & M2 & M3 & M4 & M5). apply IH.
    assert (sc_err sc1 = None) as E1 by congruence.
    assert (sc_end sc1 < sc_cap sc1 <= max_token)%N as R1 by (unfold cap_ok in M1; lia).
    remember (fill max_empty_reads sc1) as sc2 eqn:X2. symmetry in X2.
    destruct (fill_result _ _ _ X2 E1 R1) as (F1 & F2 & F3 & F4 & F5 & F6). rewrite M5 in *.
    split; auto. specialize (D3 eq_refl). destruct F6 as [[F6 F7]|[[F6 F7]|[F6 F7]]].
    + rewrite F6. split; [discriminate|]. intros _. rewrite F2. destruct D3 as [D3|D3]; auto.
      right. intros X. apply D3. now apply F5.
    + destruct F7 as [F7 F8]. rewrite F6. split; [|discriminate]. destruct D3 as [-> |D3]; [discriminate|contradiction].
    + rewrite F6. split; discriminate.
Qed.

Lemma read_next_line_ok_or_err r l : (exists r', read_next_line r l = Ok r') \/ exists m, read_next_line r l = Err m.
Proof.
  unfold read_next_line, read_midtext, read_ready.
  destruct (tv_midtext r); [destruct (cut _ _) as [[? ?]|]; eauto|].
  destruct (String.eqb _ _); [eauto|]. destruct (has_prefix _ _); [eauto|].
  destruct (cut _ _) as [[? rest]|]; [|eauto]. destruct (cut _ _) as [[? rest2]|]; [|eauto].
  destruct (cut _ _) as [[? ?]|]; eauto.
Qed.

Lemma scan_all_doomed fuel : forall r sc, doomed sc -> exists m, scan_all fuel r sc = Err m.
Proof.
  induction fuel as [|k IH]; intros r sc D; cbn [scan_all];
    match goal with |- context [scan ?f sc] => pose proof (scan_doomed f sc D) as H; destruct (scan f sc) as [[tok|] sc'] end; cbn [snd] in H.
  1, 3: destruct (read_next_line_ok_or_err r tok) as [[r' E]|[m E]]; rewrite E; simpl; eauto.
  all: destruct H as (_ & H & _); destruct (sc_err sc') as [[[|]| |]|]; eauto; congruence.
Qed.

Lemma tag_stream_fails dz to s : ends s = Broken \/ ~ lively s -> exists m, tagvalue_read_from dz to s = Err m.
Proof.
  intros H. unfold tagvalue_read_from, read_tag_values_from.
  destruct (scan_all_doomed (S (calls s)) tvr_init (scanner_init s)) as [m E].
  - split; [split; vm_compute; discriminate|]. split; [discriminate|]. auto.
  - rewrite E. simpl. eauto.
Qed.

(** ** Writing *)
Lemma deliver_all k : (forall i, k i = Accept) -> forall texts i, deliver k i texts = String.concat "" texts.
Proof.
  intros H. induction texts as [|t r IH]; intros i; [reflexivity|]. cbn [deliver String.concat]. rewrite H, IH.
  destruct r; [apply app_nil_r_s|reflexivity].
Qed.
Lemma bytes_concat l : bytes l = String.concat "" (map chunk_bytes l).
Proof.
  induction l as [|c r IH]; [reflexivity|]. cbn [bytes map String.concat]. rewrite IH.
  destruct r; [now simpl; rewrite app_nil_r_s|reflexivity].
Qed.
