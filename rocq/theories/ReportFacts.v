(** * Facts about text/tabwriter and the text of a report *)
From Verif Require Import GoStr GoStrFacts Sorting Types TvUtil TvState LicenseTools SpecTools Json Stream StreamFacts TabWriter Report SpecReport.
Local Open Scope string_scope.

Definition put_text (p : put) : string := match p with Put _ t => t | Bad => "" end.
Definition puts_text (l : list put) : string := String.concat "" (map put_text l).
Definition sound (l : list put) : Prop := ~ In Bad l.

Lemma concat_cons x l : String.concat "" (x :: l) = x ++ String.concat "" l.
Proof. destruct l; cbn; [now rewrite app_nil_r_s|reflexivity]. Qed.
Lemma concat_app l m : String.concat "" (l ++ m)%list = String.concat "" l ++ String.concat "" m.
Proof. induction l as [|x l IH]; [reflexivity|]. cbn [List.app]. rewrite !concat_cons, IH. now rewrite app_assoc_s. Qed.
Lemma puts_text_app l m : puts_text (l ++ m)%list = puts_text l ++ puts_text m.
Proof. unfold puts_text. now rewrite map_app, concat_app. Qed.
Lemma puts_text_cons x l : puts_text (x :: l) = put_text x ++ puts_text l.
Proof. unfold puts_text. cbn [map]. apply concat_cons. Qed.
Lemma sound_app l m : sound (l ++ m) <-> sound l /\ sound m.
Proof. unfold sound. rewrite in_app_iff. tauto. Qed.

(** ** Emitting *)
Lemma emit_all k i l : (forall j, k j = Accept) -> sound l -> emit k i l = (i + length l, puts_text l, Done).
Proof.
  intros K. revert i. induction l as [|p l IH]; intros i S; cbn [emit].
  - cbn. now rewrite Nat.add_0_r.
  - destruct p as [ws t|]; [|exfalso; apply S; now left]. rewrite K, IH by (intros H; apply S; now right).
    rewrite puts_text_cons. cbn [length put_text]. f_equal. f_equal. lia.
Qed.
Lemma emit_cases k i l : sound l ->
  (exists j, emit k i l = (j, puts_text l, Done)) \/
  (exists j ws t u n, emit k i l = (S j, t, Failed ws) /\ i <= j /\ k j = Refuse n /\ t ++ u = puts_text l /\ exists x, In (Put ws x) l).
Proof.
  revert i. induction l as [|p l IH]; intros i S; cbn [emit].
  - left. now exists i.
  - destruct p as [ws t|]; [|exfalso; apply S; now left]. rewrite puts_text_cons. cbn [put_text].
    destruct (k i) as [|n] eqn:K.
    + destruct (IH (Datatypes.S i)) as [(j & E)|(j & ws' & t' & u & n & E & L & Kj & Eq & x & I)]; [intros H; apply S; now right|..]; rewrite E.
      * left. now exists j.
      * right. exists j, ws', (t ++ t'), u, n. split; [reflexivity|]. split; [lia|]. split; [assumption|]. split; [now rewrite app_assoc_s, Eq|].
        exists x. now right.
    + right. exists i, ws, (take n t), (drop n t ++ puts_text l), n. split; [reflexivity|]. split; [lia|]. split; [assumption|].
      split; [now rewrite <- app_assoc_s, take_drop|]. exists t. now left.
Qed.
Lemma emit_dead k i l : sound l -> (forall j, i <= j -> k j = Refuse 0) -> exists j f, emit k i l = (j, "", f) /\ f <> Crashed.
Proof.
  intros S K. destruct l as [|[ws t|] l]; cbn [emit].
  - now exists i, Done.
  - rewrite K by lia. exists (Datatypes.S i), (Failed ws). split; [now destruct t|discriminate].
  - exfalso. apply S. now left.
Qed.

(** ** Padding *)
Lemma spaces_app m n : spaces (m + n) = spaces m ++ spaces n.
Proof. induction m as [|m IH]; [reflexivity|]. cbn. now rewrite IH. Qed.
Lemma pads_text n : String.concat "" (pads n) = spaces n.
Proof.
  induction n as [n IH] using lt_wf_ind.
  destruct n as [|[|[|[|[|[|[|[|[|n]]]]]]]]]; try reflexivity.
  change (pads (S (S (S (S (S (S (S (S (S n)))))))))) with (spaces 8 :: pads (S n)).
  rewrite concat_cons, IH by lia. now rewrite <- spaces_app.
Qed.
Lemma padding_text ws n : (0 <= n)%Z -> puts_text (padding ws n) = spaces (Z.to_nat n) /\ sound (padding ws n).
Proof.
  intros H. unfold padding. destruct (Z.ltb_spec n 0); [lia|]. split.
  - unfold puts_text. rewrite map_map. cbn [put_text]. rewrite map_id. apply pads_text.
  - unfold sound. rewrite in_map_iff. now intros (x & E & _).
Qed.
Lemma padding_widths ws n vs t : In (Put vs t) (padding ws n) -> vs = ws.
Proof.
  unfold padding. destruct (n <? 0)%Z; [intros [H|[]]; discriminate|].
  rewrite in_map_iff. intros (x & E & _). now injection E.
Qed.

(** ** Collecting *)
Definition held (ws : list Z) (lines : list line) : tw := MkTw ws lines [] "" 0%Z "" false.
Definition empty_line : line := [MkCell "" 0%Z].
(** collecting a text that does not end the cell *)
Fixpoint gather (s : string) (w : tw) : tw :=
  match s with
  | "" => w
  | String a r =>
      gather r (if (code a =? 255)%N then if w_escape w then end_escape (append_byte a w) else append_byte a (start_escape (update_width w))
                else append_byte a w)
  end.
Definition cells (e : entry) : line :=
  [MkCell (show_N (fst e)) (rune_count (show_N (fst e))); MkCell ("  " ++ snd e) (w_width (update_width (gather ("  " ++ snd e) tw_reset)))].

Definition append_text (s : string) (w : tw) : tw :=
  MkTw (w_widths w) (w_lines w) (w_line w) (w_text w) (w_width w) (w_rest w ++ s) (w_escape w).
Lemma append_text_nil w : append_text "" w = w.
Proof. destruct w. unfold append_text. cbn. now rewrite app_nil_r_s. Qed.
Definition simple (s : string) : Prop := forall a, In a (list_ascii_of_string s) -> ~ In (N_of_ascii a) [9; 10; 11; 12; 255]%N.
Lemma simple_tl a s : simple (String a s) -> simple s.
Proof. intros H b I. apply H. now right. Qed.
Lemma simple_app s t : paired false t -> simple s -> paired false (s ++ t).
Proof.
  intros T. induction s as [|a s IH]; intros H; [exact T|]. cbn [append paired]. pose proof (H a (or_introl eq_refl)) as Ha. cbn [In] in Ha.
  destruct (N.eqb_spec (N_of_ascii a) 255) as [E|E]; [lia|]. split; [|apply IH; now apply simple_tl in H]. cbn [In]. lia.
Qed.
Lemma simple_one_cell s : simple s -> one_cell s.
Proof. intros H. unfold one_cell. rewrite <- (app_nil_r_s s). now apply simple_app. Qed.
Lemma write_gather m p k i w s r : paired (w_escape w) s -> tw_write m p k i w (s ++ r) = tw_write m p k i (gather s w) r.
Proof.
  revert w. induction s as [|a s IH]; intros w H; [reflexivity|]. cbn [append tw_write gather paired] in *. change (N_of_ascii a) with (code a) in H.
  destruct (N.eqb_spec (code a) 255) as [E|E].
  - rewrite E. cbn [N.eqb Pos.eqb orb]. destruct (w_escape w) eqn:X; rewrite IH; try reflexivity; exact H.
  - destruct H as [N H]. destruct (w_escape w) eqn:X; [rewrite IH; [reflexivity|cbn; now rewrite X]|]. cbn [In] in N. specialize (N eq_refl).
    destruct (N.eqb_spec (code a) 9); [lia|]. destruct (N.eqb_spec (code a) 11); [lia|].
    destruct (N.eqb_spec (code a) 10); [lia|]. destruct (N.eqb_spec (code a) 12); [lia|]. cbn [orb]. rewrite IH; [reflexivity|cbn; now rewrite X].
Qed.
Lemma gather_closed s : forall w, paired (w_escape w) s -> w_escape (gather s w) = false.
Proof.
  induction s as [|a s IH]; intros w H; [exact H|]. cbn [gather paired] in *. change (N_of_ascii a) with (code a) in H.
  destruct (code a =? 255)%N; [|apply IH; apply H]. destruct (w_escape w) eqn:X; apply IH; exact H.
Qed.
Lemma gather_text s : forall w, w_text (gather s w) ++ w_rest (gather s w) = w_text w ++ w_rest w ++ s.
Proof.
  induction s as [|a s IH]; intros w; cbn [gather]; [now rewrite app_nil_r_s|].
  rewrite IH. destruct (code a =? 255)%N; [destruct (w_escape w)|]; cbn; rewrite ?app_nil_r_s, ?app_assoc_s; reflexivity.
Qed.
Lemma gather_frame s : forall ws L l t n r e,
  let g := gather s (MkTw [] [] [] t n r e) in
  gather s (MkTw ws L l t n r e) = MkTw ws L l (w_text g) (w_width g) (w_rest g) (w_escape g).
Proof.
  induction s as [|a s IH]; intros ws L l t n r e; [reflexivity|]. cbn [gather]. cbn [w_escape].
  destruct (code a =? 255)%N; [destruct e|]; apply IH.
Qed.
Lemma write_text m p k i w s r : simple s -> w_escape w = false ->
  tw_write m p k i w (s ++ r) = tw_write m p k i (append_text s w) r.
Proof.
  revert w. induction s as [|a s IH]; intros w H E.
  - now rewrite append_text_nil.
  - cbn [append tw_write]. rewrite E. pose proof (H a (or_introl eq_refl)) as Ha.
    change (N_of_ascii a) with (code a) in Ha. cbn [In] in Ha.
    destruct (N.eqb_spec (code a) 9); [lia|]. destruct (N.eqb_spec (code a) 11); [lia|].
    destruct (N.eqb_spec (code a) 10); [lia|]. destruct (N.eqb_spec (code a) 12); [lia|].
    destruct (N.eqb_spec (code a) 255); [lia|]. cbn [orb].
    rewrite IH; [|now apply simple_tl in H|exact E]. f_equal. unfold append_text, append_byte. cbn. f_equal. now rewrite app_assoc_s.
Qed.

Lemma show_N_digits n : forall a, In a (list_ascii_of_string (show_N n)) -> (48 <= code a <= 57)%N.
Proof.
  intros a I. assert (has_byte a (show_N n) = true) as H.
  { revert I. induction (show_N n) as [|b s IH]; cbn; [tauto|]. intros [->|I]; [now rewrite Ascii.eqb_refl|]. rewrite IH by assumption. apply orb_true_r. }
  destruct ((code a <? 48) || (57 <? code a))%N eqn:C.
  - pose proof (digits_aux_bytes (S (N.to_nat (N.size n))) n a "" (digit_not a C) eq_refl) as D. fold (show_N n) in D. congruence.
  - apply orb_false_iff in C as [C1 C2]. apply N.ltb_ge in C1, C2. lia.
Qed.
Lemma digits_simple n : simple (show_N n).
Proof.
  intros a I. apply show_N_digits in I. change (N_of_ascii a) with (code a). cbn. lia.
Qed.
Lemma rune_count_ascii s : (forall a, In a (list_ascii_of_string s) -> (code a < 128)%N) -> rune_count s = Z.of_nat (String.length s).
Proof.
  induction s as [|a s IH]; intros H; [reflexivity|].
  assert (rune_count s = Z.of_nat (String.length s)) as E by (apply IH; intros b I; apply H; now right).
  pose proof (H a (or_introl eq_refl)) as Ha.
  assert (forall lo hi, (194 <= lo)%N -> between lo hi a = false) as B.
  { intros lo hi L. unfold between. destruct (N.leb_spec lo (code a)); [lia|reflexivity]. }
  cbn [rune_count String.length]. replace (Z.of_nat (S (String.length s))) with (1 + Z.of_nat (String.length s))%Z by lia. rewrite <- E. f_equal.
  destruct s as [|b s]; [reflexivity|]. unfold utf8_2. rewrite B by lia. cbn [andb].
  destruct s as [|c s]; [reflexivity|]. unfold utf8_3. rewrite !B by lia. cbn [andb orb].
  destruct s as [|d s]; [reflexivity|]. unfold utf8_4. rewrite !B by lia. reflexivity.
Qed.
Lemma rune_count_show n : rune_count (show_N n) = Z.of_nat (String.length (show_N n)).
Proof. apply rune_count_ascii. intros a I. apply show_N_digits in I. lia. Qed.

Lemma write_tab m p k i w r : w_escape w = false ->
  tw_write m p k i w (TAB ++ r) = tw_write m p k i (terminate_cell (update_width w)) r.
Proof. intros E. unfold TAB. cbn [append tw_write]. now rewrite E. Qed.

Definition row_of (e : entry) : row := Row (fst e) (snd e).
Lemma write_row k i ws L e : one_cell (snd e) ->
  tw_write 0 2 k i (held ws L) (row_text (row_of e)) = (i, "", Fine (held ws (L ++ [cells e]))).
Proof.
  intros H. unfold row_of, row_text.
  rewrite write_text; [|apply digits_simple|reflexivity].
  rewrite write_tab by reflexivity.
  change ("  " ++ snd e ++ LF) with (("  " ++ snd e) ++ LF).
  assert (paired false ("  " ++ snd e)) as P.
  { apply simple_app; [exact H|]. intros a [<-|[<-|[]]]; cbn; intuition discriminate. }
  rewrite write_gather by exact P. unfold held, update_width, append_text, terminate_cell. cbn [w_widths w_lines w_line w_text w_width w_rest w_escape append List.app].
  rewrite gather_frame. unfold cells. change tw_reset with (MkTw [] [] [] "" 0%Z "" false).
  pose proof (gather_closed _ (MkTw [] [] [] "" 0%Z "" false) P) as C. pose proof (gather_text ("  " ++ snd e) (MkTw [] [] [] "" 0%Z "" false)) as T.
  cbn [w_text w_rest append] in T. cbv zeta. change (String " " (String " " (snd e))) with ("  " ++ snd e) in *.
  destruct (gather ("  " ++ snd e) (MkTw [] [] [] "" 0%Z "" false)) as [a b c t n r x]. cbn [w_widths w_lines w_line w_text w_width w_rest w_escape] in *. subst x.
  unfold LF. cbn [tw_write w_escape].
  change (code (byte 10)) with 10%N. cbn [N.eqb Pos.eqb orb].
  unfold add_line, terminate_cell, update_width. cbn [w_widths w_lines w_line w_text w_width w_rest w_escape List.app length Nat.eqb].
  rewrite !app_nil_r_s, T. reflexivity.
Qed.
Lemma print_entries k i ws L es rest : Forall (fun e : entry => one_cell (snd e)) es ->
  print_rows k i (held ws L) (map row_of es ++ rest) = print_rows k i (held ws (L ++ map cells es)) rest.
Proof.
  intros H. revert L. induction H as [|e es H F IH]; intros L; cbn [map List.app].
  - now rewrite app_nil_r.
  - cbn [print_rows]. rewrite write_row by assumption. rewrite IH. rewrite <- app_assoc. cbn [List.app append].
    now destruct (print_rows k i _ rest).
Qed.

(** ** Formatting *)
Definition width (es : list entry) : Z := Z.of_nat (2 + widest es).
Lemma block_width_table es w0 : (0 <= w0)%Z -> es <> [] \/ (2 <= w0)%Z ->
  fold_left (fun w l => Z.max w (c_width (nth 0 (fst l) (MkCell "" 0)) + 2))%Z (map (fun e => (cells e, true)) es) w0 = Z.max w0 (width es) .
Proof.
  unfold width. revert w0. induction es as [|e es IH]; intros w0 H0 H; cbn [map fold_left].
  - destruct H as [H|H]; [congruence|]. change (Z.of_nat (2 + widest [])) with 2%Z. lia.
  - rewrite IH; [|lia|right]; cbn [fst nth cells c_width]; rewrite rune_count_show.
    + unfold widest. cbn [map fold_right]. unfold digits at 2. lia.
    + lia.
Qed.
Lemma cells_has es b : Forall (fun l => has_cell 0 l = true) (map (fun e => (cells e, b)) es).
Proof. induction es; constructor; [reflexivity|assumption]. Qed.
Lemma column_block_app c l r : Forall (fun l => has_cell c l = true) l -> Forall (fun l => has_cell c l = false) (firstn 1 r) ->
  column_block c (l ++ r) = (l, r).
Proof.
  intros H. revert r. induction H as [|x l H F IH]; intros r R; cbn [List.app column_block].
  - destruct r as [|y r]; [reflexivity|]; cbn [column_block firstn] in *. inversion R as [|? ? R1 R2]; subst. now rewrite R1.
  - now rewrite H, (IH r R).
Qed.
Lemma format_flat m p f ws before ls : length ls < f -> Forall (fun l => has_cell (length ws) l = false) ls ->
  format m p f ws before ls = write_lines ws (before ++ ls).
Proof.
  intros L H. revert f before L. induction H as [|l ls H F IH]; intros f before L; (destruct f as [|f]; [cbn in L; lia|]); cbn [format].
  - now rewrite app_nil_r.
  - rewrite H, IH by (cbn in L; lia). now rewrite <- app_assoc.
Qed.
(** a table, preceded by lines without columns and followed by the rest *)
Lemma format_table f before ls es rest : length ls + 2 * length es + 2 <= f -> es <> [] ->
  Forall (fun l => has_cell 0 l = false) ls -> Forall (fun l => has_cell 0 l = false) (firstn 1 rest) ->
  exists g, f = S g + length ls /\ format 0 2 f [] before (ls ++ map (fun e => (cells e, true)) es ++ rest) =
    (write_lines [] (before ++ ls) ++ write_lines [width es] (map (fun e => (cells e, true)) es) ++ format 0 2 g [] [] rest)%list.
Proof.
  intros L N H R. revert f before L. induction H as [|l ls H F IH]; intros f before L.
  - cbn [length List.app] in *. destruct f as [|f]; [lia|]. exists f. split; [lia|]. destruct es as [|e es]; [congruence|].
    cbn [format]. change (has_cell (length (@nil Z)) (cells e, true)) with true. cbn [map List.app].
    change ((cells e, true) :: (map (fun e => (cells e, true)) es ++ rest)%list) with (map (fun e => (cells e, true)) (e :: es) ++ rest)%list.
    change (length (@nil Z)) with 0. rewrite column_block_app; [|apply cells_has|assumption].
    unfold block_width. rewrite block_width_table; [|lia|now left]. rewrite app_nil_r. f_equal. cbn [List.app]. f_equal.
    replace (Z.max 0 (width (e :: es))) with (width (e :: es)) by (unfold width; lia).
    rewrite format_flat; [reflexivity|rewrite map_length; cbn in *; lia|].
    clear. induction (e :: es); constructor; [reflexivity|assumption].
  - cbn [length List.app] in *. destruct f as [|f]; [lia|]. cbn [format]. change (length (@nil Z)) with 0. rewrite H.
    destruct (IH f (before ++ [l])%list ltac:(lia)) as (g & E & ->). exists g. split; [lia|]. now rewrite <- app_assoc.
Qed.

Lemma write_lines_app ws l m : write_lines ws (l ++ m) = (write_lines ws l ++ write_lines ws m)%list.
Proof. unfold write_lines. apply flat_map_app. Qed.
Lemma blanks_spaces n : blanks n = spaces n.
Proof. induction n as [|n IH]; [reflexivity|]. cbn. now rewrite IH. Qed.

(** a table printed in a column of the width [w] *)
Lemma table_puts w es : Forall (fun e => digits e <= w) es ->
  puts_text (write_lines [Z.of_nat w] (map (fun e => (cells e, true)) es)) = String.concat "" (map (entry_line w) es) /\
  sound (write_lines [Z.of_nat w] (map (fun e => (cells e, true)) es)).
Proof.
  intros H. induction H as [|e es H F [IH1 IH2]]; [split; [reflexivity|intros []]|].
  cbn [map]. unfold write_lines. cbn [flat_map fst snd]. fold (write_lines [Z.of_nat w] (map (fun e => (cells e, true)) es)).
  cbn [cells cell_puts tl c_width c_text List.app].
  assert (String.eqb (show_N (fst e)) "" = false) as ->.
  { destruct (String.eqb_spec (show_N (fst e)) "") as [E|]; [|reflexivity]. now apply show_N_nonempty in E. }
  change (String.eqb ("  " ++ snd e) "") with false. cbn [List.app]. rewrite rune_count_show. fold (digits e).
  destruct (padding_text [Z.of_nat w] (Z.of_nat w - Z.of_nat (digits e))%Z ltac:(lia)) as [P S].
  rewrite !puts_text_app, P, concat_cons, IH1. split.
  - unfold entry_line. change blanks with spaces. replace (Z.to_nat (Z.of_nat w - Z.of_nat (digits e))) with (w - digits e) by lia.
    rewrite !puts_text_cons. cbn [put_text puts_text map String.concat]. change (puts_text []) with "". rewrite app_nil_r_s.
    rewrite !app_assoc_s. reflexivity.
  - rewrite !sound_app. repeat apply conj; [exact S|..|exact IH2]; unfold sound; cbn; intuition discriminate.
Qed.
Lemma widest_all es : Forall (fun e => digits e <= 2 + widest es) es.
Proof.
  apply Forall_forall. intros e I. unfold widest. induction es as [|x es IH]; [destruct I|]. cbn [map fold_right].
  destruct I as [->|I]; [lia|]. specialize (IH I). lia.
Qed.
Lemma write_lines_widths ws ls vs t : In (Put vs t) (write_lines ws ls) -> vs = ws.
Proof.
  unfold write_lines. rewrite in_flat_map. intros (l & _ & I). rewrite in_app_iff in I. destruct I as [I|[I|[]]]; [|congruence].
  revert I. generalize ws at 2 as us. induction (fst l) as [|c cs IH]; intros us; cbn [cell_puts]; [intros []|].
  rewrite !in_app_iff. intros [I|[I|I]].
  - destruct us; [destruct I|]. now apply padding_widths in I.
  - destruct (String.eqb (c_text c) ""); [destruct I|]. destruct I as [I|[]]. congruence.
  - exact (IH _ I).
Qed.
Lemma bare_puts ls : sound (write_lines [] ls).
Proof.
  unfold sound, write_lines. rewrite in_flat_map. intros (l & _ & I). rewrite in_app_iff in I. destruct I as [I|[I|[]]]; [|discriminate].
  revert I. induction (fst l) as [|c cs IH]; cbn [cell_puts tl List.app]; [intros []|].
  destruct (String.eqb (c_text c) ""); cbn [List.app]; [exact IH|]. intros [I|I]; [discriminate|exact (IH I)].
Qed.

(** ** A report *)
Definition tabular (es : list entry) : list (line * bool) := map (fun e => (cells e, true)) es.
Definition table_put (es : list entry) : list put := write_lines [width es] (tabular es).
Lemma table_put_text es : puts_text (table_put es) = table es /\ sound (table_put es).
Proof. apply (table_puts (2 + widest es) es (widest_all es)). Qed.

Definition enough (ls : list (line * bool)) : nat := S (fold_right (fun l n => S (length (fst l) + n)) 0 ls).
Lemma enough_app l m : enough (l ++ m) = enough l + enough m - 1.
Proof. unfold enough. induction l as [|x l IH]; cbn [List.app fold_right]; lia. Qed.
Lemma enough_tabular es : enough (tabular es) = S (3 * length es).
Proof. unfold enough. induction es as [|e es IH]; [reflexivity|]. cbn [tabular map fold_right length fst cells] in *. fold (tabular es). lia. Qed.
Lemma flush_held ws lines : flush_puts 0 2 (held ws lines) =
  format 0 2 (enough (map (fun l => (l, true)) lines ++ [([], false)])%list) ws [] (map (fun l => (l, true)) lines ++ [([], false)])%list.
Proof. reflexivity. Qed.
Lemma map_cells es : map (fun l : line => (l, true)) (map cells es) = tabular es.
Proof. unfold tabular. now rewrite map_map. Qed.

(** the flush at the empty line, and the one at the end if that succeeded *)
Lemma flush_first es : es <> [] ->
  flush_puts 0 2 (held [] (map cells es ++ [empty_line])) = (table_put es ++ write_lines [] [(empty_line, true); ([], false)])%list.
Proof.
  intros N. rewrite flush_held, map_app, map_cells, <- app_assoc. cbn [map List.app].
  assert (length es <> 0) as L by (destruct es; [congruence|discriminate]).
  rewrite enough_app, enough_tabular. change (enough [(empty_line, true); ([], false)]) with 4.
  edestruct (format_table (S (3 * length es) + 4 - 1) [] [] es [(empty_line, true); ([], false)]) as (g & G & E); [cbn [length]; lia|assumption|constructor|repeat constructor|].
  cbn [List.app] in E. fold (tabular es) in E. rewrite E. cbn [write_lines flat_map List.app]. f_equal. apply format_flat; [cbn [length] in *; lia|repeat constructor].
Qed.
Lemma flush_second es : es <> [] -> flush_puts 0 2 (held [] (map cells es)) = (table_put es ++ write_lines [] [([], false)])%list.
Proof.
  intros N. rewrite flush_held, map_cells.
  assert (length es <> 0) as L by (destruct es; [congruence|discriminate]).
  rewrite enough_app, enough_tabular. change (enough [([], false)]) with 2.
  edestruct (format_table (S (3 * length es) + 2 - 1) [] [] es [([], false)]) as (g & G & E); [cbn [length]; lia|assumption|constructor|repeat constructor|].
  cbn [List.app] in E. fold (tabular es) in E. rewrite E. cbn [write_lines flat_map List.app]. f_equal. apply format_flat; [cbn [length] in *; lia|repeat constructor].
Qed.
(** the one at the end if the first was given up, with or without a width pushed *)
Lemma flush_again es fs : es <> [] -> fs <> [] -> flush_puts 0 2 (held [] ((map cells es ++ [empty_line]) ++ map cells fs)) =
  (table_put es ++ write_lines [] [(empty_line, true)] ++ table_put fs ++ write_lines [] [([], false)])%list.
Proof.
  intros N M. rewrite flush_held, !map_app, !map_cells, <- !app_assoc. cbn [map].
  assert (length es <> 0) as L by (destruct es; [congruence|discriminate]). assert (length fs <> 0) as L' by (destruct fs; [congruence|discriminate]).
  rewrite !enough_app, !enough_tabular. change (enough [([], false)]) with 2. change (enough [(empty_line, true)]) with 3.
  match goal with |- context [format 0 2 ?f] => set (F := f) end.
  edestruct (format_table F [] [] es ([(empty_line, true)] ++ tabular fs ++ [([], false)])) as (g & G & E); [subst F; cbn [length]; lia|assumption|constructor|repeat constructor|].
  cbn [List.app] in E. fold (tabular es) in E. cbn [List.app] in *. rewrite E. cbn [write_lines flat_map List.app]. fold (write_lines [] [(empty_line, true)]). f_equal.
  edestruct (format_table g [] [(empty_line, true)] fs [([], false)]) as (g' & G' & E'); [subst F; cbn [length] in *; lia|assumption|repeat constructor|repeat constructor|].
  cbn [List.app] in E'. fold (tabular fs) in E'. rewrite E'. cbn [write_lines flat_map List.app fst snd cell_puts empty_line c_text tl]. f_equal. f_equal.
  apply format_flat; [subst F; cbn [length] in *; lia|repeat constructor].
Qed.
Lemma flush_stale w es fs : flush_puts 0 2 (held [w] ((map cells es ++ [empty_line]) ++ map cells fs)) =
  write_lines [w] (tabular es ++ [(empty_line, true)] ++ tabular fs ++ [([], false)])%list.
Proof.
  rewrite flush_held, !map_app, !map_cells, <- !app_assoc. cbn [map].
  rewrite format_flat; [reflexivity|..].
  - rewrite !enough_app, !enough_tabular. change (enough [([], false)]) with 2. change (enough [(empty_line, true)]) with 3.
    rewrite !app_length. unfold tabular. rewrite !map_length. cbn [length]. lia.
  - unfold tabular. rewrite !Forall_app. repeat apply conj; try (repeat constructor); rewrite Forall_map; apply Forall_forall; reflexivity.
Qed.

Lemma write_blank k i ws L : tw_write 0 2 k i (held ws L) LF =
  match emit k i (flush_puts 0 2 (held ws (L ++ [empty_line]))) with
  | (j, t, Done) => (j, t, Fine tw_reset)
  | (j, t, Failed vs) => (j, t, Error (held vs (L ++ [empty_line])))
  | (j, t, Crashed) => (j, t, Crash)
  end.
Proof.
  change (tw_write 0 2 k i (held ws L) LF) with
    (match emit k i (flush_puts 0 2 (held ws (L ++ [empty_line]))) with
     | (j, t, Done) => (j, t ++ "", Fine tw_reset)
     | (j, t, Failed vs) => (j, t, Error (held vs (L ++ [empty_line])))
     | (j, t, Crashed) => (j, t, Crash)
     end).
  destruct (emit k i _) as [[j t] [|vs|]]; [now rewrite app_nil_r_s|reflexivity..].
Qed.
Lemma flush_cell_held ws L : flush_cell (held ws L) = held ws L.
Proof. reflexivity. Qed.

Lemma empty_text ls : puts_text (write_lines [] [(empty_line, true); ([], false)]) = LF /\
  puts_text (write_lines [] [([], false)]) = "" /\ puts_text (write_lines ls []) = "".
Proof. repeat split. Qed.

Lemma print_report k es fs : es <> [] -> fs <> [] -> Forall (fun e : entry => one_cell (snd e)) es -> Forall (fun e : entry => one_cell (snd e)) fs ->
  Forall (fun e => digits e <= 2 + widest es) fs ->
  exists t, print_rows k 0 tw_reset (map row_of es ++ Blank :: map row_of fs) = (Ok tt, t) /\
    ((forall i, k i = Accept) -> t = table es ++ LF ++ table fs) /\
    (gives_up k -> exists u, t ++ u = table es ++ LF ++ table fs).
Proof.
  intros N M Pe Pf W. change tw_reset with (held [] []). rewrite print_entries by assumption. cbn [List.app print_rows row_text].
  rewrite write_blank. rewrite flush_first by assumption.
  destruct (table_put_text es) as [T1 S1]. destruct (table_put_text fs) as [T2 S2].
  destruct (emit_cases k 0 (table_put es ++ write_lines [] [(empty_line, true); ([], false)])) as [(j & E)|(j & ws & t & u & n & E & Lj & Kj & Q & x & I)].
  { apply sound_app. split; [assumption|apply bare_puts]. }
  - rewrite E. change tw_reset with (held [] []). rewrite <- (app_nil_r (map row_of fs)). rewrite print_entries by assumption. cbn [List.app print_rows]. unfold tw_flush.
    rewrite flush_cell_held, flush_second by assumption.
    rewrite puts_text_app, T1, (proj1 (empty_text [])).
    assert (sound (table_put fs ++ write_lines [] [([], false)])) as S by (apply sound_app; split; [assumption|apply bare_puts]).
    destruct (emit_cases k j (table_put fs ++ write_lines [] [([], false)]) S) as [(j' & E')|(j' & ws & t & u & n & E' & Lj & Kj & Q & x & I)]; rewrite E'.
    + eexists. split; [reflexivity|]. rewrite puts_text_app, T2. change (puts_text (write_lines [] [([], false)])) with "". rewrite app_nil_r_s, app_assoc_s.
      split; [reflexivity|]. intros _. exists "". now rewrite app_nil_r_s.
    + eexists. split; [reflexivity|]. split; [intros K; rewrite K in Kj; discriminate|]. intros _. exists u.
      rewrite puts_text_app, T2 in Q. change (puts_text (write_lines [] [([], false)])) with "" in Q. rewrite app_nil_r_s in Q. rewrite <- Q. now rewrite !app_assoc_s.
  - rewrite E. rewrite <- (app_nil_r (map row_of fs)). rewrite print_entries by assumption. cbn [List.app print_rows]. unfold tw_flush. rewrite flush_cell_held.
    assert (sound (flush_puts 0 2 (held ws ((map cells es ++ [empty_line]) ++ map cells fs)))) as S.
    { rewrite in_app_iff in I. destruct I as [I|I]; apply write_lines_widths in I; subst ws.
      - rewrite flush_stale, !write_lines_app, !sound_app. repeat apply conj.
        + exact S1.
        + unfold sound. intros H. cbn [write_lines flat_map fst snd empty_line cell_puts c_width c_text tl String.eqb List.app] in H. rewrite !app_nil_r in H.
          rewrite in_app_iff in H. destruct H as [H|[H|[]]]; [|discriminate].
          now apply (proj2 (padding_text [width es] (width es - 0)%Z ltac:(unfold width; lia))).
        + now apply (table_puts (2 + widest es) fs).
        + intros [H|[]]. discriminate.
      - rewrite flush_again, !sound_app by assumption. repeat apply conj; [assumption|apply bare_puts|assumption|apply bare_puts]. }
    set (l := flush_puts 0 2 (held ws ((map cells es ++ [empty_line]) ++ map cells fs))) in *. clearbody l.
    assert (exists j' t' f, emit k (Datatypes.S j) l = (j', t', f) /\ f <> Crashed /\ (gives_up k -> t' = "")) as (j' & t' & f & -> & C & G).
    { destruct (emit_cases k (Datatypes.S j) l S) as [(j' & E')|(j' & ws' & t' & u' & n' & E' & _)].
      - eexists _, _, _. split; [exact E'|]. split; [discriminate|]. intros G. destruct (emit_dead k (Datatypes.S j) l S) as (j2 & f & E2 & _); [intros i H; apply (G j n Kj); lia|].
        rewrite E' in E2. now injection E2.
      - eexists _, _, _. split; [exact E'|]. split; [discriminate|]. intros G. destruct (emit_dead k (Datatypes.S j) l S) as (j2 & f & E2 & _); [intros i H; apply (G j n Kj); lia|].
        rewrite E' in E2. now injection E2. }
    exists (t ++ t'). split.
    { destruct f; [reflexivity|reflexivity|congruence]. }
    split; [intros K; rewrite K in Kj; discriminate|]. intros G0. rewrite (G G0), app_nil_r_s. exists (u ++ table fs). rewrite <- app_assoc_s, Q.
    rewrite puts_text_app, T1, (proj1 (empty_text [])). now rewrite app_assoc_s.
Qed.

(** ** The length of numbers *)
Lemma digits_aux_lower fuel n : (10 ^ N.of_nat (String.length (digits_aux fuel n "") - 1) <= N.max 1 n)%N.
Proof.
  revert n. induction fuel as [|fuel IH]; intros n; cbn [digits_aux]; [cbn; lia|].
  destruct (N.ltb_spec n 10) as [H|H]; [cbn; lia|].
  rewrite digits_aux_app, app_length_s. cbn [String.length]. specialize (IH (n / 10)%N).
  assert (1 <= n / 10)%N as D by (apply N.div_le_lower_bound; lia).
  set (l := String.length (digits_aux fuel (n / 10) "")) in *. clearbody l.
  replace (l + 1 - 1) with l by lia. destruct l as [|l]; [cbn; lia|]. replace (S l - 1) with l in IH by lia.
  rewrite Nat2N.inj_succ, N.pow_succ_r'. pose proof (N.mul_div_le n 10 ltac:(lia)). lia.
Qed.
Lemma read_digits_upper s acc n : read_digits s acc = Some n -> (n < (acc + 1) * 10 ^ N.of_nat (String.length s))%N.
Proof.
  revert acc. induction s as [|a s IH]; intros acc; cbn [read_digits String.length].
  - intros H. injection H as <-. cbn. lia.
  - destruct ((48 <=? code a) && (code a <=? 57))%N eqn:E; [|discriminate]. apply andb_true_iff in E as [E1 E2]. apply N.leb_le in E1, E2.
    intros H. apply IH in H. rewrite Nat2N.inj_succ, N.pow_succ_r'. eapply N.lt_le_trans; [exact H|].
    rewrite N.mul_assoc. apply N.mul_le_mono_r. lia.
Qed.
Lemma show_N_mono n m : (n <= m)%N -> String.length (show_N n) <= String.length (show_N m).
Proof.
  intros H. destruct (le_lt_dec (String.length (show_N n)) (String.length (show_N m))) as [L|L]; [exact L|exfalso].
  pose proof (digits_aux_lower (S (N.to_nat (N.size n))) n) as A. fold (show_N n) in A.
  pose proof (read_show_N m) as B. unfold read_N in B. destruct (show_N m) as [|a s] eqn:E; [now apply show_N_nonempty in E|]. rewrite <- E in *.
  apply read_digits_upper in B.
  assert (10 ^ N.of_nat (String.length (show_N m)) <= 10 ^ N.of_nat (String.length (show_N n) - 1))%N as C by (apply N.pow_le_mono_r; lia).
  assert (1 < 10 ^ N.of_nat (String.length (show_N m)))%N as D.
  { change 1%N with (10 ^ 0)%N. apply N.pow_lt_mono_r; [lia|]. rewrite E. cbn [String.length]. lia. }
  lia.
Qed.

(** ** Reading a report *)
Lemma cut_byte c s t s' t' : has_byte c s = false -> has_byte c s' = false ->
  s ++ String c t = s' ++ String c t' -> s = s' /\ t = t'.
Proof.
  revert s'. induction s as [|a s IH]; intros s' H H' E; destruct s' as [|a' s']; cbn [append] in E.
  - injection E as ->. auto.
  - injection E as -> _. cbn [has_byte] in H'. now rewrite Ascii.eqb_refl in H'.
  - injection E as -> _. cbn [has_byte] in H. now rewrite Ascii.eqb_refl in H.
  - injection E as -> E. cbn [has_byte] in H, H'. apply orb_false_iff in H as [_ H], H' as [_ H'].
    destruct (IH s' H H' E) as [-> ->]. auto.
Qed.
Lemma paired_cut i s t s' t' : paired i s -> paired i s' ->
  s ++ String (byte 10) t = s' ++ String (byte 10) t' -> s = s' /\ t = t'.
Proof.
  revert i s'. induction s as [|a s IH]; intros i s' H H' E; destruct s' as [|a' s']; cbn [append] in E.
  - injection E as ->. auto.
  - injection E as <- _. cbn in H, H'. exfalso. apply (proj1 H'); auto.
  - injection E as -> _. cbn in H, H'. exfalso. apply (proj1 H); auto.
  - injection E as <- E. cbn [paired] in H, H'. destruct (N_of_ascii a =? 255)%N.
    + destruct (IH _ _ H H' E) as [-> ->]. auto.
    + destruct (IH _ _ (proj2 H) (proj2 H') E) as [-> ->]. auto.
Qed.
Lemma show_N_byte c n : ((code c <? 48) || (57 <? code c))%N = true -> has_byte c (show_N n) = false.
Proof. intros H. apply digits_aux_bytes; [now apply digit_not|reflexivity]. Qed.
Lemma blanks_paired n s : paired false s -> paired false (blanks n ++ s).
Proof. intros H. induction n as [|n IH]; [exact H|]. cbn [blanks append paired]. change (N_of_ascii " ") with 32%N. cbn [N.eqb Pos.eqb In]. split; [lia|exact IH]. Qed.
Lemma line_paired w e : one_cell (snd e) -> paired false (blanks w ++ show_N (fst e) ++ "  " ++ snd e).
Proof.
  intros H. apply blanks_paired, simple_app; [|apply digits_simple]. apply simple_app; [exact H|]. intros a [<-|[<-|[]]]; cbn; intuition discriminate.
Qed.
Lemma blanks_cut a b n m s t : blanks a ++ show_N n ++ s = blanks b ++ show_N m ++ t -> show_N n ++ s = show_N m ++ t.
Proof.
  destruct (show_N_head n) as (c & x & En & Hc). destruct (show_N_head m) as (d & y & Em & Hd). rewrite En, Em.
  revert b. induction a as [|a IH]; intros [|b]; cbn [blanks append]; intros E.
  - exact E.
  - injection E as -> _. change (code " ") with 32%N in Hc. lia.
  - injection E as <- _. change (code " ") with 32%N in Hd. lia.
  - injection E as E. exact (IH b E).
Qed.
Lemma entry_line_cut w w' e e' r r' : one_cell (snd e) -> one_cell (snd e') -> entry_line w e ++ r = entry_line w' e' ++ r' -> e = e' /\ r = r'.
Proof.
  intros H H' E. unfold entry_line in E.
  assert (forall v e r, (blanks v ++ show_N (fst e) ++ "  " ++ snd e ++ LF) ++ r = (blanks v ++ show_N (fst e) ++ "  " ++ snd e) ++ String (byte 10) r) as A.
  { intros v [n l] x. cbn [fst snd]. rewrite !app_assoc_s. unfold LF. reflexivity. }
  rewrite !A in E. apply (paired_cut false) in E as [E ->]; [|now apply line_paired..].
  - split; [|reflexivity]. apply blanks_cut in E. change ("  " ++ snd e) with (String " " (" " ++ snd e)) in E. change ("  " ++ snd e') with (String " " (" " ++ snd e')) in E.
    apply cut_byte in E as [E1 E2]; [|now apply show_N_byte..]. cbn [append] in E2. injection E2 as E2.
    destruct e as [n l], e' as [n' l']. cbn [fst snd] in *. subst l'. f_equal.
    pose proof (read_show_N n) as R. rewrite E1, read_show_N in R. congruence.
Qed.
Lemma entries_cut w w' es es' : Forall (fun e : entry => one_cell (snd e)) es -> Forall (fun e : entry => one_cell (snd e)) es' ->
  String.concat "" (map (entry_line w) es) = String.concat "" (map (entry_line w') es') -> es = es'.
Proof.
  assert (forall w e r, entry_line w e ++ r = "" -> False) as A.
  { intros v [n l] r E. apply (f_equal String.length) in E. unfold entry_line in E. rewrite !app_length_s in E. cbn in E. lia. }
  intros F. revert es'. induction F as [|e es H F IH]; intros es' F' E; destruct F' as [|e' es' H' F'].
  - reflexivity.
  - cbn [map] in E. rewrite concat_cons in E. symmetry in E. now apply A in E.
  - cbn [map] in E. rewrite concat_cons in E. now apply A in E.
  - cbn [map] in E. rewrite !concat_cons in E. apply entry_line_cut in E as [-> E]; [|assumption..]. f_equal. exact (IH es' F' E).
Qed.
Lemma report_cut f n c f' n' c' : Forall (fun e : entry => one_cell (snd e)) c -> Forall (fun e : entry => one_cell (snd e)) c' ->
  report f n c = report f' n' c' -> f = f' /\ n = n' /\ c = c'.
Proof.
  intros F F' E. unfold report, table in E. cbn [map] in E. rewrite !concat_cons in E. cbn [String.concat] in E. rewrite !app_nil_r_s, !app_assoc_s in E.
  assert (forall s, s = "License found" \/ s = "License not found" \/ s = "TOTAL" \/ s = "TOTAL FOUND" -> one_cell s) as A.
  { intros s H. apply simple_one_cell. intros a I N. assert (existsb (fun a => existsb (N.eqb (N_of_ascii a)) [9; 10; 11; 12; 255]%N) (list_ascii_of_string s) = true) as X.
    { apply existsb_exists. exists a. split; [assumption|]. apply existsb_exists. exists (N_of_ascii a). split; [assumption|apply N.eqb_refl]. }
    destruct H as [->|[->|[->| ->]]]; vm_compute in X; discriminate. }
  apply entry_line_cut in E as [E1 E]; [|apply A; cbn; tauto..]. apply entry_line_cut in E as [E2 E]; [|apply A; cbn; tauto..].
  apply entry_line_cut in E as [E3 E]; [|apply A; cbn; tauto..]. unfold LF in E. cbn [append] in E. injection E as E.
  apply entries_cut in E.
  - apply app_inj_tail in E as [-> E4]. repeat split; congruence.
  - apply Forall_app. split; [assumption|]. constructor; [apply A; cbn; tauto|constructor].
  - apply Forall_app. split; [assumption|]. constructor; [apply A; cbn; tauto|constructor].
Qed.

(** ** A writer that accepts everything: no panic, whatever is in the cells *)
Definition fits (widths : list Z) (l : line * bool) : Prop :=
  forall j w c, nth_error widths j = Some w -> nth_error (fst l) j = Some c -> (c_width c <= w)%Z.
Lemma cell_puts_sound widths ws cs : (forall j w c, nth_error ws j = Some w -> nth_error cs j = Some c -> (c_width c <= w)%Z) -> sound (cell_puts widths ws cs).
Proof.
  revert ws. induction cs as [|c cs IH]; intros ws F; cbn [cell_puts]; [intros []|]. rewrite !sound_app. split; [|split].
  - destruct ws as [|w ws]; [intros []|]. apply padding_text. specialize (F 0 w c eq_refl eq_refl). lia.
  - destruct (String.eqb _ _); [intros []|intros [H|[]]; discriminate H].
  - apply IH. intros j w c' W C. destruct ws as [|w0 ws]; [now destruct j|]. exact (F (S j) w c' W C).
Qed.
Lemma write_lines_sound widths ls : Forall (fits widths) ls -> sound (write_lines widths ls).
Proof.
  intros F. induction F as [|l ls H F IH]; [intros []|]. unfold write_lines. cbn [flat_map]. rewrite !sound_app. split; [split; [now apply cell_puts_sound|intros [E|[]]; discriminate E]|exact IH].
Qed.
Lemma column_block_parts column ls : exists b s, column_block column ls = (b, s) /\ ls = (b ++ s)%list /\ Forall (fun l => has_cell column l = true) b.
Proof.
  induction ls as [|l ls (b & s & E & -> & F)]; cbn [column_block]; [now exists [], []|]. destruct (has_cell column l) eqn:H.
  - rewrite E. exists (l :: b), s. auto.
  - eexists [], _. split; [reflexivity|]. auto.
Qed.
Lemma block_width_le minwidth pad column block l : (0 <= pad)%Z -> In l block -> (c_width (nth column (fst l) (MkCell "" 0)) <= block_width minwidth pad column block)%Z.
Proof.
  intros P. unfold block_width. assert (M : forall (b : list (line * bool)) w, (w <= fold_left (fun w (l : line * bool) => Z.max w (c_width (nth column (fst l) (MkCell "" 0)) + pad))%Z b w)%Z).
  { induction b as [|x b IH]; intros w; cbn [fold_left]; [lia|]. eapply Z.le_trans; [|apply IH]. lia. }
  revert minwidth. induction block as [|x b IH]; intros w I; [destruct I|]. cbn [fold_left]. destruct I as [-> |I]; [|now apply IH].
  eapply Z.le_trans; [|apply M]. lia.
Qed.
Lemma format_sound minwidth pad fuel : (0 <= pad)%Z -> forall widths before ls, Forall (fits widths) before -> Forall (fits widths) ls -> sound (format minwidth pad fuel widths before ls).
Proof.
  intros P. induction fuel as [|k IH]; intros widths before ls B L; cbn [format]; [intros []|]. destruct ls as [|l ls]; [now apply write_lines_sound|].
  destruct (has_cell (length widths) l) eqn:H.
  - destruct (column_block_parts (length widths) (l :: ls)) as (b & s & E & Q & F). rewrite E. rewrite Q in L. apply Forall_app in L as [L1 L2]. rewrite !sound_app.
    split; [now apply write_lines_sound|]. split; [|apply IH; [constructor|exact L2]]. apply IH; [constructor|]. rewrite Forall_forall in *. intros x I j w c W C.
    destruct (Nat.lt_ge_cases j (length widths)) as [J|J].
    + rewrite nth_error_app1 in W by exact J. exact (L1 x I j w c W C).
    + rewrite nth_error_app2 in W by exact J. destruct (j - length widths) as [|m] eqn:D; [|now destruct m]. assert (j = length widths) as -> by lia. injection W as <-.
      apply (nth_error_nth _ _ (MkCell "" 0)) in C. rewrite <- C. now apply block_width_le.
  - apply IH; [|now inversion L]. apply Forall_app. split; [exact B|]. constructor; [now inversion L|constructor].
Qed.
Lemma flush_puts_sound minwidth pad w : (0 <= pad)%Z -> w_widths w = [] -> sound (flush_puts minwidth pad w).
Proof.
  intros P W. unfold flush_puts. cbv zeta. rewrite W. apply format_sound; [exact P|constructor|]. apply Forall_forall. intros l _ j z c E. now destruct j.
Qed.
Lemma accepted_emit k i l : (forall i, k i = Accept) -> sound l -> exists j t, emit k i l = (j, t, Done).
Proof.
  intros A S. destruct (emit_cases k i l S) as [(j & E)|(j & ws & t & u & n & E & _ & K & _)]; [eauto|]. rewrite A in K. discriminate K.
Qed.
Lemma accepted_write minwidth pad k : (0 <= pad)%Z -> (forall i, k i = Accept) -> forall s i w, w_widths w = [] ->
  exists j t w', tw_write minwidth pad k i w s = (j, t, Fine w') /\ w_widths w' = [].
Proof.
  intros P A. induction s as [|a s IH]; intros i w W; cbn [tw_write]; [eauto|]. cbv zeta.
  destruct (w_escape w); [destruct (code a =? 255)%N; apply IH; exact W|]. destruct (_ || _)%bool; [apply IH; exact W|]. destruct (_ || _)%bool.
  - destruct (_ || _)%bool; [|apply IH; exact W].
    match goal with |- context [flush_puts minwidth pad ?x] => destruct (accepted_emit k i (flush_puts minwidth pad x) A) as (j & t & ->); [apply flush_puts_sound; [exact P|unfold flush_cell; destruct (String.eqb _ _); [exact W|destruct (w_escape _); exact W]]|] end.
    destruct (IH j tw_reset eq_refl) as (j' & t' & w' & -> & W'). eauto.
  - destruct (code a =? 255)%N; apply IH; exact W.
Qed.
Lemma accepted_rows k rows : (forall i, k i = Accept) -> forall i w, w_widths w = [] -> fst (print_rows k i w rows) = Ok tt.
Proof.
  intros A. induction rows as [|r rows IH]; intros i w W; cbn [print_rows].
  - unfold tw_flush. destruct (accepted_emit k i (flush_puts 0 2 (flush_cell w)) A) as (j & t & ->); [|reflexivity].
    apply flush_puts_sound; [lia|unfold flush_cell; destruct (String.eqb _ _); [exact W|destruct (w_escape _); exact W]].
  - destruct (accepted_write 0 2 k ltac:(lia) A (row_text r) i w W) as (j & t & w' & -> & W'). specialize (IH j w' W'). destruct (print_rows k j w' rows) as [e u]. exact IH.
Qed.
