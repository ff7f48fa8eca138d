(* A byte order mark at the beginning of a text changes none of its rows. *)
From Coq Require Import NArith String List Bool Ascii Arith Lia.
From Verif Require Import Base Bits Command CsvModel CliSpec CsvProofs ChunkModel ChunkSpec ChunkProofs.
Import ListNotations.

(* The three bytes. *)
Definition mark : list ascii := ["239"; "187"; "191"]%char.

(* Two lexers at the same place that count the current row from different places. *)
Record rebased (inp : list ascii) (a b : lexer) : Prop := mkRebased {
  rb_pos : lx_pos a = lx_pos b;
  rb_len : lx_len a = lx_len b;
  rb_quote : lx_quote a = lx_quote b;
  rb_dq : lx_dq a = lx_dq b;
  rb_row : lx_row a <= lx_row b <= lx_pos a;
  rb_start : match lx_start a, lx_start b with
             | None, None => lx_len a = 0 /\ (lx_quote a = true -> forall d, nth_error inp (lx_pos a) = Some d -> ws_flag d = true)
             | Some k, Some k' => k + lx_row a = k' + lx_row b
             | _, _ => False
             end;
  rb_fields : Forall2 (fun f g => get_field inp (lx_row a) f = get_field inp (lx_row b) g) (lx_fields a) (lx_fields b);
  rb_rows : map (row_of inp) (lx_rows a) = map (row_of inp) (lx_rows b)
}.
Lemma rebased_push inp a b : rebased inp a b -> lx_quote a = false -> rebased inp (push_field a) (push_field b).
Proof.
  intros [P L Q D R S F W] NQ. unfold push_field. constructor; cbn [lx_pos lx_len lx_quote lx_dq lx_row lx_start lx_fields lx_rows]; auto.
  - split; [reflexivity|congruence].
  - apply Forall2_app; [exact F|]. constructor; [|constructor]. unfold get_field. cbn [rf_len rf_start rf_dq]. rewrite L, D.
    destruct (lx_start a) as [k|], (lx_start b) as [k'|]; try contradiction.
    + replace (lx_row a + k) with (lx_row b + k') by lia. reflexivity.
    + destruct S as [S _]. rewrite L in S. rewrite S. reflexivity.
Qed.
Lemma rebased_row inp a b : rebased inp a b -> rebased inp (push_row a) (push_row b) \/ lx_start a <> None.
Proof.
  intros [P L Q D R S F W]. destruct (lx_start a) as [k|] eqn:Ea; [right; discriminate|left]. destruct (lx_start b) as [k'|] eqn:Eb; [contradiction|].
  unfold push_row. constructor; cbn [lx_pos lx_len lx_quote lx_dq lx_row lx_start lx_fields lx_rows]; auto.
  - lia.
  - rewrite Ea, Eb. exact S.
  - rewrite !map_app, W. cbn [map]. do 2 f_equal. unfold row_of. cbn [fst snd]. clear -F. induction F; cbn; congruence.
Qed.
Lemma rebased_advance inp n m a b : rebased inp a b -> lx_start a <> None \/ (m = 0 /\ lx_quote a = false) -> rebased inp (advance n m a) (advance n m b).
Proof.
  intros [P L Q D R S F W] H. unfold advance. constructor; cbn [lx_pos lx_len lx_quote lx_dq lx_row lx_start lx_fields lx_rows]; auto; try congruence; try lia.
  destruct (lx_start a) as [k|], (lx_start b) as [k'|]; try contradiction; [exact S|]. destruct H as [H|[-> H]]; [congruence|]. destruct S as [S _]. split; [lia|congruence].
Qed.
Lemma rebased_field inp a b : rebased inp a b -> rebased inp (parse_field inp a) (parse_field inp b).
Proof.
  intros [P L Q D R S F W]. unfold parse_field. rewrite <- P, <- Q. set (p1 := lx_pos a + span ws_flag (skipn (lx_pos a) inp)). set (p2 := p1 + span (plain (lx_quote a)) (skipn p1 inp)).
  assert (E : match lx_start a with Some k => k | None => p1 - lx_row a end + lx_row a = match lx_start b with Some k => k | None => p1 - lx_row b end + lx_row b).
  { destruct (lx_start a), (lx_start b); try contradiction; [exact S|]. unfold p1. lia. }
  constructor; cbn [lx_pos lx_len lx_quote lx_dq lx_row lx_start lx_fields lx_rows]; auto.
  all: first [ rewrite E; reflexivity | unfold p2, p1; lia | exact E ].
Qed.
Lemma parse_ws d : ws_flag d = true -> parse_flag d = NOT_SPECIAL.
Proof. unfold ws_flag. intro H. apply orb_true_iff in H as [H|H]; apply Ascii.eqb_eq in H; subst d; reflexivity. Qed.
Lemma rebased_set inp q a b : rebased inp a b -> lx_start a <> None \/ q = false -> rebased inp (set_quote q a) (set_quote q b).
Proof.
  intros [P L Q D R S F W] H. unfold set_quote. constructor; cbn [lx_pos lx_len lx_quote lx_dq lx_row lx_start lx_fields lx_rows]; auto.
  destruct (lx_start a) as [k|], (lx_start b) as [k'|]; try contradiction; [exact S|]. destruct H as [H| ->]; [congruence|]. destruct S as [S _]. split; [exact S|discriminate].
Qed.
Lemma compound_unquoted q c f : compound_flag q c = f -> f <> NOT_SPECIAL -> f <> QUOTE_ESCAPE_QUOTE -> q = false.
Proof. unfold compound_flag. destruct q; [|reflexivity]. destruct (parse_flag c); congruence. Qed.
Lemma rebased_step inp a b c : rebased inp a b -> nth_error inp (lx_pos a) = Some c ->
  match lex_step inp c a, lex_step inp c b with Some a1, Some b1 => rebased inp a1 b1 | None, None => True | _, _ => False end.
Proof.
  intros R N. pose proof R as [P L Q D Rw S F W]. unfold lex_step. rewrite <- P, <- Q, <- L.
  destruct (compound_flag (lx_quote a) c) eqn:C.
  - (* a quote inside quotes *)
    assert (St : lx_start a <> None).
    { intro E. rewrite E in S. destruct (lx_start b); [contradiction|]. destruct S as [_ S]. unfold compound_flag in C. destruct (lx_quote a).
      - rewrite (parse_ws c (S eq_refl c N)) in C. discriminate.
      - unfold parse_flag in C. repeat match type of C with context [if ?x then _ else _] => destruct x end; discriminate. }
    destruct (nth_error inp (Datatypes.S (lx_pos a))) as [d|]; [|exact Logic.I].
    destruct (parse_flag d).
    1, 3: apply rebased_advance; [exact R|left; exact St].
    2, 3: apply rebased_advance; [apply rebased_set; [exact R|now right]|left; exact St].
    assert (R2 : rebased inp (advance 2 2 a) (advance 2 2 b)) by (apply rebased_advance; [exact R|left; exact St]).
    destruct R2 as [P2 L2 Q2 D2 Rw2 S2 F2 W2]. cbv zeta. constructor; cbn [lx_pos lx_len lx_quote lx_dq lx_row lx_start lx_fields lx_rows] in *; auto.
  - (* a quote *)
    destruct (Nat.eqb_spec (lx_len a) 0) as [Z|Z].
    + cbv zeta. cbn [lx_pos advance set_quote]. rewrite <- P. destruct (lx_start a) as [k|] eqn:Ea, (lx_start b) as [k'|] eqn:Eb; try contradiction.
      * apply rebased_advance; [apply rebased_set; [exact R|left; congruence]|left; cbn; congruence].
      * destruct (nth_error inp (lx_pos a + 1)) as [d|] eqn:Nd.
        -- destruct (ws_flag d) eqn:Wd.
           ++ constructor; cbn [lx_pos lx_len lx_quote lx_dq lx_row lx_start lx_fields lx_rows advance set_quote]; auto; try lia.
              rewrite Ea, Eb. split; [lia|]. intros _ d' H. rewrite Nd in H. injection H as <-. exact Wd.
           ++ constructor; cbn [lx_pos lx_len lx_quote lx_dq lx_row lx_start lx_fields lx_rows advance set_quote]; auto; try lia.
        -- constructor; cbn [lx_pos lx_len lx_quote lx_dq lx_row lx_start lx_fields lx_rows advance set_quote]; auto; try lia.
           rewrite Ea, Eb. split; [lia|]. intros _ d' H. rewrite Nd in H. discriminate.
    + apply rebased_advance; [exact R|left]. intro E. rewrite E in S. destruct (lx_start b); [contradiction|]. destruct S as [S _]. congruence.
  - apply rebased_field. exact R.
  - (* the end of a field *)
    pose proof (compound_unquoted _ _ _ C ltac:(discriminate) ltac:(discriminate)) as U.
    apply rebased_advance; [apply rebased_push; assumption|right]. split; [reflexivity|exact U].
  - (* the end of a line *)
    pose proof (compound_unquoted _ _ _ C ltac:(discriminate) ltac:(discriminate)) as U.
    cbv zeta. cbn [lx_pos advance]. rewrite <- P.
    assert (A1 : rebased inp (advance 1 0 a) (advance 1 0 b)) by (apply rebased_advance; [exact R|right; auto]).
    assert (K : forall x y, rebased inp x y -> lx_quote x = false -> rebased inp (push_row (push_field x)) (push_row (push_field y))).
    { intros x y H H0. apply rebased_push in H; [|exact H0]. apply rebased_row in H as [H|H]; [exact H|]. exfalso. apply H. reflexivity. }
    destruct (nth_error inp (lx_pos a + 1)) as [d|]; [destruct (parse_flag d)|]; (apply K; [|exact U]); try exact A1.
    apply rebased_advance; [exact A1|right; auto].
Qed.
Lemma rebased_loop inp : forall fuel a b, rebased inp a b ->
  match lex_loop fuel inp a, lex_loop fuel inp b with Some a1, Some b1 => rebased inp a1 b1 | None, None => True | _, _ => False end.
Proof.
  induction fuel as [|fuel IH]; intros a b R; pose proof (rb_pos _ _ _ R) as P; cbn [lex_loop]; rewrite <- P; destruct (nth_error inp (lx_pos a)) as [c|] eqn:N; try exact R; try exact Logic.I.
  pose proof (rebased_step inp a b c R N) as K. destruct (lex_step inp c a) as [a1|], (lex_step inp c b) as [b1|]; try contradiction; [apply IH; exact K|exact R].
Qed.
(* Pushing the last field and the last row: the rows only. *)
Lemma rebased_feed inp a b : rebased inp a b -> map (row_of inp) (lx_rows (end_feed inp a)) = map (row_of inp) (lx_rows (end_feed inp b)).
Proof.
  intro R. pose proof R as [P L Q D Rw S F W]. unfold end_feed. rewrite <- L.
  set (e := match rev inp with c :: _ => match parse_flag c with DELIMITER => true | _ => false end | [] => false end).
  assert (G : Forall2 (fun f g => get_field inp (lx_row a) f = get_field inp (lx_row b) g) (lx_fields (push_field a)) (lx_fields (push_field b))).
  { unfold push_field. cbn [lx_fields]. apply Forall2_app; [exact F|]. constructor; [|constructor]. unfold get_field. cbn [rf_len rf_start rf_dq]. rewrite L, D.
    destruct (lx_start a) as [k|], (lx_start b) as [k'|]; try contradiction.
    + replace (lx_row a + k) with (lx_row b + k') by lia. reflexivity.
    + destruct S as [S _]. rewrite L in S. rewrite S. reflexivity. }
  assert (H : forall fa fb, Forall2 (fun f g => get_field inp (lx_row a) f = get_field inp (lx_row b) g) fa fb -> map (row_of inp) [(lx_row a, fa)] = map (row_of inp) [(lx_row b, fb)]).
  { intros fa fb X. cbn [map]. f_equal. unfold row_of. cbn [fst snd]. induction X; cbn; congruence. }
  destruct (Nat.ltb 0 (lx_len a) || e).
  - pose proof (H _ _ G) as HG. destruct (lx_fields (push_field a)) as [|f fa] eqn:Ea, (lx_fields (push_field b)) as [|g fb] eqn:Eb; inversion G; subst; [exact W|].
    unfold push_row. cbn [lx_rows]. rewrite !map_app, Ea, Eb. change (lx_rows (push_field a)) with (lx_rows a). change (lx_rows (push_field b)) with (lx_rows b).
    rewrite W. f_equal. exact HG.
  - pose proof (H _ _ F) as HF. destruct (lx_fields a) as [|f fa] eqn:Ea, (lx_fields b) as [|g fb] eqn:Eb; inversion F; subst; [exact W|].
    unfold push_row. cbn [lx_rows]. rewrite !map_app, W, Ea, Eb. f_equal. exact HF.
Qed.
Lemma loop_shift inp b R : forall fuel s, lex_loop fuel inp (shift b R s) = option_map (shift b R) (lex_loop fuel (skipn b inp) s).
Proof.
  induction fuel as [|fuel IH]; intro s; cbn [lex_loop]; change (lx_pos (shift b R s)) with (b + lx_pos s); rewrite nth_skipn;
    destruct (nth_error inp (b + lx_pos s)) as [c|] eqn:N; try reflexivity.
  rewrite step_shift by (rewrite nth_skipn; exact N). destruct (lex_step (skipn b inp) c s) as [s1|]; [apply IH|reflexivity].
Qed.
Lemma loop_more inp k : forall fuel s r, lex_loop fuel inp s = Some r -> lex_loop (fuel + k) inp s = Some r.
Proof.
  induction fuel as [|fuel IH]; intros s r H.
  - cbn [lex_loop] in H. cbn [Nat.add]. destruct k; cbn [lex_loop]; destruct (nth_error inp (lx_pos s)); try discriminate; exact H.
  - cbn [lex_loop Nat.add] in *. destruct (nth_error inp (lx_pos s)) as [c|]; [|exact H]. destruct (lex_step inp c s); [apply IH; exact H|exact H].
Qed.
Theorem mark_skipped t : no_mark t -> csv_rows (mark ++ t) = csv_rows t.
Proof.
  intro NM. destruct t as [|c t]; [reflexivity|]. set (u := c :: t) in *. unfold csv_rows, lex. rewrite (bom_zero u NM). change (bom (mark ++ u)) with 3.
  set (a := mkLexer 3 None 0 false false 0 [] []). set (s := mkLexer 0 None 0 false false 0 [] []).
  assert (R : rebased (mark ++ u) a (shift 3 [] s)).
  { constructor; cbn; auto; lia. }
  pose proof (rebased_loop (mark ++ u) (length (mark ++ u)) _ _ R) as L. rewrite loop_shift in L. change (skipn 3 (mark ++ u)) with u in L.
  destruct (loop_total (length u) u s) as [z Z]; [cbn; lia|]. rewrite Z.
  assert (Z3 : lex_loop (length (mark ++ u)) u s = Some z) by (rewrite app_length, Nat.add_comm; apply loop_more; exact Z).
  rewrite Z3 in L. cbn [option_map] in L. destruct (lex_loop (length (mark ++ u)) (mark ++ u) a) as [a1|]; [|contradiction].
  f_equal. apply rebased_feed in L. change (map (row_of (mark ++ u)) (lx_rows (end_feed (mark ++ u) a1)) = map (row_of u) (lx_rows (end_feed u z))).
  rewrite L. pose proof (feed_shift (mark ++ u) 3 [] z) as FS. change (skipn 3 (mark ++ u)) with u in FS. rewrite FS by discriminate.
  unfold shift. cbn [lx_rows app]. rewrite map_map. apply map_ext. intro r. exact (row_shift (mark ++ u) 3 r).
Qed.
