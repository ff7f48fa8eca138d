(* Reading a file in chunks gives the rows of the whole file. *)
From Coq Require Import NArith String List Bool Ascii Arith Lia.
From Verif Require Import Base Bits Command CsvModel CliSpec CsvProofs ChunkModel ChunkSpec.
Import ListNotations.

(* ---- a suffix of the text ---- *)

Definition shift (b : nat) (R : list (nat * list raw)) (s : lexer) : lexer :=
  mkLexer (b + lx_pos s) (lx_start s) (lx_len s) (lx_quote s) (lx_dq s) (b + lx_row s) (lx_fields s) (R ++ map (fun r => (b + fst r, snd r)) (lx_rows s)).
Lemma nth_skipn {A} : forall b (l : list A) k, nth_error (skipn b l) k = nth_error l (b + k).
Proof. induction b as [|b IH]; intros [|x l] k; cbn; auto. now destruct k. Qed.
Lemma skipn_skipn' {A} : forall b (l : list A) k, skipn k (skipn b l) = skipn (b + k) l.
Proof. induction b as [|b IH]; intros [|x l] k; cbn; auto. now rewrite skipn_nil. Qed.
Lemma firstn_split {A} b k (l : list A) : firstn (b + k) l = firstn b l ++ firstn k (skipn b l).
Proof. revert l; induction b as [|b IH]; intros [|x l]; cbn; [reflexivity|reflexivity|now rewrite firstn_nil|now rewrite IH]. Qed.
Lemma span_le f l : span f l <= length l.
Proof. induction l as [|c l IH]; cbn; [lia|]. destruct (f c); lia. Qed.
Lemma span_longer f a b : span f (a ++ b) = span f a \/ (span f a = length a /\ length a <= span f (a ++ b)).
Proof. induction a as [|c a IH]; cbn; [right; lia|]. destruct (f c); [|now left]. destruct IH as [->|[E L]]; [now left|right; lia]. Qed.
Lemma field_shift inp b R s : lx_pos s <= length (skipn b inp) ->
  parse_field inp (shift b R s) = shift b R (parse_field (skipn b inp) s).
Proof.
  intros P. unfold parse_field, shift. cbn [lx_pos lx_start lx_len lx_quote lx_dq lx_row lx_fields lx_rows].
  rewrite !skipn_skipn'. set (p1 := span ws_flag (skipn (b + lx_pos s) inp)).
  rewrite !Nat.add_assoc. set (p2 := span (plain (lx_quote s)) (skipn (b + lx_pos s + p1) inp)).
  assert (match lx_start s with Some k => k | None => b + lx_pos s + p1 - (b + lx_row s) end = match lx_start s with Some k => k | None => lx_pos s + p1 - lx_row s end) as -> by (destruct (lx_start s); lia).
  set (st := match lx_start s with Some k => k | None => lx_pos s + p1 - lx_row s end).
  replace (b + lx_pos s + p1 + p2) with (b + (lx_pos s + p1 + p2)) by lia. set (q := lx_pos s + p1 + p2) in *.
  assert (q <= length (skipn b inp)) as Q.
  { unfold q, p2, p1. pose proof (span_le ws_flag (skipn (b + lx_pos s) inp)) as A1. pose proof (span_le (plain (lx_quote s)) (skipn (b + lx_pos s + p1) inp)) as A2.
    rewrite skipn_length in *. fold p1 in A1 |- *. fold p2 in A2 |- *. lia. }
  f_equal. rewrite firstn_split, rev_app_distr. set (F := firstn q (skipn b inp)).
  assert (length (rev F) = q) as LF by (rewrite rev_length; unfold F; rewrite firstn_length; lia).
  destruct (span_longer ws_flag (rev F) (rev (firstn b inp))) as [E|[E L]]; [rewrite E; lia|rewrite E; lia].
Qed.
Lemma step_shift inp b R s c : nth_error (skipn b inp) (lx_pos s) = Some c ->
  lex_step inp c (shift b R s) = option_map (shift b R) (lex_step (skipn b inp) c s).
Proof.
  intros N. assert (lx_pos s < length (skipn b inp)) as P by (apply nth_error_Some; congruence).
  unfold lex_step. change (lx_quote (shift b R s)) with (lx_quote s). destruct (compound_flag (lx_quote s) c) eqn:F.
  - rewrite nth_skipn. change (lx_pos (shift b R s)) with (b + lx_pos s). replace (S (b + lx_pos s)) with (b + S (lx_pos s)) by lia.
    destruct (nth_error inp (b + S (lx_pos s))) as [d|]; [|reflexivity]. cbn [option_map].
    destruct (parse_flag d); cbn [option_map]; f_equal; unfold shift, advance, set_quote; cbn; f_equal; lia.
  - change (lx_len (shift b R s)) with (lx_len s). destruct (Nat.eqb (lx_len s) 0); cbn [option_map]; f_equal.
    + rewrite nth_skipn. cbn [lx_pos advance set_quote shift lx_start]. replace (b + lx_pos s + 1) with (b + (lx_pos s + 1)) by lia.
      destruct (lx_start s); [unfold shift, advance, set_quote; cbn; f_equal; lia|].
      destruct (nth_error inp (b + (lx_pos s + 1))) as [d|]; [|unfold shift, advance, set_quote; cbn; f_equal; lia].
      destruct (ws_flag d); unfold shift, advance, set_quote; cbn; f_equal; try lia. f_equal. lia.
    + unfold shift, advance. cbn. f_equal; lia.
  - cbn [option_map]. f_equal. apply field_shift. lia.
  - cbn [option_map]. f_equal. unfold shift, advance, push_field. cbn. f_equal; lia.
  - cbn [option_map]. f_equal. cbn [lx_pos advance shift]. replace (b + lx_pos s + 1) with (b + (lx_pos s + 1)) by lia. rewrite nth_skipn.
    destruct (nth_error inp (b + (lx_pos s + 1))) as [d|]; [destruct (parse_flag d)|];
      unfold shift, advance, push_field, push_row; cbn; rewrite map_app, app_assoc; cbn; f_equal; lia.
Qed.
Lemma reach_shift inp b R s s1 : reach (skipn b inp) s s1 -> reach inp (shift b R s) (shift b R s1).
Proof.
  intros H. induction H as [s|s c s1 s2 N L P H IH]; [constructor|]. eapply reach_step; [| | |exact IH].
  - cbn. rewrite <- nth_skipn. exact N.
  - rewrite (step_shift _ _ _ _ _ N), L. reflexivity.
  - cbn. lia.
Qed.
Lemma halts_shift inp b R s : b <= length inp -> halts (skipn b inp) s -> halts inp (shift b R s).
Proof.
  intros B [H|(c & N & L)]; [left; cbn; rewrite skipn_length in H; lia|right]. exists c. split; [cbn; now rewrite <- nth_skipn|]. now rewrite (step_shift _ _ _ _ _ N), L.
Qed.
Lemma feed_shift inp b R s : skipn b inp <> [] -> end_feed inp (shift b R s) = shift b R (end_feed (skipn b inp) s).
Proof.
  intros X. unfold end_feed.
  assert (exists c r r', rev (skipn b inp) = c :: r /\ rev inp = c :: r') as (c & r & r' & -> & ->).
  { destruct (rev (skipn b inp)) as [|c r] eqn:E; [apply (f_equal (@rev _)) in E; rewrite rev_involutive in E; contradiction|].
    exists c, r, (r ++ rev (firstn b inp)). split; [reflexivity|]. rewrite <- (firstn_skipn b inp) at 1. rewrite rev_app_distr, E. reflexivity. }
  change (lx_len (shift b R s)) with (lx_len s).
  destruct (Nat.ltb 0 (lx_len s) || match parse_flag c with DELIMITER => true | _ => false end).
  - change (push_field (shift b R s)) with (shift b R (push_field s)). change (lx_fields (shift b R (push_field s))) with (lx_fields (push_field s)).
    destruct (lx_fields (push_field s)); [reflexivity|]. unfold shift, push_row. cbn. rewrite map_app, app_assoc. reflexivity.
  - change (lx_fields (shift b R s)) with (lx_fields s). destruct (lx_fields s) eqn:E; [reflexivity|]. unfold shift, push_row. cbn. rewrite map_app, app_assoc. cbn. now rewrite E.
Qed.
Lemma row_shift inp b r : row_of inp (b + fst r, snd r) = row_of (skipn b inp) r.
Proof. unfold row_of, get_field. cbn. apply map_ext. intros f. rewrite skipn_skipn'. now rewrite Nat.add_assoc. Qed.

(* ---- a prefix of the text ---- *)

Lemma nth_firstn {A} : forall n (l : list A) k, k < n -> nth_error (firstn n l) k = nth_error l k.
Proof. induction n as [|n IH]; intros [|x l] [|k] H; cbn; auto; try lia. apply IH. lia. Qed.
Lemma span_firstn f : forall n l, span f (firstn n l) = Nat.min n (span f l).
Proof. induction n as [|n IH]; intros [|c l]; cbn; auto. destruct (f c); cbn; auto. Qed.
Lemma skipn_firstn {A} k n (l : list A) : skipn k (firstn n l) = firstn (n - k) (skipn k l).
Proof. apply skipn_firstn_comm. Qed.

Ltac cases := repeat match goal with |- context [match ?e with _ => _ end] => destruct e end.
Lemma quote_does inp ch s : compound_flag (lx_quote s) ch = QUOTE ->
  exists s2, lex_step inp ch s = Some s2 /\ lx_pos s2 = lx_pos s + 1 /\ lx_rows s2 = lx_rows s /\ lx_row s2 = lx_row s.
Proof. intros F. unfold lex_step. rewrite F. destruct (Nat.eqb (lx_len s) 0); eexists; (split; [reflexivity|]); cases; repeat split. Qed.
Lemma step_places inp s c s1 : nth_error inp (lx_pos s) = Some c -> lex_step inp c s = Some s1 ->
  (lx_rows s1 = lx_rows s /\ lx_row s1 = lx_row s) \/ (exists fs, lx_rows s1 = lx_rows s ++ [(lx_row s, fs)]) /\ lx_row s1 = lx_pos s1.
Proof.
  intros N L. unfold lex_step in L. destruct (compound_flag (lx_quote s) c) eqn:F.
  - left. destruct (nth_error inp (S (lx_pos s))) as [d|]; [|discriminate]. destruct (parse_flag d); injection L as <-; split; reflexivity.
  - left. destruct (quote_does inp c s F) as (s2 & E2 & P2 & A2 & B2). unfold lex_step in E2. rewrite F in E2. rewrite L in E2. injection E2 as <-. auto.
  - left. injection L as <-. split; reflexivity.
  - left. injection L as <-. split; reflexivity.
  - right. injection L as <-. cbn [lx_pos advance]. destruct (nth_error inp (lx_pos s + 1)) as [d|]; [destruct (parse_flag d)|]; (split; [eexists|]; reflexivity).
Qed.
Section Prefix.
Variable x : list ascii.
Variable n : nat.
Let c := firstn n x.
Lemma len_c : length c = Nat.min n (length x).
Proof. apply firstn_length. Qed.
Lemma nth_c k : k < length c -> nth_error c k = nth_error x k.
Proof. intros K. apply nth_firstn. rewrite len_c in K. lia. Qed.

(* parse_field sees the same as long as it stops in the prefix. *)
Lemma field_local s : lx_pos s <= length c -> lx_pos (parse_field c s) < length c -> parse_field x s = parse_field c s.
Proof.
  intros P L. unfold parse_field in *. cbn [lx_pos] in L. pose proof len_c as LC.
  unfold c in *. rewrite !skipn_firstn, !span_firstn in *. set (w := span ws_flag (skipn (lx_pos s) x)) in *.
  set (p1 := Nat.min (n - lx_pos s) w) in *.
  assert (p1 = w) as Ew by lia. rewrite Ew in *. set (v := span (plain (lx_quote s)) (skipn (lx_pos s + w) x)) in *.
  replace (Nat.min (n - (lx_pos s + w)) v) with v in * by lia. rewrite firstn_firstn. replace (Nat.min (lx_pos s + w + v) n) with (lx_pos s + w + v) by lia. reflexivity.
Qed.
Lemma field_past s : lx_pos s <= length c -> lx_pos (parse_field c s) <= lx_pos (parse_field x s) /\ lx_pos (parse_field c s) <= length c.
Proof.
  intros P. unfold parse_field. cbn [lx_pos]. pose proof len_c as LC.
  unfold c in *. rewrite !skipn_firstn, !span_firstn in *. set (w := span ws_flag (skipn (lx_pos s) x)) in *.
  pose proof (span_le ws_flag (skipn (lx_pos s) x)) as W. rewrite skipn_length in W. fold w in W.
  destruct (Nat.le_gt_cases (n - lx_pos s) w) as [A|A].
  - rewrite (Nat.min_l _ _ A). replace (n - (lx_pos s + (n - lx_pos s))) with 0 by lia. cbn. lia.
  - rewrite (Nat.min_r (n - lx_pos s) w) by lia.
    pose proof (span_le (plain (lx_quote s)) (skipn (lx_pos s + w) x)) as V. rewrite skipn_length in V. lia.
Qed.
Lemma field_keeps inp s : lx_rows (parse_field inp s) = lx_rows s /\ lx_row (parse_field inp s) = lx_row s.
Proof. split; reflexivity. Qed.
Lemma step_local s ch s1 : nth_error c (lx_pos s) = Some ch -> lex_step c ch s = Some s1 -> lx_pos s1 < length c -> lex_step x ch s = Some s1.
Proof.
  intros N L P. assert (lx_pos s < length c) as P0 by (apply nth_error_Some; congruence). unfold lex_step in *. destruct (compound_flag (lx_quote s) ch) eqn:F.
  - destruct (nth_error c (S (lx_pos s))) as [d|] eqn:D; [|discriminate].
    assert (S (lx_pos s) < length c) as Q by (apply nth_error_Some; congruence). rewrite <- (nth_c _ Q), D. exact L.
  - destruct (Nat.eqb (lx_len s) 0); [|exact L]. cbn [lx_pos advance set_quote] in *.
    assert (lx_pos s + 1 < length c) as Q. { injection L as L. subst s1. destruct (lx_start s); cbn in P; [lia|]. destruct (nth_error c (lx_pos s + 1)); [destruct (ws_flag a)|]; cbn in P; lia. }
    rewrite <- (nth_c _ Q). exact L.
  - injection L as <-. f_equal. apply field_local; [lia|exact P].
  - exact L.
  - cbn [lx_pos advance] in *.
    assert (lx_pos s + 1 < length c) as Q. { injection L as L. subst s1. destruct (nth_error c (lx_pos s + 1)); [destruct (parse_flag a)|]; cbn in P; lia. }
    rewrite <- (nth_c _ Q). exact L.
Qed.

(* A chunk with nothing after it but the end of the text, or none that could
   complete its line end. *)
Definition whole_end : Prop := forall a d, nth_error x (n - 1) = Some a -> nth_error x n = Some d -> line_end a -> ~ line_end d.
(* Nothing of the chunk is left: no further row ends in it. *)
Definition runs_out (s : lexer) : Prop := n < length x -> exists s2, reach x s s2 /\ n <= lx_pos s2 /\ lx_rows s2 = lx_rows s /\ lx_row s2 = lx_row s.
Definition at_row (p : nat) (R : list (nat * list raw)) : lexer := fresh p p [] R.

(* The last step of the chunk. *)
Lemma step_last s ch s1 : whole_end -> nth_error c (lx_pos s) = Some ch -> lex_step c ch s = Some s1 -> length c <= lx_pos s1 ->
  (lx_rows s1 = lx_rows s /\ lx_row s1 = lx_row s /\ runs_out s) \/ (reach x s s1 /\ length (lx_rows s) < length (lx_rows s1) /\ s1 = at_row (lx_row s1) (lx_rows s1)).
Proof.
  intros W N L P. assert (lx_pos s < length c) as P0 by (apply nth_error_Some; congruence). pose proof len_c as LC.
  assert (nth_error x (lx_pos s) = Some ch) as Nx by (rewrite <- nth_c; auto).
  pose proof (step_moves _ _ _ _ N L) as M.
  assert (lex_step x ch s = Some s1 -> lx_rows s1 = lx_rows s -> lx_row s1 = lx_row s -> runs_out s) as Keep.
  { intros Lx A B Z. exists s1. split; [eapply reach_step; eauto; constructor|]. split; [lia|auto]. }
  unfold lex_step in L. destruct (compound_flag (lx_quote s) ch) eqn:F.
  - destruct (nth_error c (S (lx_pos s))) as [d|] eqn:D; [|discriminate].
    assert (S (lx_pos s) < length c) as Q by (apply nth_error_Some; congruence).
    assert (lex_step x ch s = Some s1) as Lx by (unfold lex_step; rewrite F, <- (nth_c _ Q), D; exact L).
    left. assert (lx_rows s1 = lx_rows s /\ lx_row s1 = lx_row s) as [A B] by (destruct (parse_flag d); injection L as <-; split; reflexivity). auto.
  - destruct (quote_does c ch s F) as (s2 & E2 & P2 & A2 & B2). unfold lex_step in E2. rewrite F in E2. rewrite L in E2. injection E2 as <-.
    left. split; [exact A2|]. split; [exact B2|]. intros Z. destruct (quote_does x ch s F) as (s3 & E3 & P3 & A3 & B3). exists s3.
    split; [eapply reach_step; [exact Nx|exact E3|lia|constructor]|]. split; [lia|auto].
  - injection L as <-. left. split; [reflexivity|]. split; [reflexivity|]. intros Z. exists (parse_field x s).
    split; [eapply reach_step; [exact Nx|unfold lex_step; rewrite F; reflexivity|eapply field_moves; eauto|constructor]|].
    destruct (field_past s ltac:(lia)) as [A _]. repeat split; lia.
  - left. injection L as <-. split; [reflexivity|]. split; [reflexivity|]. apply Keep; try reflexivity. unfold lex_step. now rewrite F.
  - right. assert (lx_quote s = false) as Q0 by (unfold compound_flag in F; destruct (lx_quote s); [destruct (parse_flag ch); discriminate|reflexivity]).
    assert (lex_step x ch s = Some s1) as Lx.
    { unfold lex_step. rewrite F. cbn [lx_pos advance] in *. destruct (nth_error c (lx_pos s + 1)) as [d|] eqn:D.
      - assert (lx_pos s + 1 < length c) as Q by (apply nth_error_Some; congruence). rewrite <- (nth_c _ Q), D. exact L.
      - apply nth_error_None in D. rewrite <- L. destruct (nth_error x (lx_pos s + 1)) as [d|] eqn:Dx; [|reflexivity].
        assert (parse_flag d <> NEWLINE) as Nd; [|destruct (parse_flag d); try reflexivity; contradiction].
        assert (lx_pos s + 1 < length x) as Lx by (apply nth_error_Some; congruence). assert (n = lx_pos s + 1) as En by lia.
        intros K. apply flag_newline in K. apply (W ch d); [replace (n - 1) with (lx_pos s) by lia; exact Nx|rewrite En; exact Dx| |exact K].
        apply flag_newline. unfold compound_flag in F. rewrite Q0 in F. exact F. }
    split; [eapply reach_step; eauto; constructor|]. injection L as <-. cbn [lx_pos advance].
    split; [cases; cbn; rewrite app_length; cbn; lia|].
    destruct (nth_error c (lx_pos s + 1)) as [d|]; [destruct (parse_flag d)|]; unfold at_row, fresh, push_row, push_field, advance; cbn; now rewrite Q0.
Qed.
Lemma row_pushed s ch s1 : nth_error x (lx_pos s) = Some ch -> lex_step x ch s = Some s1 ->
  (lx_rows s1 = lx_rows s /\ lx_row s1 = lx_row s) \/ s1 = at_row (lx_row s1) (lx_rows s1).
Proof.
  intros N L. unfold lex_step in L. destruct (compound_flag (lx_quote s) ch) eqn:F.
  - left. destruct (nth_error x (S (lx_pos s))) as [d|]; [|discriminate]. destruct (parse_flag d); injection L as <-; split; reflexivity.
  - left. destruct (Nat.eqb (lx_len s) 0); injection L as <-; [|split; reflexivity]. cases; split; reflexivity.
  - left. injection L as <-. split; reflexivity.
  - left. injection L as <-. split; reflexivity.
  - right. assert (lx_quote s = false) as Q0 by (unfold compound_flag in F; destruct (lx_quote s); [destruct (parse_flag ch); discriminate|reflexivity]).
    injection L as <-. cbn [lx_pos advance]. destruct (nth_error x (lx_pos s + 1)) as [d|]; [destruct (parse_flag d)|]; unfold at_row, fresh, push_row, push_field, advance; cbn; now rewrite Q0.
Qed.
Lemma prefix_run : whole_end -> forall fuel s s', lex_loop fuel c s = Some s' ->
  (lx_rows s' = lx_rows s /\ lx_row s' = lx_row s /\ runs_out s) \/ (reach x s (at_row (lx_row s') (lx_rows s')) /\ length (lx_rows s) < length (lx_rows s')).
Proof.
  intros W. pose proof len_c as LC. induction fuel as [|fuel IH]; intros s s' H.
  - cbn in H. destruct (nth_error c (lx_pos s)) eqn:N; [discriminate|]. injection H as <-. left. split; [reflexivity|]. split; [reflexivity|].
    intros Z. apply nth_error_None in N. exists s. split; [constructor|]. split; [lia|auto].
  - cbn [lex_loop] in H. destruct (nth_error c (lx_pos s)) as [ch|] eqn:N.
    2: { injection H as <-. left. split; [reflexivity|]. split; [reflexivity|]. intros Z. apply nth_error_None in N. exists s. split; [constructor|]. split; [lia|auto]. }
    assert (lx_pos s < length c) as P0 by (apply nth_error_Some; congruence).
    assert (nth_error x (lx_pos s) = Some ch) as Nx by (rewrite <- nth_c; auto).
    destruct (lex_step c ch s) as [s1|] eqn:L.
    + destruct (Nat.lt_ge_cases (lx_pos s1) (length c)) as [Q|Q].
      * pose proof (step_local _ _ _ N L Q) as Lx. pose proof (step_moves _ _ _ _ N L) as M.
        assert (length (lx_rows s) <= length (lx_rows s1)) as G by (destruct (step_places _ _ _ _ Nx Lx) as [[-> _]|[[fs ->] _]]; [lia|rewrite app_length; lia]).
        destruct (IH s1 s' H) as [(A & B & C)|[R R']]; [|right; split; [eapply reach_step; eauto|lia]].
        destruct (step_places _ _ _ _ Nx Lx) as [[A1 B1]|[[fs A1] B1]].
        -- left. split; [congruence|]. split; [congruence|]. intros Z. destruct (C Z) as (s2 & R2 & P2 & A2 & B2). exists s2. split; [eapply reach_step; eauto|]. split; [exact P2|split; congruence].
        -- right. rewrite A, B. split; [|rewrite A1, app_length; cbn; lia]. destruct (row_pushed _ _ _ Nx Lx) as [[A2 _]|E].
           { exfalso. rewrite A1 in A2. apply (f_equal (@length _)) in A2. rewrite app_length in A2. cbn in A2. lia. }
           rewrite <- E. eapply reach_step; eauto. constructor.
      * assert (s' = s1) as ->. { destruct fuel; cbn in H; rewrite (proj2 (nth_error_None c (lx_pos s1)) Q) in H; congruence. }
        destruct (step_last _ _ _ W N L Q) as [K|(K & G & E)]; [now left|right]. split; [now rewrite <- E|exact G].
    + injection H as <-. left. split; [reflexivity|]. split; [reflexivity|]. intros Z. unfold lex_step in L. destruct (compound_flag (lx_quote s) ch) eqn:F; try discriminate L; [|destruct (Nat.eqb (lx_len s) 0); discriminate L].
      destruct (nth_error c (S (lx_pos s))) as [d|] eqn:D; [destruct (parse_flag d); discriminate|]. apply nth_error_None in D.
      destruct (nth_error x (S (lx_pos s))) as [d|] eqn:Dx; [|apply nth_error_None in Dx; lia].
      assert (exists s2, lex_step x ch s = Some s2 /\ lx_pos s < lx_pos s2 /\ lx_rows s2 = lx_rows s /\ lx_row s2 = lx_row s) as (s2 & E2 & P2 & A2 & B2).
      { unfold lex_step. rewrite F, Dx. destruct (parse_flag d); eexists; (split; [reflexivity|]); cbn; repeat split; lia. }
      exists s2. split; [eapply reach_step; [exact Nx|exact E2|lia|constructor]|]. split; [lia|auto].
Qed.
End Prefix.

(* ---- runs ---- *)

Lemma loop_reach : forall fuel inp s s1, lex_loop fuel inp s = Some s1 -> reach inp s s1 /\ halts inp s1.
Proof.
  induction fuel as [|fuel IH]; intros inp s s1 H; cbn [lex_loop] in H.
  - destruct (nth_error inp (lx_pos s)) eqn:N; [discriminate|]. injection H as <-. split; [constructor|left]. now apply nth_error_None.
  - destruct (nth_error inp (lx_pos s)) as [c|] eqn:N.
    + destruct (lex_step inp c s) as [s2|] eqn:L.
      * destruct (IH _ _ _ H) as [R T]. split; [|exact T]. eapply reach_step; eauto. eapply step_moves; eauto.
      * injection H as <-. split; [constructor|right]. eauto.
    + injection H as <-. split; [constructor|left]. now apply nth_error_None.
Qed.
Lemma reach_det inp s a z : reach inp s a -> reach inp s z -> halts inp z -> reach inp a z.
Proof.
  intros A. induction A as [s|s c s1 s2 N L P A IH]; intros Z T; [exact Z|].
  apply IH; [|exact T]. inversion Z as [s' E1 E2|s' c' s1' s2' N' L' P' Z' E1 E2].
  - subst. exfalso. destruct T as [T|(d & D & T)]; [apply nth_error_None in T; congruence|congruence].
  - subst. rewrite N in N'. injection N' as <-. rewrite L in L'. injection L' as <-. exact Z'.
Qed.
Definition places (s : lexer) : list nat := map fst (lx_rows s) ++ [lx_row s].
Lemma reach_places inp s s1 : reach inp s s1 -> exists more rs, places s1 = places s ++ more /\ Forall (fun a => lx_pos s < a) more /\ lx_rows s1 = lx_rows s ++ rs.
Proof.
  intros H. induction H as [s|s c s1 s2 N L P H IH]; [exists [], []; rewrite !app_nil_r; auto|].
  destruct IH as (more & rs & E & F & R).
  assert (Forall (fun a => lx_pos s < a) more) as F' by (eapply Forall_impl; [|exact F]; cbn; intros; lia).
  destruct (step_places _ _ _ _ N L) as [[A B]|[[fs A] B]].
  - exists more, rs. unfold places in *. rewrite A, B in E. rewrite A in R. auto.
  - exists (lx_row s1 :: more), ((lx_row s, fs) :: rs). split; [|split; [constructor; [lia|exact F']|rewrite R, A, <- app_assoc; reflexivity]].
    rewrite E. unfold places. rewrite A, map_app, <- !app_assoc. reflexivity.
Qed.
Lemma reach_pos inp s s1 : reach inp s s1 -> lx_pos s <= lx_pos s1.
Proof. intros H. induction H; lia. Qed.
Lemma step_dq inp s c s1 : no_doubled inp -> nth_error inp (lx_pos s) = Some c -> lex_step inp c s = Some s1 -> lx_dq s = false -> lx_dq s1 = false.
Proof.
  intros D N L Q. unfold lex_step in L. destruct (compound_flag (lx_quote s) c) eqn:F.
  - destruct (nth_error inp (S (lx_pos s))) as [d|] eqn:E; [|discriminate]. destruct (parse_flag d) eqn:G; injection L as <-; try exact Q.
    exfalso. apply nth_error_split in N as (a & b & -> & La). rewrite nth_error_app2 in E by lia. replace (S (lx_pos s) - length a) with 1 in E by lia. destruct b as [|e b]; [discriminate|]. cbn in E. injection E as ->.
    assert (c = "034"%char) as ->. { unfold compound_flag, parse_flag in F. destruct (lx_quote s); destruct (Ascii.eqb c quote) eqn:X; try (apply Ascii.eqb_eq in X; exact X); destruct (Ascii.eqb c comma); try discriminate; destruct (Ascii.eqb c cr || Ascii.eqb c lf); discriminate. }
    assert (d = "034"%char) as ->. { unfold parse_flag in G. destruct (Ascii.eqb d quote) eqn:X; [apply Ascii.eqb_eq in X; exact X|]. destruct (Ascii.eqb d comma); try discriminate; destruct (Ascii.eqb d cr || Ascii.eqb d lf); discriminate. }
    eapply D. reflexivity.
  - destruct (Nat.eqb (lx_len s) 0); injection L as <-; [|exact Q]. cases; exact Q.
  - injection L as <-. exact Q.
  - injection L as <-. reflexivity.
  - injection L as <-. cases; reflexivity.
Qed.
Lemma reach_dq inp s s1 : no_doubled inp -> reach inp s s1 -> lx_dq s = false -> lx_dq s1 = false.
Proof. intros D H. induction H; intros Q; [exact Q|]. apply IHreach. eapply step_dq; eauto. Qed.
Lemma doubled_part a x b : no_doubled (a ++ x ++ b) -> no_doubled x.
Proof. intros D p q ->. apply (D (a ++ p) (q ++ b)). rewrite <- !app_assoc. reflexivity. Qed.
Lemma doubled_chunk n b inp : no_doubled inp -> no_doubled (firstn n (skipn b inp)).
Proof. intros D. apply (doubled_part (firstn b inp) _ (skipn n (skipn b inp))). now rewrite firstn_skipn, firstn_skipn. Qed.
Lemma feed_dq inp s : lx_dq s = false -> lx_dq (end_feed inp s) = false.
Proof. intros Q. unfold end_feed. cases; cbn; auto. Qed.
Lemma feed_rows inp s : exists rs, lx_rows (end_feed inp s) = lx_rows s ++ rs.
Proof.
  unfold end_feed. set (s1 := if Nat.ltb 0 (lx_len s) || _ then push_field s else s).
  assert (lx_rows s1 = lx_rows s) as E by (unfold s1; cases; reflexivity). destruct (lx_fields s1); [exists []; now rewrite app_nil_r|]. cbn. rewrite E. eauto.
Qed.
Lemma skipn_map_app {A B} (f : A -> B) l r : skipn (length l) (map f (l ++ r)) = map f r.
Proof. rewrite map_app. rewrite <- (map_length f l). apply skipn_app_exact. Qed.

(* The fields lie in what has been read. *)
Definition inside (s : lexer) : raw -> Prop := fun f => lx_row s + rf_start f + rf_len f <= lx_pos s.
Record sane (inp : list ascii) (s : lexer) : Prop := {
  sn_pos : lx_pos s <= length inp; sn_row : lx_row s <= lx_pos s; sn_len : lx_row s + start_of (lx_start s) + lx_len s <= lx_pos s;
  sn_fields : Forall (fun f => lx_row s + rf_start f + rf_len f <= lx_pos s) (lx_fields s);
  sn_rows : Forall (fun r => Forall (fun f => fst r + rf_start f + rf_len f <= lx_pos s) (snd r)) (lx_rows s)
}.
Lemma rows_later (rows : list (nat * list raw)) p q : p <= q -> Forall (fun r => Forall (fun f => fst r + rf_start f + rf_len f <= p) (snd r)) rows -> Forall (fun r => Forall (fun f => fst r + rf_start f + rf_len f <= q) (snd r)) rows.
Proof. intros L. apply Forall_impl. intros r. apply Forall_impl. intros f. lia. Qed.
Lemma fields_later (fs : list raw) r p q : p <= q -> Forall (fun f => r + rf_start f + rf_len f <= p) fs -> Forall (fun f => r + rf_start f + rf_len f <= q) fs.
Proof. intros L. apply Forall_impl. intros f. lia. Qed.
Lemma advance_sane inp k m s : sane inp s -> m <= k -> lx_pos s + k <= length inp -> sane inp (advance k m s).
Proof. intros [A B C D E] M L. constructor; cbn; try lia; [eapply fields_later; [|exact D]|eapply rows_later; [|exact E]]; lia. Qed.
Lemma push_sane inp s : sane inp s -> sane inp (push_field s).
Proof.
  intros [A B C D E]. constructor; cbn; try lia; auto. apply Forall_app. split; [exact D|]. constructor; [|constructor]. cbn. unfold start_of in C. destruct (lx_start s); lia.
Qed.
Lemma step_sane inp s c s1 : sane inp s -> nth_error inp (lx_pos s) = Some c -> lex_step inp c s = Some s1 -> sane inp s1.
Proof.
  intros Sn N L. assert (lx_pos s < length inp) as P by (apply nth_error_Some; congruence). unfold lex_step in L. destruct (compound_flag (lx_quote s) c) eqn:F.
  - destruct (nth_error inp (S (lx_pos s))) as [d|] eqn:D; [|discriminate]. assert (S (lx_pos s) < length inp) as Q by (apply nth_error_Some; congruence).
    assert (sane inp (set_quote false s)) as Sq by (destruct Sn; constructor; assumption).
    destruct (parse_flag d); injection L as <-; try (apply advance_sane; [assumption|lia|cbn; lia]).
    assert (sane inp (advance 2 2 s)) as [A1 A2 A3 A4 A5] by (apply advance_sane; [assumption|lia|lia]). constructor; assumption.
  - assert (sane inp (set_quote true s)) as Sq by (destruct Sn; constructor; assumption).
    destruct (Nat.eqb (lx_len s) 0) eqn:Z; injection L as <-; [|apply advance_sane; [assumption|lia|lia]].
    assert (sane inp (advance 1 0 (set_quote true s))) as Sa by (apply advance_sane; [assumption|lia|cbn; lia]).
    cbn [lx_pos advance set_quote] in Sa |- *. destruct (lx_start s); [exact Sa|]. destruct (nth_error inp (lx_pos s + 1)) as [a|]; [|exact Sa]. destruct (ws_flag a); [exact Sa|]. apply Nat.eqb_eq in Z.
    destruct Sa as [A1 A2 A3 A4 A5]. constructor; cbn in *; try assumption. lia.
  - injection L as <-. destruct Sn as [A B C D E]. pose proof (field_moves _ _ _ N F) as M. unfold parse_field in *. cbn [lx_pos] in M.
    set (w := span ws_flag (skipn (lx_pos s) inp)) in *. set (v := span (plain (lx_quote s)) (skipn (lx_pos s + w) inp)) in *.
    pose proof (span_le ws_flag (skipn (lx_pos s) inp)) as W1. pose proof (span_le (plain (lx_quote s)) (skipn (lx_pos s + w) inp)) as V1. rewrite skipn_length in W1, V1. fold w in W1. fold v in V1.
    constructor; cbn [lx_pos lx_row lx_start lx_len lx_fields lx_rows start_of]; try lia.
    + unfold start_of in C. destruct (lx_start s); lia.
    + eapply fields_later; [|exact D]; lia.
    + eapply rows_later; [|exact E]; lia.
  - injection L as <-. apply advance_sane; [apply push_sane; assumption|lia|cbn; lia].
  - injection L as <-.
    set (s2 := match nth_error inp (lx_pos (advance 1 0 s)) with Some d => match parse_flag d with NEWLINE => advance 1 0 (advance 1 0 s) | _ => advance 1 0 s end | None => advance 1 0 s end).
    assert (sane inp s2) as S2.
    { assert (sane inp (advance 1 0 s)) as S1 by (apply advance_sane; [assumption|lia|lia]). unfold s2. destruct (nth_error inp (lx_pos (advance 1 0 s))) as [d|] eqn:D; [|exact S1].
      assert (lx_pos (advance 1 0 s) < length inp) as Q by (apply nth_error_Some; congruence). destruct (parse_flag d); try exact S1. apply advance_sane; [assumption|lia|lia]. }
    pose proof (push_sane _ _ S2) as [A1 A2 A3 A4 A5]. change (sane inp (push_row (push_field s2))). constructor; cbn [lx_pos push_row lx_row lx_start lx_len lx_fields lx_rows]; try lia; [cbn; lia|constructor|].
    apply Forall_app. split; [exact A5|]. constructor; [exact A4|constructor].
Qed.
Lemma reach_sane inp s s1 : reach inp s s1 -> sane inp s -> sane inp s1.
Proof. intros H. induction H; intros A; [exact A|]. apply IHreach. eapply step_sane; eauto. Qed.
Lemma row_prefix n x r : Forall (fun f => fst r + rf_start f + rf_len f <= n) (snd r) -> row_of (firstn n x) r = row_of x r.
Proof.
  intros H. unfold row_of. apply map_ext_in. intros f I. rewrite Forall_forall in H. specialize (H f I). unfold get_field. rewrite skipn_firstn, firstn_firstn. now rewrite Nat.min_l by lia.
Qed.

(* ---- one chunk ---- *)

Lemma bom_le t : bom t <= length t.
Proof. destruct t as [|a [|b [|c t]]]; cbn; try lia. destruct (_ && _); lia. Qed.
Lemma bom_prefix n t : 3 <= n -> bom (firstn n t) = bom t.
Proof. intros L. destruct n as [|[|[|k]]]; try lia. destruct t as [|a [|b [|c t]]]; reflexivity. Qed.
Section File.
Variables (n page : nat) (inp : list ascii).
Let f := mkSource n page inp.
Hypothesis N3 : 3 <= n.
Hypothesis ND : no_doubled inp.
Hypothesis FT : fits n inp.
Hypothesis SM : smooth n inp.
Let init := mkLexer (bom inp) None 0 false false 0 [] [].
Variable S0 : lexer.
Hypothesis W : lex_loop (length inp) inp init = Some S0.
Lemma starts_S0 : starts inp = places S0.
Proof. unfold starts. fold init. now rewrite W. Qed.

(* The parser before a chunk that starts at b, where the whole reading has come to
   row b with the rows R. *)
Record ready (b : nat) (R : list (nat * list raw)) (ps : parser) : Prop := {
  rd_pos : ps_pos ps = b; rd_dq : ps_dq ps = false; rd_eof : ps_eof ps = false; rd_b : b < length inp;
  rd_bom : b <> 0 -> ps_bom ps = true;
  rd_skip : bom_skip ps (chunk f ps) <= length (chunk f ps);
  rd_at : reach inp init (shift b R (lex_start ps (chunk f ps)))
}.
Lemma halts_stuck s z : halts inp s -> reach inp s z -> z = s.
Proof.
  intros T H. destruct H as [s|s c s1 s2 N L P H]; [reflexivity|]. exfalso. destruct T as [T|(d & D & T)]; [apply nth_error_None in T; congruence|congruence].
Qed.
Lemma whole_S0 : reach inp init S0 /\ halts inp S0.
Proof. exact (loop_reach _ _ _ _ W). Qed.
Lemma ready_mapped b R ps : ready b R ps -> mappable f ps (chunk f ps) = true /\ length (chunk f ps) = Nat.min n (length inp - b).
Proof.
  intros [P _ _ B _ _ _]. assert (length (chunk f ps) = Nat.min n (length inp - b)) as L by (unfold chunk; cbn; rewrite firstn_length, skipn_length, P; reflexivity).
  split; [|exact L]. unfold mappable. rewrite L. replace (Nat.min n (length inp - b) =? 0) with false; [reflexivity|symmetry; apply Nat.eqb_neq; lia].
Qed.
Lemma last_chunk b R ps : ready b R ps -> length inp <= b + n ->
  exists r, next f ps = Value r /\ ps_eof (rc_parser r) = true /\ map (row_of inp) (lx_rows (end_feed inp S0)) = map (row_of inp) R ++ rc_all r.
Proof.
  intros Rd Lb. destruct (ready_mapped _ _ _ Rd) as [M L]. destruct Rd as [P Dq Eo B Bm Sk At].
  assert (chunk f ps = skipn b inp) as C by (unfold chunk; cbn; rewrite P; apply firstn_all2; rewrite skipn_length; lia).
  unfold next. rewrite M. destruct (loop_total (length (chunk f ps)) (chunk f ps) (lex_start ps (chunk f ps)) ltac:(lia)) as [s Es]. rewrite Es.
  assert (is_last f ps (chunk f ps) = true) as La.
  { unfold is_last. change (so_text f) with inp. change (so_chunk f) with n. replace (ps_pos ps + length (chunk f ps) =? length inp) with true; [reflexivity|]. symmetry. apply Nat.eqb_eq. rewrite L, P. lia. }
  rewrite La. eexists. split; [reflexivity|]. split; [cbn; now rewrite orb_true_r|].
  destruct (loop_reach _ _ _ _ Es) as [Rs Hs]. rewrite C in Rs, Hs.
  assert (S0 = shift b R s) as E0.
  { destruct whole_S0 as [R0 H0]. symmetry. apply (halts_stuck S0); [exact H0|]. apply (reach_det inp init); [exact R0| |apply halts_shift; [lia|exact Hs]].
    eapply reach_trans; [exact At|]. rewrite C. apply reach_shift. exact Rs. }
  rewrite E0. rewrite feed_shift by (intros X; apply (f_equal (@length _)) in X; rewrite skipn_length in X; cbn in X; lia).
  unfold rc_all. cbn [rc_rows rc_end]. destruct (feed_rows (chunk f ps) s) as [rs Ers]. rewrite Ers, skipn_map_app, <- map_app.
  cbn [shift lx_rows]. rewrite map_app. f_equal. rewrite C in *. rewrite Ers, map_map. apply map_ext. intros r. apply row_shift.
Qed.
Lemma mid_chunk b R ps : ready b R ps -> b + n < length inp ->
  exists r b' rs, next f ps = Value r /\ b < b' /\ ready b' (R ++ rs) (rc_parser r) /\ rc_all r = map (row_of inp) rs /\ rs <> [].
Proof.
  intros Rd Lb. destruct (ready_mapped _ _ _ Rd) as [M L]. destruct Rd as [P Dq Eo B Bm Sk At]. replace (Nat.min n (length inp - b)) with n in L by lia.
  set (x := skipn b inp). assert (chunk f ps = firstn n x) as C by (unfold chunk, x; cbn; now rewrite P). assert (length x = length inp - b) as Lx by apply skipn_length.
  unfold next. rewrite M. set (e := lex_start ps (chunk f ps)) in *. destruct (loop_total (length (chunk f ps)) (chunk f ps) e ltac:(lia)) as [s Es]. rewrite Es.
  assert (is_last f ps (chunk f ps) = false) as La.
  { unfold is_last. change (so_text f) with inp. change (so_chunk f) with n. rewrite L, P. apply orb_false_intro; [apply Nat.eqb_neq; lia|apply Nat.ltb_ge; lia]. }
  rewrite La. destruct (loop_reach _ _ _ _ Es) as [Rs Hs]. destruct whole_S0 as [R0 H0].
  assert (In b (starts inp)) as Ib.
  { rewrite starts_S0. destruct (reach_places _ _ _ (reach_det _ _ _ _ At R0 H0)) as (more & rs & -> & _). apply in_or_app. left. unfold places. cbn. rewrite app_nil_r. apply in_or_app. right. left. lia. }
  assert (whole_end x n) as We.
  { intros a d A D Ka. unfold x in A, D. rewrite nth_skipn in A, D. replace (b + (n - 1)) with (b + n - 1) in A by lia. exact (SM b a d Ib A D Ka). }
  rewrite C in Es. destruct (prefix_run x n We _ _ _ Es) as [(A & A' & Ro)|[Re Gr]].
  - exfalso. destruct (Ro ltac:(lia)) as (s2 & R2 & P2 & A2 & B2). assert (reach inp init (shift b R s2)) as At2 by (eapply reach_trans; [exact At|]; apply reach_shift; exact R2).
    destruct (reach_places _ _ _ (reach_det _ _ _ _ At2 R0 H0)) as (more & rs & E & Fm & _). rewrite <- starts_S0 in E. unfold places in E. cbn [shift lx_rows lx_row lx_pos] in E, Fm. rewrite A2, B2 in E. unfold e in E. cbn in E. rewrite app_nil_r, Nat.add_0_r in E.
    destruct more as [|b' more].
    + specialize (FT (map fst R) b (length inp) []). rewrite E in FT. rewrite app_nil_r, <- app_assoc in FT. specialize (FT eq_refl). lia.
    + specialize (FT (map fst R) b b' (more ++ [length inp])). rewrite E in FT. rewrite <- !app_assoc in FT. specialize (FT eq_refl). apply Forall_inv in Fm. lia.
  - set (rs := map (fun r => (b + fst r, snd r)) (lx_rows s)). exists (mkRead (map (row_of (chunk f ps)) (lx_rows s)) (skipn (length (lx_rows s)) (map (row_of (chunk f ps)) (lx_rows s)))
      (mkParser (ps_pos ps + lx_row s) (lx_dq s) (ps_bom ps || (3 <=? length (chunk f ps))) (ps_eof ps || false))), (b + lx_row s), rs.
    split; [reflexivity|].
    assert (sane (chunk f ps) s) as [Q1 Q2 _ _ Q5].
    { apply (reach_sane _ _ _ Rs). constructor; cbn; try lia; try constructor. exact Sk. }
    assert (lx_row s <> 0) as Nz.
    { destruct (reach_places _ _ _ Re) as (more & rs' & E & Fm & _). unfold places in E. cbn in E. cbn in Gr. destruct (lx_rows s) as [|r0 l]; [cbn in Gr; lia|]. cbn in E. injection E as _ E.
      assert (In (lx_row s) more) as I by (rewrite <- E; apply in_or_app; right; left; reflexivity). rewrite Forall_forall in Fm. specialize (Fm _ I). lia. }
    assert (length (lx_rows s) <> 0) as Nr by (cbn in Gr; lia).
    split; [lia|]. split; [|split].
    + constructor; cbn [rc_parser ps_pos ps_dq ps_bom ps_eof]; try lia.
      * apply (reach_dq _ e _ (doubled_chunk n b inp ND)); [|exact Dq]. fold x. rewrite <- C. exact Rs.
      * now rewrite Eo.
      * intros _. rewrite L. replace (3 <=? n) with true by (symmetry; apply Nat.leb_le; lia). apply orb_true_r.
      * unfold bom_skip. cbn [ps_bom]. rewrite L. replace (3 <=? n) with true by (symmetry; apply Nat.leb_le; lia). rewrite orb_true_r. lia.
      * unfold lex_start, bom_skip. cbn [ps_bom ps_dq]. rewrite L. replace (3 <=? n) with true by (symmetry; apply Nat.leb_le; lia). rewrite orb_true_r.
        assert (lx_dq s = false) as -> by (apply (reach_dq _ e _ (doubled_chunk n b inp ND)); [|exact Dq]; fold x; rewrite <- C; exact Rs).
        assert (shift (b + lx_row s) (R ++ rs) (mkLexer 0 None 0 false false 0 [] []) = shift b R (at_row (lx_row s) (lx_rows s))) as -> by (unfold shift, at_row, fresh; cbn; rewrite !Nat.add_0_r, app_nil_r; reflexivity).
        eapply reach_trans; [exact At|]. exact (reach_shift inp b R _ _ Re).
    + unfold rc_all. cbn [rc_rows rc_end]. rewrite <- (map_length (row_of (chunk f ps)) (lx_rows s)), skipn_all, app_nil_r.
      unfold rs. rewrite map_map. rewrite C. apply map_ext_in. intros r I. rewrite row_shift. apply row_prefix. rewrite Forall_forall in Q5. specialize (Q5 r I). eapply Forall_impl; [|exact Q5]. cbn. intros. lia.
    + unfold rs. intros X. apply (f_equal (@length _)) in X. rewrite map_length in X. cbn in X. contradiction.
Qed.
Lemma read_rest : forall m b R ps, length inp - b <= m -> ready b R ps ->
  exists k l, (forall fuel, k <= fuel -> read_on fuel f ps = Some (Value l)) /\ map (row_of inp) (lx_rows (end_feed inp S0)) = map (row_of inp) R ++ l.
Proof.
  induction m as [|m IH]; intros b R ps M Rd; [destruct Rd; lia|]. destruct (Nat.le_gt_cases (length inp) (b + n)) as [A|A].
  - destruct (last_chunk _ _ _ Rd A) as (r & Nx & Eo & E). exists 1, (rc_all r). split; [|exact E]. intros [|fuel] K; [lia|]. cbn [read_on]. rewrite (rd_eof _ _ _ Rd), Nx.
    destruct fuel; cbn [read_on]; rewrite Eo, app_nil_r; reflexivity.
  - destruct (mid_chunk _ _ _ Rd A) as (r & b' & rs & Nx & Lb & Rd' & E & _). destruct (IH b' (R ++ rs) (rc_parser r) ltac:(lia) Rd') as (k & l & K & E').
    exists (S k), (rc_all r ++ l). split; [|rewrite E', map_app, <- app_assoc, E; reflexivity]. intros [|fuel] Kf; [lia|]. cbn [read_on]. rewrite (rd_eof _ _ _ Rd), Nx. rewrite K by lia. reflexivity.
Qed.
Lemma ready0 : inp <> [] -> ready 0 [] parser0.
Proof using N3.
  clear ND FT SM W. intros X. constructor; cbn; try reflexivity; try lia.
  - destruct inp; [contradiction|cbn; lia].
  - unfold bom_skip. cbn. apply bom_le.
  - unfold lex_start, bom_skip. cbn [ps_bom parser0 ps_dq]. rewrite (bom_prefix _ _ N3). constructor.
Qed.
Lemma file_read rows : csv_rows inp = Some rows -> rows <> [] -> exists k, forall fuel, k <= fuel -> read_file fuel f = Some (Value rows).
Proof.
  intros Cr Ne. assert (rows = map (row_of inp) (lx_rows (end_feed inp S0))) as Er by (unfold csv_rows, lex in Cr; fold init in Cr; rewrite W in Cr; injection Cr as <-; reflexivity).
  assert (inp <> []) as X. { intros ->. apply Ne. unfold csv_rows, lex in Cr. cbn in Cr. congruence. }
  pose proof (ready0 X) as Rd. destruct (Nat.le_gt_cases (length inp) (0 + n)) as [A|A].
  - destruct (last_chunk _ _ _ Rd A) as (r & Nx & Eo & E). cbn [map app] in E. rewrite <- Er in E. exists 0. intros fuel _. unfold read_file. rewrite Nx, <- E.
    destruct rows as [|w rows]; [contradiction|]. destruct fuel; cbn [read_on]; rewrite Eo, app_nil_r; reflexivity.
  - destruct (mid_chunk _ _ _ Rd A) as (r & b' & rs & Nx & Lb & Rd' & E & Nrs). destruct (read_rest (length inp) b' ([] ++ rs) (rc_parser r) ltac:(lia) Rd') as (k & l & K & E').
    exists k. intros fuel Kf. unfold read_file. rewrite Nx, (K _ Kf), E. rewrite Er, E'. destruct rs; [contradiction|reflexivity].
Qed.
End File.
Theorem chunks_read n page text rows : 3 <= n -> no_doubled text -> fits n text -> smooth n text -> csv_rows text = Some rows -> rows <> [] ->
  exists k, forall fuel, k <= fuel -> read_file fuel (mkSource n page text) = Some (Value rows).
Proof.
  intros N3 ND FT SM Cr Ne. destruct (loop_total (length text) text (mkLexer (bom text) None 0 false false 0 [] []) ltac:(cbn; lia)) as [S0 W].
  exact (file_read n page text N3 ND FT SM S0 W rows Cr Ne).
Qed.
