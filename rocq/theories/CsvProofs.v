(* The CSV reader gives back the fields of a text. *)
From Coq Require Import NArith String List Bool Ascii Arith Lia.
From Verif Require Import Base Command CsvModel CliSpec.
Import ListNotations.

(* ---- characters ---- *)

Lemma eqb_char : forall a b : ascii, reflect (a = b) (Ascii.eqb a b).
Proof. exact Ascii.eqb_spec. Qed.

Lemma ws_blank : forall c, ws_flag c = true <-> blank c.
Proof.
  intros c. unfold ws_flag, blank. destruct (eqb_char c " "); destruct (eqb_char c "009"); cbn; split; intros H; auto; try discriminate.
  destruct H; contradiction.
Qed.

Lemma flag_newline : forall c, parse_flag c = NEWLINE <-> line_end c.
Proof.
  intros c. unfold parse_flag, line_end, quote, comma, cr, lf.
  destruct (eqb_char c "034"); [subst; split; [discriminate|intros [H|H]; discriminate H]|].
  destruct (eqb_char c "044"); [subst; split; [discriminate|intros [H|H]; discriminate H]|].
  destruct (eqb_char c "013"); destruct (eqb_char c "010"); cbn; split; intros H; auto; try discriminate.
  destruct H; contradiction.
Qed.

Lemma flag_plain : forall c, parse_flag c = NOT_SPECIAL <-> c <> ","%char /\ c <> "034"%char /\ ~ line_end c.
Proof.
  intros c. unfold parse_flag, line_end, quote, comma, cr, lf.
  destruct (eqb_char c "034"); [split; [discriminate|intros (_ & H & _); contradiction]|].
  destruct (eqb_char c "044") as [E|E]; [split; [discriminate|intros (H & _); contradiction]|].
  destruct (eqb_char c "013"); destruct (eqb_char c "010"); cbn; split; intros H; auto; try discriminate;
    try (exfalso; tauto).
  split; [exact E|]. split; [assumption|]. intros [K|K]; contradiction.
Qed.

Lemma blank_plain : forall c, blank c -> plain false c = true.
Proof. intros c [-> | ->]; reflexivity. Qed.

(* ---- spans ---- *)

Definition stops (f : ascii -> bool) (l : list ascii) : Prop := match l with c :: _ => f c = false | [] => True end.

Lemma span_app : forall f a b, Forall (fun c => f c = true) a -> stops f b -> span f (a ++ b) = length a.
Proof.
  intros f a b H S. induction H as [|c a Hc H IH]; cbn.
  - destruct b as [|d b]; cbn in *; [reflexivity|rewrite S; reflexivity].
  - rewrite Hc, IH. reflexivity.
Qed.

Lemma skipn_app_exact : forall (A : Type) (a b : list A), skipn (length a) (a ++ b) = b.
Proof. induction a as [|x a IH]; intros b; cbn; auto. Qed.

Lemma firstn_app_exact : forall (A : Type) (a b : list A), firstn (length a) (a ++ b) = a.
Proof. induction a as [|x a IH]; intros b; cbn; [destruct b; reflexivity|]. rewrite IH. reflexivity. Qed.

Lemma nth_app_exact : forall (A : Type) (a b : list A), nth_error (a ++ b) (length a) = hd_error b.
Proof. induction a as [|x a IH]; intros b; cbn; [destruct b; reflexivity|auto]. Qed.

Lemma app_len : forall (A : Type) (a b c : list A), a ++ b ++ c = (a ++ b) ++ c.
Proof. intros. apply app_assoc. Qed.

(* ---- runs of the lexer ---- *)

Inductive reach (inp : list ascii) : lexer -> lexer -> Prop :=
| reach_here : forall s, reach inp s s
| reach_step : forall s c s1 s2, nth_error inp (lx_pos s) = Some c -> lex_step inp c s = Some s1 -> (lx_pos s < lx_pos s1)%nat -> reach inp s1 s2 -> reach inp s s2.

Lemma reach_trans : forall inp a b c, reach inp a b -> reach inp b c -> reach inp a c.
Proof. intros inp a b c H. induction H; intros K; [exact K|]. econstructor; eauto. Qed.

Lemma reach_loop : forall inp s s1, reach inp s s1 -> forall fuel, (length inp - lx_pos s <= fuel)%nat ->
  exists fuel1, (length inp - lx_pos s1 <= fuel1)%nat /\ lex_loop fuel inp s = lex_loop fuel1 inp s1.
Proof.
  intros inp s s1 H. induction H as [s|s c s1 s2 N L P R IH]; intros fuel F; [exists fuel; auto|].
  assert (B : (lx_pos s < length inp)%nat) by (apply nth_error_Some; rewrite N; discriminate).
  destruct fuel as [|fuel]; [lia|]. cbn [lex_loop]. rewrite N, L. apply IH. lia.
Qed.

Lemma reach_end : forall inp s s1, reach inp s s1 -> (length inp <= lx_pos s1)%nat -> (lx_pos s <= length inp)%nat -> lex_loop (length inp) inp s = Some s1.
Proof.
  intros inp s s1 H E B. destruct (reach_loop inp s s1 H (length inp) ltac:(lia)) as (fuel & _ & ->).
  assert (N : nth_error inp (lx_pos s1) = None) by (apply nth_error_None; exact E).
  destruct fuel; cbn [lex_loop]; rewrite N; reflexivity.
Qed.

(* The reader never runs out of steps: every character it looks at is passed. *)
Lemma field_moves : forall inp c s, nth_error inp (lx_pos s) = Some c -> compound_flag (lx_quote s) c = NOT_SPECIAL ->
  (lx_pos s < lx_pos (parse_field inp s))%nat.
Proof.
  intros inp c s N F. unfold parse_field. cbn [lx_pos].
  assert (K : exists r, skipn (lx_pos s) inp = c :: r).
  { revert N. generalize (lx_pos s). induction inp as [|x inp IH]; intros [|n] N; cbn in *; try discriminate.
    - injection N as ->. eauto.
    - apply IH. exact N. }
  destruct K as [r K]. rewrite K. cbn [span]. destruct (ws_flag c) eqn:W; [lia|].
  rewrite Nat.add_0_r, K. cbn [span]. unfold plain at 1. rewrite F. lia.
Qed.

Lemma step_moves : forall inp c s s1, nth_error inp (lx_pos s) = Some c -> lex_step inp c s = Some s1 -> (lx_pos s < lx_pos s1)%nat.
Proof.
  intros inp c s s1 N L. unfold lex_step in L. destruct (compound_flag (lx_quote s) c) eqn:F.
  - destruct (nth_error inp (S (lx_pos s))) as [d|]; [|discriminate].
    destruct (parse_flag d); injection L as <-; cbn; lia.
  - destruct (Nat.eqb (lx_len s) 0); injection L as <-.
    + destruct (lx_start s); cbn; [lia|]. destruct (nth_error inp (lx_pos s + 1)) as [d|]; cbn; [destruct (ws_flag d); cbn; lia|lia].
    + cbn. lia.
  - injection L as <-. eapply field_moves; eauto.
  - injection L as <-. cbn. lia.
  - injection L as <-. cbn. destruct (nth_error inp (lx_pos s + 1)) as [d|]; cbn; [destruct (parse_flag d); cbn; lia|lia].
Qed.

Lemma loop_total : forall fuel inp s, (length inp - lx_pos s <= fuel)%nat -> exists s1, lex_loop fuel inp s = Some s1.
Proof.
  induction fuel as [|fuel IH]; intros inp s F; cbn [lex_loop].
  - assert (N : nth_error inp (lx_pos s) = None) by (apply nth_error_None; lia). rewrite N. eauto.
  - destruct (nth_error inp (lx_pos s)) as [c|] eqn:N; [|eauto].
    destruct (lex_step inp c s) as [s1|] eqn:L; [|eauto]. apply IH.
    pose proof (step_moves inp c s s1 N L). lia.
Qed.

Theorem reading_ends : forall text, exists rows, csv_rows text = Some rows.
Proof.
  intros text. unfold csv_rows, lex.
  destruct (loop_total (length text) text (mkLexer (bom text) None 0 false false 0 [] []) ltac:(cbn; lia)) as [s ->]. eauto.
Qed.

(* ---- one field ---- *)

(* The state with nothing read of the next field. *)
Definition fresh (pos row : nat) (fs : list raw) (rs : list (nat * list raw)) : lexer := mkLexer pos None 0 false false row fs rs.

Lemma clean_plain : forall f, clean f -> Forall (fun c => plain false c = true) f.
Proof.
  intros f (H & _). eapply Forall_impl; [|exact H]. intros c K. unfold plain, compound_flag. apply flag_plain in K. rewrite K. reflexivity.
Qed.

Lemma blanks_ws : forall l, Forall blank l -> Forall (fun c => ws_flag c = true) l.
Proof. intros l H. eapply Forall_impl; [|exact H]. intros c K. apply ws_blank. exact K. Qed.

Lemma not_ws : forall c, ~ blank c -> ws_flag c = false.
Proof. intros c H. destruct (ws_flag c) eqn:E; [|reflexivity]. exfalso. apply H, ws_blank. exact E. Qed.

Record bare_cell := mkBare { b_before : list ascii; b_text : list ascii; b_behind : list ascii }.
Definition bare_ok (c : bare_cell) : Prop := Forall blank (b_before c) /\ clean (b_text c) /\ Forall blank (b_behind c).
Definition whole (c : bare_cell) : list ascii := b_before c ++ b_text c ++ b_behind c.

(* What parsing a cell leaves: the start and length of its text. *)
Lemma bare_reach : forall pre ce rest row fs rs, bare_ok ce -> (row <= length pre)%nat -> stops (plain false) rest ->
  let inp := pre ++ whole ce ++ rest in
  exists st len, reach inp (fresh (length pre) row fs rs) (mkLexer (length (pre ++ whole ce)) st len false false row fs rs) /\
    len = length (b_text ce) /\
    get_field inp row (mkRaw (match st with Some k => k | None => O end) len false) = b_text ce.
Proof.
  intros pre ce rest row fs rs (Hb & Hc & Hr) R St inp.
  destruct (whole ce) as [|c0 t0] eqn:T.
  - (* nothing there *)
    assert (E : b_text ce = []).
    { unfold whole in T. apply app_eq_nil in T. destruct T as [_ T]. apply app_eq_nil in T. apply T. }
    exists None, 0%nat. rewrite app_nil_r, E. split; [apply reach_here|]. split; [reflexivity|].
    reflexivity.
  - assert (W : Forall (fun c => plain false c = true) (whole ce)).
    { unfold whole. apply Forall_app. split; [eapply Forall_impl; [|exact Hb]; apply blank_plain|].
      apply Forall_app. split; [apply clean_plain; exact Hc|eapply Forall_impl; [|exact Hr]; apply blank_plain]. }
    assert (N : nth_error inp (lx_pos (fresh (length pre) row fs rs)) = Some c0).
    { unfold inp. cbn [fresh lx_pos]. rewrite nth_app_exact. reflexivity. }
    assert (F0 : compound_flag false c0 = NOT_SPECIAL).
    { rewrite T in W. inversion W as [|x y P _]; subst. unfold plain in P. destruct (compound_flag false c0); try discriminate. reflexivity. }
    assert (G : exists k, parse_field inp (fresh (length pre) row fs rs) = mkLexer (length (pre ++ whole ce)) (Some k) (length (b_text ce)) false false row fs rs /\
                  (b_text ce <> [] -> (row + k)%nat = length (pre ++ b_before ce))).
    { assert (Einp : inp = pre ++ b_before ce ++ b_text ce ++ b_behind ce ++ rest).
      { unfold inp. rewrite <- T. unfold whole. rewrite <- !app_assoc. reflexivity. }
      assert (Eall : inp = (pre ++ whole ce) ++ rest) by (unfold inp; rewrite <- T, app_assoc; reflexivity).
      unfold parse_field. cbn [lx_pos lx_start lx_quote lx_dq lx_row lx_fields lx_rows fresh].
      destruct (b_text ce) as [|f0 fr] eqn:E.
      - assert (S1 : span ws_flag (skipn (length pre) inp) = length (whole ce)).
        { rewrite Einp, skipn_app_exact. cbn [app]. rewrite (app_assoc (b_before ce)).
          replace (length (whole ce)) with (length (b_before ce ++ b_behind ce)) by (unfold whole; rewrite E; reflexivity).
          apply span_app; [apply Forall_app; split; apply blanks_ws; assumption|].
          destruct rest as [|d rest]; cbn in *; [exact I|]. destruct (ws_flag d) eqn:Q; [|reflexivity].
          apply ws_blank, blank_plain in Q. rewrite Q in St. discriminate. }
        rewrite S1.
        assert (S2 : span (plain false) (skipn (length pre + length (whole ce)) inp) = 0%nat).
        { rewrite <- app_length, Eall, skipn_app_exact. destruct rest as [|d rest]; cbn in *; [reflexivity|rewrite St; reflexivity]. }
        rewrite S2. rewrite <- app_length, Nat.add_0_r. exists (length (pre ++ whole ce) - row)%nat. split; [|intros K; contradiction].
        rewrite !app_length in *. f_equal. cbn [length]. lia.
      - assert (S1 : span ws_flag (skipn (length pre) inp) = length (b_before ce)).
        { rewrite Einp, skipn_app_exact. apply span_app; [apply blanks_ws; exact Hb|]. cbn. apply not_ws. destruct Hc as (_ & H & _). eapply H. reflexivity. }
        rewrite S1.
        assert (S2 : span (plain false) (skipn (length pre + length (b_before ce)) inp) = length ((f0 :: fr) ++ b_behind ce)).
        { rewrite <- app_length, Einp. rewrite (app_assoc pre), skipn_app_exact. rewrite (app_assoc (f0 :: fr)).
          apply span_app; [|exact St]. apply Forall_app. split; [apply clean_plain; exact Hc|eapply Forall_impl; [|exact Hr]; apply blank_plain]. }
        rewrite S2.
        assert (P : (length pre + length (b_before ce) + length ((f0 :: fr) ++ b_behind ce))%nat = length (pre ++ whole ce)).
        { unfold whole. rewrite E. rewrite !app_length. lia. }
        rewrite P.
        assert (S3 : span ws_flag (rev (firstn (length (pre ++ whole ce)) inp)) = length (b_behind ce)).
        { rewrite Eall, firstn_app_exact. unfold whole. rewrite E. rewrite !rev_app_distr, <- app_assoc, <- (rev_length (b_behind ce)). rewrite <- (app_assoc (rev (b_behind ce))).
          apply span_app; [apply blanks_ws, Forall_rev; exact Hr|].
          destruct (exists_last (l := f0 :: fr) ltac:(discriminate)) as (fi & cl & L). rewrite L, rev_app_distr. cbn.
          apply not_ws. destruct Hc as (_ & _ & H). eapply H. exact L. }
        rewrite S3. exists (length pre + length (b_before ce) - row)%nat.
        split; [|intros _; rewrite app_length; lia].
        f_equal. rewrite <- P, !app_length. lia. }
    destruct G as (k & G & K). exists (Some k), (length (b_text ce)). rewrite T in G. split.
    + eapply reach_step; [exact N| | |apply reach_here].
      * unfold lex_step. cbn [fresh lx_quote]. rewrite F0. f_equal. exact G.
      * cbn [lx_pos fresh]. rewrite app_length. cbn [length]. lia.
    + split; [reflexivity|]. unfold get_field. cbn [rf_len rf_start rf_dq].
      assert (Q : firstn (length (b_text ce)) (skipn (row + k) inp) = b_text ce).
      { destruct (b_text ce) as [|f0 fr] eqn:E; [reflexivity|]. rewrite K by discriminate.
        assert (Einp : inp = pre ++ b_before ce ++ b_text ce ++ b_behind ce ++ rest).
        { unfold inp. rewrite <- T. unfold whole. rewrite <- !app_assoc. reflexivity. }
        rewrite Einp, (app_assoc pre), skipn_app_exact, E, firstn_app_exact. reflexivity. }
      exact Q.
Qed.

(* ---- a field in double quotes ---- *)

Definition dq : ascii := "034"%char.

Lemma doubled_app : forall a b, doubled (a ++ b) = doubled a ++ doubled b.
Proof. intros a b. unfold doubled. apply flat_map_app. Qed.
Lemma doubled_plain : forall u, Forall (fun c => c <> dq) u -> doubled u = u.
Proof. induction u as [|c u IH]; intros H; [reflexivity|]. inversion H; subst. cbn. destruct (eqb_char c "034") as [E|_]; [contradiction|]. cbn. f_equal. auto. Qed.
Lemma flag_quote : forall c, parse_flag c = QUOTE <-> c = dq.
Proof.
  intros c. unfold parse_flag, quote, comma, dq. destruct (eqb_char c "034"); [split; auto|].
  destruct (eqb_char c "044"); [split; [discriminate|contradiction]|]. destruct (_ || _); split; try discriminate; contradiction.
Qed.
Lemma undouble_doubled : forall t rest p, p = false -> undouble p (doubled t ++ rest) = t ++ undouble false rest.
Proof.
  induction t as [|c t IH]; intros rest p ->; [reflexivity|]. cbn [doubled flat_map]. destruct (eqb_char c "034") as [->|N].
  - cbn. f_equal. apply IH. reflexivity.
  - cbn [app undouble]. destruct (parse_flag c) eqn:F; try (f_equal; apply IH; reflexivity). apply flag_quote in F. contradiction.
Qed.
Lemma plain_quoted : forall c, plain true c = true <-> c <> dq.
Proof.
  intros c. unfold plain, compound_flag. pose proof (flag_quote c) as F. destruct (parse_flag c); try (split; [intros _ K; apply F in K; discriminate|reflexivity]).
  split; [discriminate|]. intros K. exfalso. apply K, F. reflexivity.
Qed.

(* Behind every blank there is something else than blanks and double quotes. *)
Definition settled (f : list ascii) : Prop := forall a b c, f = a ++ b :: c -> blank b -> Exists (fun x => ~ blank x /\ x <> dq) c.
Lemma settled_quote : forall t, settled (t ++ [dq]) -> settled t.
Proof.
  intros t H a b c -> B. specialize (H a b (c ++ [dq])). rewrite <- app_assoc in H. specialize (H eq_refl B).
  apply Exists_app in H. destruct H as [H|H]; [exact H|]. inversion H as [x l [_ K]|x l K]; subst; [contradiction|inversion K].
Qed.
Lemma settled_last : forall t z, settled (t ++ [z]) -> ~ blank z.
Proof. intros t z H B. specialize (H t z [] eq_refl B). inversion H. Qed.

(* A text up to its first double quote. *)
Lemma to_quote : forall t, exists u v, t = u ++ v /\ Forall (fun c => c <> dq) u /\ match v with [] => True | c :: _ => c = dq end.
Proof.
  induction t as [|c t (u & v & -> & H & V)]; [exists [], []; repeat split; constructor|].
  destruct (eqb_char c dq) as [->|N]; [exists [], (dq :: u ++ v); repeat split; constructor|].
  exists (c :: u), v. repeat split; [constructor; assumption|exact V].
Qed.
Lemma blanks_first : forall u, exists w v, u = w ++ v /\ Forall (fun c => ws_flag c = true) w /\ stops ws_flag v.
Proof.
  induction u as [|c u (w & v & -> & H & S)]; [exists [], []; repeat split; constructor|].
  destruct (ws_flag c) eqn:E; [exists (c :: w), v; repeat split; [constructor; assumption|exact S]|].
  exists [], (c :: w ++ v). repeat split; [constructor|exact E].
Qed.

Lemma run_moves : forall pre u rest k len D row fs rs, u <> [] -> Forall (fun c => c <> dq) u -> (k + row <= length pre)%nat ->
  let inp := pre ++ u ++ dq :: rest in
  exists len1, parse_field inp (mkLexer (length pre) (Some k) len true D row fs rs) = mkLexer (length (pre ++ u)) (Some k) len1 true D row fs rs /\
    (forall u1 z, u = u1 ++ [z] -> ~ blank z -> len1 = length (pre ++ u) - (k + row))%nat.
Proof.
  intros pre u rest k len D row fs rs Ne Hu Hk inp. unfold parse_field. cbn [lx_pos lx_start lx_len lx_quote lx_dq lx_row lx_fields lx_rows].
  destruct (blanks_first u) as (w & v & E & Hw & Hv).
  assert (E1 : inp = pre ++ w ++ (v ++ dq :: rest)) by (unfold inp; rewrite E, <- !app_assoc; reflexivity).
  assert (E2 : inp = (pre ++ w) ++ v ++ dq :: rest) by (rewrite E1, <- !app_assoc; reflexivity).
  assert (E3 : inp = (pre ++ u) ++ dq :: rest) by (unfold inp; rewrite <- !app_assoc; reflexivity).
  assert (S1 : span ws_flag (skipn (length pre) inp) = length w).
  { rewrite E1, skipn_app_exact. apply span_app; [exact Hw|]. destruct v as [|c v]; [reflexivity|exact Hv]. }
  rewrite S1.
  assert (S2 : span (plain true) (skipn (length pre + length w) inp) = length v).
  { rewrite <- app_length, E2, skipn_app_exact. apply span_app; [|reflexivity].
    rewrite E in Hu. apply Forall_app in Hu. eapply Forall_impl; [|apply Hu]. intros c. apply plain_quoted. }
  rewrite S2. replace (length pre + length w + length v)%nat with (length (pre ++ u)) by (rewrite E, !app_length; lia).
  eexists. split; [reflexivity|]. intros u1 z U Z.
  assert (S3 : span ws_flag (rev (firstn (length (pre ++ u)) inp)) = 0%nat).
  { rewrite E3, firstn_app_exact, U. rewrite app_assoc, rev_app_distr. cbn. rewrite (not_ws z Z). reflexivity. }
  rewrite S3. lia.
Qed.

(* Inside the quotes, from [t1] on. *)
Lemma quoted_run : forall n t1 t2 pre rest row fs rs len D, (length t2 <= n)%nat -> (row <= length pre)%nat ->
  (settled t1 -> len = length (doubled t1)) -> (D = false -> doubled t1 = t1) ->
  let k := (length pre - row)%nat in
  let inp := pre ++ doubled (t1 ++ t2) ++ dq :: rest in
  exists len1 D1, reach inp (mkLexer (length (pre ++ doubled t1)) (Some k) len true D row fs rs) (mkLexer (length (pre ++ doubled (t1 ++ t2))) (Some k) len1 true D1 row fs rs) /\
    (settled (t1 ++ t2) -> len1 = length (doubled (t1 ++ t2))) /\ (D1 = false -> doubled (t1 ++ t2) = t1 ++ t2).
Proof.
  induction n as [|n IH]; intros t1 t2 pre rest row fs rs len D Ln R HL HD k inp.
  - destruct t2; [|cbn in Ln; lia]. rewrite app_nil_r. exists len, D. split; [apply reach_here|]. auto.
  - destruct (to_quote t2) as (u & v & -> & Hu & Hv). destruct u as [|c u].
    + destruct v as [|q v]; [rewrite !app_nil_r; exists len, D; split; [apply reach_here|]; auto|].
      subst q. cbn [app] in *.
      assert (E : t1 ++ dq :: v = (t1 ++ [dq]) ++ v) by (rewrite <- app_assoc; reflexivity).
      destruct (IH (t1 ++ [dq]) v pre rest row fs rs (len + 2)%nat true) as (len1 & D1 & H & H1 & H2).
      { cbn in Ln. lia. } { exact R. }
      { intros S. rewrite doubled_app, app_length, HL by (apply settled_quote; exact S). reflexivity. }
      { discriminate. }
      rewrite <- E in *. fold k inp in H. exists len1, D1. split; [|auto].
      assert (Ei : inp = (pre ++ doubled t1) ++ dq :: dq :: doubled v ++ dq :: rest).
      { unfold inp. rewrite doubled_app. cbn [doubled flat_map]. change (Ascii.eqb dq "034") with true. cbn [app]. rewrite <- !app_assoc. reflexivity. }
      eapply reach_step with (c := dq); [| | |exact H].
      * cbn [lx_pos]. rewrite Ei, nth_app_exact. reflexivity.
      * unfold lex_step. cbn [lx_quote lx_pos]. change (compound_flag true dq) with QUOTE_ESCAPE_QUOTE. cbn iota.
        assert (N : nth_error inp (S (length (pre ++ doubled t1))) = Some dq).
        { rewrite Ei. rewrite nth_error_app2 by lia. replace (S (length (pre ++ doubled t1)) - length (pre ++ doubled t1))%nat with 1%nat by lia. reflexivity. }
        rewrite N. change (parse_flag dq) with QUOTE. cbn iota. unfold advance. cbn [lx_pos lx_start lx_len lx_quote lx_dq lx_row lx_fields lx_rows].
        rewrite doubled_app. do 2 f_equal. rewrite !app_length. cbn. lia.
      * cbn [lx_pos]. rewrite doubled_app, !app_length. cbn. lia.
    + set (uu := c :: u) in *.
      assert (Ed : doubled (t1 ++ uu ++ v) = doubled t1 ++ uu ++ doubled v) by (rewrite !doubled_app, (doubled_plain uu Hu); reflexivity).
      assert (Ht : exists more, doubled v ++ dq :: rest = dq :: more).
      { destruct v as [|q v]; [exists rest; reflexivity|]. subst q. cbn [doubled flat_map]. change (Ascii.eqb dq "034") with true. cbn [app]. eauto. }
      destruct Ht as [more Ht].
      assert (Ei : inp = (pre ++ doubled t1) ++ uu ++ dq :: more).
      { unfold inp. rewrite Ed, <- Ht, <- !app_assoc. reflexivity. }
      destruct (run_moves (pre ++ doubled t1) uu more k len D row fs rs ltac:(discriminate) Hu ltac:(unfold k; rewrite app_length; lia)) as (len0 & P & L0).
      rewrite <- Ei in P.
      assert (E : t1 ++ uu ++ v = (t1 ++ uu) ++ v) by apply app_assoc.
      destruct (IH (t1 ++ uu) v pre rest row fs rs len0 D) as (len1 & D1 & H & H1 & H2).
      { unfold uu in Ln. rewrite app_length in Ln. cbn in Ln. lia. } { exact R. }
      { intros S. destruct (exists_last (l := uu) ltac:(discriminate)) as (u1 & z & U). rewrite (L0 u1 z U).
        - rewrite doubled_app, (doubled_plain uu Hu), !app_length. unfold k. lia.
        - rewrite U, app_assoc in S. apply settled_last in S. exact S. }
      { intros K. rewrite doubled_app, (doubled_plain uu Hu), (HD K). reflexivity. }
      rewrite <- E in *. fold k inp in H. exists len1, D1. split; [|auto].
      rewrite doubled_app, (doubled_plain uu Hu) in H. rewrite (app_assoc pre (doubled t1)) in H.
      eapply reach_step with (c := c); [| | |exact H].
      * cbn [lx_pos]. rewrite Ei, nth_app_exact. reflexivity.
      * unfold lex_step. cbn [lx_quote]. assert (F : compound_flag true c = NOT_SPECIAL).
        { inversion Hu as [|x y K _]; subst. apply plain_quoted in K. unfold plain in K. destruct (compound_flag true c); congruence. }
        rewrite F. f_equal. exact P.
      * cbn [lx_pos]. rewrite !app_length. unfold uu. cbn. lia.
Qed.

(* ---- one cell ---- *)

Definition start_of (st : option nat) : nat := match st with Some k => k | None => O end.
(* The field that push_field would add. *)
Definition pending (s : lexer) : raw := mkRaw (start_of (lx_start s)) (lx_len s) (lx_dq s).
(* parse() returns here. *)
Definition halts (inp : list ascii) (s : lexer) : Prop :=
  (length inp <= lx_pos s)%nat \/ exists c, nth_error inp (lx_pos s) = Some c /\ lex_step inp c s = None.
Lemma reach_halts : forall inp s s1, reach inp s s1 -> halts inp s1 -> lex_loop (length inp) inp s = Some s1.
Proof.
  intros inp s s1 H E. destruct (reach_loop inp s s1 H (length inp) ltac:(lia)) as (fuel & F & ->).
  destruct E as [E|(c & N & L)].
  - assert (N : nth_error inp (lx_pos s1) = None) by (apply nth_error_None; exact E). destruct fuel; cbn [lex_loop]; rewrite N; reflexivity.
  - assert (K : (lx_pos s1 < length inp)%nat) by (apply nth_error_Some; rewrite N; discriminate).
    destruct fuel as [|fuel]; [lia|]. cbn [lex_loop]. rewrite N, L. reflexivity.
Qed.

(* The text goes on with the end of a field, or ends. *)
Definition field_ends (rest : list ascii) : Prop := match rest with [] => True | c :: _ => parse_flag c = DELIMITER \/ parse_flag c = NEWLINE end.
Lemma ends_stop : forall rest, field_ends rest -> stops (plain false) rest.
Proof. intros [|c rest] H; [exact I|]. cbn in *. unfold plain, compound_flag. destruct H as [-> | ->]; reflexivity. Qed.
(* Read up to the end of a field. *)
Record read_to (inp : list ascii) (now : nat) (rest : list ascii) (row : nat) (fs : list raw) (rs : list (nat * list raw)) (text : list ascii) (s : lexer) : Prop := {
  rt_row : lx_row s = row;
  rt_fields : lx_fields s = fs;
  rt_rows : lx_rows s = rs;
  rt_text : get_field inp row (pending s) = text;
  rt_some : text <> [] -> (0 < lx_len s)%nat;
  rt_end : rest = [] -> halts inp s;
  rt_more : rest <> [] -> lx_pos s = now /\ lx_quote s = false
}.

Lemma cell_reach : forall pre ce rest row fs rs, cell_ok ce -> (row <= length pre)%nat -> field_ends rest ->
  let inp := pre ++ cell_text ce ++ rest in
  exists s, reach inp (fresh (length pre) row fs rs) s /\ read_to inp (length (pre ++ cell_text ce)) rest row fs rs (ce_text ce) s.
Proof.
  intros pre [be te bh|te] rest row fs rs Ok R St inp.
  - destruct (bare_reach pre (mkBare be te bh) rest row fs rs Ok R (ends_stop rest St)) as (st & len & H & L & G).
    unfold whole in H, G. cbn [b_before b_text b_behind] in *. fold (cell_text (mkCell be te bh)) in H, G. fold inp in H, G.
    eexists. split; [exact H|]. constructor; cbn [lx_row lx_fields lx_rows lx_len lx_pos lx_quote ce_text]; try reflexivity.
    + exact G.
    + intros K. rewrite L. destruct te; [contradiction|cbn; lia].
    + intros K. left. cbn [lx_pos]. unfold inp. rewrite K, app_nil_r. lia.
    + intros _. split; reflexivity.
  - destruct Ok as [Q1 Q2]. cbn [cell_text ce_text] in *.
    set (pre1 := pre ++ [dq]).
    assert (L1 : length pre1 = S (length pre)) by (unfold pre1; rewrite app_length; cbn; lia).
    assert (E : inp = pre1 ++ doubled te ++ dq :: rest).
    { unfold inp, pre1, dq. cbn [app]. rewrite <- !app_assoc. reflexivity. }
    destruct (quoted_run (length te) [] te pre1 rest row fs rs 0 false (le_n _) ltac:(lia)) as (len & D & H & HL & HD).
    { reflexivity. } { reflexivity. }
    cbn [app doubled flat_map] in H, HL, HD. rewrite app_nil_r in H. fold (doubled te) in H, HL, HD. rewrite <- E in H.
    specialize (HL Q2).
    set (k := (length pre1 - row)%nat) in *.
    set (sq := mkLexer (length (pre1 ++ doubled te)) (Some k) len true D row fs rs) in *.
    assert (Open : reach inp (fresh (length pre) row fs rs) sq).
    { eapply reach_step with (c := dq); [| | |exact H].
      - unfold inp. cbn [lx_pos fresh]. rewrite nth_app_exact. reflexivity.
      - unfold lex_step. cbn [fresh lx_quote lx_len lx_start]. change (compound_flag false dq) with QUOTE. cbn iota.
        change (Nat.eqb 0 0) with true. cbn iota. unfold advance, set_quote, fresh. cbn [lx_pos lx_start lx_len lx_quote lx_dq lx_row lx_fields lx_rows].
        replace (length pre + 1)%nat with (length pre1) by lia.
        assert (N : exists d, nth_error inp (length pre1) = Some d /\ ws_flag d = false).
        { rewrite E, nth_app_exact. destruct te as [|c te]; [exists dq; split; reflexivity|]. exists c. split.
          - cbn [doubled flat_map]. destruct (Ascii.eqb c "034"); reflexivity.
          - apply not_ws. eapply Q1. reflexivity. }
        destruct N as (d & N & W). rewrite N, W. reflexivity.
      - cbn [lx_pos fresh]. lia. }
    assert (G : get_field inp row (mkRaw k len D) = te).
    { unfold get_field. cbn [rf_len rf_start rf_dq]. replace (row + k)%nat with (length pre1) by (unfold k; lia).
      rewrite HL, E, skipn_app_exact, firstn_app_exact. destruct D.
      - rewrite <- (app_nil_r (doubled te)), undouble_doubled by reflexivity. cbn. apply app_nil_r.
      - apply HD. reflexivity. }
    assert (P : te <> [] -> (0 < len)%nat).
    { intros K. rewrite HL. destruct te as [|c te]; [contradiction|]. cbn [doubled flat_map]. destruct (Ascii.eqb c "034"); cbn; lia. }
    assert (N0 : nth_error inp (lx_pos sq) = Some dq).
    { unfold sq. cbn [lx_pos]. rewrite E, app_assoc, nth_app_exact. reflexivity. }
    assert (N1 : nth_error inp (S (lx_pos sq)) = hd_error rest).
    { unfold sq. cbn [lx_pos]. rewrite E.
      replace (pre1 ++ doubled te ++ dq :: rest) with (((pre1 ++ doubled te) ++ [dq]) ++ rest) by (rewrite <- !app_assoc; reflexivity).
      replace (S (length (pre1 ++ doubled te))) with (length ((pre1 ++ doubled te) ++ [dq])) by (rewrite (app_length _ [dq]); cbn; lia).
      apply nth_app_exact. }
    destruct rest as [|d rest].
    + exists sq. split; [exact Open|]. constructor; try reflexivity; try assumption; try (intros K; contradiction).
      intros _. right. exists dq. split; [exact N0|]. unfold lex_step. cbn [sq lx_quote]. change (compound_flag true dq) with QUOTE_ESCAPE_QUOTE. cbn iota.
      fold sq. rewrite N1. reflexivity.
    + exists (advance 1 0 (set_quote false sq)). split.
      * eapply reach_trans; [exact Open|]. eapply reach_step with (c := dq); [exact N0| | |apply reach_here].
        -- unfold lex_step. cbn [sq lx_quote]. change (compound_flag true dq) with QUOTE_ESCAPE_QUOTE. cbn iota. fold sq. rewrite N1. cbn [hd_error].
           cbn in St. destruct St as [-> | ->]; reflexivity.
        -- cbn. lia.
      * constructor; cbn [advance set_quote sq lx_row lx_fields lx_rows lx_len lx_pos lx_quote lx_start lx_dq pending start_of]; try reflexivity.
        -- unfold pending. cbn. rewrite Nat.add_0_r. exact G.
        -- intros K. specialize (P K). lia.
        -- discriminate.
        -- intros _. split; [|reflexivity]. unfold pre1. rewrite !app_length. cbn. rewrite app_length. cbn. unfold dq. lia.
Qed.

(* ---- rows ---- *)

Lemma cells_reach : forall cells pre rest row fs rs, cells <> [] -> Forall cell_ok cells -> (row <= length pre)%nat -> field_ends rest ->
  let inp := pre ++ cells_text cells ++ rest in
  exists fs1 s, reach inp (fresh (length pre) row fs rs) s /\ read_to inp (length (pre ++ cells_text cells)) rest row (fs ++ fs1) rs (last (fields cells) []) s /\
    map (get_field inp row) (fs1 ++ [pending s]) = fields cells.
Proof.
  induction cells as [|ce cells IH]; intros pre rest row fs rs Ne Ok R St inp; [contradiction|].
  inversion Ok as [|x y Oc Oks]; subst. destruct cells as [|ce2 cells].
  - destruct (cell_reach pre ce rest row fs rs Oc R St) as (s & H & G).
    exists [], s. rewrite app_nil_r. split; [exact H|]. split; [exact G|]. cbn. f_equal. apply (rt_text _ _ _ _ _ _ _ _ G).
  - change (cells_text (ce :: ce2 :: cells)) with (cell_text ce ++ ","%char :: cells_text (ce2 :: cells)) in *.
    set (more := cells_text (ce2 :: cells)) in *.
    assert (E1 : inp = pre ++ cell_text ce ++ (","%char :: more ++ rest)) by (unfold inp; rewrite <- app_assoc; reflexivity).
    assert (E2 : inp = (pre ++ cell_text ce ++ [","%char]) ++ more ++ rest) by (rewrite E1, <- !app_assoc; reflexivity).
    destruct (cell_reach pre ce (","%char :: more ++ rest) row fs rs Oc R (or_introl eq_refl)) as (s & H & G). rewrite <- E1 in *.
    set (f := pending s).
    assert (Len : length (pre ++ cell_text ce ++ [","%char]) = S (length (pre ++ cell_text ce))) by (rewrite !app_length; cbn; lia).
    destruct (IH (pre ++ cell_text ce ++ [","%char]) rest row (fs ++ [f]) rs ltac:(discriminate) Oks ltac:(rewrite Len, app_length; lia) St)
      as (fs1 & s1 & H1 & G1 & M1). fold more in H1, G1, M1. rewrite <- E2 in *.
    destruct (rt_more _ _ _ _ _ _ _ _ G ltac:(discriminate)) as [Gp Gq].
    exists (f :: fs1), s1. split; [|split].
    + eapply reach_trans; [exact H|]. eapply reach_step with (c := ","%char) (s1 := fresh (length (pre ++ cell_text ce ++ [","%char])) row (fs ++ [f]) rs).
      * rewrite Gp, E1, app_assoc, nth_app_exact. reflexivity.
      * unfold lex_step. rewrite Gq. change (compound_flag false ","%char) with DELIMITER. cbn iota. f_equal.
        unfold advance, push_field, fresh. cbn [lx_pos lx_start lx_len lx_quote lx_dq lx_row lx_fields lx_rows]. rewrite Len, Gp, Gq, (rt_row _ _ _ _ _ _ _ _ G), (rt_fields _ _ _ _ _ _ _ _ G), (rt_rows _ _ _ _ _ _ _ _ G).
        f_equal. lia.
      * rewrite Gp. cbn [lx_pos fresh]. lia.
      * exact H1.
    + replace (fs ++ f :: fs1) with ((fs ++ [f]) ++ fs1) by (rewrite <- app_assoc; reflexivity).
      replace (pre ++ cell_text ce ++ ","%char :: more) with ((pre ++ cell_text ce ++ [","%char]) ++ more) by (rewrite <- !app_assoc; reflexivity).
      exact G1.
    + cbn [app map fields]. f_equal; [apply (rt_text _ _ _ _ _ _ _ _ G)|]. exact M1.
Qed.
Lemma newline_plain : forall c, line_end c -> plain false c = false /\ compound_flag false c = NEWLINE.
Proof. intros c H. apply flag_newline in H. unfold plain, compound_flag. rewrite H. auto. Qed.

(* The rest of a text does not start with the end of a line. *)
Definition no_end (l : list ascii) : Prop := match l with c :: _ => parse_flag c <> NEWLINE | [] => True end.

Lemma line_reach : forall l pre rest rs, line_ok l -> no_end rest ->
  let inp := pre ++ cells_text (li_cells l) ++ li_end l ++ rest in
  let now := length (pre ++ cells_text (li_cells l) ++ li_end l) in
  exists fs, reach inp (fresh (length pre) (length pre) [] rs) (fresh now now [] (rs ++ [(length pre, fs)])) /\
    map (get_field inp (length pre)) fs = fields (li_cells l).
Proof.
  intros [cells nl] pre rest rs (L2 & Ok & Hn & Ln) Ne inp now. cbn [li_cells li_end] in *.
  assert (Cn : cells <> []) by (destruct cells; cbn in L2; [lia|discriminate]).
  destruct nl as [|n1 nl]; [cbn in Ln; lia|]. inversion Hn as [|x y H1 Hn1]; subst.
  destruct (newline_plain n1 H1) as [P1 C1].
  destruct (cells_reach cells pre ((n1 :: nl) ++ rest) (length pre) [] rs Cn Ok (le_n _) (or_intror C1)) as (fs & [p st len q d row fl rl] & R & G & M).
  destruct (rt_more _ _ _ _ _ _ _ _ G ltac:(discriminate)) as [Gp Gq].
  pose proof (rt_row _ _ _ _ _ _ _ _ G) as Gr. pose proof (rt_fields _ _ _ _ _ _ _ _ G) as Gf. pose proof (rt_rows _ _ _ _ _ _ _ _ G) as Gs. clear G.
  cbn [lx_pos lx_quote lx_row lx_fields lx_rows app] in Gp, Gq, Gr, Gf, Gs. subst p q row fl rl.
  fold inp in R, M. unfold pending in M. cbn [lx_start lx_len lx_dq] in M. exists (fs ++ [mkRaw (start_of st) len d]). split; [|exact M].
  eapply reach_trans; [exact R|].
  eapply reach_step with (c := n1) (s1 := fresh now now [] (rs ++ [(length pre, fs ++ [mkRaw (start_of st) len d])])); [| | |apply reach_here].
  - cbn [lx_pos]. unfold inp. rewrite app_assoc, nth_app_exact. reflexivity.
  - unfold lex_step. cbn [lx_quote]. rewrite C1. cbn iota. f_equal.
    assert (Nx : nth_error inp (length (pre ++ cells_text cells) + 1) = hd_error (nl ++ rest)).
    { unfold inp. replace (pre ++ cells_text cells ++ (n1 :: nl) ++ rest) with ((pre ++ cells_text cells ++ [n1]) ++ nl ++ rest) by (rewrite <- !app_assoc; reflexivity).
      replace (length (pre ++ cells_text cells) + 1)%nat with (length (pre ++ cells_text cells ++ [n1])) by (rewrite !app_length; cbn; lia).
      apply nth_app_exact. }
    unfold advance, push_field, push_row, fresh. cbn [lx_pos lx_start lx_len lx_quote lx_dq lx_row lx_fields lx_rows]. rewrite Nx.
    destruct nl as [|n2 nl].
    + cbn [app hd_error]. assert (Now : now = (length (pre ++ cells_text cells) + 1)%nat) by (unfold now; rewrite !app_length; cbn; lia).
      destruct rest as [|d0 rest]; cbn [hd_error]; [cbn; rewrite Now, Nat.add_0_r; reflexivity|].
      cbn in Ne. destruct (parse_flag d0) eqn:Fd; try contradiction; cbn; rewrite Now, Nat.add_0_r; reflexivity.
    + inversion Hn1 as [|x y H2 Hn2]; subst. apply flag_newline in H2. cbn [app hd_error]. rewrite H2.
      assert (N2 : nl = []) by (destruct nl; [reflexivity|cbn in Ln; lia]). subst nl.
      assert (Now : now = (length (pre ++ cells_text cells) + 1 + 1)%nat) by (unfold now; rewrite !app_length; cbn; lia).
      cbn. rewrite Now, !Nat.add_0_r. reflexivity.
  - cbn [lx_pos fresh]. unfold now. rewrite !app_length. cbn. lia.
Qed.

Lemma cells_no_end : forall cells rest, (2 <= length cells)%nat -> Forall cell_ok cells -> no_end (cells_text cells ++ rest).
Proof.
  intros [|c [|d cells]] rest L Ok; cbn in L; try lia. inversion Ok as [|x y Oc _]; subst.
  change (cells_text (c :: d :: cells)) with (cell_text c ++ ","%char :: cells_text (d :: cells)). rewrite <- app_assoc.
  destruct c as [be te bh|te]; [|cbn; discriminate]. destruct Oc as (Hb & Hc & Hr).
  assert (W : Forall (fun c => plain false c = true) (cell_text (mkCell be te bh))).
  { cbn [cell_text]. apply Forall_app. split; [eapply Forall_impl; [|exact Hb]; apply blank_plain|].
    apply Forall_app. split; [apply clean_plain; exact Hc|eapply Forall_impl; [|exact Hr]; apply blank_plain]. }
  destruct (cell_text (mkCell be te bh)) as [|a t] eqn:T; cbn; [discriminate|].
  inversion W as [|x y P _]; subst. unfold plain, compound_flag in P. destruct (parse_flag a); congruence.
Qed.

Lemma lines_no_end : forall ls rest, Forall line_ok ls -> no_end rest -> no_end (lines_text ls ++ rest).
Proof.
  intros [|l ls] rest Ok N; [exact N|]. inversion Ok as [|x y (L2 & Oc & _) _]; subst.
  cbn [lines_text flat_map]. rewrite <- !app_assoc. apply cells_no_end; assumption.
Qed.

Lemma lines_reach : forall ls pre rest rs, Forall line_ok ls -> no_end rest ->
  let inp := pre ++ lines_text ls ++ rest in
  let now := length (pre ++ lines_text ls) in
  exists rs1, reach inp (fresh (length pre) (length pre) [] rs) (fresh now now [] (rs ++ rs1)) /\
    map (fun r => map (get_field inp (fst r)) (snd r)) rs1 = map (fun l => fields (li_cells l)) ls.
Proof.
  induction ls as [|l ls IH]; intros pre rest rs Ok N inp now.
  - exists []. unfold now. cbn [lines_text flat_map]. rewrite !app_nil_r. split; [apply reach_here|reflexivity].
  - inversion Ok as [|x y Ol Ols]; subst.
    assert (E : inp = pre ++ cells_text (li_cells l) ++ li_end l ++ (lines_text ls ++ rest)).
    { unfold inp. cbn [lines_text flat_map]. rewrite <- !app_assoc. reflexivity. }
    assert (E2 : inp = (pre ++ cells_text (li_cells l) ++ li_end l) ++ lines_text ls ++ rest) by (rewrite E, <- !app_assoc; reflexivity).
    destruct (line_reach l pre (lines_text ls ++ rest) rs Ol (lines_no_end ls rest Ols N)) as (fs & R & M). rewrite <- E in *.
    destruct (IH (pre ++ cells_text (li_cells l) ++ li_end l) rest (rs ++ [(length pre, fs)]) Ols N) as (rs1 & R1 & M1). rewrite <- E2 in *.
    exists ((length pre, fs) :: rs1). split; [|cbn [map fst snd]; f_equal; assumption].
    eapply reach_trans; [exact R|].
    replace now with (length ((pre ++ cells_text (li_cells l) ++ li_end l) ++ lines_text ls)).
    2:{ unfold now. cbn [lines_text flat_map]. fold (lines_text ls). rewrite !app_length. lia. }
    replace (rs ++ (length pre, fs) :: rs1) with ((rs ++ [(length pre, fs)]) ++ rs1) by (rewrite <- app_assoc; reflexivity).
    exact R1.
Qed.

Lemma bom_zero : forall t, no_mark t -> bom t = 0%nat.
Proof.
  intros [|a [|b [|c t]]] H; try reflexivity. unfold bom.
  destruct (eqb_char a "239") as [->|]; [|reflexivity]. destruct (eqb_char b "187") as [->|]; [|reflexivity].
  destruct (eqb_char c "191") as [->|]; [|reflexivity]. exfalso. eapply H. reflexivity.
Qed.

(* A text of lines is read as the fields of its lines. *)
Theorem lines_read : forall ls, Forall line_ok ls -> no_mark (lines_text ls) -> csv_rows (lines_text ls) = Some (map (fun l => fields (li_cells l)) ls).
Proof.
  intros ls Ok B. destruct (lines_reach ls [] [] [] Ok I) as (rs & R & M). cbn [app length] in *. rewrite app_nil_r in *.
  unfold csv_rows, lex. rewrite (bom_zero _ B).
  change (mkLexer 0 None 0 false false 0 [] []) with (fresh 0 0 [] []).
  rewrite (reach_end _ _ _ R) by (cbn; lia).
  assert (Z : end_feed (lines_text ls) (fresh (length (lines_text ls)) (length (lines_text ls)) [] rs) = fresh (length (lines_text ls)) (length (lines_text ls)) [] rs).
  { unfold end_feed. cbn [lx_len fresh]. cbn [Nat.ltb Nat.leb orb].
    destruct ls as [|l0 ls0] using rev_ind; [reflexivity|].
    apply Forall_app in Ok. destruct Ok as [_ Ok]. inversion Ok as [|x y (L2 & Oc & Hn & Ln) _]; subst.
    unfold lines_text. rewrite flat_map_app. cbn [flat_map]. rewrite app_nil_r, !rev_app_distr, <- app_assoc.
    destruct (li_end l0) as [|n1 nl]; [cbn in Ln; lia|].
    destruct (exists_last (l := n1 :: nl) ltac:(discriminate)) as (b & z & Z). rewrite Z in *. rewrite rev_app_distr. cbn.
    apply Forall_app in Hn. destruct Hn as [_ Hn]. inversion Hn as [|x y H1 _]; subst. apply flag_newline in H1. rewrite H1. reflexivity. }
  rewrite Z. cbn [lx_rows fresh]. rewrite M. reflexivity.
Qed.

(* The last line may lack its end. *)
Theorem open_line_read : forall ls cells, Forall line_ok ls -> (2 <= length cells)%nat -> Forall cell_ok cells -> last (fields cells) [] <> [] ->
  no_mark (lines_text ls ++ cells_text cells) ->
  csv_rows (lines_text ls ++ cells_text cells) = Some (map (fun l => fields (li_cells l)) ls ++ [fields cells]).
Proof.
  intros ls cells Ok L2 Oc La B.
  assert (Cn : cells <> []) by (destruct cells; cbn in L2; [lia|discriminate]).
  pose proof (cells_no_end cells [] L2 Oc) as Ne. rewrite app_nil_r in Ne.
  destruct (lines_reach ls [] (cells_text cells) [] Ok Ne) as (rs & R & M). cbn [app length] in *.
  set (inp := lines_text ls ++ cells_text cells) in *. set (now := length (lines_text ls)) in *.
  destruct (cells_reach cells (lines_text ls) [] now [] rs Cn Oc (le_n _) I) as (fs & s & R1 & G & M1).
  rewrite app_nil_r in *. fold inp now in R1, M1, G.
  pose proof (rt_row _ _ _ _ _ _ _ _ G) as Gr. pose proof (rt_fields _ _ _ _ _ _ _ _ G) as Gf. pose proof (rt_rows _ _ _ _ _ _ _ _ G) as Gs.
  unfold csv_rows, lex. rewrite (bom_zero _ B).
  change (mkLexer 0 None 0 false false 0 [] []) with (fresh 0 0 [] []).
  rewrite (reach_halts _ _ _ (reach_trans _ _ _ _ R R1) (rt_end _ _ _ _ _ _ _ _ G eq_refl)).
  unfold end_feed. pose proof (rt_some _ _ _ _ _ _ _ _ G La) as Z. apply Nat.ltb_lt in Z. rewrite Z. cbn [orb].
  unfold push_field. cbn [lx_fields]. rewrite Gf. cbn [app] in *.
  fold (start_of (lx_start s)). fold (pending s).
  destruct fs as [|f fs]; cbn [app]; unfold push_row; cbn [lx_rows lx_row lx_fields]; rewrite Gs, Gr, map_app; cbn [map fst snd]; rewrite M; f_equal; f_equal; f_equal; exact M1.
Qed.
