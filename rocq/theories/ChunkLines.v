(* Files of simple lines are read whatever the chunk size; what goes wrong with
   others. *)
From Coq Require Import NArith String List Bool Ascii Arith Lia.
From Verif Require Import Base Bits Command CsvModel CliModel CliSpec CsvProofs ChunkModel ChunkSpec ChunkProofs.
Import ListNotations.

(* ---- simple lines ---- *)

Fixpoint line_starts (b : nat) (ls : list line) : list nat :=
  match ls with [] => [] | l :: r => b :: line_starts (b + line_length l) r end.
Lemma lines_at : forall ls pre rest rs, Forall line_ok ls -> no_end rest ->
  let inp := pre ++ lines_text ls ++ rest in
  let now := length (pre ++ lines_text ls) in
  exists rs1, reach inp (fresh (length pre) (length pre) [] rs) (fresh now now [] (rs ++ rs1)) /\
    map (row_of inp) rs1 = map (fun l => fields (li_cells l)) ls /\ map fst rs1 = line_starts (length pre) ls.
Proof.
  induction ls as [|l ls IH]; intros pre rest rs Ok N inp now.
  - exists []. unfold now. cbn [lines_text flat_map]. rewrite !app_nil_r. split; [apply reach_here|split; reflexivity].
  - inversion Ok as [|x y Ol Ols]; subst.
    assert (E : inp = pre ++ cells_text (li_cells l) ++ li_end l ++ (lines_text ls ++ rest)).
    { unfold inp. cbn [lines_text flat_map]. rewrite <- !app_assoc. reflexivity. }
    assert (E2 : inp = (pre ++ cells_text (li_cells l) ++ li_end l) ++ lines_text ls ++ rest) by (rewrite E, <- !app_assoc; reflexivity).
    destruct (line_reach l pre (lines_text ls ++ rest) rs Ol (lines_no_end ls rest Ols N)) as (fs & R & M). rewrite <- E in *.
    destruct (IH (pre ++ cells_text (li_cells l) ++ li_end l) rest (rs ++ [(length pre, fs)]) Ols N) as (rs1 & R1 & M1 & F1). rewrite <- E2 in *.
    exists ((length pre, fs) :: rs1). split; [|split].
    + eapply reach_trans; [exact R|].
      replace now with (length ((pre ++ cells_text (li_cells l) ++ li_end l) ++ lines_text ls)).
      2:{ unfold now. cbn [lines_text flat_map]. fold (lines_text ls). rewrite !app_length. lia. }
      replace (rs ++ (length pre, fs) :: rs1) with ((rs ++ [(length pre, fs)]) ++ rs1) by (rewrite <- app_assoc; reflexivity).
      exact R1.
    + cbn [map]. f_equal; [exact M|exact M1].
    + cbn [map fst line_starts]. f_equal. rewrite F1. f_equal. rewrite app_length. reflexivity.
Qed.
Lemma lines_starts ls : Forall line_ok ls -> no_mark (lines_text ls) -> starts (lines_text ls) = line_starts 0 ls ++ [length (lines_text ls)].
Proof.
  intros Ok B. destruct (lines_at ls [] [] [] Ok I) as (rs & R & _ & F). cbn [app length] in *. rewrite app_nil_r in *.
  unfold starts. rewrite (bom_zero _ B). change (mkLexer 0 None 0 false false 0 [] []) with (fresh 0 0 [] []).
  rewrite (reach_end _ _ _ R) by (cbn; lia). cbn [lx_rows lx_row fresh]. now rewrite F.
Qed.
Lemma starts_close n : forall ls b, Forall (fun l => line_length l <= n) ls ->
  forall l a c r, (line_starts b ls ++ [b + length (lines_text ls)]) ++ [b + length (lines_text ls)] = l ++ a :: c :: r -> c <= a + n.
Proof.
  induction ls as [|x ls IH]; intros b H l a c r E.
  - cbn in E. destruct l as [|y [|z l]]; cbn in E; try (injection E as <- <- <-; lia); injection E; intros; try discriminate.
    all: destruct l; discriminate.
  - inversion H as [|? ? Hx Hl]; subst. cbn [line_starts lines_text flat_map] in E. fold (lines_text ls) in E. rewrite app_length in E. fold (line_length x) in E. rewrite Nat.add_assoc in E.
    destruct l as [|y l].
    + cbn [app] in E. injection E as <- E. destruct ls as [|z ls]; cbn [line_starts app] in E; injection E as <- _; cbn; lia.
    + cbn [app] in E. injection E as <- E. exact (IH _ Hl _ _ _ _ E).
Qed.

(* ---- ends of lines stand alone ---- *)

Definition apart (t : list ascii) : Prop := forall p c d, nth_error t p = Some c -> nth_error t (S p) = Some d -> line_end c -> ~ line_end d.
Lemma apart_quiet x t : endless x -> apart t -> apart (x ++ t).
Proof.
  intros H A. induction H as [|c x Hc H IH]; [exact A|]. intros [|p] a d E F L; cbn in E, F; [injection E as <-; contradiction|]. exact (IH p a d E F L).
Qed.
Lemma apart_end e t : no_end t -> apart t -> apart (e :: t).
Proof.
  intros N A [|p] a d E F L; cbn in E, F; [|exact (A p a d E F L)]. destruct t as [|x t]; [discriminate|]. injection F as <-. intros K. apply flag_newline in K. exact (N K).
Qed.
Lemma cells_simple cells : Forall cell_ok cells -> Forall (fun c => match c with mkCell _ _ _ => True | Quoted _ => False end) cells ->
  Forall (fun c => c <> "034"%char /\ ~ line_end c) (cells_text cells).
Proof.
  intros Ok S. induction cells as [|c cells IH]; [constructor|]. inversion Ok as [|? ? Oc Os]; inversion S as [|? ? Sc Ss]; subst. specialize (IH Os Ss).
  assert (Forall (fun c => c <> "034"%char /\ ~ line_end c) (cell_text c)) as Hc.
  { destruct c as [be te bh|]; [|contradiction]. destruct Oc as (Hb & (Hc & _) & Hr).
    assert (forall x, blank x -> x <> "034"%char /\ ~ line_end x) as Bl by (intros x [-> | ->]; split; try discriminate; intros [K|K]; discriminate K).
    cbn [cell_text]. apply Forall_app. split; [eapply Forall_impl; [|exact Hb]; exact Bl|]. apply Forall_app. split; [|eapply Forall_impl; [|exact Hr]; exact Bl].
    eapply Forall_impl; [|exact Hc]. cbn. tauto. }
  destruct cells as [|d cells]; [exact Hc|]. change (cells_text (c :: d :: cells)) with (cell_text c ++ ","%char :: cells_text (d :: cells)). apply Forall_app. split; [exact Hc|].
  constructor; [|exact IH]. split; [discriminate|]. intros [K|K]; discriminate K.
Qed.
Lemma lines_apart ls : Forall simple_line ls -> apart (lines_text ls).
Proof.
  induction ls as [|l ls IH]; intros H; [intros [|p] ? ? E; discriminate E|]. inversion H as [|? ? (Ok & L1 & S) Hs]; subst. cbn [lines_text flat_map]. fold (lines_text ls). rewrite <- app_assoc.
  destruct Ok as (L2 & Oc & _). apply apart_quiet; [unfold endless; eapply Forall_impl; [|exact (cells_simple _ Oc S)]; cbn; tauto|].
  destruct (li_end l) as [|e [|? ?]]; cbn in L1; try lia. cbn [app]. apply apart_end; [|apply IH; exact Hs].
  rewrite <- (app_nil_r (lines_text ls)). apply lines_no_end; [|exact I]. eapply Forall_impl; [|exact Hs]. intros a A. apply A.
Qed.
Lemma lines_unquoted ls : Forall simple_line ls -> no_doubled (lines_text ls).
Proof.
  intros H. assert (Forall (fun c => c <> "034"%char) (lines_text ls)) as N.
  { induction H as [|l ls (Ok & L1 & S) Hs IH]; [constructor|]. cbn [lines_text flat_map]. destruct Ok as (L2 & Oc & Oe & _). apply Forall_app. split; [|exact IH].
    apply Forall_app. split; [eapply Forall_impl; [|exact (cells_simple _ Oc S)]; cbn; tauto|]. eapply Forall_impl; [|exact Oe]. intros c [-> | ->]; discriminate. }
  intros a b E. rewrite E in N. apply Forall_app in N. destruct N as [_ N]. apply Forall_inv in N. contradiction.
Qed.
Theorem simple_chunks n page ls : 3 <= n -> ls <> [] -> Forall simple_line ls -> Forall (fun l => line_length l <= n) ls -> no_mark (lines_text ls) ->
  exists k, forall fuel, k <= fuel -> read_file fuel (mkSource n page (lines_text ls)) = Some (Value (map (fun l => fields (li_cells l)) ls)).
Proof.
  intros N3 Ne S L B. assert (Forall line_ok ls) as Ok by (eapply Forall_impl; [|exact S]; intros a A; apply A).
  apply chunks_read; [exact N3|apply lines_unquoted; exact S| | |apply lines_read; assumption|].
  - unfold fits. rewrite (lines_starts _ Ok B). exact (starts_close n ls 0 L).
  - intros a c d _ C D. replace (a + n) with (Datatypes.S (a + n - 1)) in D by lia. exact (lines_apart ls S _ _ _ C D).
  - destruct ls; [contradiction|discriminate].
Qed.
Theorem chunk_commands n page text r : 3 <= n -> no_doubled text -> fits n text -> smooth n text -> parse_command_list text = r -> r <> Value (Some []) ->
  exists k rows, parse_rows rows = r /\ forall fuel, k <= fuel -> read_file fuel (mkSource n page text) = Some (Value rows).
Proof.
  intros N3 ND FT SM P Ne. unfold parse_command_list in P. destruct (reading_ends text) as [rows Cr]. rewrite Cr in P.
  destruct (chunks_read n page text rows N3 ND FT SM Cr) as [k K]; [intros ->; apply Ne; rewrite <- P; reflexivity|]. exists k, rows. auto.
Qed.

(* ---- what goes wrong ---- *)

Lemma quiet_row inp p s s1 : (forall k c, p <= k -> nth_error inp k = Some c -> ~ line_end c) -> reach inp s s1 -> p <= lx_pos s -> lx_row s1 = lx_row s /\ lx_rows s1 = lx_rows s.
Proof.
  intros Q H. induction H as [s|s c s1 s2 N L P H IH]; intros Le; [auto|]. destruct (IH ltac:(lia)) as [-> ->]. clear IH H.
  pose proof (Q _ _ Le N) as Nl. unfold lex_step in L. destruct (compound_flag (lx_quote s) c) eqn:F.
  - destruct (nth_error inp (S (lx_pos s))) as [d|]; [|discriminate]. destruct (parse_flag d); injection L as <-; auto.
  - destruct (Nat.eqb (lx_len s) 0); injection L as <-; [|auto]. cases; auto.
  - injection L as <-. auto.
  - injection L as <-. auto.
  - exfalso. apply Nl. apply flag_newline. unfold compound_flag in F. destruct (lx_quote s); [destruct (parse_flag c); discriminate F|exact F].
Qed.
Lemma nth_endless t k c : endless t -> nth_error t k = Some c -> ~ line_end c.
Proof. intros H N. apply nth_error_In in N. unfold endless in H. rewrite Forall_forall in H. exact (H c N). Qed.
(* A chunk in which no line ends brings nothing and is read again. *)
Lemma stuck_chunk n page text ps : 0 < n -> ps_pos ps + n < length text -> endless (chunk (mkSource n page text) ps) -> ps_eof ps = false ->
  exists r, next (mkSource n page text) ps = Value r /\ rc_all r = [] /\ ps_pos (rc_parser r) = ps_pos ps /\ ps_eof (rc_parser r) = false.
Proof.
  intros N0 L E Eo. set (f := mkSource n page text) in *. set (data := chunk f ps) in *.
  assert (length data = n) as Ld by (unfold data, chunk; cbn; rewrite firstn_length, skipn_length; lia).
  unfold next. fold data. unfold mappable. rewrite Ld. replace (n =? 0) with false by (symmetry; apply Nat.eqb_neq; lia). cbn [negb orb].
  destruct (loop_total n data (lex_start ps data) ltac:(rewrite Ld; lia)) as [s Es]. rewrite Es. destruct (loop_reach _ _ _ _ Es) as [R _].
  destruct (quiet_row data 0 _ _ (fun k c _ => nth_endless data k c E) R (Nat.le_0_l _)) as [A B]. cbn in A, B.
  assert (is_last f ps data = false) as La by (unfold is_last; rewrite Ld; change (so_text f) with text; change (so_chunk f) with n; apply orb_false_intro; [apply Nat.eqb_neq|apply Nat.ltb_ge]; lia).
  rewrite La, A, B. eexists. split; [reflexivity|]. split; [reflexivity|]. split; [cbn; lia|cbn; now rewrite Eo].
Qed.
Lemma stuck_reading n page text : 0 < n -> forall fuel ps, ps_pos ps + n < length text -> endless (chunk (mkSource n page text) ps) -> ps_eof ps = false ->
  read_on fuel (mkSource n page text) ps = None.
Proof.
  intros N0. induction fuel as [|fuel IH]; intros ps L E Eo; cbn [read_on]; rewrite Eo; [reflexivity|].
  destruct (stuck_chunk n page text ps N0 L E Eo) as (r & -> & _ & P & Eo'). rewrite IH; [reflexivity| | |exact Eo'].
  - rewrite P. exact L.
  - unfold chunk in *. rewrite P. exact E.
Qed.
Theorem long_first n page text : 0 < n -> n < length text -> endless (firstn n text) -> forall fuel, read_file fuel (mkSource n page text) = Some (Value []).
Proof.
  intros N0 L E fuel. unfold read_file. destruct (stuck_chunk n page text parser0 N0 L E eq_refl) as (r & -> & A & P & Eo). rewrite A. cbn in P.
  destruct (stuck_chunk n page text (rc_parser r) N0) as (r2 & -> & A2 & _); [rewrite P; exact L|unfold chunk; rewrite P; exact E|exact Eo|]. now rewrite A2.
Qed.
Theorem long_later n page ls tail : ls <> [] -> Forall line_ok ls -> length (lines_text ls) <= n -> no_mark (lines_text ls ++ tail) ->
  n < length tail -> endless (firstn n tail) -> forall fuel, read_file fuel (mkSource n page (lines_text ls ++ tail)) = None.
Proof.
  intros Ne Ok Ll B Lt E fuel. set (text := lines_text ls ++ tail) in *. set (f := mkSource n page text). set (m := length (lines_text ls)) in *.
  assert (0 < m) as M0.
  { unfold m. destruct ls as [|l ls]; [contradiction|]. inversion Ok as [|? ? (_ & _ & _ & Le) _]; subst. cbn [lines_text flat_map]. rewrite !app_length. lia. }
  assert (length text = m + length tail) as Lx by apply app_length.
  assert (chunk f parser0 = lines_text ls ++ firstn (n - m) tail) as C by (unfold chunk; cbn; unfold text; rewrite firstn_app; fold m; f_equal; apply firstn_all2; exact Ll).
  assert (endless (firstn (n - m) tail)) as Eq.
  { unfold endless in *. replace (firstn (n - m) tail) with (firstn (n - m) (firstn n tail)) by (rewrite firstn_firstn; f_equal; lia).
    rewrite Forall_forall in *. intros x I. apply E. rewrite <- (firstn_skipn (n - m) (firstn n tail)). apply in_or_app. now left. }
  assert (length (chunk f parser0) = n) as Ld by (unfold chunk; cbn; rewrite firstn_length; lia).
  assert (no_end (firstn (n - m) tail)) as Nr.
  { destruct (firstn (n - m) tail) as [|c t]; [exact I|]. apply Forall_inv in Eq. cbn. intros K. apply Eq. now apply flag_newline. }
  destruct (lines_at ls [] (firstn (n - m) tail) [] Ok Nr) as (rs & R & _ & Fs). cbn [app length] in R, Fs. rewrite <- C in R.
  assert (bom_skip parser0 (chunk f parser0) = 0) as Bs.
  { unfold bom_skip. cbn [ps_bom parser0]. apply bom_zero. intros r K. apply (B (r ++ skipn n text)). fold text. rewrite <- (firstn_skipn n text) at 1. change (firstn n text) with (chunk f parser0). rewrite K. reflexivity. }
  unfold read_file, next. unfold mappable. fold f. rewrite Ld. replace (n =? 0) with false by (symmetry; apply Nat.eqb_neq; lia). cbn [negb orb].
  destruct (loop_total n (chunk f parser0) (lex_start parser0 (chunk f parser0)) ltac:(rewrite Ld; lia)) as [s Es]. rewrite Es. destruct (loop_reach _ _ _ _ Es) as [Rs Hs].
  assert (is_last f parser0 (chunk f parser0) = false) as La by (unfold is_last; rewrite Ld; change (so_text f) with text; change (so_chunk f) with n; cbn [ps_pos parser0]; apply orb_false_intro; [apply Nat.eqb_neq|apply Nat.ltb_ge]; lia).
  rewrite La. unfold lex_start in Rs. rewrite Bs in Rs. cbn [ps_dq parser0] in Rs. change (mkLexer 0 None 0 false false 0 [] []) with (fresh 0 0 [] []) in Rs. fold m in R.
  pose proof (reach_det _ _ _ _ R Rs Hs) as R2.
  assert (forall k c, m <= k -> nth_error (chunk f parser0) k = Some c -> ~ line_end c) as Qu.
  { intros k c K N. rewrite C in N. rewrite nth_error_app2 in N by (fold m; lia). exact (nth_endless _ _ _ Eq N). }
  destruct (quiet_row (chunk f parser0) m _ _ Qu R2 (le_n _)) as [A1 A2].
  cbn [lx_row lx_rows fresh] in A1, A2. rewrite A1, A2. cbn [ps_pos ps_dq ps_bom ps_eof parser0 orb]. rewrite Nat.add_0_l.
  destruct rs as [|r0 rs]; [destruct ls; [contradiction|discriminate Fs]|]. unfold rc_all at 1. cbn [rc_rows rc_end map app].
  cbn [rc_parser]. rewrite (stuck_reading n page text ltac:(lia)); [reflexivity| | |reflexivity].
  - cbn [ps_pos]. lia.
  - unfold chunk. cbn [ps_pos so_chunk so_text]. unfold text, m. rewrite skipn_app_exact. exact E.
Qed.
Theorem split_end n page cells a b : 3 <= n -> 2 <= length cells -> Forall cell_ok cells -> line_end a -> line_end b -> length (cells_text cells) + 1 = n -> no_mark (cells_text cells) ->
  forall fuel, 1 <= fuel -> read_file fuel (mkSource n page (lines_text [mkLine cells [a; b]])) = Some (Value [fields cells; [[]]]).
Proof.
  intros N3 L2 Ok Ha Hb Ln B fuel Kf. set (text := lines_text [mkLine cells [a; b]]). set (f := mkSource n page text).
  assert (text = (cells_text cells ++ [a]) ++ [b]) as Et by (unfold text; cbn; rewrite app_nil_r, <- app_assoc; reflexivity).
  assert (length (cells_text cells ++ [a]) = n) as Lc by (rewrite app_length; cbn; lia).
  assert (length text = n + 1) as Lx by (rewrite Et, app_length, Lc; reflexivity).
  assert (chunk f parser0 = cells_text cells ++ [a]) as C by (change (chunk f parser0) with (firstn n text); rewrite Et, firstn_app, Lc, Nat.sub_diag, firstn_O, app_nil_r; apply firstn_all2; lia).
  assert (line_ok (mkLine cells [a])) as Lo by (split; [exact L2|]; split; [exact Ok|]; split; [constructor; [exact Ha|constructor]|cbn; auto]).
  destruct (line_reach (mkLine cells [a]) [] [] [] Lo I) as (fs & R & M). cbn [li_cells li_end app length] in R, M. rewrite Lc in R.
  assert (bom (cells_text cells ++ [a]) = 0) as Bs.
  { apply bom_zero. intros r K. destruct (cells_text cells) as [|x [|y [|z t]]] eqn:T; cbn in Lc, Ln; try lia.
    - cbn in K. injection K as -> -> -> _. destruct Ha as [K|K]; discriminate K.
    - cbn in K. injection K as -> -> -> _. exact (B _ eq_refl). }
  unfold read_file, next at 1, mappable. rewrite C, Lc. replace (n =? 0) with false by (symmetry; apply Nat.eqb_neq; lia). cbn [negb orb].
  unfold lex_start, bom_skip. cbn [ps_bom ps_dq parser0]. rewrite Bs. change (mkLexer 0 None 0 false false 0 [] []) with (fresh 0 0 [] []).
  pose proof (reach_end _ _ _ R) as Re. rewrite Lc in Re. rewrite Re by (cbn; lia). clear Re.
  assert (is_last f parser0 (cells_text cells ++ [a]) = false) as La by (unfold is_last; rewrite Lc; change (so_text f) with text; change (so_chunk f) with n; cbn [ps_pos parser0]; apply orb_false_intro; [apply Nat.eqb_neq|apply Nat.ltb_ge]; lia).
  rewrite La. cbn [lx_rows lx_row lx_dq fresh map app length skipn]. unfold rc_all at 1. cbn [rc_rows rc_end app rc_parser ps_pos ps_dq ps_eof parser0 orb]. rewrite Nat.add_0_l.
  replace (3 <=? n) with true by (symmetry; apply Nat.leb_le; lia).
  assert (row_of (cells_text cells ++ [a]) (0, fs) = fields cells) as -> by exact M.
  set (ps := mkParser n false true false). destruct fuel as [|fuel]; [lia|]. cbn [read_on ps_eof ps].
  assert (chunk f ps = [b]) as C2 by (change (chunk f ps) with (firstn n (skipn n text)); rewrite Et, skipn_app, Lc, Nat.sub_diag, (skipn_all2 (n := n)) by lia; cbn [app skipn]; apply firstn_all2; cbn; lia).
  unfold next. rewrite C2. unfold mappable. cbn [length Nat.eqb negb orb].
  assert (lex_loop 1 [b] (lex_start ps [b]) = Some (fresh 1 1 [] [(0, [mkRaw 0 0 false])])) as -> by (destruct Hb as [-> | ->]; reflexivity).
  assert (is_last f ps [b] = true) as La2 by (unfold is_last; change (so_text f) with text; cbn [ps_pos ps length]; rewrite Lx, Nat.eqb_refl; reflexivity).
  rewrite La2. assert (end_feed [b] (fresh 1 1 [] [(0, [mkRaw 0 0 false])]) = fresh 1 1 [] [(0, [mkRaw 0 0 false])]) as -> by (destruct Hb as [-> | ->]; reflexivity).
  cbn [rc_parser ps_eof ps orb]. destruct fuel; reflexivity.
Qed.
