(* The interleavings of the CSV reader's threads for a file in chunks. *)
From Coq Require Import NArith List Bool Ascii Arith Lia.
From Verif Require Import Base Bits CsvModel CliModel CliSpec CsvProofs CliProofs ChunkModel ChunkSpec ChunkProofs ChunkLines ThreadModel ThreadProofs ThreadEnds.
Import ListNotations.

Lemma next_rows f ps ps' r : ps_pos ps' = ps_pos ps -> ps_dq ps' = ps_dq ps -> ps_bom ps' = ps_bom ps -> next f ps = Value r -> exists r', next f ps' = Value r' /\ rc_all r' = rc_all r.
Proof.
  intros A B C H. unfold next, chunk, mappable, lex_start, bom_skip, is_last, chunk in *. rewrite A, B, C. destruct (negb _ || negb _); [|discriminate]. destruct (lex_loop _ _ _); [|discriminate].
  injection H as <-. eexists. split; [reflexivity|]. reflexivity.
Qed.
Lemma feed_one inp s : exists rs, lx_rows (end_feed inp s) = lx_rows s ++ rs /\ length rs <= 1.
Proof.
  unfold end_feed. destruct (_ || _).
  - destruct (lx_fields (push_field s)); [exists []; cbn; rewrite app_nil_r; auto|]. eexists. unfold push_row. cbn. split; [reflexivity|cbn; lia].
  - destruct (lx_fields s); [exists []; rewrite app_nil_r; auto|]. eexists. unfold push_row. cbn. split; [reflexivity|cbn; lia].
Qed.

Section File.
Variables (n page : nat) (inp : list ascii).
Let f := mkSource n page inp.
Hypothesis N3 : 3 <= n.
Hypothesis ND : no_doubled inp.
Hypothesis FT : fits n inp.
Hypothesis SM : smooth n inp.
Let init := mkLexer (bom inp) None 0 false false 0 [] [].
Variable S0 : lexer.
Hypothesis W : lex_loop (length inp) inp init = Some S0.

Record finished (ps : parser) : Prop := {
  fi_pos : ps_pos ps = lx_row S0; fi_dq : ps_dq ps = false; fi_bom : ps_bom ps = true; fi_eof : ps_eof ps = true; fi_near : length inp <= lx_row S0 + n
}.
Lemma end_parser b R ps r : b <> 0 -> ready n page inp b R ps -> length inp <= b + n -> next f ps = Value r -> finished (rc_parser r).
Proof.
  intros Zb Rd Lb. destruct (ready_mapped n page inp N3 _ _ _ Rd) as [M L]. destruct Rd as [P Dq Eo B Bm Sk At]. fold f in M, L.
  assert (chunk f ps = skipn b inp) as C by (unfold chunk; cbn; rewrite P; apply firstn_all2; rewrite skipn_length; lia).
  unfold next. rewrite M. destruct (loop_total (length (chunk f ps)) (chunk f ps) (lex_start ps (chunk f ps)) ltac:(lia)) as [s Es]. rewrite Es.
  assert (is_last f ps (chunk f ps) = true) as La.
  { unfold is_last. change (so_text f) with inp. change (so_chunk f) with n. replace (ps_pos ps + length (chunk f ps) =? length inp) with true; [reflexivity|]. symmetry. apply Nat.eqb_eq. rewrite L, P. lia. }
  rewrite La. intros H. injection H as <-. destruct (loop_reach _ _ _ _ Es) as [Rs Hs]. rewrite C in Rs, Hs.
  assert (S0 = shift b R s) as E0.
  { destruct (loop_reach _ _ _ _ W) as [R0 H0]. symmetry. apply (halts_stuck inp S0); [exact H0|]. apply (reach_det inp init); [exact R0| |apply halts_shift; [lia|exact Hs]].
    eapply reach_trans; [exact At|]. fold f. rewrite C. apply reach_shift. exact Rs. }
  constructor; cbn [rc_parser ps_pos ps_dq ps_bom ps_eof].
  - rewrite E0. cbn. lia.
  - apply feed_dq. apply (reach_dq (skipn b inp) (lex_start ps (skipn b inp))); [|exact Rs|exact Dq].
    assert (skipn b inp = firstn (length inp) (skipn b inp)) as -> by (symmetry; apply firstn_all2; rewrite skipn_length; lia). exact (doubled_chunk (length inp) b inp ND).
  - now rewrite (Bm Zb).
  - now rewrite orb_true_r.
  - rewrite E0. cbn. lia.
Qed.
Lemma future_finished : forall k b R ps l pe, b <> 0 -> ready n page inp b R ps -> future f k ps l pe -> finished pe.
Proof.
  induction k as [|k IH]; intros b R ps l pe Zb Rd Fu.
  - inversion Fu as [ps' E|]; subst. destruct Rd. congruence.
  - destruct (future_more _ _ _ _ _ Fu (rd_eof _ _ _ _ _ _ Rd)) as (j & r & l' & Ej & N & -> & Fu'). injection Ej as <-.
    destruct (Nat.le_gt_cases (length inp) (b + n)) as [A|A].
    + pose proof (end_parser _ _ _ _ Zb Rd A N) as Fi. destruct (future_at_end _ _ _ _ _ Fu' (fi_eof _ Fi)) as (_ & _ & ->). exact Fi.
    + destruct (mid_chunk n page inp N3 ND FT SM S0 W _ _ _ Rd A) as (r' & b' & rs & N' & Lb & Rd' & _). fold f in N'. rewrite N in N'. injection N' as <-. exact (IH b' _ _ _ _ ltac:(lia) Rd' Fu').
Qed.
Lemma at_last_row : lx_row S0 <> 0 -> reach inp init (at_row (lx_row S0) (lx_rows S0)).
Proof.
  intros Z. assert (firstn (length inp) inp = inp) as Ei by apply firstn_all.
  assert (lex_loop (length inp) (firstn (length inp) inp) init = Some S0) as W' by (rewrite Ei; exact W).
  destruct (prefix_run inp (length inp)) with (1 := fun a d (_ : nth_error inp (length inp - 1) = Some a) (D : nth_error inp (length inp) = Some d) (_ : line_end a) => False_ind (~ line_end d) (eq_ind None (fun o => match o with None => True | Some _ => False end) I _ (eq_trans (eq_sym (proj2 (nth_error_None inp (length inp)) (Nat.le_refl _))) D))) (2 := W') as [(_ & A & _)|[A _]].
  - cbn in A. contradiction.
  - exact A.
Qed.
Lemma read_again ps r : finished ps -> lx_row S0 <> 0 -> next f ps = Value r ->
  (lx_row S0 = length inp -> rc_all r = []) /\
  (lx_row S0 < length inp -> map (row_of inp) (lx_rows (end_feed inp S0)) = map (row_of inp) (lx_rows S0) ++ rc_all r).
Proof.
  intros Fi Z N. split; intros A.
  - unfold next, chunk in N. cbn [so_text so_chunk f] in N. rewrite (fi_pos _ Fi), A in N. rewrite skipn_all, firstn_nil in N. destruct (mappable _ _ _); [|discriminate]. cbn [length lex_loop] in N.
    unfold lex_start, bom_skip in N. rewrite (fi_bom _ Fi) in N. cbn in N. injection N as <-. unfold rc_all. cbn. destruct (is_last _ _ _); reflexivity.
  - set (ps' := mkParser (ps_pos ps) (ps_dq ps) (ps_bom ps) false). destruct (next_rows f ps ps' r eq_refl eq_refl eq_refl N) as (r' & N' & E). rewrite <- E.
    assert (ready n page inp (lx_row S0) (lx_rows S0) ps') as Rd.
    { constructor; cbn; try reflexivity; try (destruct Fi; assumption).
      - intros _. exact (fi_bom _ Fi).
      - unfold bom_skip. cbn. rewrite (fi_bom _ Fi). lia.
      - unfold lex_start, bom_skip. cbn. rewrite (fi_bom _ Fi), (fi_dq _ Fi).
        replace (shift (lx_row S0) (lx_rows S0) (mkLexer 0 None 0 false false 0 [] [])) with (at_row (lx_row S0) (lx_rows S0)); [exact (at_last_row Z)|].
        unfold shift, at_row, fresh. cbn. rewrite Nat.add_0_r, app_nil_r. reflexivity. }
    destruct (last_chunk n page inp N3 S0 W _ _ _ Rd (fi_near _ Fi)) as (r2 & N2 & _ & E2). fold f in N2. rewrite N' in N2. injection N2 as <-. exact E2.
Qed.
Lemma again_fails ps e : finished ps -> lx_row S0 <= length inp -> next f ps = Fails e -> e = Exception /\ lx_row S0 = length inp /\ length inp mod page = 0.
Proof.
  intros Fi Le H. unfold next in H. destruct (mappable f ps (chunk f ps)) eqn:M.
  - destruct (loop_total (length (chunk f ps)) (chunk f ps) (lex_start ps (chunk f ps)) ltac:(lia)) as [s Es]. rewrite Es in H. discriminate.
  - injection H as <-. split; [reflexivity|]. unfold mappable in M. apply orb_false_iff in M. destruct M as [M1 M2]. apply negb_false_iff, Nat.eqb_eq in M1, M2.
    unfold chunk in M1. cbn [so_text so_chunk so_page f] in M1, M2. rewrite firstn_length, skipn_length in M1. rewrite (fi_pos _ Fi) in M1, M2.
    assert (lx_row S0 = length inp) as E by lia. split; [exact E|]. rewrite <- E. exact M2.
Qed.
End File.

(* A file of one chunk: no thread is ever started. *)
Definition alone (rows : list row) (s : threads) : Prop :=
  th_worker s = Ended /\ th_waitable s = false /\ ps_eof (th_parser s) = true /\ th_out s ++ th_queue s = rows /\
  match th_main s with AtEmpty => True | AtWaitable | AtEof | Over => th_queue s = [] | _ => False end.
Lemma alone_step f rows b s s1 : alone rows s -> thread_step f b s = Some s1 -> alone rows s1.
Proof.
  destruct s as [m w q wt ps o]. unfold alone. cbn [th_main th_worker th_queue th_waitable th_parser th_out]. intros (-> & -> & E & R & M) H.
  destruct b; cbn [thread_step] in H; [|discriminate]. unfold main_step in H. cbn [th_main th_worker th_queue th_waitable th_parser th_out] in H.
  destruct m; try contradiction; try discriminate.
  - destruct q as [|x q]; injection H as <-; cbn [th_main th_worker th_queue th_waitable th_parser th_out]; auto.
    rewrite <- app_assoc. auto 8.
  - injection H as <-. cbn [th_main th_worker th_queue th_waitable th_parser th_out]. auto.
  - rewrite E in H. injection H as <-. cbn [th_main th_worker th_queue th_waitable th_parser th_out]. auto.
Qed.
Lemma alone_schedule f rows : forall l s s1, alone rows s -> schedule f l s = Some s1 -> alone rows s1.
Proof.
  induction l as [|b l IH]; intros s s1 A H; cbn [schedule] in H; [injection H as <-; exact A|].
  destruct (thread_step f b s) as [s2|] eqn:T; [|discriminate]. exact (IH _ _ (alone_step _ _ _ _ _ A T) H).
Qed.
Lemma alone_rest f rows s : alone rows s -> at_rest f s -> th_main s = Over /\ th_out s = rows.
Proof.
  destruct s as [m w q wt ps o]. unfold alone, at_rest, main_step. cbn [th_main th_worker th_queue th_waitable th_parser th_out]. intros (-> & -> & E & R & M) [H _].
  destruct m; try contradiction; try discriminate.
  - destruct q; discriminate.
  - rewrite E in H. discriminate.
  - subst q. rewrite app_nil_r in R. auto.
Qed.
Lemma opened_alone n page text rows : 3 <= n -> length text <= n -> csv_rows text = Some rows -> rows <> [] ->
  exists s, opened (mkSource n page text) = Value s /\ alone rows s.
Proof.
  intros N3 Le Cr Ne. unfold csv_rows, lex in Cr. destruct (lex_loop (length text) text _) as [S0|] eqn:W; [|discriminate]. injection Cr as <-.
  assert (text <> []) as X. { intros ->. apply Ne. cbn in W. injection W as <-. reflexivity. }
  destruct (last_chunk n page text N3 S0 W _ _ _ (ready0 n page text N3 X) Le) as (r & Nx & Eo & E). cbn [map app] in E.
  unfold opened. rewrite Nx. rewrite <- E. destruct (map (row_of text) (lx_rows (end_feed text S0))) as [|x q] eqn:Q; [exfalso; apply Ne; exact Q|].
  eexists. split; [reflexivity|]. unfold alone. cbn. split; [reflexivity|]. split; [reflexivity|]. split; [exact Eo|]. split; [|exact Logic.I]. symmetry. exact Q.
Qed.
Theorem one_chunk n page text rows : 3 <= n -> length text <= n -> csv_rows text = Some rows -> rows <> [] ->
  exists s0, opened (mkSource n page text) = Value s0 /\ forall l s, schedule (mkSource n page text) l s0 = Some s ->
    th_worker s = Ended /\ (at_rest (mkSource n page text) s -> th_main s = Over /\ th_out s = rows).
Proof.
  intros N3 Le Cr Ne. destruct (opened_alone n page text rows N3 Le Cr Ne) as (s0 & O & A). exists s0. split; [exact O|]. intros l s H. pose proof (alone_schedule _ _ _ _ _ A H) as B.
  split; [exact (proj1 B)|]. intros R. exact (alone_rest _ _ _ B R).
Qed.

Theorem reader_threads n page text rows : 3 <= n -> no_doubled text -> fits n text -> smooth n text -> csv_rows text = Some rows -> rows <> [] ->
  exists s0, opened (mkSource n page text) = Value s0 /\ forall l s, schedule (mkSource n page text) l s0 = Some s ->
    exists more, (more = [] \/ (~ complete text /\ more = [last rows []])) /\ (exists rest, th_out s ++ rest = rows ++ more) /\
      (at_rest (mkSource n page text) s ->
         (th_main s = Over /\ th_worker s = Ended /\ th_out s ++ th_queue s = rows ++ more) \/
         (th_worker s = Failed Exception /\ complete text /\ length text mod page = 0 /\ th_out s ++ th_queue s = rows)).
Proof.
  intros N3 ND FT SM Cr Ne. destruct (Nat.le_gt_cases (length text) n) as [Le|Lt].
  { destruct (opened_alone n page text rows N3 Le Cr Ne) as (s0 & O & A). exists s0. split; [exact O|]. intros l s H. pose proof (alone_schedule _ _ _ _ _ A H) as B.
    exists []. split; [left; reflexivity|]. rewrite app_nil_r. pose proof B as (B1 & _ & _ & B4 & _). split; [eexists; exact B4|]. intros R. left. split; [exact (proj1 (alone_rest _ _ _ B R))|]. split; [exact B1|exact B4]. }
  destruct (chunks_read n page text rows N3 ND FT SM Cr Ne) as [fuel0 Rf]. specialize (Rf fuel0 (Nat.le_refl _)).
  pose proof Cr as Cr0. unfold csv_rows, lex in Cr. destruct (lex_loop (length text) text _) as [S0|] eqn:W; [|discriminate]. injection Cr as <-.
  assert (text <> []) as X. { intros ->. apply Ne. cbn in W. injection W as <-. reflexivity. }
  set (f := mkSource n page text) in *. set (rows := map (fun r => map (get_field text (fst r)) (snd r)) (lx_rows (end_feed text S0))) in *.
  destruct (mid_chunk n page text N3 ND FT SM S0 W _ _ _ (ready0 n page text N3 X) ltac:(cbn; lia)) as (r & b & rs & Nx & Lb & Rd & E & Nrs). fold f in Nx.
  destruct (opened_future f fuel0 rows Rf Ne) as (s0 & k & l0 & pe & O & A1 & A2 & A3 & A4 & A5 & Fu).
  assert (th_parser s0 = rc_parser r) as Ep.
  { unfold opened in O. rewrite Nx, E in O. destruct rs as [|z rs]; [contradiction|]. cbn [map] in O. injection O as <-. reflexivity. }
  rewrite Ep in Fu. pose proof (future_finished n page text N3 ND FT SM S0 W k b _ _ _ _ ltac:(lia) Rd Fu) as Fi.
  pose proof (opened_sound f rows pe s0 k l0 A1 A2 A3 A4 A5 ltac:(rewrite Ep; exact Fu)) as So. pose proof (future_eof _ _ _ _ _ Fu) as Ee.
  destruct (loop_reach _ _ _ _ W) as [R0 _].
  assert (lx_row S0 <> 0) as Z.
  { destruct Rd as [P _ _ _ _ _ At]. destruct (loop_reach _ _ _ _ W) as [_ H0]. destruct (reach_places _ _ _ (reach_det _ _ _ _ At R0 H0)) as (more & rs' & Pl & Fm & _).
    unfold places in Pl. cbn [shift lx_rows lx_row lex_start] in Pl. destruct more as [|m more] using rev_ind.
    - rewrite app_nil_r in Pl. apply app_inj_tail in Pl. lia.
    - rewrite app_assoc in Pl. apply app_inj_tail in Pl. destruct Pl as [_ Pl]. apply Forall_app in Fm. destruct Fm as [_ Fm]. apply Forall_inv in Fm. lia. }
  assert (lx_row S0 <= length text) as Le.
  { assert (sane text S0) as Sa. { apply (reach_sane _ _ _ R0). constructor; cbn; try lia; try constructor. apply bom_le. } destruct Sa. lia. }
  assert (complete text <-> lx_row S0 = length text) as Co.
  { unfold complete. rewrite (starts_S0 text S0 W). unfold places. rewrite last_last. reflexivity. }
  assert (forall rs', again f pe rs' -> rs' = [] \/ (~ complete text /\ rs' = [last rows []])) as Ag.
  { intros rs' [->|(r2 & N2 & ->)]; [auto|]. destruct (read_again n page text N3 S0 W pe r2 Fi Z N2) as [Q1 Q2]. destruct (Nat.eq_dec (lx_row S0) (length text)) as [D|D]; [left; exact (Q1 D)|].
    specialize (Q2 ltac:(lia)). destruct (feed_one text S0) as (t & Et & Lt1). rewrite Et, map_app in Q2. apply app_inv_head in Q2. destruct t as [|t0 [|]]; [left; now rewrite <- Q2| |cbn in Lt1; lia].
    right. split; [tauto|]. rewrite <- Q2. unfold rows. rewrite Et, map_app. cbn [map]. rewrite last_last. reflexivity. }
  exists s0. split; [exact O|]. intros l s H. pose proof (schedule_sound f rows pe Ee l s0 s So H) as Ss.
  destruct (sound_prefix f rows pe s Ss) as (rs1 & rest & G & P).
  assert (forall more, again f pe more -> (exists rest, th_out s ++ rest = rows ++ more) -> (at_rest f s ->
     (th_main s = Over /\ th_worker s = Ended /\ th_out s ++ th_queue s = rows ++ more) \/ (th_worker s = Failed Exception /\ complete text /\ length text mod page = 0 /\ th_out s ++ th_queue s = rows)) ->
     exists more, (more = [] \/ (~ complete text /\ more = [last rows []])) /\ (exists rest, th_out s ++ rest = rows ++ more) /\ (at_rest f s ->
     (th_main s = Over /\ th_worker s = Ended /\ th_out s ++ th_queue s = rows ++ more) \/ (th_worker s = Failed Exception /\ complete text /\ length text mod page = 0 /\ th_out s ++ th_queue s = rows))) as Fin.
  { intros more G' P' R'. exists more. split; [exact (Ag _ G')|]. split; [exact P'|exact R']. }
  destruct (main_step s) as [s2|] eqn:Ms; [apply (Fin rs1 G); [eauto|intros [Y _]; congruence]|].
  destruct (worker_step f s) as [s2|] eqn:Ws; [apply (Fin rs1 G); [eauto|intros [_ Y]; congruence]|].
  destruct (sound_rest f rows pe Ee s Ss (conj Ms Ws)) as [(e & We & Ne' & Q)|(Mo & Wo & rs2 & G2 & Q)].
  - destruct (again_fails n page text N3 S0 pe e Fi Le Ne') as (-> & Er & Pg). apply (Fin rs1 G); [eauto|]. intros _. right. split; [exact We|]. split; [apply Co; exact Er|]. auto.
  - apply (Fin rs2 G2); [eauto|]. intros _. left. auto.
Qed.
Theorem one_chunk_commands n page text : 3 <= n -> length text <= n -> parse_command_list text <> Value (Some []) ->
  exists s0, opened (mkSource n page text) = Value s0 /\ forall l s, schedule (mkSource n page text) l s0 = Some s -> at_rest (mkSource n page text) s ->
    parse_rows (th_out s) = parse_command_list text.
Proof.
  intros N3 Le Ne. unfold parse_command_list in *. destruct (reading_ends text) as [rows Cr]. rewrite Cr in *.
  destruct (one_chunk n page text rows N3 Le Cr) as (s0 & O & H); [intros ->; apply Ne; reflexivity|]. exists s0. split; [exact O|]. intros l s Sc R. destruct (H l s Sc) as [_ Q]. destruct (Q R) as [_ ->]. reflexivity.
Qed.
