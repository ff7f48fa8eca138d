(* The counting of seamless bursts: DDR4. *)
From Coq Require Import NArith QArith List Bool Arith Lia.
From Verif Require Import Base Command CoreModel Bits BusModel ListFacts DataProofs ToggleModel DbiModel DbiProofs StatsModel PatternModel
  InterfaceModel InterfaceSpec AmbleSpec InterfaceCa InterfaceRun InterfaceTop InterfaceData FormatProofs.
Import ListNotations.
Local Open Scope N_scope.
Ltac Zify.zify_post_hook ::= idtac.

(* ---- one direction of one rank ---- *)
Lemma last_ends (bs : list (N * N)) e : fold_left (fun _ b => fst b + snd b) bs e = match rev bs with [] => e | b :: _ => fst b + snd b end.
Proof. induction bs as [|b bs IH] using rev_ind; [reflexivity|]. now rewrite fold_left_app, rev_app_distr. Qed.
Definition ends (bs : list (N * N)) : N := fold_left (fun _ b => fst b + snd b) bs 0.
Lemma ends_snoc bs b : ends (bs ++ [b]) = fst b + snd b.
Proof. unfold ends. now rewrite fold_left_app. Qed.
Lemma seam_snoc bs b : back_to_back (bs ++ [b]) + at_zero (bs ++ [b]) = back_to_back bs + at_zero bs + (if ends bs =? fst b then 1 else 0).
Proof.
  destruct bs as [|a bs]; [cbn [app back_to_back at_zero ends fold_left fst]; rewrite (N.eqb_sym (fst b) 0), !N.add_0_l; reflexivity|].
  assert (forall r a, back_to_back (a :: r ++ [b]) = back_to_back (a :: r) + (if fold_left (fun _ b => fst b + snd b) r (fst a + snd a) =? fst b then 1 else 0)) as K.
  { induction r as [|c r IH]; intros x.
    - cbn [app back_to_back fold_left]. lia.
    - cbn [app]. change (back_to_back (x :: c :: r ++ [b])) with ((if fst x + snd x =? fst c then 1 else 0) + back_to_back (c :: r ++ [b])).
      rewrite IH. change (back_to_back (x :: c :: r)) with ((if fst x + snd x =? fst c then 1 else 0) + back_to_back (c :: r)). cbn [fold_left]. lia. }
  cbn [app]. rewrite K. unfold ends. cbn [fold_left at_zero]. lia.
Qed.
Lemma apart_snoc bs b : bursts_apart bs -> ends bs <= fst b -> bursts_apart (bs ++ [b]).
Proof.
  destruct bs as [|a bs]; [intros _ _; exact I|]. unfold ends. cbn [fold_left app]. revert a. induction bs as [|c bs IH]; intros a H E.
  - split; [exact E|exact I].
  - destruct H as [H1 H2]. cbn [app]. split; [exact H1|]. apply IH; assumption.
Qed.

(* What the members of a rank say about its bursts. *)
Definition amble_state (r : rank_if) (rs ws : list (N * N)) : Prop :=
  ri_rs r = (back_to_back rs + at_zero rs) mod two64 /\ ri_ws r = (back_to_back ws + at_zero ws) mod two64 /\
  ri_rm r = 0 /\ ri_wm r = 0 /\ ri_rmt r = 0 /\ ri_wmt r = 0 /\ ri_rend r = ends rs /\ ri_wend r = ends ws /\ bursts_apart rs /\ bursts_apart ws.
Lemma inc_mod n : u64_inc (n mod two64) = (n + 1) mod two64.
Proof. unfold u64_inc, u64_add. rewrite N.add_mod_idemp_l by discriminate. reflexivity. Qed.
Lemma amble_step r rs ws t n read r' : amble_state r rs ws -> t + n < two64 -> handle_prepostamble t n r read = Value r' ->
  amble_state r' (rs ++ if read then [(t, n)] else []) (ws ++ if read then [] else [(t, n)]).
Proof.
  intros (A1 & A2 & A3 & A4 & A5 & A6 & A7 & A8 & A9 & A10) T E. unfold handle_prepostamble in E. apply check_inv in E as [C E]. apply N.leb_le in C. apply value_inj in E. subst r'.
  assert (forall e, e <= t -> (u64_sub t e =? 0) = (e =? t)) as D.
  { intros e He. unfold u64_sub. rewrite (N.mod_small e) by lia. replace (t + two64 - e) with ((t - e) + 1 * two64) by lia. rewrite N.mod_add by discriminate.
    rewrite N.mod_small by lia. destruct (N.eqb_spec (t - e) 0), (N.eqb_spec e t); lia. }
  assert (forall bs, ends bs <= t -> forall k, k = (back_to_back bs + at_zero bs) mod two64 -> (if u64_sub t (ends bs) =? 0 then u64_inc k else k) = (back_to_back (bs ++ [(t, n)]) + at_zero (bs ++ [(t, n)])) mod two64) as K.
  { intros bs H k ->. rewrite D by exact H. rewrite seam_snoc. cbn [fst]. destruct (ends bs =? t); [apply inc_mod|now rewrite N.add_0_r]. }
  destruct read; rewrite ?app_nil_r; unfold amble_state; cbn [ri_rs ri_ws ri_rm ri_wm ri_rmt ri_wmt ri_rend ri_wend];
    rewrite ?A7, ?A8 in *; rewrite ?ends_snoc; cbn [fst snd]; unfold u64_add; rewrite ?(N.mod_small (t + n)) by exact T; intuition (auto using apart_snoc).
Qed.

(* ---- which calls touch the ranks ---- *)
Definition rank_step (p : ifspec) (bus : bool) (c : Command) (i i' : iface) : Prop :=
  match fi_std p, transfers (cmd_type c) with
  | DDR4, Some read => exists r r', nth_error (if_ranks i) (N.to_nat (cmd_rank c)) = Some r /\
      handle_prepostamble (cmd_ts c) (burst_cycles p bus c) r read = Value r' /\ if_ranks i' = upd (N.to_nat (cmd_rank c)) (fun _ => r') (if_ranks i)
  | _, _ => if_ranks i' = if_ranks i
  end.
Lemma bus_ranks c i i' : handle_command_bus c i = Value i' -> if_ranks i' = if_ranks i /\ if_spec i' = if_spec i.
Proof.
  unfold handle_command_bus. intros E. destruct (if_pat i); apply bind_inv in E as (x & _ & E); apply bind_inv in E as (b & _ & E); injection E as <-; split; reflexivity.
Qed.
Lemma dqs_ranks c read n i i' : handle_dqs c read n i = Value i' -> if_ranks i' = if_ranks i /\ if_spec i' = if_spec i.
Proof.
  unfold handle_dqs. intros Q. destruct (fi_std (if_spec i));
    try (destruct read; apply bind_inv in Q as (d & _ & Q); injection Q as <-; split; reflexivity);
    apply bind_inv in Q as (d & _ & Q); apply bind_inv in Q as (d' & _ & Q); injection Q as <-; split; reflexivity.
Qed.
Lemma end_ranks t i i' : end_of_simulation t i = Value i' -> if_ranks i' = if_ranks i /\ if_spec i' = if_spec i /\ if_data i' = if_data i.
Proof. unfold end_of_simulation. destruct (if_dbi i); intros E; [apply bind_inv in E as (y & _ & E)|]; injection E as <-; repeat split. Qed.
Lemma command_ranks p bus c i i' : if_spec i = p -> is_bus (d_mode (if_data i)) = bus -> sizes_ok p -> if_command c i = Value i' -> rank_step p bus c i i'.
Proof.
  intros Sp Mo Sz E. unfold if_command in E. apply bind_inv in E as (j & E & J). injection J as <-. rewrite Sp in E.
  pose proof (transfers_routing p (cmd_type c)) as R. unfold rank_step. change (if_ranks (if_with_last j (cmd_ts c))) with (if_ranks j).
  destruct (transfers (cmd_type c)) as [read|] eqn:T.
  - rewrite R in E. unfold handle_data in E. apply bind_inv in E as (x & B & E). apply (burst_effect p bus) in B as (d & y & buf & -> & Md & _); auto.
    cbn [fst snd] in E. apply bind_inv in E as (i1 & Q & E). apply dqs_ranks in Q as [Q1 Q2]. apply bind_inv in E as (i2 & C & E).
    destruct (overrides_spec i1 (burst_beats p bus c) read) as [h H]. rewrite H in C. apply bus_ranks in C as [C1 C2].
    assert (if_spec i2 = p) as S2 by (rewrite C2; cbn [if_with_pat if_with_cmd if_spec]; rewrite Q2; exact Sp).
    assert (if_ranks i2 = if_ranks i) as R2 by (rewrite C1; cbn [if_with_pat if_with_cmd if_ranks]; rewrite Q1; reflexivity).
    rewrite S2 in E. destruct (fi_std p) eqn:S; try (apply value_inj in E; subst j; exact R2).
    apply check_inv in E as [_ E]. apply bind_inv in E as (r & F & E). apply bind_inv in E as (r' & P & E). apply value_inj in E. subst j.
    exists r, r'. cbn [if_with_ranks if_ranks]. rewrite R2 in *. split; [|split; [exact P|reflexivity]].
    unfold fetch in F. destruct (nth_error (if_ranks i) (N.to_nat (cmd_rank c))); [injection F as <-; reflexivity|discriminate].
  - assert (if_ranks j = if_ranks i) as K; [|destruct (fi_std p); exact K].
    destruct (routing p (cmd_type c)) as [|read| | | |]; try discriminate; [apply bus_ranks in E; apply E|destruct (R read eq_refl)|apply end_ranks in E; apply E|injection E as <-; reflexivity].
Qed.

Definition amble_inv (p : ifspec) (bus : bool) (xs : list call) (i : iface) : Prop :=
  if_spec i = p /\ is_bus (d_mode (if_data i)) = bus /\ length (if_ranks i) = fi_ranks p /\
  forall k r, nth_error (if_ranks i) k = Some r -> amble_state r (rank_bursts p bus true k (commands xs)) (rank_bursts p bus false k (commands xs)).
Lemma rank_bursts_app p bus read k a b : rank_bursts p bus read k (a ++ b) = rank_bursts p bus read k a ++ rank_bursts p bus read k b.
Proof. apply flat_map_app. Qed.
Lemma rank_bursts_one p bus read k c : rank_bursts p bus read k [c] =
  match transfers (cmd_type c) with Some r => if eqb r read && Nat.eqb (N.to_nat (cmd_rank c)) k then [(cmd_ts c, burst_cycles p bus c)] else [] | None => [] end.
Proof. apply app_nil_r. Qed.
Lemma commands_snoc xs x : commands (xs ++ [x]) = commands xs ++ match x with Do c => [c] | _ => [] end.
Proof. rewrite commands_app. destruct x; reflexivity. Qed.

Lemma data_mode_kept p bus c i i' : if_spec i = p -> is_bus (d_mode (if_data i)) = bus -> sizes_ok p -> if_command c i = Value i' ->
  if_spec i' = p /\ is_bus (d_mode (if_data i')) = bus.
Proof.
  intros Sp Mo Sz E. apply command_same in E. rewrite Sp in E. destruct (routing p (cmd_type c)).
  - destruct E as (S1 & S2 & _). split; congruence.
  - destruct E as (x & B & S1 & S2 & _). apply (burst_effect p bus) in B as (d & y & buf & -> & Md & _); auto. cbn [fst if_with_data if_spec if_data] in *. split; congruence.
  - destruct E as (j & Ej & S1 & S2 & _). apply end_ranks in Ej as (_ & E1 & E2). split; congruence.
  - destruct E as (S1 & S2 & _). split; congruence.
  - destruct E as (S1 & S2 & _). split; congruence.
  - destruct E as (S1 & S2 & _). split; congruence.
Qed.

Lemma amble_call p bus xs x i i' : sizes_ok p -> fi_std p = DDR4 -> (forall c, x = Do c -> cmd_ts c + burst_cycles p bus c < two64) ->
  amble_inv p bus xs i -> call_do x i = Value i' -> amble_inv p bus (xs ++ [x]) i'.
Proof.
  intros Sz S4 Ok (Sp & Mo & Le & V) E.
  assert (forall j, if_spec j = if_spec i -> if_data j = if_data i -> if_ranks j = if_ranks i -> (forall read k, rank_bursts p bus read k (match x with Do c => [c] | _ => [] end) = []) -> amble_inv p bus (xs ++ [x]) j) as K.
  { intros j H1 H2 H3 H4. split; [congruence|]. split; [congruence|]. rewrite H3. split; [exact Le|]. intros k r N. rewrite commands_snoc, !rank_bursts_app, !H4, !app_nil_r. now apply V. }
  destruct x as [c|e|a b|e|t|t]; cbn [call_do] in E.
  - pose proof (command_ranks p bus c i i' Sp Mo Sz E) as R. destruct (data_mode_kept p bus c i i' Sp Mo Sz E) as [D1 D2]. unfold rank_step in R. rewrite S4 in R.
    destruct (transfers (cmd_type c)) as [read|] eqn:T.
    + destruct R as (r & r' & N & P & U). split; [exact D1|]. split; [exact D2|]. rewrite U, length_upd. split; [exact Le|].
      intros k q Nk. rewrite commands_snoc, !rank_bursts_app, !rank_bursts_one, T.
      destruct (Nat.eqb_spec (N.to_nat (cmd_rank c)) k) as [<-|Ne].
      * rewrite nth_error_upd_eq, N in Nk. cbn [option_map] in Nk. injection Nk as <-.
        pose proof (amble_step r _ _ (cmd_ts c) (burst_cycles p bus c) read r' (V _ r N) (Ok c eq_refl) P) as A. destruct read; cbn [eqb andb]; exact A.
      * rewrite nth_error_upd_ne in Nk by exact Ne. rewrite !andb_false_r, !app_nil_r. now apply V.
    + split; [exact D1|]. split; [exact D2|]. rewrite R. split; [exact Le|]. intros k q Nk. rewrite commands_snoc, !rank_bursts_app, !rank_bursts_one, T, !app_nil_r. now apply V.
  - apply value_inj in E. subst i'. unfold if_enable_dbi. destruct (if_dbi i); [|apply K; auto]. destruct (match fi_std (if_spec i) with DDR4 => _ | _ => _ end); apply K; auto.
  - apply value_inj in E. subst i'. apply K; auto.
  - unfold if_set_parity in E. apply check_inv in E as [_ E]. destruct (if_pat i); apply value_inj in E; subst i'; apply K; auto.
  - unfold if_enable in E. destruct (if_enabled i); [apply value_inj in E; subst i'; apply K; auto|].
    apply bind_inv in E as (k & _ & E). apply bind_inv in E as (k' & _ & E). apply value_inj in E. subst i'. apply K; auto.
  - unfold if_disable in E. destruct (if_enabled i); [|apply value_inj in E; subst i'; apply K; auto].
    apply bind_inv in E as (k & _ & E). apply bind_inv in E as (k' & _ & E). apply value_inj in E. subst i'. apply K; auto.
Qed.
Lemma amble_run p bus : sizes_ok p -> fi_std p = DDR4 -> forall xs before i i', Forall (fun c => cmd_ts c + burst_cycles p bus c < two64) (commands xs) ->
  amble_inv p bus before i -> calls_run xs i = Value i' -> amble_inv p bus (before ++ xs) i'.
Proof.
  intros Sz S4. induction xs as [|x xs IH]; intros before i i' F V R.
  - apply value_inj in R. subst i'. now rewrite app_nil_r.
  - apply loop_cons_inv in R as (j & R1 & R). rewrite commands_cons in F. apply Forall_app in F as [F1 F2].
    replace (before ++ x :: xs) with ((before ++ [x]) ++ xs) by (rewrite <- app_assoc; reflexivity). eapply IH; [exact F2| |exact R].
    eapply amble_call; try eassumption. intros c ->. now inversion F1.
Qed.

(* ---- the statistics ---- *)
Lemma fill_rank_loop ranks n : forall k l l', loop (fill_rank ranks) (seq k n) l = Value l' ->
  length l' = length l /\ forall j, nth_error l' j = if (k <=? j)%nat && (j <? k + n)%nat
    then match nth_error ranks j, nth_error l j with Some r, Some s => Some (mkCS (cs_counter s) (cs_cycles s) (prepos_of r)) | _, _ => None end
    else nth_error l j.
Proof.
  induction n as [|n IH]; intros k l l' E.
  - cbn in E. injection E as <-. split; [reflexivity|]. intros j. replace ((k <=? j)%nat && (j <? k + 0)%nat) with false; [reflexivity|].
    symmetry. destruct (Nat.leb_spec k j), (Nat.ltb_spec j (k + 0)); try reflexivity; lia.
  - cbn [seq] in E. apply loop_cons_inv in E as (l1 & E1 & E). apply IH in E as [L E]. unfold fill_rank in E1. apply bind_inv in E1 as (r & F1 & E1). apply bind_inv in E1 as (s & F2 & E1).
    unfold put in E1. destruct (Nat.ltb_spec k (length l)) as [Hk|]; [|discriminate]. apply value_inj in E1. subst l1. rewrite length_upd in L. split; [exact L|].
    intros j. rewrite E. unfold fetch in F1, F2. destruct (nth_error ranks k) as [r'|] eqn:N1; [injection F1 as ->|discriminate]. destruct (nth_error l k) as [s'|] eqn:N2; [injection F2 as ->|discriminate].
    destruct (Nat.eqb_spec k j) as [<-|Ne].
    + rewrite Nat.leb_refl. replace (S k <=? k)%nat with false by (symmetry; apply Nat.leb_gt; lia). replace (k <? k + S n)%nat with true by (symmetry; apply Nat.ltb_lt; lia).
      cbn [andb]. rewrite nth_error_upd_eq, N1, N2. reflexivity.
    + rewrite !nth_error_upd_ne by exact Ne. replace ((k <=? j)%nat && (j <? k + S n)%nat) with ((S k <=? j)%nat && (j <? S k + n)%nat); [reflexivity|].
      destruct (Nat.leb_spec (S k) j), (Nat.leb_spec k j), (Nat.ltb_spec j (S k + n)), (Nat.ltb_spec j (k + S n)); try reflexivity; lia.
Qed.

Theorem seamless_counts p sim i0 xs i t st st' rank : sizes_ok p -> fi_std p = DDR4 -> iface_new p sim = Value i0 ->
  Forall (fun c => cmd_ts c + burst_cycles p (no_toggle sim) c < two64) (commands xs) -> calls_run xs i0 = Value i -> if_window i t st = Value st' ->
  (rank < fi_ranks p)%nat ->
  let bursts read := rank_bursts p (no_toggle sim) read rank (commands xs) in
  let seamless read := (back_to_back (bursts read) + at_zero (bursts read)) mod two64 in
  bursts_apart (bursts true) /\ bursts_apart (bursts false) /\
  option_map cs_prepos (nth_error (ss_rank st') rank) = Some (mkPrepos 0 0 0 0 (seamless true) (seamless false)).
Proof.
  intros Sz S4 New F Run Win Hr. cbv zeta. pose proof (new_built _ _ _ New) as B.
  assert (amble_inv p (no_toggle sim) [] i0) as V0.
  { split; [apply (bt_spec _ _ _ B)|]. split; [|split].
    - destruct (bt_data _ _ _ B) as (max & _ & D). rewrite (data_new_mode _ _ _ _ D). destruct sim; reflexivity.
    - rewrite (bt_ranks _ _ _ B), S4. apply repeat_length.
    - intros k r N. rewrite (bt_ranks _ _ _ B), S4 in N. apply nth_error_In in N. apply repeat_spec in N. subst r. unfold amble_state. cbn. repeat split. }
  destruct (amble_run p _ Sz S4 xs [] i0 i F V0 Run) as (Sp & _ & Le & V). cbn [app] in V.
  unfold if_window in Win. cbv zeta in Win. apply bind_inv in Win as (ranks & Fr & Win). repeat (apply bind_inv in Win as (? & _ & Win)). apply value_inj in Win. subst st'. cbn [ss_rank].
  unfold fill_ranks in Fr. rewrite Sp, S4 in Fr. apply fill_rank_loop in Fr as [_ Fr].
  rewrite Fr. replace ((0 <=? rank)%nat && (rank <? 0 + fi_ranks p)%nat) with true by (symmetry; apply andb_true_intro; split; [apply Nat.leb_le; lia|apply Nat.ltb_lt; lia]).
  destruct (nth_error (if_ranks i) rank) as [r|] eqn:N; [|apply nth_error_None in N; lia].
  assert (exists s, nth_error (resize_stats (ss_rank st) (fi_ranks p)) rank = Some s) as [s Ns].
  { destruct (nth_error (resize_stats (ss_rank st) (fi_ranks p)) rank) eqn:Q; [eexists; reflexivity|]. apply nth_error_None in Q. unfold resize_stats in Q. rewrite app_length, firstn_length, repeat_length in Q. lia. }
  rewrite Ns. destruct (V rank r N) as (A1 & A2 & A3 & A4 & A5 & A6 & _ & _ & A9 & A10). split; [exact A9|]. split; [exact A10|].
  cbn [option_map cs_prepos]. unfold prepos_of. now rewrite A1, A2, A3, A4, A5, A6.
Qed.
