(* An interface takes exactly the traces that are allowed. *)
From Coq Require Import NArith List Bool Arith Lia.
From Verif Require Import Base Command CoreModel Bits BusModel WaveSpec BitFacts StorageProofs BusProofs BusMore ClockProofs ToggleModel ToggleProofs DataProofs
  PinModel DbiModel DbiPinModel StatsModel PatternModel PatternTables PatternSpec PatternProofs FormatModel FormatProofs InterfaceModel InterfaceSpec WireSpec
  InterfaceCa InterfaceRun InterfaceTop WireProofs InterfaceData ProgressSpec ProgressProofs ProgressTables TakenSpec.
Import ListNotations.
Local Open Scope N_scope.
Ltac Zify.zify_post_hook ::= idtac.

Lemma allowed_fits p bus cs : Forall (dressed p bus) cs -> trace_allowed p bus cs -> trace_fits p bus cs.
Proof.
  intros D [A1 A2 A3 A4]. constructor; try assumption. rewrite Forall_forall in *. intros c I. specialize (D c I). specialize (A1 c I).
  destruct A1. constructor; try assumption; [|exact (dr_time _ _ _ D)]. intros T. constructor; auto.
  - now apply D.
  - now apply D.
  - now apply D.
Qed.

(* ---- when the last burst is over ---- *)
Definition tog_end (h : toggling) (e : N) : Prop := if lb_handled h then e = 0 else lb_length h + lb_load h = e.
Definition data_end (bus : bool) (d : data_bus) (read : bool) (e : N) : Prop :=
  if bus then b_last_load (bus_side read d) + N.of_nat (bc_count (b_store (bus_side read d))) = e else tog_end (tog_side read d) e.

Lemma tog_needs p h t n e h' : 0 < fi_rate p -> 0 < dq_lines p -> tog_free p h e -> tog_end h e -> t * fi_rate p + n / dq_lines p < two64 ->
  toggling_bits h t n = Value h' -> e <= t * fi_rate p /\ tog_end h' (t * fi_rate p + n / dq_lines p) /\ n mod dq_lines p = 0.
Proof.
  intros R0 W0 (T1 & T2 & T3 & T4) En T64 E. unfold toggling_bits in E. rewrite T1 in E. destruct (dq_lines p =? 0); [discriminate|]. apply check_inv in E as [Hn E]. apply N.eqb_eq in Hn.
  assert (t * fi_rate p < two64) as V64 by (eapply N.le_lt_trans; [apply N.le_add_r|exact T64]).
  unfold toggling_burst in E. rewrite T2 in E. destruct (fi_rate p =? 0); [discriminate|]. unfold u64_mul in E. rewrite (N.mod_small (t * fi_rate p)) in E by exact V64.
  apply check_inv in E as [_ E]. apply check_inv in E as [Ho E]. apply value_inj in E. rewrite T3 in E. subst h'. split; [|split; [|exact Hn]].
  - unfold tog_end in En. destruct (lb_handled h) eqn:Hh; [subst e; apply N.le_0_l|]. destruct T4 as [T4|[T4 T5]]; [discriminate|]. cbn [orb] in Ho. apply N.leb_le in Ho. unfold u64_add in Ho.
    rewrite N.mod_small in Ho by exact T5. rewrite <- En. exact Ho.
  - unfold tog_end. cbn [lb_handled tg_set lb_length lb_load]. apply N.add_comm.
Qed.
Lemma load_needs p bus d read t n data e d' : 0 < fi_rate p -> sizes_ok p -> data_free p bus d read e -> data_end bus d read e -> t * fi_rate p + n / dq_lines p < two64 ->
  dq_lines p <= n -> (bus = true -> exists l, data = Some l /\ n <= 8 * N.of_nat (length l)) -> load_data d read t (N.to_nat n) data = Value d' ->
  e <= t * fi_rate p /\ data_end bus d' read (t * fi_rate p + n / dq_lines p) /\ (bus = false -> n mod dq_lines p = 0) /\
  (forall e', data_end bus d (negb read) e' -> data_end bus d' (negb read) e').
Proof.
  intros R0 (W0 & W64 & _) D En T64 Hw Hd E. unfold load_data, data_load_read, data_load_write, data_load in E.
  destruct bus; pose proof D as [Dm Df]; rewrite Dm in E.
  - destruct (Hd eq_refl) as (l & -> & Hl). destruct (Nat.eqb_spec (N.to_nat n) 0); [lia|]. destruct Df as (max & ls & Wm & B & _).
    assert (N.of_nat (N.to_nat (dq_lines p)) < two64) as W64' by (rewrite N2Nat.id; exact W64).
    assert (0 < N.to_nat (dq_lines p) <= max)%nat as W1 by lia.
    assert (load_ok (N.to_nat (dq_lines p)) (fi_rate p) (mkLoad t l (N.to_nat n))) as Lo.
    { unfold load_ok. cbn [lo_bits lo_data lo_time]. split; [lia|]. split; [lia|]. rewrite Nat2N.inj_div, !N2Nat.id. exact T64. }
    assert (t * fi_rate p < two64) as V64 by (eapply N.le_lt_trans; [apply N.le_add_r|exact T64]).
    assert (exists b', bus_load (bus_side read d) t l (N.to_nat n) = Value b' /\ bus_side read d' = b' /\ bus_side (negb read) d' = bus_side (negb read) d) as (b' & Eb & S1 & S2).
    { destruct read; cbn [bind bus_side negb] in *; apply bind_inv in E as (q & Eb & E); apply value_inj in E; subst d'; apply bind_inv in Eb as (b' & Eb & Q); apply value_inj in Q; subst q; exists b'; auto. }
    assert (e <= t * fi_rate p) as L.
    { pose proof Eb as Ek. unfold bus_load in Ek. rewrite (bi_on _ _ _ _ _ _ B), (bi_rate _ _ _ _ _ _ B) in Ek. destruct (fi_rate p =? 0); [discriminate|]. apply check_inv in Ek as [_ Ek].
      cbv zeta in Ek. apply check_inv in Ek as [Ek _]. apply N.leb_le in Ek. unfold u64_mul, u64_add in Ek. rewrite (N.mod_small _ _ V64), N.mod_small in Ek by exact (bi_end _ _ _ _ _ _ B).
      cbn [data_end] in En. rewrite <- En. exact Ek. }
    destruct (load_ok_inv max _ _ _ W1 W64' R0 (word_of_bound _ _) ls _ (mkLoad t l (N.to_nat n)) B Lo) as (b2 & Eb2 & Bi & Bl & Bc).
    { cbn [lo_time data_end] in *. rewrite En. exact L. }
    cbn [lo_time lo_data lo_bits] in Eb2, Bl, Bc. rewrite Eb in Eb2. apply value_inj in Eb2. subst b2.
    split; [exact L|]. split; [|split; [discriminate|]].
    + unfold data_end. rewrite S1, Bl, Bc, Nat2N.inj_div, !N2Nat.id. reflexivity.
    + intros e'. unfold data_end. now rewrite S2.
  - rewrite N2Nat.id in E.
    assert (exists h', toggling_bits (tog_side read d) t n = Value h' /\ tog_side read d' = h' /\ tog_side (negb read) d' = tog_side (negb read) d) as (h' & Eh & S1 & S2).
    { destruct read; cbn [bind tog_side negb] in *; apply bind_inv in E as (q & Eh & E); apply value_inj in E; subst d'; apply bind_inv in Eh as (h' & Eh & Q); apply value_inj in Q; subst q; exists h'; auto. }
    destruct (tog_needs p _ t n e h' R0 W0 Df En T64 Eh) as (L & Hh & Hn). split; [exact L|]. split; [unfold data_end; rewrite S1; exact Hh|]. split; [intros _; exact Hn|].
    intros e'. unfold data_end. now rewrite S2.
Qed.

(* What is loaded by a burst. *)
Lemma burst_loads p bus c read i x : if_spec i = p -> is_bus (d_mode (if_data i)) = bus -> sizes_ok p -> dbi_quiet (if_dbi i) -> transfers (cmd_type c) = Some read -> dressed p bus c ->
  0 < burst_cycles p bus c -> handle_burst c read i = Value x ->
  exists d y buf data, x = (if_with_data i d y buf, burst_beats p bus c) /\ load_data (if_data i) read (cmd_ts c) (N.to_nat (burst_bits p bus c)) data = Value d /\
    (bus = true -> exists l, data = Some l /\ burst_bits p bus c <= 8 * N.of_nat (length l)).
Proof.
  intros Sp Mo Sz Q T Dr C0 E. assert (transfers (cmd_type c) <> None) as Tn by (rewrite T; discriminate). pose proof Sz as (W0 & W64 & B64).
  assert (burst_bits p bus c <> 0) as Bn.
  { intros Z. unfold burst_cycles, burst_beats in C0. rewrite Z, N.div_0_l in C0 by lia. destruct (fi_rate p); cbn in C0; lia. }
  unfold handle_burst in E. unfold bus_lines in E. rewrite Sp, (width_eq p W64) in E. unfold burst_beats, burst_bits in *.
  destruct (cmd_sz_bits c =? 0) eqn:Z.
  - destruct bus; [congruence|]. destruct (d_mode (if_data i)) eqn:M; [discriminate|]. unfold u64_mul in E. rewrite (N.mod_small (fi_burst p * dq_lines p)) in E by exact B64.
    apply bind_inv in E as (d & L & E). apply value_inj in E. subst x. exists d, (if_dbi i), (if_buf i), None. rewrite N.div_mul by lia. split; [reflexivity|]. split; [exact L|]. discriminate.
  - apply N.eqb_neq in Z. destruct (dq_lines p =? 0); [discriminate|].
    assert (invert_data c read i = Value (if_dbi i, None)) as Iv.
    { unfold invert_data. destruct (if_dbi i) as [y|]; [|reflexivity]. destruct Q as (-> & _). rewrite andb_false_r. reflexivity. }
    rewrite Iv in E. cbn [bind fst snd] in E.
    assert (bus = true -> exists l, data_of c = Some l /\ cmd_sz_bits c <= 8 * N.of_nat (length l)) as Dl.
    { intros ->. pose proof (dr_data _ _ _ Dr Tn eq_refl) as Ne. unfold data_of. destruct (cmd_data c) as [|v l] eqn:Ed; [contradiction|]. exists (v :: l). split; [reflexivity|].
      destruct (dr_bytes _ _ _ Dr Tn) as [F|[F _]]; [congruence|]. now rewrite <- Ed. }
    destruct (fi_std p) eqn:Std.
    1-4: apply bind_inv in E as (d & L & E); apply value_inj in E; subst x; exists d, (if_dbi i), (if_buf i), (data_of c); (split; [reflexivity|]); (split; [exact L|exact Dl]).
    cbv zeta in E. set (inv := match if_dbi i with Some y => if db_enable (di_dbi y) then Some (lb_inv (db_side (di_dbi y) read)) else None | None => None end) in *. clearbody inv.
    destruct (dr_six _ _ _ Dr Tn Std) as [_ [S|S]]; [contradiction|].
    assert (exists n, (n = 1 \/ n = 2)%nat /\ N.to_nat (cmd_sz_bits c) = (256 * n)%nat /\ (n = 2%nat -> fi_wild p <> None)) as (n & N1 & N2 & N3).
    { destruct S as [S|[S S']]; rewrite S; [exists 1%nat|exists 2%nat]; (split; [auto|]); (split; [reflexivity|]); [discriminate|auto]. }
    assert (9 * cmd_sz_bits c / 8 = N.of_nat (n * 288)) as Nb.
    { assert (cmd_sz_bits c = N.of_nat (256 * n)) as -> by lia. destruct N1; subst n; reflexivity. }
    rewrite Nb in *.
    assert (exists f, format_data (fi_wild p) (if_meta i) (if_buf i) (data_of c) (N.to_nat (cmd_sz_bits c)) inv = Value (f, (n * 288)%nat) /\
      (bus = true -> exists l, f = Some l /\ (n * 288 <= 8 * length l)%nat)) as (f & Ef & Fl).
    { destruct (data_of c) as [l|] eqn:Ed.
      - destruct (cmd_data c) as [|v r] eqn:Ec; [unfold data_of in Ed; rewrite Ec in Ed; discriminate|].
        destruct (dr_bytes _ _ _ Dr Tn) as [F|[F _]]; [rewrite Ec in F; discriminate|].
        assert (l = cmd_data c) as -> by (unfold data_of in Ed; rewrite Ec in *; congruence).
        destruct (FormatProofs.format_bits (fi_wild p) (if_meta i) (if_buf i) (cmd_data c) inv n N1) as (r' & Er & Lr & _); [lia|exact N3|].
        rewrite N2. exists (Some r'). split; [exact Er|]. intros _. exists r'. split; [reflexivity|lia].
      - exists None. rewrite N2. unfold format_data. split; [destruct N1; subst n; reflexivity|]. intros B. destruct (Dl B) as (l & F & _). discriminate F. }
    rewrite Ef in E. cbn [bind fst snd] in E. apply bind_inv in E as (d & L & E). apply value_inj in E. subst x. do 3 eexists. exists f. split; [reflexivity|].
    rewrite Nat2N.id. split; [exact L|]. intros B. destruct (Fl B) as (l & -> & Hl). exists l. split; [reflexivity|lia].
Qed.

Lemma last_le_overlap b l : forall e, no_overlap e l -> fold_left (fun _ b => fst b + snd b) l e <= fst b -> no_overlap e (l ++ [b]).
Proof. induction l as [|a l IH]; intros e H L; cbn [app no_overlap fold_left] in *; [split; [exact L|exact I]|]. destruct H as [H1 H2]. split; [exact H1|]. now apply IH. Qed.
Lemma overlap_snoc l b : no_overlap 0 l -> last_end l <= fst b -> no_overlap 0 (l ++ [b]).
Proof. apply last_le_overlap. Qed.

(* One command more. *)
Lemma step_needs p bus i0 cs c i i' : sizes_ok p -> 0 < fi_rate p -> (fi_std p = LPDDR6 -> fi_groups p = 4) ->
  prog_inv p bus i0 cs i -> (forall read, data_end bus (if_data i) read (last_end (bursts p bus read cs))) -> trace_allowed p bus cs -> dressed p bus c ->
  if_command c i = Value i' -> trace_allowed p bus (cs ++ [c]) /\ (forall read, data_end bus (if_data i') read (last_end (bursts p bus read (cs ++ [c])))).
Proof.
  intros Sz R0 G V De [A1 A2 A3 A4] Dr E. pose proof (pg_run _ _ _ _ _ V) as Rv. pose proof (rn_spec _ _ _ _ _ Rv) as Sp. pose proof (rn_mode _ _ _ _ _ Rv) as Mo.
  pose proof (taken_needs p bus c i i' Sp Mo Sz G (rn_pat _ _ _ _ _ Rv) (dr_time _ _ _ Dr) E) as [N1 N2 N3].
  assert (apart 0 (ca_drives p bus (cs ++ [c]))) as Ap.
  { assert (run_inv p bus i0 (map Do (cs ++ [c])) i') as Rv'.
    { rewrite map_app. cbn [map]. eapply run_step; try eassumption. intros c' Q. injection Q as <-. exact (dr_time _ _ _ Dr). }
    destruct (rn_cmd _ _ _ _ _ Rv') as (ls & _ & D & W & _). rewrite commands_do in D. rewrite <- D. now apply timed_apart. }
  pose proof (transfers_routing p (cmd_type c)) as Tr. unfold if_command in E. rewrite Sp in E. apply bind_inv in E as (j & E & Ei). apply value_inj in Ei. subst i'. cbn [if_with_last if_data].
  destruct (transfers (cmd_type c)) as [read|] eqn:T.
  - assert (transfers (cmd_type c) <> None) as Tn by (rewrite T; discriminate).
    assert (0 < burst_cycles p bus c) as C0 by (destruct (strobed p read) eqn:S; [exact (N3 read eq_refl S)|exact (dr_cycle _ _ _ Dr read T S)]).
    rewrite Tr in E. unfold handle_data in E. apply bind_inv in E as (x & X & E).
    destruct (burst_loads p bus c read i x Sp Mo Sz (pg_dbi _ _ _ _ _ V) T Dr C0 X) as (d & y & buf & data & -> & L & Dl). cbn [fst snd] in E.
    destruct Sz as (W0 & W64 & B64). destruct (cycles_beats p bus c C0 R0 W0) as [B1 B2].
    destruct (load_needs p bus (if_data i) read (cmd_ts c) (burst_bits p bus c) data _ d R0 (conj W0 (conj W64 B64)) (pg_data _ _ _ _ _ V read) (De read) (dr_end _ _ _ Dr Tn) B2 Dl L) as (L1 & L2 & L3 & L4).
    apply bind_inv in E as (i1 & D & E). apply bind_inv in E as (i2 & B & E).
    destruct (dqs_effect p bus c read (if_with_data i d y buf) i1) as (r & w & k & -> & _); [exact Sp|exact T|exact (proj2 (dr_time _ _ _ Dr))|exact D|].
    match type of B with handle_command_bus _ (handle_overrides ?a ?b ?c) = _ => destruct (overrides_spec a b c) as (h & Eh) end. rewrite Eh in B.
    assert (exists b h', i2 = if_with_cmd (if_with_pat (if_with_clocks (if_with_data i d y buf) r w k) h) b h') as (b & h' & ->).
    { unfold handle_command_bus in B. match type of B with context [if_pat ?a] => destruct (if_pat a) end; apply bind_inv in B as (v & _ & B); apply bind_inv in B as (b & _ & B); apply value_inj in B; subst i2; eauto. }
    cbn [if_spec if_with_cmd if_with_pat if_with_clocks if_with_data if_ranks] in E. rewrite Sp in E.
    assert (if_data j = d /\ (fi_std p = DDR4 -> (N.to_nat (cmd_rank c) < fi_ranks p)%nat)) as [Jd Jr].
    { destruct (fi_std p) eqn:Std; try (apply value_inj in E; subst j; split; [reflexivity|discriminate]).
      apply check_inv in E as [Hr E]. apply bind_inv in E as (r1 & _ & E). apply bind_inv in E as (r2 & _ & E). apply value_inj in E. subst j. split; [reflexivity|]. intros _.
      apply Nat.ltb_lt in Hr. destruct (pg_ranks _ _ _ _ _ V Std) as [Rl _]. now rewrite Rl in Hr. }
    split.
    + constructor; [|exact Ap| |].
      * apply Forall_app. split; [exact A1|]. constructor; [|constructor]. constructor; auto. intros _ ->. exact (L3 eq_refl).
      * rewrite bursts_app, (bursts_one p bus true read c T). destruct read; cbn [eqb]; [|now rewrite app_nil_r]. apply overlap_snoc; [exact A3|exact L1].
      * rewrite bursts_app, (bursts_one p bus false read c T). destruct read; cbn [eqb]; [now rewrite app_nil_r|]. apply overlap_snoc; [exact A4|exact L1].
    + intros r'. rewrite Jd, bursts_app, (bursts_one p bus r' read c T). destruct (eqb read r') eqn:Q.
      * apply eqb_prop in Q. subst r'. rewrite last_end_snoc. exact L2.
      * rewrite app_nil_r. assert (r' = negb read) as -> by (destruct r', read; try discriminate; reflexivity). apply L4, De.
  - assert (if_data j = if_data i) as Jd.
    { destruct (routing p (cmd_type c)) as [|r| | | |]; try discriminate E.
      - unfold handle_command_bus in E. destruct (if_pat i); apply bind_inv in E as (v & _ & E); apply bind_inv in E as (b & _ & E); apply value_inj in E; now subst j.
      - exfalso. eapply Tr. reflexivity.
      - unfold end_of_simulation in E. destruct (if_dbi i); [apply bind_inv in E as (v & _ & E)|]; apply value_inj in E; now subst j.
      - apply value_inj in E. now subst j. }
    split.
    + constructor; [|exact Ap|rewrite bursts_app, (bursts_none p bus true c T), app_nil_r; exact A3|rewrite bursts_app, (bursts_none p bus false c T), app_nil_r; exact A4].
      apply Forall_app. split; [exact A1|]. constructor; [|constructor]. constructor; auto; intros F; contradiction.
    + intros r'. rewrite Jd, bursts_app, (bursts_none p bus r' c T), app_nil_r. apply De.
Qed.

Lemma start_end p sim i0 read : sizes_ok p -> iface_new p sim = Value i0 -> data_end (no_toggle sim) (if_data i0) read 0.
Proof.
  intros Sz E. destruct (new_config p sim i0 Sz E) as (max & Wm & D & C & Wd). destruct Sz as (W0 & W64 & _). destruct C as (C1 & C2 & R0 & C4). change (0 < fi_rate p) in R0.
  assert (0 < N.to_nat (dq_lines p) <= max)%nat as W1 by lia.
  unfold data_new in D. apply bind_inv in D as (ir & I1 & D). apply bind_inv in D as (br & B1 & D). apply bind_inv in D as (iw & I2 & D). apply bind_inv in D as (bw & B2 & D).
  apply bind_inv in D as (tr & T1 & D). apply bind_inv in D as (tw & T2 & D). apply value_inj in D. rewrite rate_eq, Wd in *.
  destruct sim as [sd|]; cbn [no_toggle data_end data_mode is_bus negb] in *.
  - assert (forall w dr r du id h, toggling_new w dr r du id true = Value h -> tog_end h 0) as K.
    { intros w dr r du id h H. unfold toggling_new in H. repeat (apply check_inv in H as [_ H]). apply value_inj in H. subst h. reflexivity. }
    rewrite <- D. destruct read; eapply K; eassumption.
  - destruct (bus_idle p) as [Q1 Q2]. rewrite (convert_high _ _ Q1) in I1. rewrite (convert_high _ _ Q2) in I2. apply value_inj in I1, I2. subst ir iw.
    destruct (bus_new_inv max (N.to_nat (dq_lines p)) (fi_rate p) (dq_rests_high (fi_std p)) W1) as (b & N1 & N2 & N3 & N4); [now rewrite N2Nat.id|].
    rewrite N1 in B1, B2. apply value_inj in B1, B2. subst br bw. rewrite <- D. destruct read; cbn [bus_side d_read d_write]; rewrite N3, N4; reflexivity.
Qed.

Theorem taken_allowed p sim i0 : sizes_ok p -> (fi_std p = LPDDR6 -> fi_groups p = 4) -> iface_new p sim = Value i0 ->
  forall cs i, Forall (dressed p (no_toggle sim)) cs -> calls_run (map Do cs) i0 = Value i ->
  trace_allowed p (no_toggle sim) cs /\ (forall read, data_end (no_toggle sim) (if_data i) read (last_end (bursts p (no_toggle sim) read cs))).
Proof.
  intros Sz G New. destruct (start_goes p sim i0 Sz New) as (V0 & R0 & K1 & K2 & K3). induction cs as [|c cs IH] using rev_ind; intros i Dr R.
  - apply value_inj in R. subst i. split; [|intros read; now apply (start_end p)]. constructor; [constructor|exact I|exact I|exact I].
  - apply Forall_app in Dr as [Dr1 Dr2]. inversion Dr2 as [|? ? Dc _]; subst. unfold calls_run in R. rewrite map_app, BusProofs.loop_app in R. apply bind_inv in R as (j & R1 & R).
    destruct (IH j Dr1 R1) as [A De]. destruct (trace_goes p sim i0 cs Sz G New (allowed_fits _ _ _ Dr1 A)) as (j' & R2 & V). unfold calls_run in R2. rewrite R1 in R2. apply value_inj in R2. subst j'.
    cbn [map loop call_do] in R. apply bind_inv in R as (k & R & E). apply value_inj in E. subst k. eapply step_needs; eassumption.
Qed.
Theorem taken_exactly p sim i0 cs : sizes_ok p -> (fi_std p = LPDDR6 -> fi_groups p = 4) -> iface_new p sim = Value i0 -> Forall (dressed p (no_toggle sim)) cs ->
  ((exists i, calls_run (map Do cs) i0 = Value i) <-> trace_allowed p (no_toggle sim) cs).
Proof.
  intros Sz G New Dr. split.
  - intros (i & R). exact (proj1 (taken_allowed p sim i0 Sz G New cs i Dr R)).
  - intros A. destruct (trace_goes p sim i0 cs Sz G New (allowed_fits _ _ _ Dr A)) as (i & R & _). now exists i.
Qed.

Lemma fits_dressed p bus cs : trace_fits p bus cs -> (bus = true -> Forall (fun c => transfers (cmd_type c) <> None -> cmd_data c <> []) cs) -> Forall (dressed p bus) cs.
Proof.
  intros [F _ _ _] D. rewrite Forall_forall in *. intros c I. specialize (F c I). destruct F as [F1 F2 F3 F4]. constructor.
  - exact F4.
  - intros T. apply (F3 T).
  - intros T B. exact (D B c I T).
  - intros T. apply (F3 T).
  - intros read T _. apply (bf_cycle _ _ _ (F3 ltac:(rewrite T; discriminate))).
  - intros T. apply (F3 T).
Qed.
