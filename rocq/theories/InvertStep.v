(* One command more on an interface whose inverter goes on: the steps of C50 and
   C69 without the inversion switched off. *)
From Coq Require Import NArith List Bool Arith Lia.
From Verif Require Import Base Command CoreModel Bits BusModel WaveSpec BitFacts StorageProofs BusProofs BusMore ClockProofs ToggleModel ToggleProofs DataProofs
  PinModel DbiModel DbiPinModel StatsModel PatternModel PatternTables PatternSpec PatternProofs FormatModel FormatProofs InterfaceModel InterfaceSpec WireSpec
  InterfaceCa InterfaceRun InterfaceTop WireProofs InterfaceData ProgressSpec ProgressProofs ProgressTables TakenSpec TakenProofs.
Import ListNotations.
Local Open Scope N_scope.
Ltac Zify.zify_post_hook ::= idtac.

(* The inverter takes the data of a command and gives back enough of it. *)
Definition inverts (c : Command) (read : bool) (i : iface) (y : option dbi_pins_if) : Prop :=
  if cmd_sz_bits c =? 0 then y = if_dbi i
  else exists o, invert_data c read i = Value (y, o) /\ match o with Some l => cmd_sz_bits c <= 8 * N.of_nat (length l) | None => True end.

Lemma inverted_goes p bus c read i y e : if_spec i = p -> sizes_ok p -> 0 < fi_rate p -> inverts c read i y -> data_free p bus (if_data i) read e -> e <= cmd_ts c * fi_rate p ->
  burst_fits p bus c -> exists d buf n, handle_burst c read i = Value (if_with_data i d y buf, n) /\
    data_free p bus d read (cmd_ts c * fi_rate p + burst_beats p bus c) /\ (forall e', data_free p bus (if_data i) (negb read) e' -> data_free p bus d (negb read) e').
Proof.
  intros Sp Sz R0 Q D L [F1 F2 F3 F4 F5 F6]. pose proof Sz as (W0 & W64 & B64). destruct (cycles_beats p bus c F1 R0 W0) as [B1 B2].
  unfold handle_burst, bus_lines. rewrite Sp, (width_eq p W64). unfold inverts in Q.
  assert (is_bus (d_mode (if_data i)) = bus) as Mo by (destruct bus; destruct D as [-> _]; reflexivity).
  unfold burst_beats, burst_bits in *. destruct (N.eqb_spec (cmd_sz_bits c) 0) as [Z|Z].
  - subst y. destruct bus; [lia|]. pose proof D as [Dm Df]. rewrite Dm. unfold u64_mul. rewrite (N.mod_small _ _ B64).
    destruct (load_goes p false (if_data i) read (cmd_ts c) (fi_burst p * dq_lines p) None e) as (d & -> & K1 & K2); auto.
    cbn [bind]. exists d. do 2 eexists. split; [reflexivity|]. split; [exact K1|exact K2].
  - destruct (N.eqb_spec (dq_lines p) 0) as [|Wn]; [lia|]. destruct Q as (o & -> & Q). cbn [bind fst snd].
    assert (match (match o with Some l => Some l | None => data_of c end) with Some l => cmd_sz_bits c <= 8 * N.of_nat (length l) | None => True end) as Dl.
    { destruct o; [exact Q|]. unfold data_of. destruct (cmd_data c) as [|v l] eqn:E; [exact I|]. destruct F2 as [F2|[F2 _]]; [discriminate|exact F2]. }
    set (data := match o with Some l => Some l | None => data_of c end) in *. clearbody data.
    assert (fi_std p <> LPDDR6 -> cmd_ts c * fi_rate p + cmd_sz_bits c / dq_lines p < two64 /\ dq_lines p <= cmd_sz_bits c /\ (bus = false -> cmd_sz_bits c mod dq_lines p = 0)) as K
      by (intros N6; destruct (fi_std p); try contradiction; auto).
    assert (fi_std p <> LPDDR6 -> exists d, load_data (if_data i) read (cmd_ts c) (N.to_nat (cmd_sz_bits c)) data = Value d /\
      data_free p bus d read (cmd_ts c * fi_rate p + cmd_sz_bits c / dq_lines p) /\ (forall e', data_free p bus (if_data i) (negb read) e' -> data_free p bus d (negb read) e')) as K1.
    { intros N6. destruct (K N6) as (K1 & K2 & K3). eapply load_goes; eauto. destruct data; auto. }
    destruct (fi_std p) eqn:Std; try (destruct K1 as (d & -> & K1 & K2); [discriminate|]; cbn [bind]; exists d; do 2 eexists; split; [reflexivity|]; split; [exact K1|exact K2]).
    cbv zeta. set (inv := match y with Some z => if db_enable (di_dbi z) then Some (lb_inv (db_side (di_dbi z) read)) else None | None => None end). clearbody inv.
    destruct (F5 eq_refl) as [_ [S|S]]; [contradiction|].
    assert (exists n, (n = 1 \/ n = 2)%nat /\ N.to_nat (cmd_sz_bits c) = (256 * n)%nat /\ (n = 2%nat -> fi_wild p <> None)) as (n & N1 & N2 & N3).
    { destruct S as [S|[S S']]; rewrite S; [exists 1%nat|exists 2%nat]; (split; [auto|]); (split; [reflexivity|]); [discriminate|auto]. }
    assert (exists f, format_data (fi_wild p) (if_meta i) (if_buf i) data (N.to_nat (cmd_sz_bits c)) inv = Value (f, (n * 288)%nat) /\
      match f with Some l => (n * 288 <= 8 * length l)%nat | None => True end) as (f & -> & Fl).
    { destruct data as [l|].
      - destruct (FormatProofs.format_bits (fi_wild p) (if_meta i) (if_buf i) l inv n N1) as (r & Er & Lr & _); [|exact N3|].
        + lia.
        + rewrite N2. exists (Some r). split; [exact Er|]. lia.
      - exists None. rewrite N2. unfold format_data. destruct N1; subst n; split; auto; reflexivity. }
    cbn [bind fst snd].
    assert (9 * cmd_sz_bits c / 8 = N.of_nat (n * 288)) as Nb.
    { assert (cmd_sz_bits c = N.of_nat (256 * n)) as -> by lia. destruct N1; subst n; reflexivity. }
    rewrite Nb in *.
    assert (exists d, load_data (if_data i) read (cmd_ts c) (n * 288) f = Value d /\
      data_free p bus d read (cmd_ts c * fi_rate p + N.of_nat (n * 288) / dq_lines p) /\ (forall e', data_free p bus (if_data i) (negb read) e' -> data_free p bus d (negb read) e')) as (d & -> & K2 & K3).
    { destruct (load_goes p bus (if_data i) read (cmd_ts c) (N.of_nat (n * 288)) f e R0 Sz D L F6 B2 F3) as (d & Ed & Kd); [destruct f; [lia|exact I]|].
      rewrite Nat2N.id in Ed. exists d. split; [exact Ed|exact Kd]. }
    cbn [bind]. exists d. do 2 eexists. split; [reflexivity|]. split; [exact K2|exact K3].
Qed.

Lemma inverted_data_goes p bus c (read : bool) i y er ew : if_spec i = p -> sizes_ok p -> 0 < fi_rate p -> (fi_std p = LPDDR6 -> fi_groups p = 4) -> pat_inv p (if_pat i) ->
  transfers (cmd_type c) = Some read -> command_fits p bus c -> ca_free p (if_cmd i) (cmd_ts c * ca_beats (fi_std p)) -> inverts c read i y ->
  data_free p bus (if_data i) read (if read then er else ew) -> (if read then er else ew) <= cmd_ts c * fi_rate p -> ranks_free p (if_ranks i) er ew ->
  ck_start (if_rdqs i) = None -> (two_clocks (fi_std p) = false -> ck_start (if_wdqs i) = None) ->
  (two_clocks (fi_std p) = true -> fi_wck_on p = false -> ck_start (if_wck i) = None) ->
  exists d i', handle_data c read i = Value i' /\ if_dbi i' = y /\ if_data i' = d /\
    data_free p bus d read (cmd_ts c * fi_rate p + burst_beats p bus c) /\ (forall e', data_free p bus (if_data i) (negb read) e' -> data_free p bus d (negb read) e') /\
    ranks_free p (if_ranks i') (if read then cmd_ts c * fi_rate p + burst_beats p bus c else er) (if read then ew else cmd_ts c * fi_rate p + burst_beats p bus c).
Proof.
  intros Sp Sz R0 G V T F C Q D L Rk K1 K2 K3.
  assert (burst_fits p bus c) as Bf by (apply (cf_burst _ _ _ F); rewrite T; discriminate).
  assert (is_bus (d_mode (if_data i)) = bus) as Mo by (destruct bus; destruct D as [-> _]; reflexivity).
  destruct (inverted_goes p bus c read i y _ Sp Sz R0 Q D L Bf) as (d & buf & n & Eb & Df & Do).
  assert (n = burst_beats p bus c) as ->.
  { destruct (burst_effect p bus c read i _ Sp Mo Sz Eb) as (? & ? & ? & Ex & _). congruence. }
  assert (cmd_ts c + burst_cycles p bus c < two64) as T64.
  { eapply N.le_lt_trans; [|exact (bf_time _ _ _ Bf)]. unfold burst_cycles. apply N.add_le_mono.
    - rewrite <- (N.mul_1_r (cmd_ts c)) at 1. apply N.mul_le_mono_l. lia.
    - apply N.div_le_upper_bound; [lia|]. nia. }
  unfold handle_data. rewrite Eb. cbn [bind fst snd].
  destruct (dqs_goes p bus c read (if_with_data i d y buf) Sp K1 K2 K3 (bf_cycle _ _ _ Bf) T64) as (r & w & k & Ek). rewrite Ek. cbn [bind].
  set (j := if_with_clocks (if_with_data i d y buf) r w k).
  destruct (overrides_ready p bus c read j Sp V T) as [V1 V2].
  destruct (overrides_spec j (burst_beats p bus c) read) as (h & Eh). rewrite Eh in *.
  assert (silent (fi_std p) (cmd_type c) = false) as Sl by (unfold silent; destruct (cmd_type c); try discriminate; reflexivity).
  destruct (command_bus_goes p bus c (if_with_pat j h) V1 G V2 F Sl C) as (i' & Ei). rewrite Ei. cbn [bind].
  assert (exists b h', i' = if_with_cmd (if_with_pat j h) b h') as (b & h' & ->).
  { unfold handle_command_bus in Ei. destruct (if_pat (if_with_pat j h)); apply bind_inv in Ei as (x & _ & Ei); apply bind_inv in Ei as (b & _ & Ei);
      apply value_inj in Ei; subst i'; eauto. }
  cbn [if_with_cmd if_with_pat if_spec j if_with_clocks if_with_data if_ranks]. rewrite Sp. fold j.
  assert (fi_std p <> DDR4 -> exists d0 i', Value (if_with_cmd (if_with_pat j h) b h') = Value i' /\ if_dbi i' = y /\ if_data i' = d0 /\
    data_free p bus d0 read (cmd_ts c * fi_rate p + burst_beats p bus c) /\ (forall e', data_free p bus (if_data i) (negb read) e' -> data_free p bus d0 (negb read) e') /\
    ranks_free p (if_ranks i') (if read then cmd_ts c * fi_rate p + burst_beats p bus c else er) (if read then ew else cmd_ts c * fi_rate p + burst_beats p bus c)) as Other.
  { intros N4. exists d. eexists. split; [reflexivity|]. split; [reflexivity|]. split; [reflexivity|]. split; [exact Df|]. split; [exact Do|]. intros Q4. contradiction. }
  destruct (fi_std p) eqn:Std; try (apply Other; discriminate).
  destruct (Rk Std) as [Rl Rf]. pose proof (bf_rank _ _ _ Bf Std) as Hr. rewrite Rl. rewrite (proj2 (Nat.ltb_lt _ _) Hr). cbn [check].
  destruct (nth_error (if_ranks i) (N.to_nat (cmd_rank c))) as [rk|] eqn:Er; [|apply nth_error_None in Er; lia].
  unfold fetch. rewrite Er. cbn [bind].
  assert (rank_free p er ew rk) as Rk1 by (rewrite Forall_forall in Rf; apply Rf; eapply nth_error_In; exact Er).
  destruct (amble_goes p c read (burst_beats p bus c) rk er ew R0 Rk1) as (rk' & Ea & Fa).
  { destruct read; [exact L|apply N.le_refl]. }
  { destruct read; [apply N.le_refl|exact L]. }
  { exact T64. }
  rewrite Ea. cbn [bind]. exists d. eexists. split; [reflexivity|]. split; [reflexivity|]. split; [reflexivity|]. split; [exact Df|]. split; [exact Do|].
  intros _. cbn [if_with_ranks if_ranks]. rewrite upd_length. split; [exact Rl|].
  apply upd_forall; [intros x _; exact Fa|]. eapply Forall_impl; [|exact Rf]. intros x [X1 X2]. split; destruct read; lia.
Qed.

(* What is loaded by a burst. *)
Lemma inverted_loads p bus c read i x : if_spec i = p -> is_bus (d_mode (if_data i)) = bus -> sizes_ok p ->
  (forall y l, invert_data c read i = Value (y, Some l) -> cmd_sz_bits c <= 8 * N.of_nat (length l)) -> transfers (cmd_type c) = Some read -> dressed p bus c ->
  0 < burst_cycles p bus c -> handle_burst c read i = Value x ->
  exists d y buf data, x = (if_with_data i d y buf, burst_beats p bus c) /\ load_data (if_data i) read (cmd_ts c) (N.to_nat (burst_bits p bus c)) data = Value d /\
    (bus = true -> exists l, data = Some l /\ burst_bits p bus c <= 8 * N.of_nat (length l)).
Proof.
  intros Sp Mo Sz Q T Dr C0 E. assert (transfers (cmd_type c) <> None) as Tn by (rewrite T; discriminate). pose proof Sz as (W0 & W64 & B64).
  assert (burst_bits p bus c <> 0) as Bn.
  { intros Z. unfold burst_cycles, burst_beats in C0. rewrite Z, N.div_0_l in C0 by lia. destruct (fi_rate p); cbn in C0; lia. }
  unfold handle_burst in E. unfold bus_lines in E. rewrite Sp, (width_eq p W64) in E. unfold burst_beats, burst_bits in *.
  destruct (cmd_sz_bits c =? 0) eqn:Z.
  - destruct bus; [congruence|]. destruct (d_mode (if_data i)) eqn:M; [discriminate|]. unfold u64_mul in E. rewrite (N.mod_small (fi_burst p * dq_lines p)) in E by exact B64.
    apply bind_inv in E as (d & L & E). apply value_inj in E. subst x. exists d, (if_dbi i), (if_buf i), None. rewrite N.div_mul by lia. split; [reflexivity|]. split; [exact L|]. discriminate.
  - apply N.eqb_neq in Z. destruct (dq_lines p =? 0); [discriminate|]. apply bind_inv in E as ([y o] & Iv & E). cbn [fst snd] in E.
    assert (match (match o with Some l => Some l | None => data_of c end) with Some l => cmd_sz_bits c <= 8 * N.of_nat (length l) | None => bus <> true end) as Dl0.
    { destruct o as [l|]; [eapply Q; exact Iv|]. unfold data_of. destruct (cmd_data c) as [|v l] eqn:Ed.
      - intros B. exact (dr_data _ _ _ Dr Tn B Ed).
      - destruct (dr_bytes _ _ _ Dr Tn) as [F|[F _]]; [congruence|]. now rewrite <- Ed. }
    set (data := match o with Some l => Some l | None => data_of c end) in *. clearbody data.
    assert (bus = true -> exists l, data = Some l /\ cmd_sz_bits c <= 8 * N.of_nat (length l)) as Dl by (intros B; destruct data as [l|]; [exists l; split; [reflexivity|exact Dl0]|contradiction]).
    destruct (fi_std p) eqn:Std.
    1-4: apply bind_inv in E as (d & L & E); apply value_inj in E; subst x; exists d, y, (if_buf i), data; (split; [reflexivity|]); (split; [exact L|exact Dl]).
    cbv zeta in E. set (inv := match y with Some z => if db_enable (di_dbi z) then Some (lb_inv (db_side (di_dbi z) read)) else None | None => None end) in *. clearbody inv.
    destruct (dr_six _ _ _ Dr Tn Std) as [_ [S|S]]; [contradiction|].
    assert (exists n, (n = 1 \/ n = 2)%nat /\ N.to_nat (cmd_sz_bits c) = (256 * n)%nat /\ (n = 2%nat -> fi_wild p <> None)) as (n & N1 & N2 & N3).
    { destruct S as [S|[S S']]; rewrite S; [exists 1%nat|exists 2%nat]; (split; [auto|]); (split; [reflexivity|]); [discriminate|auto]. }
    assert (9 * cmd_sz_bits c / 8 = N.of_nat (n * 288)) as Nb.
    { assert (cmd_sz_bits c = N.of_nat (256 * n)) as -> by lia. destruct N1; subst n; reflexivity. }
    rewrite Nb in *.
    assert (exists f, format_data (fi_wild p) (if_meta i) (if_buf i) data (N.to_nat (cmd_sz_bits c)) inv = Value (f, (n * 288)%nat) /\
      (bus = true -> exists l, f = Some l /\ (n * 288 <= 8 * length l)%nat)) as (f & Ef & Fl).
    { destruct data as [l|].
      - destruct (FormatProofs.format_bits (fi_wild p) (if_meta i) (if_buf i) l inv n N1) as (r' & Er & Lr & _); [lia|exact N3|].
        rewrite N2. exists (Some r'). split; [exact Er|]. intros _. exists r'. split; [reflexivity|lia].
      - exists None. rewrite N2. unfold format_data. split; [destruct N1; subst n; reflexivity|]. intros B. destruct (Dl B) as (l & F & _). discriminate F. }
    rewrite Ef in E. cbn [bind fst snd] in E. apply bind_inv in E as (d & L & E). apply value_inj in E. subst x. do 3 eexists. exists f. split; [reflexivity|].
    rewrite Nat2N.id. split; [exact L|]. intros B. destruct (Fl B) as (l & -> & Hl). exists l. split; [reflexivity|lia].
Qed.

(* ---- one command ---- *)
Record calls_inv (p : ifspec) (bus : bool) (i0 : iface) (xs : list call) (i : iface) : Prop := {
  ci_run : run_inv p bus i0 xs i;
  ci_data : forall read, data_free p bus (if_data i) read (last_end (bursts p bus read (commands xs)));
  ci_ranks : ranks_free p (if_ranks i) (last_end (bursts p bus true (commands xs))) (last_end (bursts p bus false (commands xs)))
}.
Lemma commands_one xs c : commands (xs ++ [Do c]) = commands xs ++ [c].
Proof. rewrite commands_app. reflexivity. Qed.

Lemma inverted_step_goes p bus i0 xs c i (y : option dbi_pins_if) : sizes_ok p -> 0 < fi_rate p -> (fi_std p = LPDDR6 -> fi_groups p = 4) ->
  ck_start (if_rdqs i0) = None -> ck_start (if_wdqs i0) = None -> (two_clocks (fi_std p) = true -> fi_wck_on p = false -> ck_start (if_wck i0) = None) ->
  trace_fits p bus (commands xs ++ [c]) -> calls_inv p bus i0 xs i ->
  (forall read, transfers (cmd_type c) = Some read -> inverts c read i y) ->
  (routing p (cmd_type c) = ToEnd -> exists j, end_of_simulation (cmd_ts c) i = Value j /\ if_dbi j = y) ->
  exists i', if_command c i = Value i' /\ calls_inv p bus i0 (xs ++ [Do c]) i' /\
    (transfers (cmd_type c) <> None \/ routing p (cmd_type c) = ToEnd -> if_dbi i' = y) /\ (transfers (cmd_type c) = None -> routing p (cmd_type c) <> ToEnd -> if_dbi i' = if_dbi i).
Proof.
  intros Sz R0 G K1 K2 K3 [F1 F2 F3 F4] [V Vd Vr] Iv En. apply Forall_app in F1 as [_ F1]. inversion F1 as [|? ? F _]; subst. clear F1.
  pose proof (rn_spec _ _ _ _ _ V) as Sp.
  assert (ca_free p (if_cmd i) (cmd_ts c * ca_beats (fi_std p)) \/ silent (fi_std p) (cmd_type c) = true) as C.
  { destruct (silent (fi_std p) (cmd_type c)) eqn:S; [now right|left]. destruct (rn_cmd _ _ _ _ _ V) as (ls & B & D & _ & L). exists ls. split; [exact B|].
    rewrite L, load_end_drives, D. rewrite drives_app in F2. unfold ca_drives at 2 in F2. cbn [flat_map] in F2. rewrite S in F2. cbn [app] in F2.
    apply apart_end in F2. exact F2. }
  rewrite !bursts_app in *.
  assert (forall i', if_command c i = Value i' -> run_inv p bus i0 (xs ++ [Do c]) i') as Run.
  { intros i' E. eapply run_step; try eassumption. intros c' Q. injection Q as <-. exact (cf_time _ _ _ F). }
  assert (ck_start (if_rdqs i) = None) as K1' by (eapply strobe_stops; [|exact (rn_rdqs _ _ _ _ _ V)]; exact K1).
  assert (two_clocks (fi_std p) = false -> ck_start (if_wdqs i) = None) as K2'.
  { intros T. pose proof (rn_wdqs _ _ _ _ _ V) as W. rewrite T in W. eapply strobe_stops; [|exact W]. exact K2. }
  assert (two_clocks (fi_std p) = true -> fi_wck_on p = false -> ck_start (if_wck i) = None) as K3'.
  { intros T O. pose proof (rn_wck _ _ _ _ _ V T) as W. rewrite O in W. eapply strobe_stops; [|exact W]. exact (K3 T O). }
  pose proof (carried_route p _ (cf_type _ _ _ F)) as Rt.
  destruct (transfers (cmd_type c)) as [read|] eqn:T.
  - rewrite !(bursts_one p bus _ read c T) in *.
    assert (silent (fi_std p) (cmd_type c) = false) as Sl by (unfold silent; destruct (cmd_type c); try discriminate; reflexivity).
    destruct C as [C|C]; [|congruence].
    assert ((if read then last_end (bursts p bus true (commands xs)) else last_end (bursts p bus false (commands xs))) <= cmd_ts c * fi_rate p) as L.
    { destruct read; cbn [eqb] in *; [apply overlap_end in F3|apply overlap_end in F4]; assumption. }
    destruct (inverted_data_goes p bus c read i y (last_end (bursts p bus true (commands xs))) (last_end (bursts p bus false (commands xs))) Sp Sz R0 G (rn_pat _ _ _ _ _ V) T F C (Iv read eq_refl)) as (d & i' & E & E1 & E2 & E3 & E4 & E5); try exact Vr; auto.
    { destruct read; apply Vd. }
    assert (if_command c i = Value (if_with_last i' (cmd_ts c))) as Ec by (unfold if_command; rewrite Sp, Rt, E; reflexivity).
    exists (if_with_last i' (cmd_ts c)). split; [exact Ec|]. split; [|split; [intros _; exact E1|discriminate]]. constructor; [now apply Run| |]; cbn [if_with_last if_data if_dbi if_ranks].
    + intros r. rewrite commands_one, bursts_app, (bursts_one p bus r read c T). rewrite E2. destruct (eqb read r) eqn:Q.
      * apply eqb_prop in Q. subst r. rewrite last_end_snoc. exact E3.
      * rewrite app_nil_r. assert (r = negb read) as -> by (destruct r, read; try discriminate; reflexivity). apply E4, Vd.
    + rewrite commands_one, !bursts_app, !(bursts_one p bus _ read c T). destruct read; cbn [eqb]; rewrite last_end_snoc, app_nil_r; exact E5.
  - rewrite !(bursts_none p bus _ c T) in *. rewrite app_nil_r in *.
    assert (forall j, (match routing p (cmd_type c) with ToBus => handle_command_bus c i | ToData read => handle_data c read i | ToEnd => end_of_simulation (cmd_ts c) i
        | ToNothing => Value i | ToThrow => Fails Exception | ToAssert => Fails Assertion end) = Value j -> if_data j = if_data i -> if_ranks j = if_ranks i ->
      exists i', if_command c i = Value i' /\ calls_inv p bus i0 (xs ++ [Do c]) i' /\ if_dbi i' = if_dbi j) as K.
    { intros j E J1 J3. assert (if_command c i = Value (if_with_last j (cmd_ts c))) as Ec by (unfold if_command; rewrite Sp, E; reflexivity).
      exists (if_with_last j (cmd_ts c)). split; [exact Ec|]. split; [|reflexivity]. constructor; [now apply Run| |]; cbn [if_with_last if_data if_dbi if_ranks]; rewrite ?J1, ?J3.
      - intros r. rewrite commands_one, bursts_app, (bursts_none p bus r c T), app_nil_r. apply Vd.
      - rewrite commands_one, !bursts_app, !(bursts_none p bus _ c T), !app_nil_r. exact Vr. }
    assert (forall j, (match routing p (cmd_type c) with ToBus => handle_command_bus c i | ToData read => handle_data c read i | ToEnd => end_of_simulation (cmd_ts c) i
        | ToNothing => Value i | ToThrow => Fails Exception | ToAssert => Fails Assertion end) = Value j -> if_data j = if_data i -> if_ranks j = if_ranks i -> if_dbi j = if_dbi i -> routing p (cmd_type c) <> ToEnd ->
      exists i', if_command c i = Value i' /\ calls_inv p bus i0 (xs ++ [Do c]) i' /\ (None <> @None bool \/ routing p (cmd_type c) = ToEnd -> if_dbi i' = y) /\
        (@None bool = None -> routing p (cmd_type c) <> ToEnd -> if_dbi i' = if_dbi i)) as K'.
    { intros j E J1 J2 J3 J4. destruct (K j E J1 J2) as (i' & A & B & D). exists i'. split; [exact A|]. split; [exact B|]. split; [intros [H|H]; contradiction|]. intros _ _. congruence. }
    destruct (silent (fi_std p) (cmd_type c)) eqn:S.
    + destruct (match fi_std p, cmd_type c with DDR5, _ => ToNothing | _, END_OF_SIMULATION => ToEnd | _, _ => ToNothing end) eqn:Q;
        try (exfalso; destruct (fi_std p), (cmd_type c); discriminate).
      * destruct (En Rt) as (j & Ej & Yj). clear K'. rewrite Rt in K. destruct (K j Ej) as (i' & A & B & D).
        { unfold end_of_simulation in Ej. destruct (if_dbi i); [apply bind_inv in Ej as (v & _ & Ej)|]; apply value_inj in Ej; now subst j. }
        { unfold end_of_simulation in Ej. destruct (if_dbi i); [apply bind_inv in Ej as (v & _ & Ej)|]; apply value_inj in Ej; now subst j. }
        exists i'. split; [exact A|]. split; [exact B|]. split; [intros _; congruence|]. intros _ H. contradiction.
      * apply (K' i); auto; rewrite Rt; [reflexivity|discriminate].
    + destruct C as [C|C]; [|congruence].
      destruct (command_bus_goes p bus c i (rn_pat _ _ _ _ _ V) G) as (i' & E); auto; [unfold pat_ready; now rewrite T|].
      apply (K' i'); rewrite ?Rt; [exact E| | | |discriminate]; unfold handle_command_bus in E; destruct (if_pat i); apply bind_inv in E as (x & _ & E); apply bind_inv in E as (b & _ & E); apply value_inj in E; subst i'; reflexivity.
Qed.

(* One command more that has been taken. *)
Lemma inverted_step_needs p bus i0 xs c i i' : sizes_ok p -> 0 < fi_rate p -> (fi_std p = LPDDR6 -> fi_groups p = 4) ->
  calls_inv p bus i0 xs i -> (forall read, data_end bus (if_data i) read (last_end (bursts p bus read (commands xs)))) -> trace_allowed p bus (commands xs) -> dressed p bus c ->
  (forall read y l, transfers (cmd_type c) = Some read -> 0 < burst_cycles p bus c -> invert_data c read i = Value (y, Some l) -> cmd_sz_bits c <= 8 * N.of_nat (length l)) ->
  if_command c i = Value i' -> trace_allowed p bus (commands xs ++ [c]) /\ (forall read, data_end bus (if_data i') read (last_end (bursts p bus read (commands xs ++ [c])))).
Proof.
  intros Sz R0 G V De [A1 A2 A3 A4] Dr Iv E. pose proof (ci_run _ _ _ _ _ V) as Rv. pose proof (rn_spec _ _ _ _ _ Rv) as Sp. pose proof (rn_mode _ _ _ _ _ Rv) as Mo.
  pose proof (taken_needs p bus c i i' Sp Mo Sz G (rn_pat _ _ _ _ _ Rv) (dr_time _ _ _ Dr) E) as [N1 N2 N3].
  assert (apart 0 (ca_drives p bus (commands xs ++ [c]))) as Ap.
  { assert (run_inv p bus i0 (xs ++ [Do c]) i') as Rv'.
    { eapply run_step; try eassumption. intros c' Q. injection Q as <-. exact (dr_time _ _ _ Dr). }
    destruct (rn_cmd _ _ _ _ _ Rv') as (ls & _ & D & W & _). rewrite commands_one in D. rewrite <- D. now apply timed_apart. }
  pose proof (transfers_routing p (cmd_type c)) as Tr. unfold if_command in E. rewrite Sp in E. apply bind_inv in E as (j & E & Ei). apply value_inj in Ei. subst i'. cbn [if_with_last if_data].
  destruct (transfers (cmd_type c)) as [read|] eqn:T.
  - assert (transfers (cmd_type c) <> None) as Tn by (rewrite T; discriminate).
    assert (0 < burst_cycles p bus c) as C0 by (destruct (strobed p read) eqn:S; [exact (N3 read eq_refl S)|exact (dr_cycle _ _ _ Dr read T S)]).
    rewrite Tr in E. unfold handle_data in E. apply bind_inv in E as (x & X & E).
    destruct (inverted_loads p bus c read i x Sp Mo Sz (fun y l => Iv read y l eq_refl C0) T Dr C0 X) as (d & y & buf & data & -> & L & Dl). cbn [fst snd] in E.
    destruct Sz as (W0 & W64 & B64). destruct (cycles_beats p bus c C0 R0 W0) as [B1 B2].
    destruct (load_needs p bus (if_data i) read (cmd_ts c) (burst_bits p bus c) data _ d R0 (conj W0 (conj W64 B64)) (ci_data _ _ _ _ _ V read) (De read) (dr_end _ _ _ Dr Tn) B2 Dl L) as (L1 & L2 & L3 & L4).
    apply bind_inv in E as (i1 & D & E). apply bind_inv in E as (i2 & B & E).
    destruct (dqs_effect p bus c read (if_with_data i d y buf) i1) as (r & w & k & -> & _); [exact Sp|exact T|exact (proj2 (dr_time _ _ _ Dr))|exact D|].
    match type of B with handle_command_bus _ (handle_overrides ?a ?b ?c) = _ => destruct (overrides_spec a b c) as (h & Eh) end. rewrite Eh in B.
    assert (exists b h', i2 = if_with_cmd (if_with_pat (if_with_clocks (if_with_data i d y buf) r w k) h) b h') as (b & h' & ->).
    { unfold handle_command_bus in B. match type of B with context [if_pat ?a] => destruct (if_pat a) end; apply bind_inv in B as (v & _ & B); apply bind_inv in B as (b & _ & B); apply value_inj in B; subst i2; eauto. }
    cbn [if_spec if_with_cmd if_with_pat if_with_clocks if_with_data if_ranks] in E. rewrite Sp in E.
    assert (if_data j = d /\ (fi_std p = DDR4 -> (N.to_nat (cmd_rank c) < fi_ranks p)%nat)) as [Jd Jr].
    { destruct (fi_std p) eqn:Std; try (apply value_inj in E; subst j; split; [reflexivity|discriminate]).
      apply check_inv in E as [Hr E]. apply bind_inv in E as (r1 & _ & E). apply bind_inv in E as (r2 & _ & E). apply value_inj in E. subst j. split; [reflexivity|]. intros _.
      apply Nat.ltb_lt in Hr. destruct (ci_ranks _ _ _ _ _ V Std) as [Rl _]. now rewrite Rl in Hr. }
    split.
    + constructor; [|exact Ap| |].
      * apply Forall_app. split; [exact A1|]. constructor; [|constructor]. constructor; auto. intros _ ->. exact (L3 eq_refl).
      * rewrite bursts_app, (bursts_one p bus true read c T). destruct read; cbn [eqb]; [|now rewrite app_nil_r]. apply overlap_snoc; [exact A3|exact L1].
      * rewrite bursts_app, (bursts_one p bus false read c T). destruct read; cbn [eqb]; [now rewrite app_nil_r|]. apply overlap_snoc; [exact A4|exact L1].
    + intros r'. rewrite Jd, bursts_app, (bursts_one p bus r' read c T). destruct (eqb read r') eqn:Q.
      * apply eqb_prop in Q. subst r'. rewrite last_end_snoc. exact L2.
      * rewrite app_nil_r. assert (r' = negb read) as -> by (destruct r', read; try discriminate; reflexivity). apply L4, De.
  - assert (if_data j = if_data i) as Jd.
    { destruct (routing p (cmd_type c)) as [|r| | | |]; try discriminate E.
      - unfold handle_command_bus in E. destruct (if_pat i); apply bind_inv in E as (v & _ & E); apply bind_inv in E as (b & _ & E); apply value_inj in E; now subst j.
      - exfalso. eapply Tr. reflexivity.
      - unfold end_of_simulation in E. destruct (if_dbi i); [apply bind_inv in E as (v & _ & E)|]; apply value_inj in E; now subst j.
      - apply value_inj in E. now subst j. }
    split.
    + constructor; [|exact Ap|rewrite bursts_app, (bursts_none p bus true c T), app_nil_r; exact A3|rewrite bursts_app, (bursts_none p bus false c T), app_nil_r; exact A4].
      apply Forall_app. split; [exact A1|]. constructor; [|constructor]. constructor; auto; intros F; contradiction.
    + intros r'. rewrite Jd, bursts_app, (bursts_none p bus r' c T), app_nil_r. apply De.
Qed.

