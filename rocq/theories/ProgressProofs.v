(* A trace that keeps to the interface's rules is taken. *)
From Coq Require Import NArith List Bool Arith Lia.
From Verif Require Import Base Command CoreModel Bits BusModel WaveSpec BitFacts StorageProofs BusProofs BusMore ClockProofs ToggleModel ToggleProofs DataProofs
  PinModel DbiModel DbiPinModel StatsModel PatternModel PatternTables PatternSpec PatternProofs FormatModel FormatProofs InterfaceModel InterfaceSpec WireSpec
  InterfaceCa InterfaceRun InterfaceTop WireProofs InterfaceData ProgressSpec.
Import ListNotations.
Local Open Scope N_scope.
Ltac Zify.zify_post_hook ::= idtac.

(* ---- ends ---- *)
Definition drives_end (ds : drives) : N := fold_left (fun _ d => fst d + N.of_nat (length (snd d))) ds 0.
Definition last_end (l : list (N * N)) : N := fold_left (fun _ b => fst b + snd b) l 0.
Lemma load_end_drives width rate ls : load_end width rate ls = drives_end (map (drive_of width rate) ls).
Proof.
  unfold load_end, drives_end. generalize 0 as e. induction ls as [|l ls IH]; intros e; [reflexivity|]. cbn [fold_left map].
  unfold drive_of at 2 3. cbn [fst snd]. rewrite played_length. apply IH.
Qed.
Lemma apart_end ds d : apart 0 (ds ++ [d]) -> drives_end ds <= fst d.
Proof.
  unfold drives_end. generalize 0 as e. induction ds as [|a ds IH]; intros e H; cbn [app apart fold_left] in *; [apply H|]. apply IH, H.
Qed.
Lemma overlap_end l b : no_overlap 0 (l ++ [b]) -> last_end l <= fst b.
Proof.
  unfold last_end. generalize 0 as e. induction l as [|a l IH]; intros e H; cbn [app no_overlap fold_left] in *; [apply H|]. apply IH, H.
Qed.
Lemma apart_app ds ds' : forall e, apart e (ds ++ ds') -> apart e ds.
Proof. induction ds as [|d ds IH]; intros e H; [exact I|]. destruct H as [H1 H2]. split; [exact H1|]. eapply IH; exact H2. Qed.
Lemma overlap_app l l' : forall e, no_overlap e (l ++ l') -> no_overlap e l.
Proof. induction l as [|d ds IH]; intros e H; [exact I|]. destruct H as [H1 H2]. split; [exact H1|]. eapply IH; exact H2. Qed.
Lemma last_end_snoc l b : last_end (l ++ [b]) = fst b + snd b.
Proof. unfold last_end. now rewrite fold_left_app. Qed.
Lemma drives_end_snoc l d : drives_end (l ++ [d]) = fst d + N.of_nat (length (snd d)).
Proof. unfold drives_end. now rewrite fold_left_app. Qed.
Lemma bursts_app p bus read cs cs' : bursts p bus read (cs ++ cs') = bursts p bus read cs ++ bursts p bus read cs'.
Proof. apply flat_map_app. Qed.

(* ---- the tables ---- *)
Lemma carried_table p t : carried (fi_std p) (eight (fi_arch p)) t = true -> silent (fi_std p) t = false ->
  match fi_std p with LPDDR6 => lpddr6_patterns t <> [] | _ => table_of p t <> [] end.
Proof. unfold table_of. destruct (fi_std p); [| | |destruct (fi_arch p)|]; destruct t; vm_compute; discriminate. Qed.
Lemma carried_route p t : carried (fi_std p) (eight (fi_arch p)) t = true ->
  routing p t = match transfers t with
                | Some read => ToData read
                | None => if silent (fi_std p) t then match fi_std p, t with DDR5, _ => ToNothing | _, END_OF_SIMULATION => ToEnd | _, _ => ToNothing end else ToBus
                end.
Proof. unfold routing. destruct (fi_std p); [| | |destruct (fi_arch p)|]; destruct t; cbn; try reflexivity; discriminate. Qed.
Lemma table_short p t : (length (table_of p t) <= 64)%nat.
Proof.
  assert (forall s a, forallb (fun t => Nat.leb (length (match s with DDR4 => ddr4_patterns t | DDR5 => ddr5_patterns t | LPDDR4 => lpddr4_patterns t
      | LPDDR5 => lpddr5_patterns a t | LPDDR6 => [] end)) 64) (COUNT :: all_cmd_types) = true) as H by (intros s a; destruct s, a; vm_compute; reflexivity).
  specialize (H (fi_std p) (fi_arch p)). rewrite forallb_forall in H. specialize (H t (every_type t)). apply Nat.leb_le in H. exact H.
Qed.
Lemma six_lengths t : lpddr6_patterns t <> [] -> (3 <= length (lpddr6_patterns t) <= 64)%nat.
Proof. intros H. split; destruct t; try (exfalso; apply H; reflexivity); vm_compute; repeat constructor. Qed.
Lemma six_column t : In (EC 0) (lpddr6_patterns t) -> transfers t <> None.
Proof. destruct t; try discriminate; intros H; vm_compute in H; intuition discriminate. Qed.

(* ---- the command bus ---- *)
Definition ca_free (p : ifspec) (b : bus) (e : N) : Prop :=
  exists ls, bus_inv (ca_pins (fi_std p)) (ca_pins (fi_std p)) (ca_beats (fi_std p)) (rest (fi_std p)) ls b /\
    b_last_load b + N.of_nat (bc_count (b_store b)) <= e.
Lemma word_goes p b t w n : ca_free p b (t * ca_beats (fi_std p)) -> t * ca_beats (fi_std p) + 64 < two64 ->
  (0 < n <= 64)%nat -> n = (Nat.div n (ca_pins (fi_std p)) * ca_pins (fi_std p))%nat ->
  exists b', bus_load_word b t w (Nat.div n (b_width b)) = Value b'.
Proof.
  intros (ls & B & L) T Hn Hw. destruct (pins_ok (fi_std p)) as (P1 & P2 & P3). unfold bus_load_word. rewrite (bi_width _ _ _ _ _ _ B). rewrite <- Hw.
  unfold check. destruct (Nat.leb_spec n 64); [|lia].
  set (bytes := bytes_of_word (Nat.div (n + 7) 8) w).
  destruct (load_ok_inv _ _ _ _ P1 P2 P3 (word_of_bound _ _) ls b (mkLoad t bytes n) B) as (b' & E & _).
  - unfold load_ok. cbn [lo_bits lo_data lo_time]. assert (Nat.div n (ca_pins (fi_std p)) <> 0)%nat by (intros Z; rewrite Z in Hw; cbn in Hw; lia).
    split; [nia|]. split; [unfold bytes; rewrite bytes_length; apply byte_count|].
    assert (Nat.div n (ca_pins (fi_std p)) <= n)%nat by (apply Nat.div_le_upper_bound; [lia|]; nia). lia.
  - exact L.
  - cbn [lo_time lo_data lo_bits] in E. eauto.
Qed.
Lemma six_encodes e c l : forall w, (In (EC 0) l -> ex_burst e = 24 \/ ex_burst e = 48) -> exists v, encode6_loop e c l w = Value v.
Proof.
  induction l as [|d l IH]; intros w H; [eexists; reflexivity|]. cbn [encode6_loop].
  assert (exists b, encode6_bit e c d = Value b) as (b & ->).
  { destruct d as [| | | |k|k|k|k|k| | |]; cbn [encode6_bit]; try (eexists; reflexivity). destruct k; [|eexists; reflexivity].
    assert ((ex_burst e =? 24) || (ex_burst e =? 48) = true) as -> by (destruct (H (or_introl eq_refl)) as [-> | ->]; reflexivity). eexists; reflexivity. }
  cbn [bind]. apply IH. intros I. apply H. now right.
Qed.
Lemma dbank_four b : b mod 4 = 0 -> lpddr6_dbank b mod 4 = 0.
Proof.
  unfold lpddr6_dbank. intros H. replace 16 with (4 * 4) by reflexivity. rewrite N.mod_mul_r by discriminate.
  rewrite N.mul_comm, N.mod_add by discriminate. rewrite N.mod_mod by discriminate. rewrite N.add_mod by discriminate. rewrite H. reflexivity.
Qed.
Lemma command_bus_goes p bus c i : pat_inv p (if_pat i) -> (fi_std p = LPDDR6 -> fi_groups p = 4) -> pat_ready p bus c (if_pat i) ->
  command_fits p bus c -> silent (fi_std p) (cmd_type c) = false -> ca_free p (if_cmd i) (cmd_ts c * ca_beats (fi_std p)) ->
  exists i', handle_command_bus c i = Value i'.
Proof.
  intros V G R [F1 F2 F3 [F4 _]] S C. pose proof (carried_table p _ F1 S) as Tb. unfold handle_command_bus. unfold pat_inv in V. destruct (if_pat i) as [h|h].
  - destruct V as (V1 & V2 & V3). rewrite V2.
    assert (table_of p (cmd_type c) <> []) as Tn by (destruct (fi_std p); try exact Tb; contradiction).
    assert (exists x, command_pattern h (cmd_type c) (coord_of c) = Value x) as (x & ->).
    { unfold command_pattern. rewrite V2. pose proof (table_short p (cmd_type c)) as L. destruct (table_of p (cmd_type c)) as [|d l] eqn:E; [contradiction|].
      unfold encode, check. rewrite (proj2 (Nat.ltb_lt 0 (length (d :: l)))) by (cbn; lia). rewrite (proj2 (Nat.leb_le _ _) L). cbn [andb bind]. eexists; reflexivity. }
    cbn [bind]. destruct (word_goes p (if_cmd i) (cmd_ts c) (fst x) (length (table_of p (cmd_type c))) C F4) as (b & ->).
    + pose proof (table_short p (cmd_type c)). destruct (table_of p (cmd_type c)); [contradiction|]. cbn [length] in *. lia.
    + destruct (pins_ok (fi_std p)) as (P1 & _). apply (lengths_at (ca_pins (fi_std p)) (fun t => length (table_of p t))); [lia|apply table_lengths].
    + cbn [bind]. eexists; reflexivity.
  - destruct V as (V1 & V2 & V3). rewrite V2. rewrite V1 in *.
    assert (exists x, command_pattern6 h (cmd_type c) (coord_of c) = Value x) as (x & ->).
    { unfold command_pattern6. rewrite V2. pose proof (six_lengths _ Tb) as L. pose proof (six_column (cmd_type c)) as Cl.
      destruct (lpddr6_patterns (cmd_type c)) as [|d l] eqn:E; [contradiction|].
      unfold encode6. rewrite V3, (G eq_refl). cbn [N.eqb].
      assert (cmd_type c <> END_OF_SIMULATION) as Ne by (intros Q; rewrite Q in S; discriminate).
      unfold check at 1. cbn [coord_of co_dbank]. rewrite (dbank_four _ (F2 eq_refl Ne)). cbn [N.eqb].
      unfold check at 1. rewrite (proj2 (Nat.ltb_lt 0 (length (d :: l)))) by (cbn; lia). rewrite (proj2 (Nat.leb_le _ 64)) by lia. cbn [andb].
      destruct (six_encodes (p6_extra h) (coord_of c) (d :: l) 0) as (v & ->).
      { intros I. specialize (Cl I). pose proof (F3 Cl) as Bf. unfold pat_ready in R. destruct (transfers (cmd_type c)); [|contradiction].
        rewrite R. apply (bf_six _ _ _ Bf V1). }
      cbn [bind]. destruct (ex_parity (p6_extra h)); [|cbn [bind]; eexists; reflexivity].
      destruct (nth_error (d :: l) 2) eqn:Q; [|apply nth_error_None in Q; lia]. cbn [bind]. eexists; reflexivity. }
    cbn [bind]. destruct (word_goes p (if_cmd i) (cmd_ts c) (fst x) (length (lpddr6_patterns (cmd_type c)))) as (b & ->).
    + rewrite V1. exact C.
    + rewrite V1. exact F4.
    + pose proof (six_lengths _ Tb). lia.
    + rewrite V1. apply (lengths_at 4 (fun t => length (lpddr6_patterns t))); [lia|apply lpddr6_lengths].
    + cbn [bind]. eexists; reflexivity.
Qed.

(* ---- the data bus ---- *)
Definition dbi_quiet (x : option dbi_pins_if) : Prop :=
  match x with Some x => db_enable (di_dbi x) = false /\ lb_init (db_read (di_dbi x)) = false /\ lb_init (db_write (di_dbi x)) = false | None => True end.
Definition tog_side (read : bool) (d : data_bus) : toggling := if read then d_tread d else d_twrite d.
Definition bus_side (read : bool) (d : data_bus) : bus := if read then d_read d else d_write d.
Definition dq_free (p : ifspec) (b : bus) (e : N) : Prop :=
  exists max ls, (N.to_nat (dq_lines p) <= max)%nat /\
    bus_inv max (N.to_nat (dq_lines p)) (fi_rate p) (idle_word (N.to_nat (dq_lines p)) (dq_rests_high (fi_std p))) ls b /\
    b_last_load b + N.of_nat (bc_count (b_store b)) <= e.
Definition tog_free (p : ifspec) (h : toggling) (e : N) : Prop :=
  tg_width h = dq_lines p /\ tg_datarate h = fi_rate p /\ tg_enabled h = true /\
  (lb_handled h = true \/ lb_length h + lb_load h <= e /\ lb_length h + lb_load h < two64).
Definition data_free (p : ifspec) (bus : bool) (d : data_bus) (read : bool) (e : N) : Prop :=
  if bus then d_mode d = ModeBus /\ dq_free p (bus_side read d) e else d_mode d = ModeToggling /\ tog_free p (tog_side read d) e.

Lemma tog_goes p h t n e : 0 < fi_rate p -> 0 < dq_lines p -> tog_free p h e -> e <= t * fi_rate p -> t * fi_rate p + n / dq_lines p < two64 -> n mod dq_lines p = 0 ->
  exists h', toggling_bits h t n = Value h' /\ tog_free p h' (t * fi_rate p + n / dq_lines p).
Proof.
  intros R0 W0 (T1 & T2 & T3 & T4) L T64 Hn. unfold toggling_bits. rewrite T1. destruct (N.eqb_spec (dq_lines p) 0); [lia|]. rewrite Hn. cbn [N.eqb check].
  assert (t * fi_rate p < two64) as V64 by (eapply N.le_lt_trans; [apply N.le_add_r|exact T64]).
  unfold toggling_burst. rewrite T2. destruct (N.eqb_spec (fi_rate p) 0); [lia|]. unfold u64_mul. rewrite (N.mod_small (t * fi_rate p)) by exact V64.
  rewrite N.div_mul by lia. rewrite N.eqb_refl. unfold check at 1.
  assert (lb_handled h || (u64_add (lb_length h) (lb_load h) <=? t * fi_rate p) = true) as ->.
  { destruct T4 as [-> | [T4 T5]]; [reflexivity|]. apply orb_true_iff. right. unfold u64_add. rewrite N.mod_small by exact T5. apply N.leb_le. lia. }
  unfold check. rewrite T3. eexists. split; [reflexivity|]. split; [exact T1|]. split; [exact T2|]. split; [reflexivity|]. right. cbn [lb_length lb_load tg_set].
  rewrite (N.add_comm (n / dq_lines p)). split; [apply N.le_refl|exact T64].
Qed.
Lemma free_later p bus d read e e' : data_free p bus d read e -> e <= e' -> data_free p bus d read e'.
Proof.
  unfold data_free, dq_free, tog_free. destruct bus; intros [D F] L; (split; [exact D|]).
  - destruct F as (max & ls & F1 & F2 & F3). exists max, ls. split; [exact F1|]. split; [exact F2|]. lia.
  - destruct F as (F1 & F2 & F3 & F4). split; [exact F1|]. split; [exact F2|]. split; [exact F3|]. destruct F4 as [F4|[F4 F5]]; [left; exact F4|right; split; [lia|exact F5]].
Qed.
Lemma load_goes p bus d read t n data e : 0 < fi_rate p -> sizes_ok p -> data_free p bus d read e -> e <= t * fi_rate p -> t * fi_rate p + n / dq_lines p < two64 ->
  dq_lines p <= n -> (bus = false -> n mod dq_lines p = 0) -> match data with Some l => bus = true -> n <= 8 * N.of_nat (length l) | None => True end ->
  exists d', load_data d read t (N.to_nat n) data = Value d' /\ data_free p bus d' read (t * fi_rate p + n / dq_lines p) /\
    (forall e', data_free p bus d (negb read) e' -> data_free p bus d' (negb read) e').
Proof.
  intros R0 (W0 & W64 & _) D L T64 Hw Hn Hd.
  assert (forall P : Prop, d_mode d = (if bus then ModeBus else ModeToggling) -> (d_mode d = (if bus then ModeBus else ModeToggling) -> P) -> P) as _ by auto.
  unfold load_data, data_load_read, data_load_write, data_load.
  destruct bus; pose proof D as [Dm Df]; rewrite Dm.
  - destruct data as [l|].
    2:{ exists d. split; [destruct read; cbn [bind fst snd]; rewrite <- Dm; destruct d; reflexivity|]. split; [|auto]. eapply free_later; [exact D|].
        eapply N.le_trans; [exact L|apply N.le_add_r]. }
    destruct (Nat.eqb_spec (N.to_nat n) 0); [lia|].
    destruct Df as (max & ls & Wm & B & E). specialize (Hd eq_refl).
    assert (N.of_nat (N.to_nat (dq_lines p)) < two64) as W64' by (rewrite N2Nat.id; exact W64).
    assert (0 < N.to_nat (dq_lines p) <= max)%nat as W1 by lia.
    assert (load_ok (N.to_nat (dq_lines p)) (fi_rate p) (mkLoad t l (N.to_nat n))) as Lo.
    { unfold load_ok. cbn [lo_bits lo_data lo_time]. split; [lia|]. split; [lia|]. rewrite Nat2N.inj_div, !N2Nat.id. exact T64. }
    destruct (load_ok_inv max _ _ _ W1 W64' R0 (word_of_bound _ _) ls _ (mkLoad t l (N.to_nat n)) B Lo) as (b' & Eb & Bi & Bl & Bc).
    { cbn [lo_time]. lia. }
    cbn [lo_time lo_data lo_bits] in Eb, Bl, Bc.
    assert (dq_free p b' (t * fi_rate p + n / dq_lines p)) as Fr.
    { exists max. eexists. split; [exact Wm|]. split; [exact Bi|]. rewrite Bl, Bc, Nat2N.inj_div, !N2Nat.id. apply N.le_refl. }
    destruct read; cbn [bus_side] in Eb; rewrite Eb; cbn [bind]; eexists; (split; [reflexivity|]); (split; [split; [reflexivity|exact Fr]|]); intros e' [_ F']; (split; [reflexivity|exact F']).
  - destruct (tog_goes p _ t n e R0 W0 Df L T64 (Hn eq_refl)) as (h' & Eh & Fr). rewrite N2Nat.id. destruct read; cbn [tog_side] in Eh; rewrite Eh; cbn [bind]; eexists;
      (split; [reflexivity|]); (split; [split; [reflexivity|exact Fr]|]); intros e' [_ F']; (split; [reflexivity|exact F']).
Qed.

Lemma cycles_beats p bus c : 0 < burst_cycles p bus c -> 0 < fi_rate p -> 0 < dq_lines p -> 0 < burst_beats p bus c /\ dq_lines p <= burst_bits p bus c.
Proof.
  unfold burst_cycles, burst_beats. intros H R W.
  assert (0 < burst_bits p bus c / dq_lines p) as B by (destruct (burst_bits p bus c / dq_lines p); [rewrite N.div_0_l in H by lia; lia|lia]).
  split; [exact B|]. destruct (N.le_gt_cases (dq_lines p) (burst_bits p bus c)) as [|Q]; [assumption|]. rewrite (N.div_small _ _ Q) in B. lia.
Qed.

Lemma burst_goes p bus c read i e : if_spec i = p -> sizes_ok p -> 0 < fi_rate p -> dbi_quiet (if_dbi i) -> data_free p bus (if_data i) read e -> e <= cmd_ts c * fi_rate p ->
  burst_fits p bus c -> exists d buf n, handle_burst c read i = Value (if_with_data i d (if_dbi i) buf, n) /\
    data_free p bus d read (cmd_ts c * fi_rate p + burst_beats p bus c) /\ (forall e', data_free p bus (if_data i) (negb read) e' -> data_free p bus d (negb read) e').
Proof.
  intros Sp Sz R0 Q D L [F1 F2 F3 F4 F5 F6]. pose proof Sz as (W0 & W64 & B64). destruct (cycles_beats p bus c F1 R0 W0) as [B1 B2].
  unfold handle_burst, bus_lines. rewrite Sp, (width_eq p W64).
  assert (is_bus (d_mode (if_data i)) = bus) as Mo by (destruct bus; destruct D as [-> _]; reflexivity).
  unfold burst_beats, burst_bits in *. destruct (N.eqb_spec (cmd_sz_bits c) 0) as [Z|Z].
  - destruct bus; [lia|]. pose proof D as [Dm Df]. rewrite Dm. unfold u64_mul. rewrite (N.mod_small _ _ B64).
    destruct (load_goes p false (if_data i) read (cmd_ts c) (fi_burst p * dq_lines p) None e) as (d & -> & K1 & K2); auto.
    cbn [bind]. exists d. do 2 eexists. split; [reflexivity|]. split; [exact K1|exact K2].
  - destruct (N.eqb_spec (dq_lines p) 0) as [|Wn]; [lia|].
    assert (invert_data c read i = Value (if_dbi i, None)) as ->.
    { unfold invert_data. destruct (if_dbi i) as [y|]; [|reflexivity]. destruct Q as (-> & _). rewrite andb_false_r. reflexivity. }
    cbn [bind fst snd].
    assert (match data_of c with Some l => cmd_sz_bits c <= 8 * N.of_nat (length l) | None => True end) as Dl.
    { unfold data_of. destruct (cmd_data c) as [|v l] eqn:E; [exact I|]. destruct F2 as [F2|[F2 _]]; [discriminate|exact F2]. }
    assert (fi_std p <> LPDDR6 -> cmd_ts c * fi_rate p + cmd_sz_bits c / dq_lines p < two64 /\ dq_lines p <= cmd_sz_bits c /\ (bus = false -> cmd_sz_bits c mod dq_lines p = 0)) as K
      by (intros N6; destruct (fi_std p); try contradiction; auto).
    assert (fi_std p <> LPDDR6 -> exists d, load_data (if_data i) read (cmd_ts c) (N.to_nat (cmd_sz_bits c)) (data_of c) = Value d /\
      data_free p bus d read (cmd_ts c * fi_rate p + cmd_sz_bits c / dq_lines p) /\ (forall e', data_free p bus (if_data i) (negb read) e' -> data_free p bus d (negb read) e')) as K1.
    { intros N6. destruct (K N6) as (K1 & K2 & K3). eapply load_goes; eauto. destruct (data_of c); auto. }
    destruct (fi_std p) eqn:Std; try (destruct K1 as (d & -> & K1 & K2); [discriminate|]; cbn [bind]; exists d; do 2 eexists; split; [reflexivity|]; split; [exact K1|exact K2]).
    set (inv := match if_dbi i with Some y => if db_enable (di_dbi y) then Some (lb_inv (db_side (di_dbi y) read)) else None | None => None end). clearbody inv.
    destruct (F5 eq_refl) as [_ [S|S]]; [contradiction|].
    assert (exists n, (n = 1 \/ n = 2)%nat /\ N.to_nat (cmd_sz_bits c) = (256 * n)%nat /\ (n = 2%nat -> fi_wild p <> None)) as (n & N1 & N2 & N3).
    { destruct S as [S|[S S']]; rewrite S; [exists 1%nat|exists 2%nat]; (split; [auto|]); (split; [reflexivity|]); [discriminate|auto]. }
    assert (exists f, format_data (fi_wild p) (if_meta i) (if_buf i) (data_of c) (N.to_nat (cmd_sz_bits c)) inv = Value (f, (n * 288)%nat) /\
      match f with Some l => (n * 288 <= 8 * length l)%nat | None => True end) as (f & -> & Fl).
    { destruct (data_of c) as [l|] eqn:E.
      - destruct (FormatProofs.format_bits (fi_wild p) (if_meta i) (if_buf i) l inv n N1) as (r & Er & Lr & _); [|exact N3|].
        + lia.
        + rewrite N2. exists (Some r). split; [exact Er|]. lia.
      - exists None. rewrite N2. unfold format_data. destruct N1; subst n; split; auto; reflexivity. }
    cbn [bind fst snd].
    assert (9 * cmd_sz_bits c / 8 = N.of_nat (n * 288)) as Nb.
    { assert (cmd_sz_bits c = N.of_nat (256 * n)) as -> by lia. destruct N1; subst n; reflexivity. }
    rewrite Nb in *.
    assert (exists d, load_data (if_data i) read (cmd_ts c) (n * 288) f = Value d /\
      data_free p bus d read (cmd_ts c * fi_rate p + N.of_nat (n * 288) / dq_lines p) /\ (forall e', data_free p bus (if_data i) (negb read) e' -> data_free p bus d (negb read) e')) as (d & -> & K2 & K3).
    { destruct (load_goes p bus (if_data i) read (cmd_ts c) (N.of_nat (n * 288)) f e R0 Sz D L F6 B2 F3) as (d & Ed & Kd); [destruct f; [lia|exact I]|].
      rewrite Nat2N.id in Ed. exists d. split; [exact Ed|exact Kd]. }
    cbn [bind]. exists d. do 2 eexists. split; [reflexivity|]. split; [exact K2|exact K3].
Qed.

(* ---- strobes ---- *)
Lemma pulse_goes k t n rate : ck_start k = None -> 0 < n / rate -> t + n / rate < two64 -> exists k', pulse k t n rate = Value k'.
Proof.
  intros K H T. unfold pulse. destruct (N.eqb_spec rate 0) as [->|_]; [destruct n; cbn in H; lia|].
  unfold clock_start. rewrite K. cbn [bind]. unfold clock_stop. cbn [ck_start]. unfold u64_add. rewrite N.mod_small by exact T.
  rewrite (proj2 (N.ltb_lt t (t + n / rate))) by lia. cbn [check]. eexists; reflexivity.
Qed.
Lemma strobe_stops p bus want cs : forall k k', ck_start k = None -> clock_run (strobe p bus want cs) k = Value k' -> ck_start k' = None.
Proof.
  induction cs as [|c cs IH]; intros k k' K E; [apply value_inj in E; now subst|]. cbn [strobe flat_map] in E.
  destruct (transfers (cmd_type c)) as [read|]; [|now apply (IH k)]. destruct (want read); [|now apply (IH k)].
  cbn [app] in E. apply loop_cons_inv in E as (k1 & E1 & E). apply loop_cons_inv in E as (k2 & E2 & E). eapply IH; [|exact E].
  cbn [clock_do] in E2. unfold clock_stop in E2. destruct (ck_start k1); [|discriminate]. apply check_inv in E2 as [_ E2]. apply value_inj in E2. subst k2. reflexivity.
Qed.
Lemma dqs_goes p bus c read i : if_spec i = p -> ck_start (if_rdqs i) = None -> (two_clocks (fi_std p) = false -> ck_start (if_wdqs i) = None) ->
  (two_clocks (fi_std p) = true -> fi_wck_on p = false -> ck_start (if_wck i) = None) -> 0 < burst_cycles p bus c -> cmd_ts c + burst_cycles p bus c < two64 ->
  exists r w k, handle_dqs c read (burst_beats p bus c) i = Value (if_with_clocks i r w k).
Proof.
  intros Sp K1 K2 K3 C0 T. unfold handle_dqs. rewrite Sp. unfold burst_cycles in *.
  destruct (pulse_goes _ _ _ _ K1 C0 T) as (r & Er).
  destruct (fi_std p); cbn [two_clocks] in *.
  1,2,3: destruct (pulse_goes _ _ _ _ (K2 eq_refl) C0 T) as (w & Ew); destruct read; [rewrite Er|rewrite Ew]; cbn [bind]; do 3 eexists; reflexivity.
  all: destruct (fi_wck_on p); [|destruct (pulse_goes _ _ _ _ (K3 eq_refl eq_refl) C0 T) as (k & Ek); rewrite Ek];
    destruct read; rewrite ?Er; cbn [bind]; do 3 eexists; reflexivity.
Qed.

(* ---- a burst ---- *)
Definition rank_free (p : ifspec) (er ew : N) (r : rank_if) : Prop := ri_rend r * fi_rate p <= er /\ ri_wend r * fi_rate p <= ew.
Definition ranks_free (p : ifspec) (l : list rank_if) (er ew : N) : Prop :=
  fi_std p = DDR4 -> length l = fi_ranks p /\ Forall (rank_free p er ew) l.
Lemma upd_length {A} (f : A -> A) l : forall k, length (upd k f l) = length l.
Proof. induction l as [|x l IH]; intros [|k]; cbn; auto. Qed.
Lemma upd_forall {A} (P : A -> Prop) (f : A -> A) l : (forall x, P x -> P (f x)) -> forall k, Forall P l -> Forall P (upd k f l).
Proof. intros H. induction l as [|x l IH]; intros [|k] F; cbn; auto; inversion F; subst; constructor; auto. Qed.
Lemma amble_goes p c (read : bool) n r er ew : 0 < fi_rate p -> rank_free p er ew r -> er <= (if read then cmd_ts c * fi_rate p else er) -> ew <= (if read then ew else cmd_ts c * fi_rate p) ->
  cmd_ts c + n / fi_rate p < two64 ->
  exists r', handle_prepostamble (cmd_ts c) (n / fi_rate p) r read = Value r' /\
    rank_free p (if read then cmd_ts c * fi_rate p + n else er) (if read then ew else cmd_ts c * fi_rate p + n) r'.
Proof.
  intros R0 [F1 F2] L1 L2 T. unfold handle_prepostamble.
  assert ((if read then ri_rend r else ri_wend r) <=? cmd_ts c = true) as ->.
  { apply N.leb_le. destruct read; apply (N.mul_le_mono_pos_r _ _ (fi_rate p) R0); lia. }
  cbn [check]. unfold u64_add. rewrite (N.mod_small (cmd_ts c + n / fi_rate p)) by exact T.
  assert ((cmd_ts c + n / fi_rate p) * fi_rate p <= cmd_ts c * fi_rate p + n) as E.
  { rewrite N.mul_add_distr_r. apply N.add_le_mono_l. rewrite N.mul_comm. apply N.mul_div_le. lia. }
  eexists. split; [reflexivity|]. destruct read; split; cbn [ri_rend ri_wend]; auto.
Qed.

Lemma data_goes p bus c (read : bool) i er ew : if_spec i = p -> sizes_ok p -> 0 < fi_rate p -> (fi_std p = LPDDR6 -> fi_groups p = 4) -> pat_inv p (if_pat i) ->
  transfers (cmd_type c) = Some read -> command_fits p bus c -> ca_free p (if_cmd i) (cmd_ts c * ca_beats (fi_std p)) -> dbi_quiet (if_dbi i) ->
  data_free p bus (if_data i) read (if read then er else ew) -> (if read then er else ew) <= cmd_ts c * fi_rate p -> ranks_free p (if_ranks i) er ew ->
  ck_start (if_rdqs i) = None -> (two_clocks (fi_std p) = false -> ck_start (if_wdqs i) = None) ->
  (two_clocks (fi_std p) = true -> fi_wck_on p = false -> ck_start (if_wck i) = None) ->
  exists d i', handle_data c read i = Value i' /\ if_dbi i' = if_dbi i /\ if_data i' = d /\
    data_free p bus d read (cmd_ts c * fi_rate p + burst_beats p bus c) /\ (forall e', data_free p bus (if_data i) (negb read) e' -> data_free p bus d (negb read) e') /\
    ranks_free p (if_ranks i') (if read then cmd_ts c * fi_rate p + burst_beats p bus c else er) (if read then ew else cmd_ts c * fi_rate p + burst_beats p bus c).
Proof.
  intros Sp Sz R0 G V T F C Q D L Rk K1 K2 K3.
  assert (burst_fits p bus c) as Bf by (apply (cf_burst _ _ _ F); rewrite T; discriminate).
  assert (is_bus (d_mode (if_data i)) = bus) as Mo by (destruct bus; destruct D as [-> _]; reflexivity).
  destruct (burst_goes p bus c read i _ Sp Sz R0 Q D L Bf) as (d & buf & n & Eb & Df & Do).
  assert (n = burst_beats p bus c) as ->.
  { destruct (burst_effect p bus c read i _ Sp Mo Sz Eb) as (? & ? & ? & Ex & _). congruence. }
  assert (cmd_ts c + burst_cycles p bus c < two64) as T64.
  { eapply N.le_lt_trans; [|exact (bf_time _ _ _ Bf)]. unfold burst_cycles. apply N.add_le_mono.
    - rewrite <- (N.mul_1_r (cmd_ts c)) at 1. apply N.mul_le_mono_l. lia.
    - apply N.div_le_upper_bound; [lia|]. nia. }
  unfold handle_data. rewrite Eb. cbn [bind fst snd].
  destruct (dqs_goes p bus c read (if_with_data i d (if_dbi i) buf) Sp K1 K2 K3 (bf_cycle _ _ _ Bf) T64) as (r & w & k & Ek). rewrite Ek. cbn [bind].
  set (j := if_with_clocks (if_with_data i d (if_dbi i) buf) r w k).
  destruct (overrides_ready p bus c read j Sp V T) as [V1 V2].
  destruct (overrides_spec j (burst_beats p bus c) read) as (h & Eh). rewrite Eh in *.
  assert (silent (fi_std p) (cmd_type c) = false) as Sl by (unfold silent; destruct (cmd_type c); try discriminate; reflexivity).
  destruct (command_bus_goes p bus c (if_with_pat j h) V1 G V2 F Sl C) as (i' & Ei). rewrite Ei. cbn [bind].
  assert (exists b h', i' = if_with_cmd (if_with_pat j h) b h') as (b & h' & ->).
  { unfold handle_command_bus in Ei. destruct (if_pat (if_with_pat j h)); apply bind_inv in Ei as (x & _ & Ei); apply bind_inv in Ei as (b & _ & Ei);
      apply value_inj in Ei; subst i'; eauto. }
  cbn [if_with_cmd if_with_pat if_spec j if_with_clocks if_with_data if_ranks]. rewrite Sp. fold j.
  assert (fi_std p <> DDR4 -> exists d0 i', Value (if_with_cmd (if_with_pat j h) b h') = Value i' /\ if_dbi i' = if_dbi i /\ if_data i' = d0 /\
    data_free p bus d0 read (cmd_ts c * fi_rate p + burst_beats p bus c) /\ (forall e', data_free p bus (if_data i) (negb read) e' -> data_free p bus d0 (negb read) e') /\
    ranks_free p (if_ranks i') (if read then cmd_ts c * fi_rate p + burst_beats p bus c else er) (if read then ew else cmd_ts c * fi_rate p + burst_beats p bus c)) as Other.
  { intros N4. exists d. eexists. split; [reflexivity|]. split; [reflexivity|]. split; [reflexivity|]. split; [exact Df|]. split; [exact Do|]. intros Q4. contradiction. }
  destruct (fi_std p) eqn:Std; try (apply Other; discriminate).
  destruct (Rk Std) as [Rl Rf]. pose proof (bf_rank _ _ _ Bf Std) as Hr. rewrite Rl. rewrite (proj2 (Nat.ltb_lt _ _) Hr). cbn [check].
  destruct (nth_error (if_ranks i) (N.to_nat (cmd_rank c))) as [rk|] eqn:Er; [|apply nth_error_None in Er; lia].
  unfold fetch. rewrite Er. cbn [bind].
  assert (rank_free p er ew rk) as Rk1 by (rewrite Forall_forall in Rf; apply Rf; eapply nth_error_In; exact Er).
  destruct (amble_goes p c read (burst_beats p bus c) rk er ew R0 Rk1) as (rk' & Ea & Fa).
  { destruct read; [exact L|apply N.le_refl]. }
  { destruct read; [apply N.le_refl|exact L]. }
  { exact T64. }
  rewrite Ea. cbn [bind]. exists d. eexists. split; [reflexivity|]. split; [reflexivity|]. split; [reflexivity|]. split; [exact Df|]. split; [exact Do|].
  intros _. cbn [if_with_ranks if_ranks]. rewrite upd_length. split; [exact Rl|].
  apply upd_forall; [intros x _; exact Fa|]. eapply Forall_impl; [|exact Rf]. intros x [X1 X2]. split; destruct read; lia.
Qed.

(* ---- a command ---- *)
Lemma commands_do cs : commands (map Do cs) = cs.
Proof. unfold commands. induction cs as [|c cs IH]; [reflexivity|]. cbn [map flat_map app]. now rewrite IH. Qed.
Record prog_inv (p : ifspec) (bus : bool) (i0 : iface) (cs : list Command) (i : iface) : Prop := {
  pg_run : run_inv p bus i0 (map Do cs) i;
  pg_data : forall read, data_free p bus (if_data i) read (last_end (bursts p bus read cs));
  pg_dbi : dbi_quiet (if_dbi i);
  pg_same : if_dbi i = if_dbi i0;
  pg_ranks : ranks_free p (if_ranks i) (last_end (bursts p bus true cs)) (last_end (bursts p bus false cs))
}.
Lemma bursts_one p bus read r c : transfers (cmd_type c) = Some r -> bursts p bus read [c] = if eqb r read then [(cmd_ts c * fi_rate p, burst_beats p bus c)] else [].
Proof. intros T. unfold bursts. cbn [flat_map]. rewrite T. destruct (eqb r read); reflexivity. Qed.
Lemma bursts_none p bus read c : transfers (cmd_type c) = None -> bursts p bus read [c] = [].
Proof. intros T. unfold bursts. cbn [flat_map]. rewrite T. reflexivity. Qed.
Lemma quiet_end x t : dbi_quiet (Some x) -> dbi_if_end x t = Value x.
Proof.
  intros (Q1 & Q2 & Q3). destruct x as [y pr pw rt]. cbn [di_dbi] in *. unfold dbi_if_end, dbi_reset_both, dbi_reset. cbn [di_dbi db_side]. rewrite Q2. cbn [negb orb check bind fst snd].
  cbn [db_side]. rewrite Q3. cbn [negb orb check bind fst snd app deliver loop di_with di_read di_write di_rate]. reflexivity.
Qed.

Lemma step_goes p bus i0 cs c i : sizes_ok p -> 0 < fi_rate p -> (fi_std p = LPDDR6 -> fi_groups p = 4) ->
  ck_start (if_rdqs i0) = None -> ck_start (if_wdqs i0) = None -> (two_clocks (fi_std p) = true -> fi_wck_on p = false -> ck_start (if_wck i0) = None) ->
  trace_fits p bus (cs ++ [c]) -> prog_inv p bus i0 cs i -> exists i', if_command c i = Value i' /\ prog_inv p bus i0 (cs ++ [c]) i'.
Proof.
  intros Sz R0 G K1 K2 K3 [F1 F2 F3 F4] [V Vd Vq Vs Vr]. apply Forall_app in F1 as [_ F1]. inversion F1 as [|? ? F _]; subst. clear F1.
  pose proof (rn_spec _ _ _ _ _ V) as Sp.
  assert (ca_free p (if_cmd i) (cmd_ts c * ca_beats (fi_std p)) \/ silent (fi_std p) (cmd_type c) = true) as C.
  { destruct (silent (fi_std p) (cmd_type c)) eqn:S; [now right|left]. destruct (rn_cmd _ _ _ _ _ V) as (ls & B & D & _ & L). exists ls. split; [exact B|].
    rewrite L, load_end_drives, D, commands_do. rewrite drives_app in F2. unfold ca_drives at 2 in F2. cbn [flat_map] in F2. rewrite S in F2. cbn [app] in F2.
    apply apart_end in F2. exact F2. }
  rewrite !bursts_app in *.
  assert (forall i', if_command c i = Value i' -> run_inv p bus i0 (map Do (cs ++ [c])) i') as Run.
  { intros i' E. rewrite map_app. cbn [map]. eapply run_step; try eassumption. intros c' Q. injection Q as <-. exact (cf_time _ _ _ F). }
  assert (ck_start (if_rdqs i) = None) as K1' by (eapply strobe_stops; [|exact (rn_rdqs _ _ _ _ _ V)]; exact K1).
  assert (two_clocks (fi_std p) = false -> ck_start (if_wdqs i) = None) as K2'.
  { intros T. pose proof (rn_wdqs _ _ _ _ _ V) as W. rewrite T in W. eapply strobe_stops; [|exact W]. exact K2. }
  assert (two_clocks (fi_std p) = true -> fi_wck_on p = false -> ck_start (if_wck i) = None) as K3'.
  { intros T O. pose proof (rn_wck _ _ _ _ _ V T) as W. rewrite O in W. eapply strobe_stops; [|exact W]. exact (K3 T O). }
  pose proof (carried_route p _ (cf_type _ _ _ F)) as Rt.
  destruct (transfers (cmd_type c)) as [read|] eqn:T.
  - rewrite !(bursts_one p bus _ read c T) in *.
    assert (silent (fi_std p) (cmd_type c) = false) as Sl by (unfold silent; destruct (cmd_type c); try discriminate; reflexivity).
    destruct C as [C|C]; [|congruence].
    assert ((if read then last_end (bursts p bus true cs) else last_end (bursts p bus false cs)) <= cmd_ts c * fi_rate p) as L.
    { destruct read; cbn [eqb] in *; [apply overlap_end in F3|apply overlap_end in F4]; assumption. }
    destruct (data_goes p bus c read i (last_end (bursts p bus true cs)) (last_end (bursts p bus false cs)) Sp Sz R0 G (rn_pat _ _ _ _ _ V) T F C Vq) as (d & i' & E & E1 & E2 & E3 & E4 & E5); try exact Vr; auto.
    { destruct read; apply Vd. }
    assert (if_command c i = Value (if_with_last i' (cmd_ts c))) as Ec by (unfold if_command; rewrite Sp, Rt, E; reflexivity).
    exists (if_with_last i' (cmd_ts c)). split; [exact Ec|]. constructor; [now apply Run| | | |]; cbn [if_with_last if_data if_dbi if_ranks].
    + intros r. rewrite bursts_app, (bursts_one p bus r read c T). rewrite E2. destruct (eqb read r) eqn:Q.
      * apply eqb_prop in Q. subst r. rewrite last_end_snoc. exact E3.
      * rewrite app_nil_r. assert (r = negb read) as -> by (destruct r, read; try discriminate; reflexivity). apply E4, Vd.
    + rewrite E1. exact Vq.
    + rewrite E1. exact Vs.
    + rewrite !bursts_app, !(bursts_one p bus _ read c T). destruct read; cbn [eqb]; rewrite last_end_snoc, app_nil_r; exact E5.
  - rewrite !(bursts_none p bus _ c T) in *. rewrite app_nil_r in *.
    assert (forall j, (match routing p (cmd_type c) with ToBus => handle_command_bus c i | ToData read => handle_data c read i | ToEnd => end_of_simulation (cmd_ts c) i
        | ToNothing => Value i | ToThrow => Fails Exception | ToAssert => Fails Assertion end) = Value j -> if_data j = if_data i -> if_dbi j = if_dbi i -> if_ranks j = if_ranks i ->
      exists i', if_command c i = Value i' /\ prog_inv p bus i0 (cs ++ [c]) i') as K.
    { intros j E J1 J2 J3. assert (if_command c i = Value (if_with_last j (cmd_ts c))) as Ec by (unfold if_command; rewrite Sp, E; reflexivity).
      exists (if_with_last j (cmd_ts c)). split; [exact Ec|]. constructor; [now apply Run| | | |]; cbn [if_with_last if_data if_dbi if_ranks]; rewrite ?J1, ?J2, ?J3, ?bursts_app.
      - intros r. rewrite bursts_app, (bursts_none p bus r c T), app_nil_r. apply Vd.
      - exact Vq.
      - exact Vs.
      - rewrite !(bursts_none p bus _ c T), !app_nil_r. exact Vr. }
    destruct (silent (fi_std p) (cmd_type c)) eqn:S.
    + destruct (match fi_std p, cmd_type c with DDR5, _ => ToNothing | _, END_OF_SIMULATION => ToEnd | _, _ => ToNothing end) eqn:Q;
        try (exfalso; destruct (fi_std p), (cmd_type c); discriminate).
      * rewrite Rt in K. assert (end_of_simulation (cmd_ts c) i = Value i) as E.
        { unfold end_of_simulation. destruct (if_dbi i) as [x|] eqn:X; [|reflexivity]. rewrite (quiet_end x _ Vq). cbn [bind]. unfold if_with_dbi, if_with_data. rewrite <- X. destruct i; reflexivity. }
        eapply K; eauto.
      * rewrite Rt in K. eapply K; eauto.
    + rewrite Rt in K. destruct C as [C|C]; [|congruence].
      destruct (command_bus_goes p bus c i (rn_pat _ _ _ _ _ V) G) as (i' & E); auto; [unfold pat_ready; now rewrite T|].
      eapply K; [exact E| | |]; unfold handle_command_bus in E; destruct (if_pat i); apply bind_inv in E as (x & _ & E); apply bind_inv in E as (b & _ & E); apply value_inj in E; subst i'; reflexivity.
Qed.

(* ---- a trace ---- *)
Lemma start_goes p sim i0 : sizes_ok p -> iface_new p sim = Value i0 ->
  prog_inv p (no_toggle sim) i0 [] i0 /\ 0 < fi_rate p /\ ck_start (if_rdqs i0) = None /\ ck_start (if_wdqs i0) = None /\
  (two_clocks (fi_std p) = true -> fi_wck_on p = false -> ck_start (if_wck i0) = None).
Proof.
  intros Sz E. pose proof (start_inv p sim i0 E) as V. destruct (new_config p sim i0 Sz E) as (max & Wm & D & C & Wd). pose proof (new_built _ _ _ E) as B.
  destruct Sz as (W0 & W64 & _). destruct C as (C1 & C2 & R0 & C4). change (0 < fi_rate p) in R0.
  split; [|split; [exact R0|]].
  - constructor; [exact V| | |reflexivity|].
    + assert (0 < N.to_nat (dq_lines p) <= max)%nat as W1 by lia.
      intros read. unfold data_new in D. apply bind_inv in D as (ir & I1 & D). apply bind_inv in D as (br & B1 & D). apply bind_inv in D as (iw & I2 & D). apply bind_inv in D as (bw & B2 & D).
      apply bind_inv in D as (tr & T1 & D). apply bind_inv in D as (tw & T2 & D). apply value_inj in D. rewrite rate_eq, Wd in *.
      destruct sim as [sd|]; cbn [no_toggle data_free data_mode is_bus negb] in *.
      * split; [rewrite <- D; reflexivity|]. rewrite N2Nat.id in *.
        assert (forall r du id h, toggling_new (dq_lines p) (fi_rate p) r du id true = Value h -> tog_free p h (last_end (bursts p false read []))) as K.
        { intros r du id h H. unfold toggling_new in H. repeat (apply check_inv in H as [_ H]). apply value_inj in H. subst h. repeat split. now left. }
        rewrite <- D. destruct read; eapply K; eassumption.
      * split; [rewrite <- D; reflexivity|]. destruct (bus_idle p) as [Q1 Q2].
        rewrite (convert_high _ _ Q1) in I1. rewrite (convert_high _ _ Q2) in I2. apply value_inj in I1, I2. subst ir iw.
        destruct (bus_new_inv max (N.to_nat (dq_lines p)) (fi_rate p) (dq_rests_high (fi_std p)) W1) as (b & N1 & N2 & N3 & N4); [now rewrite N2Nat.id|].
        assert (dq_free p b 0) as K by (exists max, []; split; [exact Wm|]; split; [exact N2|]; rewrite N3, N4; apply N.le_refl).
        rewrite N1 in B1, B2. apply value_inj in B1, B2. subst br bw. rewrite <- D. destruct read; exact K.
    + pose proof (bt_dbi _ _ _ B) as X. unfold new_dbi in X. unfold dbi_quiet. destruct (if_dbi i0) as [x|]; [|exact I].
      destruct (fi_std p); try discriminate.
      4:{ apply bind_inv in X as (d & X1 & X). injection X as <-. unfold dbi_new in X1. apply check_inv in X1 as [_ X1]. apply value_inj in X1. subst d. repeat split. }
      all: apply bind_inv in X as (d & X1 & X); injection X as <-; unfold dbi_if_new in X1; apply bind_inv in X1 as (y & Y & X1);
        destruct (chunks_per_width (dbi_config_of p)); [|discriminate]; apply value_inj in X1; subst d; unfold dbi_new in Y; apply check_inv in Y as [_ Y]; apply value_inj in Y; subst y; repeat split.
    + intros S4. rewrite (bt_ranks _ _ _ B), S4. split; [apply repeat_length|]. apply Forall_forall. intros x H. apply repeat_spec in H. subst x. split; cbn; apply N.le_0_l.
  - split; [rewrite (bt_rdqs _ _ _ B); reflexivity|]. split; [rewrite (bt_wdqs _ _ _ B); reflexivity|]. intros T O. rewrite (bt_wck _ _ _ B T), O. reflexivity.
Qed.
Lemma fits_app p bus cs cs' : trace_fits p bus (cs ++ cs') -> trace_fits p bus cs.
Proof.
  intros [F1 F2 F3 F4]. rewrite drives_app in F2. rewrite bursts_app in F3, F4. apply Forall_app in F1 as [F1 _]. constructor;
    [exact F1|eapply apart_app; exact F2|eapply overlap_app; exact F3|eapply overlap_app; exact F4].
Qed.
Theorem trace_goes p sim i0 cs : sizes_ok p -> (fi_std p = LPDDR6 -> fi_groups p = 4) -> iface_new p sim = Value i0 -> trace_fits p (no_toggle sim) cs ->
  exists i, calls_run (map Do cs) i0 = Value i /\ prog_inv p (no_toggle sim) i0 cs i.
Proof.
  intros Sz G E. destruct (start_goes p sim i0 Sz E) as (V0 & R0 & K1 & K2 & K3). induction cs as [|c cs IH] using rev_ind; intros F.
  - exists i0. split; [reflexivity|exact V0].
  - destruct (IH (fits_app _ _ _ _ F)) as (i & R & V). destruct (step_goes p (no_toggle sim) i0 cs c i Sz R0 G K1 K2 K3 F V) as (i' & S & V').
    exists i'. split; [|exact V']. unfold calls_run. rewrite map_app, BusProofs.loop_app. unfold calls_run in R. rewrite R. cbn [bind map loop call_do]. rewrite S. reflexivity.
Qed.
