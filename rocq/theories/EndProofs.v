(* What an interface answers to a command it does not take. *)
From Coq Require Import NArith List Bool Arith Lia.
From Verif Require Import Base Command CoreModel Bits BusModel WaveSpec BitFacts StorageProofs BusProofs BusMore ClockProofs ToggleModel ToggleProofs DataProofs
  PinModel DbiModel DbiPinModel StatsModel PatternModel PatternTables PatternSpec PatternProofs FormatModel FormatProofs InterfaceModel InterfaceSpec WireSpec
  InterfaceCa InterfaceRun InterfaceTop WireProofs InterfaceData ProgressSpec ProgressProofs ProgressTables TakenSpec TakenProofs EndSpec.
Import ListNotations.
Local Open Scope N_scope.
Ltac Zify.zify_post_hook ::= idtac.

Definition asserts {A} (r : result A) : Prop := forall f, r = Fails f -> f = Assertion.
Lemma bind_asserts {A B} (m : result A) (k : A -> result B) : asserts m -> (forall a, m = Value a -> asserts (k a)) -> asserts (bind m k).
Proof. intros H K f E. destruct m as [a|g]; cbn [bind] in E; [exact (K a eq_refl f E)|]. injection E as ->. now apply H. Qed.
Lemma check_asserts {A} (b : bool) (k : result A) : (b = true -> asserts k) -> asserts (check b k).
Proof. intros H f E. destruct b; cbn [check] in E; [exact (H eq_refl f E)|]. now injection E as <-. Qed.
Lemma value_asserts {A} (a : A) : asserts (Value a).
Proof. intros f E. discriminate E. Qed.
Lemma made_asserts {A} (r : result A) : (exists a, r = Value a) -> asserts r.
Proof. intros (a & ->). apply value_asserts. Qed.

(* A load, of no beat at all too. *)
Lemma load_asserts max width rate idle ls b t data n : (0 < width <= max)%nat -> N.of_nat width < two64 -> 0 < rate -> bounded width idle -> bus_inv max width rate idle ls b ->
  (n <= 8 * length data)%nat -> t * rate + N.of_nat (Nat.div n width) < two64 -> asserts (bus_load b t data n).
Proof.
  intros W W64 R0 Bd B Hn T f E.
  destruct (N.le_gt_cases (b_last_load b + N.of_nat (bc_count (b_store b))) (t * rate)) as [L|L].
  - destruct (Nat.le_gt_cases width n) as [Hw|Hw].
    + destruct (load_ok_inv max width rate idle W W64 R0 Bd ls b (mkLoad t data n) B) as (b' & Eb & _); [split; [exact Hw|split; [exact Hn|exact T]]|exact L|]. cbn [lo_time lo_data lo_bits] in Eb.
      rewrite E in Eb. discriminate Eb.
    + assert (t * rate < two64) as V64 by (eapply N.le_lt_trans; [apply N.le_add_r|exact T]).
      unfold bus_load in E. rewrite (bi_on _ _ _ _ _ _ B), (bi_rate _ _ _ _ _ _ B) in E. destruct (N.eqb_spec rate 0); [lia|].
      revert f E. apply check_asserts. intros _. cbv zeta. apply check_asserts. intros _. unfold u64_mul. rewrite (N.mod_small (t * rate)) by exact V64.
      apply bind_asserts.
      * unfold add_previous_stats. apply check_asserts. intros _. cbv zeta.
        assert (b_last_load b <= t * rate) as L' by (eapply N.le_trans; [apply N.le_add_r|exact L]).
        pose proof (collected_ok max width rate idle W W64 R0 Bd ls b (t * rate) B) as CO.
        rewrite CO by (first [exact L'|exact V64]).
        apply bind_asserts; [apply value_asserts|]. intros s' _. apply bind_asserts; [|intros; apply value_asserts].
        destruct (N.ltb_spec 0 (t * rate)); [|apply value_asserts].
        rewrite (bi_at _ _ _ _ _ _ B); [apply value_asserts|].
        destruct (N.eq_dec (b_last_load b) 0); [lia|].
        assert (bc_count (b_store b) <> 0%nat) by (intros Z; apply (bi_first _ _ _ _ _ _ B) in Z; lia). lia.
      * intros b1 E1.
        assert (b_width b1 = width) as W1.
        { unfold add_previous_stats in E1. apply check_inv in E1 as [_ E1]. cbv zeta in E1. apply bind_inv in E1 as (s' & _ & E1). apply bind_inv in E1 as (l & _ & E1). apply value_inj in E1. subst b1.
          cbn [with_stats b_width]. exact (bi_width _ _ _ _ _ _ B). }
        unfold add_data. cbn [with_store b_max b_width b_store b_last_load b_last b_idle b_pending b_stats]. rewrite W1. unfold insert_data.
        destruct width as [|w]; [lia|]. rewrite (Nat.div_small n (S w)) by exact Hw. cbn [seq loop bind cu_store].
        unfold bus_at. cbn [with_store b_last_load b_store storage_finish bc_count b_idle]. rewrite N.leb_refl. cbn [check]. rewrite N.sub_diag. cbn [N.of_nat N.leb N.compare bind]. apply value_asserts.
  - unfold bus_load in E. rewrite (bi_on _ _ _ _ _ _ B), (bi_rate _ _ _ _ _ _ B) in E. destruct (N.eqb_spec rate 0); [lia|].
    revert f E. apply check_asserts. intros _. cbv zeta. apply check_asserts. intros H. exfalso.
    assert (t * rate < two64) as V64 by (eapply N.le_lt_trans; [apply N.le_add_r|exact T]). unfold u64_mul, u64_add in H.
    rewrite (N.mod_small (t * rate)) in H by exact V64. rewrite N.mod_small in H by exact (bi_end _ _ _ _ _ _ B). apply N.leb_le in H. lia.
Qed.
Lemma toggling_asserts p h t n e : 0 < fi_rate p -> 0 < dq_lines p -> tog_free p h e -> asserts (toggling_bits h t n).
Proof.
  intros R0 W0 (T1 & T2 & _). unfold toggling_bits. rewrite T1. destruct (N.eqb_spec (dq_lines p) 0); [lia|]. apply check_asserts. intros _.
  unfold toggling_burst. rewrite T2. destruct (N.eqb_spec (fi_rate p) 0); [lia|]. apply check_asserts. intros _. apply check_asserts. intros _. apply value_asserts.
Qed.
Lemma data_asserts p bus d read t n data e : 0 < fi_rate p -> sizes_ok p -> data_free p bus d read e -> t * fi_rate p + n / dq_lines p < two64 ->
  match data with Some l => bus = true -> n <= 8 * N.of_nat (length l) | None => True end -> asserts (load_data d read t (N.to_nat n) data).
Proof.
  intros R0 (W0 & W64 & _) D T64 Hd. unfold load_data, data_load_read, data_load_write, data_load. destruct bus; destruct D as [Dm Df]; rewrite Dm.
  - assert (forall l, n <= 8 * N.of_nat (length l) -> asserts (bus_load (bus_side read d) t l (N.to_nat n))) as K.
    { intros l Hl. destruct Df as (max & ls & Wm & B & _). eapply load_asserts; [| | | |exact B| |].
      - split; [lia|exact Wm].
      - rewrite N2Nat.id. exact W64.
      - exact R0.
      - apply word_of_bound.
      - lia.
      - rewrite Nat2N.inj_div, !N2Nat.id. exact T64. }
    destruct read; cbn [bus_side] in K; (destruct data as [l|]; [destruct (Nat.eqb (N.to_nat n) 0)|]); cbn [bind]; try (intros f E; discriminate E);
      (apply bind_asserts; [|intros; apply value_asserts]); (apply bind_asserts; [apply K; now apply Hd|intros; apply value_asserts]).
  - rewrite N2Nat.id. destruct read; cbn [tog_side] in Df; (apply bind_asserts; [|intros; apply value_asserts]);
      (apply bind_asserts; [now apply (toggling_asserts p _ t n e)|intros; apply value_asserts]).
Qed.

(* The data part of a command. *)
Lemma burst_asserts p bus c read i e : if_spec i = p -> is_bus (d_mode (if_data i)) = bus -> sizes_ok p -> 0 < fi_rate p -> dbi_quiet (if_dbi i) -> data_free p bus (if_data i) read e ->
  transfers (cmd_type c) = Some read -> dressed p bus c -> asserts (handle_burst c read i).
Proof.
  intros Sp Mo Sz R0 Q D T Dr. assert (transfers (cmd_type c) <> None) as Tn by (rewrite T; discriminate). pose proof Sz as (W0 & W64 & B64).
  pose proof (dr_end _ _ _ Dr Tn) as T64.
  unfold handle_burst, bus_lines. rewrite Sp, (width_eq p W64). unfold burst_beats, burst_bits in T64.
  destruct (cmd_sz_bits c =? 0) eqn:Z.
  - destruct (d_mode (if_data i)) eqn:M; [apply value_asserts|]. cbn [is_bus] in Mo. subst bus. unfold u64_mul. rewrite (N.mod_small (fi_burst p * dq_lines p)) by exact B64.
    apply bind_asserts; [|intros; apply value_asserts]. eapply data_asserts; [exact R0|exact Sz|exact D| |exact Logic.I].
    rewrite N.div_mul in * by lia. exact T64.
  - apply N.eqb_neq in Z. destruct (N.eqb_spec (dq_lines p) 0); [lia|].
    assert (invert_data c read i = Value (if_dbi i, None)) as Iv.
    { unfold invert_data. destruct (if_dbi i) as [y|]; [|reflexivity]. destruct Q as (-> & _). rewrite andb_false_r. reflexivity. }
    rewrite Iv. cbn [bind fst snd].
    assert (match data_of c with Some l => bus = true -> cmd_sz_bits c <= 8 * N.of_nat (length l) | None => True end) as Dl.
    { unfold data_of. destruct (cmd_data c) as [|v l] eqn:Ed; [exact Logic.I|]. intros _. destruct (dr_bytes _ _ _ Dr Tn) as [F|[F _]]; [congruence|]. now rewrite <- Ed. }
    destruct (fi_std p) eqn:Std.
    1-4: apply bind_asserts; [|intros; apply value_asserts]; eapply data_asserts; [exact R0|exact Sz|exact D| |exact Dl]; exact T64.
    cbv zeta. set (inv := match if_dbi i with Some y => if db_enable (di_dbi y) then Some (lb_inv (db_side (di_dbi y) read)) else None | None => None end) in *. clearbody inv.
    destruct (dr_six _ _ _ Dr Tn Std) as [_ [S|S]]; [contradiction|].
    assert (exists n, (n = 1 \/ n = 2)%nat /\ N.to_nat (cmd_sz_bits c) = (256 * n)%nat /\ (n = 2%nat -> fi_wild p <> None)) as (n' & N1 & N2 & N3).
    { destruct S as [S|[S S']]; rewrite S; [exists 1%nat|exists 2%nat]; (split; [auto|]); (split; [reflexivity|]); [discriminate|auto]. }
    assert (9 * cmd_sz_bits c / 8 = N.of_nat (n' * 288)) as Nb.
    { assert (cmd_sz_bits c = N.of_nat (256 * n')) as -> by lia. destruct N1; subst n'; reflexivity. }
    rewrite Nb in T64.
    assert (exists f, format_data (fi_wild p) (if_meta i) (if_buf i) (data_of c) (N.to_nat (cmd_sz_bits c)) inv = Value (f, (n' * 288)%nat) /\
      match f with Some l => bus = true -> N.of_nat (n' * 288) <= 8 * N.of_nat (length l) | None => True end) as (f & Ef & Fl).
    { destruct (data_of c) as [l|] eqn:Ed.
      - destruct (cmd_data c) as [|v r] eqn:Ec; [unfold data_of in Ed; rewrite Ec in Ed; discriminate|].
        destruct (dr_bytes _ _ _ Dr Tn) as [F|[F _]]; [rewrite Ec in F; discriminate|].
        assert (l = cmd_data c) as -> by (unfold data_of in Ed; rewrite Ec in *; congruence).
        destruct (FormatProofs.format_bits (fi_wild p) (if_meta i) (if_buf i) (cmd_data c) inv n' N1) as (r' & Er & Lr & _); [lia|exact N3|].
        rewrite N2. exists (Some r'). split; [exact Er|]. intros _. lia.
      - exists None. rewrite N2. unfold format_data. split; [destruct N1; subst n'; reflexivity|exact Logic.I]. }
    rewrite Ef. cbn [bind fst snd]. apply bind_asserts; [|intros; apply value_asserts].
    rewrite <- (Nat2N.id (n' * 288)). eapply data_asserts; [exact R0|exact Sz|exact D|exact T64|exact Fl].
Qed.
Lemma pulse_asserts k t n rate : 0 < rate -> asserts (pulse k t n rate).
Proof.
  intros R. unfold pulse. destruct (N.eqb_spec rate 0); [lia|]. apply bind_asserts.
  - unfold clock_start. destruct (ck_start k); intros f E; [now injection E as <-|discriminate].
  - intros a _. unfold clock_stop. destruct (ck_start a); [apply check_asserts; intros _; apply value_asserts|]. intros f E. now injection E as <-.
Qed.
Lemma dqs_asserts c read n i : 0 < fi_rate (if_spec i) -> asserts (handle_dqs c read n i).
Proof.
  intros R. unfold handle_dqs. cbv zeta. destruct (fi_std (if_spec i)).
  1-3: destruct read; (apply bind_asserts; [now apply pulse_asserts|intros; apply value_asserts]).
  all: apply bind_asserts; [destruct read; [now apply pulse_asserts|apply value_asserts]|]; intros k _;
    (apply bind_asserts; [destruct (fi_wck_on (if_spec i)); [apply value_asserts|now apply pulse_asserts]|intros; apply value_asserts]).
Qed.

(* The command bus. *)
Lemma word_asserts p b t w n ls : bus_inv (ca_pins (fi_std p)) (ca_pins (fi_std p)) (ca_beats (fi_std p)) (rest (fi_std p)) ls b -> t * ca_beats (fi_std p) + 64 < two64 ->
  n = (Nat.div n (ca_pins (fi_std p)) * ca_pins (fi_std p))%nat -> asserts (bus_load_word b t w (Nat.div n (b_width b))).
Proof.
  intros B T Hw. destruct (pins_ok (fi_std p)) as (P1 & P2 & P3). unfold bus_load_word. rewrite (bi_width _ _ _ _ _ _ B). rewrite <- Hw.
  apply check_asserts. intros Hn. apply Nat.leb_le in Hn.
  eapply load_asserts; [exact P1|exact P2|exact P3|apply word_of_bound|exact B|rewrite bytes_length; apply byte_count|].
  assert (Nat.div n (ca_pins (fi_std p)) <= n)%nat by (apply Nat.div_le_upper_bound; [lia|]; nia). lia.
Qed.
Lemma encodes_asserts e c l : forall w, asserts (encode6_loop e c l w).
Proof.
  induction l as [|d l IH]; intros w; [apply value_asserts|]. cbn [encode6_loop]. apply bind_asserts; [|intros; apply IH].
  destruct d as [| | | |k|k|k|k|k| | |]; cbn [encode6_bit]; try (apply value_asserts). destruct k; [apply check_asserts; intros _|]; apply value_asserts.
Qed.
Definition has_word (p : ifspec) (t : CmdType) : Prop := match fi_std p with LPDDR6 => lpddr6_patterns t <> [] | _ => table_of p t <> [] end.
Lemma command_bus_asserts p c i ls : pat_inv p (if_pat i) -> (fi_std p = LPDDR6 -> fi_groups p = 4) -> cmd_ts c * ca_beats (fi_std p) + 64 < two64 ->
  bus_inv (ca_pins (fi_std p)) (ca_pins (fi_std p)) (ca_beats (fi_std p)) (rest (fi_std p)) ls (if_cmd i) -> has_word p (cmd_type c) -> asserts (handle_command_bus c i).
Proof.
  intros V G F4 B Tb. unfold handle_command_bus. unfold pat_inv in V. unfold has_word in Tb. destruct (if_pat i) as [h|h].
  - destruct V as (V1 & V2 & V3). rewrite V2.
    assert (table_of p (cmd_type c) <> []) as Tn by (destruct (fi_std p); try exact Tb; contradiction).
    apply bind_asserts.
    + unfold command_pattern. rewrite V2. destruct (table_of p (cmd_type c)) as [|d l]; [contradiction|]. apply bind_asserts; [|intros; apply value_asserts].
      unfold encode. apply check_asserts. intros _. apply value_asserts.
    + intros x _. apply bind_asserts; [|intros; apply value_asserts]. apply (word_asserts p _ _ _ _ ls B F4).
      destruct (pins_ok (fi_std p)) as (P1 & _). apply (lengths_at (ca_pins (fi_std p)) (fun t => length (table_of p t))); [lia|apply table_lengths].
  - destruct V as (V1 & V2 & V3). rewrite V2. rewrite V1 in *. apply bind_asserts.
    + unfold command_pattern6. rewrite V2. pose proof (six_lengths _ Tb) as L. destruct (lpddr6_patterns (cmd_type c)) as [|d l] eqn:E; [contradiction|].
      apply bind_asserts; [|intros; apply value_asserts]. unfold encode6. rewrite V3, (G eq_refl). cbn [N.eqb]. apply check_asserts. intros _. apply check_asserts. intros _.
      apply bind_asserts; [apply encodes_asserts|]. intros v _. destruct (ex_parity (p6_extra h)); [|apply value_asserts].
      destruct (nth_error (d :: l) 2) eqn:Q; [apply value_asserts|apply nth_error_None in Q; lia].
    + intros x _. apply bind_asserts; [|intros; apply value_asserts]. assert (fi_std p = LPDDR6) as S6 by assumption. pose proof (word_asserts p (if_cmd i) (cmd_ts c) (fst x) (length (lpddr6_patterns (cmd_type c))) ls) as K. rewrite S6 in K.
      apply K; [exact B|exact F4|]. apply (lengths_at 4 (fun t => length (lpddr6_patterns t))); [lia|apply lpddr6_lengths].
Qed.
Lemma no_word p c i f : pat_inv p (if_pat i) -> ~ has_word p (cmd_type c) -> handle_command_bus c i = Fails f -> f = Exception.
Proof.
  intros V H E. unfold handle_command_bus in E. unfold pat_inv in V. unfold has_word in H. destruct (if_pat i) as [h|h]; destruct V as (V1 & V2 & V3).
  - unfold command_pattern in E. rewrite V2 in E. destruct (table_of p (cmd_type c)) as [|d l]; [cbn [bind] in E; now injection E as <-|].
    exfalso. apply H. destruct (fi_std p); try discriminate. contradiction.
  - unfold command_pattern6 in E. rewrite V2 in E. destruct (lpddr6_patterns (cmd_type c)) as [|d l]; [cbn [bind] in E; now injection E as <-|].
    exfalso. apply H. rewrite V1. discriminate.
Qed.

Lemma bus_words p t : routing p t = ToBus -> {has_word p t /\ interface_says p (mkCommand 0 t 0 0 0 0 0 0 [] 0) = Assertion} + {~ has_word p t /\ interface_says p (mkCommand 0 t 0 0 0 0 0 0 [] 0) = Exception}.
Proof.
  unfold routing, has_word, interface_says, table_of. cbn [cmd_type]. destruct (fi_std p); [| | |destruct (fi_arch p)|]; destruct t; intros R; try discriminate R;
    solve [left; split; [discriminate|reflexivity]|right; split; [intros F; apply F; reflexivity|reflexivity]].
Qed.
Lemma data_words p t read : routing p t = ToData read -> has_word p t.
Proof. unfold routing, has_word, table_of. destruct (fi_std p); [| | |destruct (fi_arch p)|]; destruct t; intros R; try discriminate R; discriminate. Qed.
Lemma says_type p c : interface_says p c = interface_says p (mkCommand 0 (cmd_type c) 0 0 0 0 0 0 [] 0).
Proof. reflexivity. Qed.
Lemma other_says p t : match routing p t with ToThrow => interface_says p (mkCommand 0 t 0 0 0 0 0 0 [] 0) = Exception | ToBus => True | _ => interface_says p (mkCommand 0 t 0 0 0 0 0 0 [] 0) = Assertion end.
Proof. unfold routing, interface_says. cbn [cmd_type]. destruct (fi_std p); [| | |destruct (fi_arch p)|]; destruct t; exact Logic.I || reflexivity. Qed.

Lemma step_says p bus i0 cs c i f : sizes_ok p -> 0 < fi_rate p -> (fi_std p = LPDDR6 -> fi_groups p = 4) -> prog_inv p bus i0 cs i -> dressed p bus c ->
  if_command c i = Fails f -> f = interface_says p c.
Proof.
  intros Sz R0 G V Dr E. pose proof (pg_run _ _ _ _ _ V) as Rv. pose proof (rn_spec _ _ _ _ _ Rv) as Sp. pose proof (rn_mode _ _ _ _ _ Rv) as Mo. pose proof (rn_pat _ _ _ _ _ Rv) as Pt.
  destruct (rn_cmd _ _ _ _ _ Rv) as (ls & B & _). pose proof (dr_time _ _ _ Dr) as [T1 T2]. rewrite says_type. pose proof (other_says p (cmd_type c)) as Os.
  pose proof (transfers_routing p (cmd_type c)) as Tr. unfold if_command in E. rewrite Sp in E.
  destruct (routing p (cmd_type c)) as [|read| | | |] eqn:R.
  - assert (handle_command_bus c i = Fails f) as E' by (destruct (handle_command_bus c i); [discriminate E|exact E]).
    destruct (bus_words p (cmd_type c) R) as [[W ->]|[W ->]]; [exact (command_bus_asserts p c i ls Pt G T1 B W f E')|exact (no_word p c i f Pt W E')].
  - rewrite Os. destruct (transfers (cmd_type c)) as [r|] eqn:T; [|exfalso; eapply Tr; reflexivity]. injection Tr as <-.
    assert (handle_data c read i = Fails f) as E' by (destruct (handle_data c read i); [discriminate E|exact E]). clear E.
    revert f E'. change (asserts (handle_data c read i)). unfold handle_data. apply bind_asserts; [exact (burst_asserts p bus c read i _ Sp Mo Sz R0 (pg_dbi _ _ _ _ _ V) (pg_data _ _ _ _ _ V read) T Dr)|].
    intros x X. destruct (burst_effect p bus c read i x Sp Mo Sz X) as (d & y & buf & -> & _). cbn [fst snd]. cbv zeta.
    apply bind_asserts; [apply dqs_asserts; cbn [if_spec if_with_data]; now rewrite Sp|]. intros i1 D.
    destruct (dqs_effect p bus c read (if_with_data i d y buf) i1) as (r & w & k & E1 & _); [exact Sp|exact T|exact T2|exact D|].
    assert (if_spec i1 = p /\ pat_inv p (if_pat i1) /\ if_cmd i1 = if_cmd i) as (Sp1 & Pt1 & C1) by (rewrite E1; auto).
    destruct (overrides_ready p bus c read i1 Sp1 Pt1 T) as [V1 _].
    destruct (overrides_spec i1 (burst_beats p bus c) read) as (h & Eh). rewrite Eh in *.
    apply bind_asserts.
    + apply (command_bus_asserts p c _ ls V1 G T1); [cbn [if_with_pat if_with_cmd if_cmd]; rewrite C1; exact B|exact (data_words p _ _ R)].
    + intros i2 B2. destruct (fi_std (if_spec i2)); try apply value_asserts. apply check_asserts. intros Hr. apply Nat.ltb_lt in Hr.
      apply bind_asserts; [|intros r1 _; apply bind_asserts; [|intros; apply value_asserts]].
      * unfold fetch. destruct (nth_error (if_ranks i2) (N.to_nat (cmd_rank c))) eqn:Q; [apply value_asserts|apply nth_error_None in Q; lia].
      * unfold handle_prepostamble. apply check_asserts. intros _. apply value_asserts.
  - exfalso. unfold end_of_simulation in E. pose proof (pg_dbi _ _ _ _ _ V) as Q. destruct (if_dbi i) as [x|]; [rewrite (quiet_end x _ Q) in E|]; discriminate E.
  - discriminate E.
  - cbn [bind] in E. injection E as <-. now rewrite Os.
  - cbn [bind] in E. injection E as <-. now rewrite Os.
Qed.

(* The answer to the command behind a trace that was allowed. *)
Theorem answer_known p sim i0 cs c : sizes_ok p -> (fi_std p = LPDDR6 -> fi_groups p = 4) -> iface_new p sim = Value i0 -> Forall (dressed p (no_toggle sim)) (cs ++ [c]) ->
  trace_allowed p (no_toggle sim) cs ->
  exists i, calls_run (map Do cs) i0 = Value i /\
    ((exists i', if_command c i = Value i') /\ trace_allowed p (no_toggle sim) (cs ++ [c]) \/
     if_command c i = Fails (interface_says p c) /\ ~ trace_allowed p (no_toggle sim) (cs ++ [c])).
Proof.
  intros Sz G New Dr A. pose proof Dr as Dr0. apply Forall_app in Dr as [Dr1 Dr2]. inversion Dr2 as [|? ? Dc _]; subst.
  destruct (start_goes p sim i0 Sz New) as (_ & R0 & _). destruct (trace_goes p sim i0 cs Sz G New (allowed_fits _ _ _ Dr1 A)) as (i & Ri & V). exists i. split; [exact Ri|].
  assert (calls_run (map Do (cs ++ [c])) i0 = if_command c i) as L.
  { unfold calls_run in *. rewrite map_app, BusProofs.loop_app, Ri. cbn [bind map loop call_do]. destruct (if_command c i); reflexivity. }
  destruct (if_command c i) as [i'|f] eqn:E.
  - left. split; [now exists i'|]. apply (taken_exactly p sim i0 (cs ++ [c]) Sz G New Dr0). exists i'. exact L.
  - right. rewrite (step_says p _ i0 cs c i f Sz R0 G V Dc E). split; [reflexivity|]. intros A'. apply (taken_exactly p sim i0 (cs ++ [c]) Sz G New Dr0) in A' as (i' & F). congruence.
Qed.
