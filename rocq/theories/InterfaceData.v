(* The data bus of an interface, from the constructor to the statistics. *)
From Coq Require Import NArith QArith List Bool Arith Lia.
From Verif Require Import Base Command CoreModel Bits BusModel WaveSpec BitFacts ListFacts StorageProofs BusProofs BusMore ToggleModel ToggleProofs DataProofs ClockProofs
  PinModel DbiModel DbiSpec DbiProofs DbiPinModel StatsModel PatternModel FormatProofs InterfaceModel InterfaceSpec WireSpec InterfaceCa InterfaceRun InterfaceTop WireProofs.
Import ListNotations.
Local Open Scope N_scope.
Ltac Zify.zify_post_hook ::= idtac.

(* ---- who touches the data bus ---- *)
Definition same_data (i j : iface) : Prop := if_spec j = if_spec i /\ if_data j = if_data i /\ if_dbi j = if_dbi i /\ if_meta j = if_meta i.
Lemma same_refl i : same_data i i.
Proof. repeat split. Qed.
Lemma same_trans i j k : same_data i j -> same_data j k -> same_data i k.
Proof. intros (A1 & A2 & A3 & A4) (B1 & B2 & B3 & B4). repeat split; congruence. Qed.
Lemma bus_same c i i' : handle_command_bus c i = Value i' -> same_data i i'.
Proof.
  unfold handle_command_bus. intros E. destruct (if_pat i); apply bind_inv in E as (x & _ & E); apply bind_inv in E as (b & _ & E); injection E as <-; repeat split.
Qed.
Lemma dqs_same c read n i i' : handle_dqs c read n i = Value i' -> same_data i i'.
Proof.
  unfold handle_dqs. intros Q. destruct (fi_std (if_spec i));
    try (destruct read; apply bind_inv in Q as (d & _ & Q); injection Q as <-; repeat split);
    apply bind_inv in Q as (d & _ & Q); apply bind_inv in Q as (d' & _ & Q); injection Q as <-; repeat split.
Qed.
Lemma data_same c read i i' : handle_data c read i = Value i' -> exists x, handle_burst c read i = Value x /\ same_data (fst x) i'.
Proof.
  unfold handle_data. intros E. apply bind_inv in E as (x & B & E). apply bind_inv in E as (i1 & Q & E). apply bind_inv in E as (i2 & C & E).
  exists x. split; [exact B|]. apply dqs_same in Q. apply bus_same in C. eapply same_trans; [exact Q|].
  destruct (overrides_spec i1 (snd x) read) as [h H]. rewrite H in C.
  eapply same_trans; [|eapply same_trans; [exact C|]].
  - repeat split.
  - destruct (fi_std (if_spec i2)); try (injection E as <-; apply same_refl).
    apply check_inv in E as [_ E]. apply bind_inv in E as (r1 & _ & E). apply bind_inv in E as (r2 & _ & E). injection E as <-. repeat split.
Qed.
Lemma command_same c i i' : if_command c i = Value i' ->
  match routing (if_spec i) (cmd_type c) with
  | ToData read => exists x, handle_burst c read i = Value x /\ same_data (fst x) i'
  | ToEnd => exists j, end_of_simulation (cmd_ts c) i = Value j /\ same_data j i'
  | _ => same_data i i'
  end.
Proof.
  unfold if_command. intros E. apply bind_inv in E as (j & E & J). injection J as <-.
  assert (forall k, same_data k j -> same_data k (if_with_last j (cmd_ts c))) as L by (intros k H; exact H).
  destruct (routing (if_spec i) (cmd_type c)); try discriminate.
  - apply L. eapply bus_same. exact E.
  - apply data_same in E as (x & B & S). exists x. split; [exact B|now apply L].
  - exists j. split; [exact E|]. apply L, same_refl.
  - injection E as <-. apply L, same_refl.
Qed.
Lemma end_dbi p dbi t i j : dbi_state p dbi (if_dbi i) -> end_of_simulation t i = Value j ->
  if_spec j = if_spec i /\ if_data j = if_data i /\ if_meta j = if_meta i /\ dbi_state p dbi (if_dbi j).
Proof.
  intros D E. unfold end_of_simulation in E. destruct (if_dbi i) as [x|] eqn:X.
  - apply bind_inv in E as (y & Y & E). injection E as <-. split; [reflexivity|]. split; [reflexivity|]. split; [reflexivity|].
    unfold dbi_if_end in Y. apply bind_inv in Y as ([d ev] & R & Y). apply deliver_dbi in Y. cbn [if_with_dbi if_with_data if_dbi dbi_state]. rewrite Y. cbn [di_with di_dbi fst].
    destruct D as (D1 & D2 & D3). unfold dbi_reset_both in R. apply bind_inv in R as ([r e1] & R1 & R). apply bind_inv in R as ([w e2] & R2 & R). injection R as <- _. cbn [fst] in *.
    apply reset_spec in R1 as (C1 & E1 & _). apply reset_spec in R2 as (C2 & E2 & _). split; [exact D1|]. split; congruence.
  - injection E as <-. rewrite X. split; [reflexivity|]. split; [reflexivity|]. split; [reflexivity|exact D].
Qed.

(* ---- the switch and the metadata ---- *)
Definition dbi_after (p : ifspec) (dbi : bool) (xs : list call) : bool :=
  fold_left (fun d x => match x with SetDbi e => if has_dbi p then e else d | _ => d end) xs dbi.
Definition meta_after (m : N * N) (xs : list call) : N * N :=
  fold_left (fun m x => match x with SetMeta a b => (a mod 65536, b mod 65536) | _ => m end) xs m.
Lemma data_drives_app p read xs ys : forall dbi m, data_drives p read dbi m (xs ++ ys) =
  data_drives p read dbi m xs ++ data_drives p read (dbi_after p dbi xs) (meta_after m xs) ys.
Proof.
  induction xs as [|x xs IH]; intros dbi m; [reflexivity|]. destruct x; cbn [app data_drives dbi_after meta_after fold_left]; rewrite IH; rewrite ?app_assoc; reflexivity.
Qed.

(* ---- one direction ---- *)
Definition dq_wave (p : ifspec) (max : nat) (ds : drives) (b : bus) : Prop :=
  exists ls, bus_inv max (N.to_nat (dq_lines p)) (fi_rate p) (idle_word (N.to_nat (dq_lines p)) (dq_rests_high (fi_std p))) ls b /\
    map (drive_of (N.to_nat (dq_lines p)) (fi_rate p)) ls = ds /\ well_timed (N.to_nat (dq_lines p)) (fi_rate p) 0 ls /\
    b_last_load b + N.of_nat (bc_count (b_store b)) = load_end (N.to_nat (dq_lines p)) (fi_rate p) ls.

Record wire_inv (p : ifspec) (max : nat) (i0 : iface) (xs : list call) (i : iface) : Prop := {
  wi_spec : if_spec i = p;
  wi_mode : d_mode (if_data i) = ModeBus;
  wi_meta : if_meta i = meta_after (0, 0) xs;
  wi_dbi : dbi_state p (dbi_after p false xs) (if_dbi i);
  wi_read : dq_wave p max (data_drives p true false (0, 0) xs) (d_read (if_data i));
  wi_write : dq_wave p max (data_drives p false false (0, 0) xs) (d_write (if_data i));
  wi_tr : d_tread (if_data i) = d_tread (if_data i0);
  wi_tw : d_twrite (if_data i) = d_twrite (if_data i0)
}.

Lemma load_wave p max ds b t bytes n b' dbi meta c : sizes_ok p -> (N.to_nat (dq_lines p) <= max)%nat -> 0 < fi_rate p -> data_ok p c -> (sends true c || sends false c) = true ->
  n = N.to_nat (burst_bits p true c) -> t = cmd_ts c -> (n <= 8 * length bytes)%nat ->
  (forall k, (k < n)%nat -> payload_bit bytes k = wire_bit p dbi meta (cmd_data c) (N.to_nat (cmd_sz_bits c)) k) ->
  dq_wave p max ds b -> bus_load b t bytes n = Value b' -> dq_wave p max (ds ++ [(t * fi_rate p, burst_words p dbi meta c)]) b'.
Proof.
  intros (W0 & W64 & _) Wm R0 Ok Sd Hn Ht Hl Hb (ls & B & D & W & L) E. destruct (Ok Sd) as (_ & _ & O3 & O4).
  set (l := mkLoad t bytes n).
  assert (load_ok (N.to_nat (dq_lines p)) (fi_rate p) l) as Lo.
  { unfold load_ok, l. cbn [lo_bits lo_data lo_time]. split; [lia|]. split; [exact Hl|]. subst t n. unfold burst_beats in O4.
    rewrite <- (N2Nat.id (dq_lines p)) in O4 at 1. rewrite <- (N2Nat.id (burst_bits p true c)) in O4. rewrite Nat2N.inj_div. exact O4. }
  assert (N.of_nat (N.to_nat (dq_lines p)) < two64) as W64' by (rewrite N2Nat.id; exact W64).
  assert (0 < N.to_nat (dq_lines p) <= max)%nat as W1 by lia.
  destruct (load_extends max _ _ _ ls b l b' W1 W64' R0 (word_of_bound _ _) B Lo E) as (X1 & X2 & X3).
  exists (ls ++ [l]). split; [exact X2|]. split; [|split].
  - rewrite map_app, D. cbn [map]. f_equal. unfold drive_of, l. cbn [lo_time lo_data lo_bits]. rewrite (played_bits _ bytes n _ (proj1 W1) Hb). unfold burst_words. cbv zeta. now rewrite Hn.
  - apply well_timed_snoc; [exact W|]. fold (load_end (N.to_nat (dq_lines p)) (fi_rate p) ls). rewrite <- L. exact X1.
  - rewrite X3. unfold load_end. rewrite fold_left_app. reflexivity.
Qed.

Lemma wire_step p max i0 xs x i i' : sizes_ok p -> (N.to_nat (dq_lines p) <= max)%nat -> 0 < fi_rate p -> (forall c, x = Do c -> data_ok p c) ->
  wire_inv p max i0 xs i -> call_do x i = Value i' -> wire_inv p max i0 (xs ++ [x]) i'.
Proof.
  intros Sz Wm R0 Ok V E. destruct V as [Vs Vm Vt Vd Vr Vw Vtr Vtw].
  assert (forall j, if_spec j = p -> if_data j = if_data i -> if_meta j = meta_after (0, 0) (xs ++ [x]) -> dbi_state p (dbi_after p false (xs ++ [x])) (if_dbi j) ->
    data_drives p true (dbi_after p false xs) (meta_after (0, 0) xs) [x] = [] -> data_drives p false (dbi_after p false xs) (meta_after (0, 0) xs) [x] = [] -> wire_inv p max i0 (xs ++ [x]) j) as K.
  { intros j H1 H2 H3 H4 H5 H6. constructor; rewrite ?data_drives_app, ?H2, ?H5, ?H6, ?app_nil_r; assumption. }
  assert (forall j, same_data i j -> dbi_after p false (xs ++ [x]) = dbi_after p false xs -> meta_after (0, 0) (xs ++ [x]) = meta_after (0, 0) xs ->
    data_drives p true (dbi_after p false xs) (meta_after (0, 0) xs) [x] = [] -> data_drives p false (dbi_after p false xs) (meta_after (0, 0) xs) [x] = [] -> wire_inv p max i0 (xs ++ [x]) j) as K'.
  { intros j (S1 & S2 & S3 & S4) H1 H2 H3 H4. apply K; auto; rewrite ?H1, ?H2; congruence. }
  assert (match x with SetDbi _ | SetMeta _ _ => True | _ => dbi_after p false (xs ++ [x]) = dbi_after p false xs /\ meta_after (0, 0) (xs ++ [x]) = meta_after (0, 0) xs end) as Af.
  { unfold dbi_after, meta_after. destruct x; auto; rewrite !fold_left_app; split; reflexivity. }
  destruct x as [c|e|a b|e|t|t]; cbn [call_do] in E.
  - specialize (Ok c eq_refl). destruct Af as [A1 A2]. pose proof (transfers_routing p (cmd_type c)) as R. apply command_same in E. rewrite Vs in E.
    destruct (transfers (cmd_type c)) as [read|] eqn:T.
    + rewrite R in E. destruct E as (y & B & S). destruct (burst_wire p c read i y _ _ Vs Vm Sz Vd Vt T Ok B) as (d & z & buf & Y & Dz & Ld).
      destruct S as (S1 & S2 & S3 & S4). rewrite Y in S1, S2, S3, S4. cbn [if_with_data if_spec if_data if_dbi if_meta] in *.
      assert (forall r, sends r c = eqb read r && sends read c) as Sr.
      { intros r. unfold sends. rewrite T, eqb_reflx. cbn [andb]. now rewrite andb_assoc. }
      assert (sends read c = true -> (sends true c || sends false c) = true) as Sb by (intros H; rewrite (Sr true), (Sr false), H; destruct read; reflexivity).
      pose proof (Sr true) as St. pose proof (Sr false) as Sf. clear Sr.
      destruct (sends read c) eqn:Sd; rewrite ?andb_false_r, ?andb_true_r in St, Sf;
        (constructor; [congruence| |congruence|now rewrite A1, S3| | | |]); rewrite ?data_drives_app, ?S2; cbn [data_drives]; rewrite ?app_nil_r, ?St, ?Sf.
      all: try (rewrite Ld, ?app_nil_r; assumption).
      * destruct Ld as (bytes & L & _). rewrite <- Vm. eapply data_load_mode. exact L.
      * destruct Ld as (bytes & L & Lb & Pb). unfold load_data, data_load_read, data_load_write, data_load in L. rewrite Vm in L.
        assert (Nat.eqb (N.to_nat (burst_bits p true c)) 0 = false) as Nz.
        { apply Nat.eqb_neq. destruct (Ok (Sb eq_refl)) as (_ & _ & O3 & _). destruct Sz. lia. }
        rewrite Nz in L. destruct read; cbn [eqb].
        -- apply bind_inv in L as (q & L & E). apply bind_inv in L as (b' & L & Q). injection Q as <-. injection E as <-. cbn [d_read fst].
           eapply load_wave; try eassumption; try reflexivity. exact (Sb eq_refl).
        -- rewrite app_nil_r. apply bind_inv in L as (q & L & E). injection E as <-. exact Vr.
      * destruct Ld as (bytes & L & Lb & Pb). unfold load_data, data_load_read, data_load_write, data_load in L. rewrite Vm in L.
        assert (Nat.eqb (N.to_nat (burst_bits p true c)) 0 = false) as Nz.
        { apply Nat.eqb_neq. destruct (Ok (Sb eq_refl)) as (_ & _ & O3 & _). destruct Sz. lia. }
        rewrite Nz in L. destruct read; cbn [eqb].
        -- rewrite app_nil_r. apply bind_inv in L as (q & L & E). injection E as <-. exact Vw.
        -- apply bind_inv in L as (q & L & E). apply bind_inv in L as (b' & L & Q). injection Q as <-. injection E as <-. cbn [d_write fst].
           eapply load_wave; try eassumption; try reflexivity. exact (Sb eq_refl).
      * destruct Ld as (bytes & L & _). unfold load_data, data_load_read, data_load_write, data_load in L. rewrite Vm in L. destruct read; apply bind_inv in L as (q & L & E); injection E as <-; cbn [d_tread]; [|exact Vtr].
        destruct (Nat.eqb _ _) in L; [injection L as <-|apply bind_inv in L as (b' & _ & Q); injection Q as <-]; exact Vtr.
      * destruct Ld as (bytes & L & _). unfold load_data, data_load_read, data_load_write, data_load in L. rewrite Vm in L. destruct read; apply bind_inv in L as (q & L & E); injection E as <-; cbn [d_twrite]; [exact Vtw|].
        destruct (Nat.eqb _ _) in L; [injection L as <-|apply bind_inv in L as (b' & _ & Q); injection Q as <-]; exact Vtw.
    + assert (forall read, sends read c = false) as Sn by (intros r; unfold sends; now rewrite T).
      assert (forall r, data_drives p r (dbi_after p false xs) (meta_after (0, 0) xs) [Do c] = []) as Nd by (intros r; cbn [data_drives]; now rewrite Sn).
      destruct (routing p (cmd_type c)) as [|read| | | |]; [|destruct (R read eq_refl)| | | |]; try solve [apply K'; auto].
      destruct E as (j & Ej & S). destruct (end_dbi p _ _ _ _ Vd Ej) as (D1 & D2 & D3 & D4). destruct S as (S1 & S2 & S3 & S4). apply K; auto; try congruence.
  - assert (dbi_after p false (xs ++ [SetDbi e]) = if has_dbi p then e else dbi_after p false xs) as A1 by (unfold dbi_after; now rewrite fold_left_app).
    assert (meta_after (0, 0) (xs ++ [SetDbi e]) = meta_after (0, 0) xs) as A2 by (unfold meta_after; now rewrite fold_left_app).
    rewrite <- A2 in Vt.
    apply value_inj in E. subst i'. unfold if_enable_dbi. unfold dbi_state in Vd. destruct (if_dbi i) as [y|] eqn:Y.
    + destruct Vd as (D1 & D2 & D3).
      assert ((match fi_std (if_spec i) with DDR4 => fi_bits (if_spec i) =? 4 | _ => false end) = negb (has_dbi p)) as ->.
      { rewrite Vs. unfold has_dbi. destruct (fi_std p); try reflexivity; [now rewrite negb_involutive|contradiction]. }
      destruct (has_dbi p) eqn:H; cbn [negb fst]; apply K; auto; rewrite A1.
      { split; [exact D1|]. split; [exact D2|reflexivity]. }
      rewrite Y. cbn [dbi_state]. auto.
    + destruct Vd as [D1 D2]. apply K; auto. rewrite A1. cbn [fst]. rewrite Y. cbn [dbi_state]. unfold has_dbi. rewrite D1. auto.
  - apply value_inj in E. subst i'. apply K; auto; unfold dbi_after, meta_after; rewrite ?fold_left_app; cbn [fold_left]; auto.
  - unfold if_set_parity in E. apply check_inv in E as [_ E]. destruct Af as [A1 A2].
    apply K'; auto. destruct (if_pat i); apply value_inj in E; subst i'; repeat split.
  - unfold if_enable in E. destruct Af as [A1 A2]. apply K'; auto. destruct (if_enabled i); [apply value_inj in E; subst i'; apply same_refl|].
    apply bind_inv in E as (k & _ & E). apply bind_inv in E as (k' & _ & E). apply value_inj in E. subst i'. repeat split.
  - unfold if_disable in E. destruct Af as [A1 A2]. apply K'; auto. destruct (if_enabled i); [|apply value_inj in E; subst i'; apply same_refl].
    apply bind_inv in E as (k & _ & E). apply bind_inv in E as (k' & _ & E). apply value_inj in E. subst i'. repeat split.
Qed.

(* ---- the constructor ---- *)
Lemma commands_cons x xs : commands (x :: xs) = (match x with Do c => [c] | _ => [] end) ++ commands xs.
Proof. destruct x; reflexivity. Qed.
Lemma toggling_new_inv w dr r du id on h : toggling_new w dr r du id on = Value h -> 0 < dr /\ in_unit du = true /\ in_unit r = true.
Proof.
  unfold toggling_new. intros E. apply check_inv in E as [_ E]. apply check_inv in E as [H E]. apply check_inv in E as [H1 E]. apply check_inv in E as [H2 _].
  apply N.ltb_lt in H. auto.
Qed.
Lemma new_config p sim i : sizes_ok p -> iface_new p sim = Value i ->
  exists max, (N.to_nat (dq_lines p) <= max)%nat /\ data_new max (data_config_of p sim) (data_mode sim) = Value (if_data i) /\
    config_ok max (data_config_of p sim) /\ dc_width (data_config_of p sim) = N.to_nat (dq_lines p).
Proof.
  intros (W0 & W64 & _) E. apply new_built in E. destruct (bt_data _ _ _ E) as (max & P & D). exists max.
  rewrite (width_eq p W64) in P. destruct (preset_capacity_ok (N.to_nat (dq_lines p))) as [P1 P2].
  assert (N.to_nat (dq_lines p) <= max)%nat as Wm.
  { destruct (Nat.leb_spec (N.to_nat (dq_lines p)) 4096) as [L|L]; [|rewrite (P2 L) in P; discriminate]. destruct (P1 L) as (m & Q & Lm). rewrite P in Q. injection Q as <-. exact Lm. }
  assert (dc_width (data_config_of p sim) = N.to_nat (dq_lines p)) as Wd by (unfold data_config_of; cbn [dc_width]; now rewrite (width_eq p W64)).
  split; [exact Wm|]. split; [exact D|]. split; [|exact Wd].
  unfold data_new in D. apply bind_inv in D as (ir & _ & D). apply bind_inv in D as (br & _ & D). apply bind_inv in D as (iw & _ & D). apply bind_inv in D as (bw & _ & D).
  apply bind_inv in D as (tr & T1 & D). apply bind_inv in D as (tw & T2 & D). apply toggling_new_inv in T1 as (A1 & A2 & A3). apply toggling_new_inv in T2 as (_ & A4 & A5).
  unfold config_ok. rewrite Wd, N2Nat.id. split; [lia|]. split; [exact W64|]. auto.
Qed.
Lemma rate_eq p sim : dc_rate (data_config_of p sim) = fi_rate p.
Proof. reflexivity. Qed.

Lemma new_dbi_state p x : new_dbi p = Value x -> dbi_state p false x.
Proof.
  unfold new_dbi. destruct (fi_std p) eqn:S; intros E; try (injection E as <-; split; [exact S|reflexivity]).
  4: { apply bind_inv in E as (d & D & E). injection E as <-. cbn [dbi_state di_dbi]. rewrite S. split; [discriminate|].
    unfold dbi_new in D. repeat (apply check_inv in D as [_ D] || apply bind_inv in D as (? & _ & D)). injection D as <-. split; reflexivity. }
  all: apply bind_inv in E as (d & D & E); injection E as <-; cbn [dbi_state]; rewrite S; split; [discriminate|];
    unfold dbi_if_new in D; apply bind_inv in D as (y & Y & D);
    destruct (chunks_per_width (dbi_config_of p)); [|discriminate D]; apply value_inj in D; subst d; cbn [di_dbi];
    unfold dbi_new in Y; apply check_inv in Y as [_ Y]; apply value_inj in Y; subst y; split; reflexivity.
Qed.

Lemma bus_idle p : high_idle (dc_read_idle (data_config_of p None)) = Some (dq_rests_high (fi_std p)) /\ high_idle (dc_write_idle (data_config_of p None)) = Some (dq_rests_high (fi_std p)).
Proof. unfold data_config_of, bus_config, dq_rests_high. cbn [dc_read_idle dc_write_idle]. destruct (fi_std p); split; reflexivity. Qed.

Lemma wire_start p i : sizes_ok p -> iface_new p None = Value i -> exists max, (N.to_nat (dq_lines p) <= max)%nat /\ wire_inv p max i [] i /\
  (forall t, t * fi_rate p < two64 -> toggling_get (d_tread (if_data i)) t = Value stats0 /\ toggling_get (d_twrite (if_data i)) t = Value stats0).
Proof.
  intros Sz E. destruct (new_config p None i Sz E) as (max & Wm & D & C & Wd). exists max. split; [exact Wm|]. pose proof (new_built _ _ _ E) as B.
  destruct (bus_idle p) as [I1 I2]. unfold data_new in D. rewrite (convert_high _ _ I1), (convert_high _ _ I2) in D. cbn [bind data_mode is_bus negb] in D. rewrite rate_eq, Wd in D.
  destruct Sz as (W0 & W64 & _). assert (0 < N.to_nat (dq_lines p) <= max)%nat as W1 by lia.
  destruct (bus_new_inv max (N.to_nat (dq_lines p)) (fi_rate p) (dq_rests_high (fi_std p)) W1) as (b & B1 & B2 & B3 & B4); [now rewrite N2Nat.id|].
  rewrite B1 in D. cbn [bind] in D. apply bind_inv in D as (tr & T1 & D). apply bind_inv in D as (tw & T2 & D). apply value_inj in D.
  split.
  - constructor; rewrite <- ?D; cbn [d_mode d_read d_write d_tread d_twrite]; try reflexivity.
    + apply (bt_spec _ _ _ B).
    + apply (bt_meta _ _ _ B).
    + apply new_dbi_state. apply (bt_dbi _ _ _ B).
    + exists []. split; [exact B2|]. split; [reflexivity|]. split; [exact I|]. rewrite B3, B4. reflexivity.
    + exists []. split; [exact B2|]. split; [reflexivity|]. split; [exact I|]. rewrite B3, B4. reflexivity.
  - intros t T. rewrite <- D. cbn [d_tread d_twrite]. split; eapply toggling_off; eassumption.
Qed.

Lemma wire_run p max i0 : sizes_ok p -> (N.to_nat (dq_lines p) <= max)%nat -> 0 < fi_rate p -> forall xs before i i', Forall (data_ok p) (commands xs) ->
  wire_inv p max i0 before i -> calls_run xs i = Value i' -> wire_inv p max i0 (before ++ xs) i'.
Proof.
  intros Sz Wm R0. induction xs as [|x xs IH]; intros before i i' F V R.
  - apply value_inj in R. subst i'. now rewrite app_nil_r.
  - apply loop_cons_inv in R as (j & R1 & R). rewrite commands_cons in F. apply Forall_app in F as [F1 F2].
    replace (before ++ x :: xs) with ((before ++ [x]) ++ xs) by (rewrite <- app_assoc; reflexivity). eapply IH; [exact F2| |exact R].
    eapply wire_step; try eassumption. intros c ->. now inversion F1.
Qed.

Lemma data_drives_times p read t xs : forall dbi m, Forall (fun c => cmd_ts c <= t) (commands xs) -> Forall (fun d => fst d <= t * fi_rate p) (data_drives p read dbi m xs).
Proof.
  induction xs as [|x xs IH]; intros dbi m F; [constructor|]. rewrite commands_cons in F. apply Forall_app in F as [F1 F2].
  destruct x; cbn [data_drives]; try (apply IH; exact F2). apply Forall_app. split; [|apply IH; exact F2]. destruct (sends read _); constructor; [|constructor].
  cbn [fst]. inversion F1; subst. now apply N.mul_le_mono_r.
Qed.

Lemma dq_stats p max read dbi m xs t b : sizes_ok p -> (N.to_nat (dq_lines p) <= max)%nat -> 0 < fi_rate p -> Forall (fun c => cmd_ts c <= t) (commands xs) -> t * fi_rate p < two64 ->
  dq_wave p max (data_drives p read dbi m xs) b -> apart 0 (data_drives p read dbi m xs) /\
  bus_get_stats b t = Value (wrap_stats (wave_stats (N.to_nat (dq_lines p)) (idle_word (N.to_nat (dq_lines p)) (dq_rests_high (fi_std p))) (data_drives p read dbi m xs) (t * fi_rate p))).
Proof.
  intros (W0 & W64 & _) Wm R0 F T (ls & B & D & W & _). split; [rewrite <- D; now apply timed_apart|].
  assert (0 < N.to_nat (dq_lines p) <= max)%nat as W1 by lia. rewrite <- D. eapply get_stats_ok; try eassumption.
  - now rewrite N2Nat.id.
  - apply word_of_bound.
  - apply last_start_le. eapply drives_times. rewrite D. now apply data_drives_times.
Qed.

(* ---- real data ---- *)
Theorem data_bus_counts p i0 xs i t st st' : sizes_ok p -> iface_new p None = Value i0 ->
  Forall (fun c => cmd_ts c <= t /\ data_ok p c) (commands xs) -> t * fi_rate p < two64 -> calls_run xs i0 = Value i ->
  data_blank st -> if_window i t st = Value st' ->
  let w := N.to_nat (dq_lines p) in
  let wave read := data_drives p read false (0, 0) xs in
  let count read := wrap_stats (wave_stats w (idle_word w (dq_rests_high (fi_std p))) (wave read) (t * fi_rate p)) in
  apart 0 (wave true) /\ apart 0 (wave false) /\
  ss_readBus st' = count true /\ ss_writeBus st' = count false /\ ss_togRead st' = stats0 /\ ss_togWrite st' = stats0.
Proof.
  intros Sz New F T Run (S1 & S2 & S3 & S4) Win. cbv zeta.
  assert (Forall (fun c => cmd_ts c <= t) (commands xs)) as F1 by (eapply Forall_impl; [|exact F]; intros c H; exact (proj1 H)).
  assert (Forall (data_ok p) (commands xs)) as F2 by (eapply Forall_impl; [|exact F]; intros c H; exact (proj2 H)).
  destruct (wire_start p i0 Sz New) as (max & Wm & V0 & Tg).
  assert (0 < fi_rate p) as R0 by (destruct (new_config p None i0 Sz New) as (? & _ & _ & (_ & _ & R0 & _) & _); exact R0).
  pose proof (wire_run p max i0 Sz Wm R0 xs [] i0 i F2 V0 Run) as V. cbn [app] in V.
  destruct (dq_stats p max true _ _ xs t _ Sz Wm R0 F1 T (wi_read _ _ _ _ _ V)) as [A1 G1].
  destruct (dq_stats p max false _ _ xs t _ Sz Wm R0 F1 T (wi_write _ _ _ _ _ V)) as [A2 G2].
  destruct (window_fields i t st st' Win) as (_ & (d & D & X1 & X2 & X3 & X4) & _).
  destruct (Tg t T) as [T1 T2]. unfold data_get in D. rewrite G1, G2, (wi_tr _ _ _ _ _ V), (wi_tw _ _ _ _ _ V), T1, T2 in D. cbn [bind] in D. apply value_inj in D. subst d.
  cbn [ds_read ds_write ds_tread ds_twrite] in *. rewrite S1 in X1. rewrite S2 in X2. rewrite S3 in X3. rewrite S4 in X4.
  rewrite !wrap_0 in X1, X2. split; [exact A1|]. split; [exact A2|]. split; [exact X1|]. split; [exact X2|]. split; [rewrite X3|rewrite X4]; reflexivity.
Qed.

(* ---- estimated data ---- *)
Definition tog_inv (p : ifspec) (i0 : iface) (xs : list call) (i : iface) : Prop :=
  if_spec i = p /\ is_bus (d_mode (if_data i)) = false /\
  exists ops, data_run ops (if_data i0) = Value (if_data i) /\ Forall is_load ops /\ forall read, lengths read ops = burst_lengths p read (commands xs).
Lemma burst_lengths_app p read xs ys : burst_lengths p read (xs ++ ys) = burst_lengths p read xs ++ burst_lengths p read ys.
Proof. unfold burst_lengths. apply flat_map_app. Qed.
Lemma tog_step p i0 xs x i i' : sizes_ok p -> tog_inv p i0 xs i -> call_do x i = Value i' -> tog_inv p i0 (xs ++ [x]) i'.
Proof.
  intros Sz (Sp & Mo & ops & Ru & Lo & Le) E.
  assert (commands (xs ++ [x]) = commands xs ++ match x with Do c => [c] | _ => [] end) as Cm by (rewrite commands_app; destruct x; reflexivity).
  assert (forall j, if_spec j = if_spec i -> if_data j = if_data i -> (forall read, burst_lengths p read (match x with Do c => [c] | _ => [] end) = []) -> tog_inv p i0 (xs ++ [x]) j) as K.
  { intros j H1 H2 H3. split; [congruence|]. split; [congruence|]. exists ops. rewrite H2. split; [exact Ru|]. split; [exact Lo|]. intros r. rewrite Cm, burst_lengths_app, H3, app_nil_r. apply Le. }
  destruct x as [c|e|a b|e|t|t]; cbn [call_do] in E.
  - pose proof (transfers_routing p (cmd_type c)) as R. apply command_same in E. rewrite Sp in E.
    destruct (transfers (cmd_type c)) as [read|] eqn:T.
    + rewrite R in E. destruct E as (y & B & S1 & S2 & _). destruct (burst_effect p false c read i y Sp Mo Sz B) as (d & z & buf & Y & Md & pl & Do). cbn [fst] in *. subst y. cbn [fst if_with_data if_spec if_data] in *.
      split; [congruence|]. split; [congruence|]. exists (ops ++ [DLoad read (cmd_ts c) (N.to_nat (burst_bits p false c)) pl]).
      split; [|split].
      * unfold data_run in *. rewrite loop_app, Ru. cbn [bind loop]. rewrite Do. cbn [bind]. congruence.
      * apply Forall_app. split; [exact Lo|]. constructor; [exact I|constructor].
      * intros r. rewrite Cm, burst_lengths_app, <- Le. unfold lengths. rewrite flat_map_app. f_equal. unfold burst_lengths. cbn [flat_map]. rewrite T, N2Nat.id. reflexivity.
    + assert (forall read, burst_lengths p read [c] = []) as Nl by (intros r; unfold burst_lengths; cbn [flat_map]; now rewrite T).
      destruct (routing p (cmd_type c)) as [|read| | | |]; [|destruct (R read eq_refl)| | | |]; try solve [destruct E as (S1 & S2 & _); apply K; auto].
      destruct E as (j & Ej & S1 & S2 & _). apply K; auto.
      * rewrite S1. unfold end_of_simulation in Ej. destruct (if_dbi i); [apply bind_inv in Ej as (q & _ & Ej)|]; apply value_inj in Ej; subst j; reflexivity.
      * rewrite S2. unfold end_of_simulation in Ej. destruct (if_dbi i); [apply bind_inv in Ej as (q & _ & Ej)|]; apply value_inj in Ej; subst j; reflexivity.
  - apply value_inj in E. subst i'. unfold if_enable_dbi. destruct (if_dbi i); [|apply K; auto]. destruct (match fi_std (if_spec i) with DDR4 => _ | _ => _ end); apply K; auto.
  - apply value_inj in E. subst i'. apply K; auto.
  - unfold if_set_parity in E. apply check_inv in E as [_ E]. destruct (if_pat i); apply value_inj in E; subst i'; apply K; auto.
  - unfold if_enable in E. destruct (if_enabled i); [apply value_inj in E; subst i'; apply K; auto|].
    apply bind_inv in E as (k & _ & E). apply bind_inv in E as (k' & _ & E). apply value_inj in E. subst i'. apply K; auto.
  - unfold if_disable in E. destruct (if_enabled i); [|apply value_inj in E; subst i'; apply K; auto].
    apply bind_inv in E as (k & _ & E). apply bind_inv in E as (k' & _ & E). apply value_inj in E. subst i'. apply K; auto.
Qed.
Lemma tog_run p i0 : sizes_ok p -> forall xs before i i', tog_inv p i0 before i -> calls_run xs i = Value i' -> tog_inv p i0 (before ++ xs) i'.
Proof.
  intros Sz. induction xs as [|x xs IH]; intros before i i' V R.
  - apply value_inj in R. subst i'. now rewrite app_nil_r.
  - apply loop_cons_inv in R as (j & R1 & R). replace (before ++ x :: xs) with ((before ++ [x]) ++ xs) by (rewrite <- app_assoc; reflexivity).
    eapply IH; [|exact R]. eapply tog_step; eassumption.
Qed.
Lemma on_always width rate ops n : Forall (fun o => match o with TLoad _ _ => True | _ => False end) ops -> beats_on width rate true ops n = n.
Proof.
  intros F. unfold beats_on.
  assert (forall st i, e_on st = true -> e_on (est_at width rate st ops i) = true) as K.
  { induction F as [|o l H _ IH]; intros st i S; [exact S|]. unfold est_at. cbn [fold_left]. apply IH. destruct (toggle_time o * rate <=? i); [|exact S].
    destruct o; try destruct H. cbn [est_step]. rewrite S. reflexivity. }
  unfold beats. rewrite (lines_ext _ _ (fun _ => true)); [|intros j _; now apply K]. rewrite (lines_const _ true). lia.
Qed.

Theorem data_bus_estimates p d i0 xs i t st st' rh wh : sizes_ok p -> iface_new p (Some d) = Value i0 ->
  high_idle (td_read_idle d) = Some rh -> high_idle (td_write_idle d) = Some wh ->
  (forall read, toggles_in_order (dq_lines p) (fi_rate p) 0 t (burst_lengths p read (commands xs))) -> t * fi_rate p < two64 ->
  calls_run xs i0 = Value i -> data_blank st -> if_window i t st = Value st' ->
  let n := t * fi_rate p in
  let busy read := beats_driven (dq_lines p) (fi_rate p) true (burst_lengths p read (commands xs)) n in
  busy true <= n /\ busy false <= n /\
  ss_readBus st' = stats0 /\ ss_writeBus st' = stats0 /\
  ss_togRead st' = wrap_stats (estimate (dq_lines p) (busy true) (n - busy true) (td_read_rate d) (td_read_duty d) rh) /\
  ss_togWrite st' = wrap_stats (estimate (dq_lines p) (busy false) (n - busy false) (td_write_rate d) (td_write_duty d) wh).
Proof.
  intros Sz New IR IW O T Run (S1 & S2 & S3 & S4) Win. cbv zeta.
  destruct (new_config p (Some d) i0 Sz New) as (max & Wm & D & C & Wd). cbn [data_mode] in D.
  assert (tog_inv p i0 [] i0) as V0.
  { split; [apply (bt_spec _ _ _ (new_built _ _ _ New))|]. split; [now rewrite (data_new_mode _ _ _ _ D)|]. exists []. split; [reflexivity|]. split; [constructor|]. reflexivity. }
  destruct (tog_run p i0 Sz xs [] i0 i V0 Run) as (_ & _ & ops & Ru & Lo & Le). cbn [app] in Le.
  destruct (window_fields i t st st' Win) as (_ & (ds & Dg & X1 & X2 & X3 & X4) & _).
  pose proof (toggling_mode_counts max (data_config_of p (Some d)) rh wh ops t (if_data i0) (if_data i) C IR IW Lo) as M.
  rewrite Wd, N2Nat.id, !Le, rate_eq in M. specialize (M (O true) (O false) T D Ru). rewrite Dg in M. apply value_inj in M. subst ds.
  cbn [ds_read ds_write ds_tread ds_twrite] in *. rewrite S1 in X1. rewrite S2 in X2. rewrite S3, wrap_0 in X3. rewrite S4, wrap_0 in X4.
  assert (forall read, beats_on (dq_lines p) (fi_rate p) true (burst_lengths p read (commands xs)) (t * fi_rate p) = t * fi_rate p) as On by (intros r; apply on_always; rewrite <- Le; apply lengths_loads).
  assert (forall read, beats_driven (dq_lines p) (fi_rate p) true (burst_lengths p read (commands xs)) (t * fi_rate p) <= t * fi_rate p) as Dr by (intros r; rewrite <- (On r) at 2; apply driven_le).
  split; [apply Dr|]. split; [apply Dr|]. split; [exact X1|]. split; [exact X2|].
  unfold estimate_of in X3, X4. rewrite Wd, N2Nat.id, rate_eq in X3, X4. cbv zeta in X3, X4. rewrite On in X3, X4. split; assumption.
Qed.
