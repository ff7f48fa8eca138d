(* Proofs about memory descriptions, for PropMemSpec.v. *)
From Coq Require Import NArith QArith List Bool Lia ZifyBool ZifyNat ZifyN.
From Verif Require Import Base Command CoreModel Bits PatternTables BusModel ToggleModel BusProofs DbiModel DbiPinModel EnergyModel EnergySpec IfEnergyModel InterfaceModel InterfaceSpec DramModel DramSpec DeviceSpec ChargeSpec
  MemSpecModel MemSpecSpec.
Import ListNotations.
Local Open Scope N_scope.
Ltac Zify.zify_post_hook ::= idtac.

Lemma bind_value {A B} (m : result A) (k : A -> result B) b : bind m k = Value b -> exists a, m = Value a /\ k a = Value b.
Proof. destruct m; cbn; [eauto|discriminate]. Qed.
Lemma value_eq {A} (a b : A) : Value a = Value b -> a = b.
Proof. congruence. Qed.
Lemma standard_eq_dec (a b : standard) : {a = b} + {a <> b}.
Proof. decide equality. Qed.
Lemma u64_div_cases a b : (b = 0 /\ u64_div a b = Fails UB) \/ (b <> 0 /\ u64_div a b = Value (a / b)).
Proof. unfold u64_div. destruct (N.eqb_spec b 0); auto. Qed.

(* ---- partial self refresh ---- *)

Lemma asks_spec w : asks_pasr w = if pasr_of w then Some (pasr_mode_of w) else None.
Proof.
  unfold asks_pasr, pasr_of, pasr_mode_of. destruct (rw_bankwise w) as [[rho sigma [[|]|] m]|]; cbn; reflexivity.
Qed.
Lemma iota_cases n from : (2 ^ 60 <= n /\ resize_iota n from = Fails Exception) \/ (n < 2 ^ 60 /\ exists l, resize_iota n from = Value l).
Proof. unfold resize_iota. destruct (N.leb_spec (2 ^ 60) n); [left; auto|right; eauto]. Qed.
Lemma sub_cases a b : a < 2 ^ 60 -> b <= 8 -> (b <= a -> u64_sub a b = a - b) /\ (a < b -> 2 ^ 60 <= u64_sub a b).
Proof.
  intros Ha Hb. unfold u64_sub, two64. change (2 ^ 60) with 1152921504606846976 in *.
  rewrite (N.mod_small b) by lia. split; intros H.
  - replace (a + 18446744073709551616 - b) with (a - b + 1 * 18446744073709551616) by lia. rewrite N.mod_add by discriminate. apply N.mod_small. lia.
  - rewrite N.mod_small by lia. lia.
Qed.
Lemma active_cases w : rw_banks w < 2 ^ 60 ->
  ((forall mode, asks_pasr w = Some mode -> N.of_nat (left_out mode) <= rw_banks w) /\ exists l, active_banks w = Value l) \/
  (~ (forall mode, asks_pasr w = Some mode -> N.of_nat (left_out mode) <= rw_banks w) /\ active_banks w = Fails Exception).
Proof.
  intros Hb. rewrite asks_spec. unfold active_banks. destruct (pasr_of w); [|left; split; [discriminate|eauto]].
  generalize (pasr_mode_of w). intros m. cbv zeta.
  assert (forall k from, k <= 8 -> N.of_nat (left_out m) = k ->
    ((forall mode, Some m = Some mode -> N.of_nat (left_out mode) <= rw_banks w) /\ (exists l, resize_iota (u64_sub (rw_banks w) k) from = Value l)) \/
    (~ (forall mode, Some m = Some mode -> N.of_nat (left_out mode) <= rw_banks w) /\ resize_iota (u64_sub (rw_banks w) k) from = Fails Exception)) as X.
  { intros k from Hk E. destruct (sub_cases (rw_banks w) k Hb Hk) as [S1 S2]. destruct (N.le_gt_cases k (rw_banks w)) as [L|L].
    - left. split; [intros mode M; injection M as <-; lia|]. rewrite S1 by exact L. destruct (iota_cases (rw_banks w - k) from) as [[B _]|[_ ?]]; [lia|assumption].
    - right. split; [intros F; specialize (F m eq_refl); lia|]. specialize (S2 L). destruct (iota_cases (u64_sub (rw_banks w) k) from) as [[_ ?]|[B _]]; [assumption|lia]. }
  assert (N.of_nat (left_out m) = 0 -> ((forall mode, Some m = Some mode -> N.of_nat (left_out mode) <= rw_banks w) /\ (exists l, resize_iota (rw_banks w) 0 = Value l)) \/
    (~ (forall mode, Some m = Some mode -> N.of_nat (left_out mode) <= rw_banks w) /\ resize_iota (rw_banks w) 0 = Fails Exception)) as Y.
  { intros E. left. split; [intros mode M; injection M as <-; lia|]. destruct (iota_cases (rw_banks w) 0) as [[B _]|[_ ?]]; [lia|assumption]. }
  destruct m as [|q]; [apply Y; reflexivity|].
  destruct q as [[[q|q|]|[q|q|]|]|[[q|q|]|[q|q|]|]|]; first [apply Y; reflexivity|apply X; [lia|reflexivity]].
Qed.

(* ---- acceptance ---- *)

Lemma group_cases w : (~ (rw_std w <> DDR4 -> rw_groups w <> 0) /\ banks_per_group w = Fails UB) \/
  ((rw_std w <> DDR4 -> rw_groups w <> 0) /\ exists n, banks_per_group w = Value n).
Proof.
  unfold banks_per_group. destruct (u64_div_cases (rw_banks w) (rw_groups w)) as [[Z E]|[Z E]];
  destruct (rw_std w); rewrite ?E; first [right; split; [congruence|eauto; fail]|left; split; [intros F; apply F; [discriminate|assumption]|reflexivity]|right; split; [auto|eauto]].
Qed.
Lemma burst_cases w : let ok := match rw_std w with DDR4 | DDR5 => rw_dr w <> 0 | LPDDR4 => True | LPDDR5 | LPDDR6 => (rw_dr w * rw_wck w) mod two64 <> 0 end in
  (~ ok /\ burst_time w = Fails UB) \/ (ok /\ exists n, burst_time w = Value n).
Proof.
  cbv zeta. unfold burst_time, u64_mul.
  destruct (rw_std w); try (right; split; [exact I|eauto; fail]);
  match goal with |- context [u64_div ?a ?b] => destruct (u64_div_cases a b) as [[Z E]|[Z E]]; rewrite E end; [left|right|left|right|left|right|left|right]; split; eauto.
Qed.

Theorem stops w : rw_banks w < 2 ^ 60 ->
  (mem_new w = Fails UB <-> ~ divisors_ok w) /\ (mem_new w = Fails Exception <-> divisors_ok w /\ ~ pasr_ok w) /\
  ((exists m, mem_new w = Value m) <-> divisors_ok w /\ pasr_ok w).
Proof.
  intros Hb. unfold mem_new, divisors_ok, pasr_ok.
  destruct (group_cases w) as [[G E]|[G [n E]]]; rewrite E; cbn [bind].
  { split; [|split]; split; try discriminate; intros H; tauto || (destruct H; discriminate) || auto. }
  destruct (burst_cases w) as [[B E2]|[B [k E2]]]; rewrite E2.
  - assert (rw_std w <> LPDDR4) as NL by (intros S; rewrite S in B; tauto).
    assert (match rw_std w with LPDDR4 => active_banks w | _ => Value [] end = Value []) as -> by (destruct (rw_std w); congruence). cbn [bind].
    split; [|split]; split; try discriminate; intros H; try tauto. destruct H; discriminate.
  - destruct (active_cases w Hb) as [[A [l E3]]|[A E3]].
    + assert (exists a, match rw_std w with LPDDR4 => active_banks w | _ => Value [] end = Value a) as [a ->] by (destruct (rw_std w); eauto). cbn [bind].
      destruct (match rw_std w with LPDDR5 => bank_arch_of w | _ => (M16B, rw_banks w, rw_groups w) end) as [[arch banks] groups].
      split; [|split]; split; try discriminate; intros H; try tauto; eauto.
    + destruct (standard_eq_dec (rw_std w) LPDDR4) as [S|S].
      * rewrite S in *. rewrite E3. cbn [bind].
        assert (~ (LPDDR4 = LPDDR4 -> forall mode, asks_pasr w = Some mode -> N.of_nat (left_out mode) <= rw_banks w)) as NA by (intros F; apply A; exact (F eq_refl)).
        split; [|split]; split; try discriminate; intros H; try tauto. destruct H; discriminate.
      * assert (match rw_std w with LPDDR4 => active_banks w | _ => Value [] end = Value []) as -> by (destruct (rw_std w); congruence). cbn [bind].
        destruct (match rw_std w with LPDDR5 => bank_arch_of w | _ => (M16B, rw_banks w, rw_groups w) end) as [[arch banks] groups].
        split; [|split]; split; try discriminate; intros H; try tauto; eauto.
Qed.

Lemma mem_inv w m : mem_new w = Value m -> exists bpg active burst arch banks groups,
  banks_per_group w = Value bpg /\ burst_time w = Value burst /\ (rw_std w = LPDDR4 -> active_banks w = Value active) /\
  (match rw_std w with LPDDR5 => bank_arch_of w | _ => (M16B, rw_banks w, rw_groups w) end) = (arch, banks, groups) /\
  m = mkMem (rw_std w) banks (rw_rows w) (rw_columns w) (devices_of w) (rw_bl w) (rw_dr w) (rw_width w) groups (rw_ranks w) bpg
    (rw_tCK w) (wck_time w) (rw_wck w) (rw_ras w) (rw_rcd w) (rw_rcdw w) (rw_rp w) (refresh_time w) (rw_rfcs w) (rw_refi w)
    (offset_read w burst) (offset_write w burst) (map (power_of w) (rw_domains w)) (rw_vddq w) (rho_of w) (rw_imp w) (rw_ambles w)
    (rates_of w) arch (rw_wck_on w) (sigma_of w) (pasr_of w) (pasr_mode_of w) active.
Proof.
  unfold mem_new. intros H. apply bind_value in H as (bpg & H1 & H). apply bind_value in H as (active & H2 & H). apply bind_value in H as (burst & H3 & H).
  destruct (match rw_std w with LPDDR5 => bank_arch_of w | _ => (M16B, rw_banks w, rw_groups w) end) as [[arch banks] groups] eqn:E.
  exists bpg, active, burst, arch, banks, groups. split; [exact H1|]. split; [exact H3|]. split; [intros S; rewrite S in H2; exact H2|]. split; [reflexivity|]. congruence.
Qed.

Lemma devices_max w : devices_of w = N.max 1 (rw_devices w).
Proof. unfold devices_of. destruct (N.ltb_spec (rw_devices w) 1); lia. Qed.
Lemma refresh_chosen w : refresh_time w = choice_time (chosen w) w /\ forall d, refresh_current w d = choice_current (chosen w) d.
Proof. unfold refresh_time, refresh_current, chosen. destruct (rw_std w), (rw_mode w); split; intros; reflexivity. Qed.
Lemma powers w l : Forall2 (currents_of w) l (map (power_of w) l).
Proof.
  induction l as [|d l IH]; [constructor|]. cbn [map]. constructor; [|exact IH]. destruct (refresh_chosen w) as [_ R].
  split; try reflexivity. exact (R d).
Qed.
Lemma wck_back w : rw_wck w <> 0 -> (wck_time w * inject_Z (Z.of_N (rw_wck w)) == rw_tCK w)%Q.
Proof.
  intros H. unfold wck_time, qn. field. intros E. apply H. unfold Qeq in E. cbn in E. rewrite Z.mul_1_r in E. destruct (rw_wck w); [reflexivity|discriminate].
Qed.

Theorem core_takes_all w m : mem_new w = Value m -> core_takes w (core_view m) (energy_view m).
Proof.
  intros H. destruct (mem_inv w m H) as (bpg & active & burst & arch & banks & groups & E1 & E2 & E3 & E4 & ->).
  destruct (refresh_chosen w) as [R _]. rewrite R.
  split; cbn [core_view energy_view ms_std ms_ranks ms_banks ms_groups ms_tRAS ms_tRP ms_tRCD ms_tRCDW ms_tRFC ms_tRFCsb ms_tRFCPB ms_tRFCDB
    es_std es_ranks es_devices es_banks es_groups es_tRAS es_tRP es_tRFC es_tRFCs es_tREFI es_tCK es_tWCK es_bl es_dr es_rho es_domains
    mm_std mm_ranks mm_banks mm_devices mm_groups mm_tRAS mm_tRP mm_tRCD mm_tRCDW mm_tRFC mm_tRFCs mm_tREFI mm_tCK mm_tWCK mm_bl mm_dr mm_rho mm_power]; auto.
  - now rewrite devices_max.
  - intros S. destruct (rw_std w); try congruence; injection E4 as <- <- <-; auto.
  - intros S. destruct (rw_std w); try congruence; injection E4 as <- <- <-; auto.
  - split; [reflexivity|apply wck_back].
  - unfold rho_of, strip_bankwise, value_or. destruct (rw_bankwise w); reflexivity.
  - apply powers.
Qed.
Theorem interface_takes_all w m grow wild : mem_new w = Value m -> interface_takes w (interface_view m grow wild) (ifenergy_view m).
Proof.
  intros H. destruct (mem_inv w m H) as (bpg & active & burst & arch & banks & groups & E1 & E2 & E3 & E4 & ->).
  split; cbn [interface_view ifenergy_view fi_std fi_rate fi_burst fi_bits fi_devices fi_ranks fi_dqs fi_wck fi_wck_on fi_groups is_std is_tCK is_tWCK is_vddq is_dr is_dqs_rate is_width is_imp is_ambles
    mm_std mm_ranks mm_devices mm_groups mm_tCK mm_tWCK mm_bl mm_dr mm_width mm_wck mm_wck_on mm_rates mm_vddq mm_imp mm_ambles]; auto.
  - apply devices_max.
  - unfold rates_of, value_or. destruct (rw_rates w); split; reflexivity.
  - split; [reflexivity|apply wck_back].
  - intros S. rewrite S in E4. congruence.
Qed.
(* The parts agree with each other. *)
Theorem parts_agree w m sim grow wild : mem_new w = Value m ->
  views_agree (views m sim grow wild) /\ same_memory (core_view m) (energy_view m).
Proof. intros _. split; split; cbn; auto. Qed.

(* ---- offsets ---- *)
Lemma add_exact a b : a + b < two64 -> u64_add a b = a + b.
Proof. intros H. unfold u64_add. now apply N.mod_small. Qed.
Lemma burst_exact w n : burst_time w = Value n -> rw_std w <> LPDDR4 -> rw_dr w * rw_wck w < two64 -> n = burst_clocks w.
Proof.
  unfold burst_time, burst_clocks, u64_mul. intros E S H. rewrite (N.mod_small _ _ H) in E.
  destruct (rw_std w); try congruence;
  match type of E with u64_div ?a ?b = _ => destruct (u64_div_cases a b) as [[_ X]|[_ X]]; rewrite X in E; congruence end.
Qed.
Theorem offsets w m : mem_new w = Value m -> rw_dr w * rw_wck w < two64 -> read_to_precharge w < two64 -> write_to_precharge w < two64 ->
  ms_offRD (core_view m) = read_to_precharge w /\ ms_offWR (core_view m) = write_to_precharge w.
Proof.
  intros H P R W. destruct (mem_inv w m H) as (bpg & active & burst & arch & banks & groups & E1 & E2 & E3 & E4 & ->).
  cbn [core_view ms_offRD ms_offWR mm_offRD mm_offWR].
  pose proof (burst_exact w burst E2) as B. unfold offset_read, offset_write, read_to_precharge, write_to_precharge in *.
  assert (forall a b c d, a + b + c + d < two64 -> u64_add (u64_add (u64_add a b) c) d = a + b + c + d) as A4.
  { intros a b c d L. rewrite (add_exact a b) by lia. rewrite (add_exact (a + b) c) by lia. apply add_exact. exact L. }
  assert (forall a b c, a + b + c < two64 -> u64_add (u64_add a b) c = a + b + c) as A3.
  { intros a b c L. rewrite (add_exact a b) by lia. apply add_exact. exact L. }
  clear H E2. destruct (rw_std w) eqn:S; try (specialize (B ltac:(discriminate) P); subst burst).
  - rewrite add_exact, A3 by lia. lia.
  - rewrite A3 by lia. lia.
  - rewrite A4 by exact W. destruct (rw_bl w =? 16); [split; reflexivity|]. split; [apply add_exact; exact R|reflexivity].
  - rewrite add_exact, A4 by lia. lia.
  - rewrite add_exact, A4 by lia. lia.
Qed.

(* ---- the interface ---- *)
Lemma preset_iff n : (exists max, preset_capacity n = Value max) <-> (n <= N.to_nat 4096)%nat.
Proof.
  change (N.to_nat 4096) with (4 * 1024)%nat. unfold preset_capacity. change 4096%nat with (4 * 1024)%nat.
  destruct (Nat.leb_spec n 64); [split; [lia|eauto]|]. destruct (Nat.leb_spec n 256); [split; [lia|eauto]|].
  destruct (Nat.leb_spec n 1024); [split; [lia|eauto]|]. destruct (Nat.leb_spec n (4 * 1024)); [split; [lia|eauto]|].
  split; [intros [max E]; discriminate|lia].
Qed.
Lemma preset_holds n max : preset_capacity n = Value max -> (n <= max)%nat.
Proof.
  unfold preset_capacity. intros H.
  destruct (Nat.leb_spec n 64); [apply value_eq in H; lia|]. destruct (Nat.leb_spec n 256); [apply value_eq in H; lia|].
  destruct (Nat.leb_spec n 1024); [apply value_eq in H; lia|]. destruct (Nat.leb_spec n 4096); [apply value_eq in H; lia|discriminate].
Qed.
Lemma in_unit_iff q : in_unit q = true <-> fraction q.
Proof. unfold in_unit, fraction. rewrite andb_true_iff, !Qle_bool_iff. tauto. Qed.
Lemma toggling_iff w r rate duty i e : (exists h, toggling_new w r rate duty i e = Value h) <-> 0 < w /\ 0 < r /\ fraction duty /\ fraction rate.
Proof.
  unfold toggling_new, check. rewrite <- !in_unit_iff, <- !N.ltb_lt. destruct (0 <? w), (0 <? r), (in_unit duty), (in_unit rate);
  split; try (intros [h H]; discriminate); try (intros (A & B & C & D); discriminate); eauto.
Qed.
Lemma bus_goes max width rate i e : (width <= max)%nat -> exists b, bus_new max width rate i e = Value b.
Proof.
  intros H. unfold bus_new. assert (exists high, i = spec_of high) as [high ->] by (destruct i; [exists false|exists true]; reflexivity).
  rewrite idle_burst_ok by exact H. cbn [bind]. eauto.
Qed.
Lemma convert_iff i : (exists s, convert_idle i = Value s) <-> i <> TogInvalid.
Proof. destruct i; cbn; split; try congruence; eauto. intros [s H]. discriminate. Qed.
Lemma data_iff max c m : (dc_width c <= max)%nat ->
  ((exists d, data_new max c m = Value d) <-> dc_read_idle c <> TogInvalid /\ dc_write_idle c <> TogInvalid /\ (0 < dc_width c)%nat /\ 0 < dc_rate c /\
    fraction (dc_read_rate c) /\ fraction (dc_read_duty c) /\ fraction (dc_write_rate c) /\ fraction (dc_write_duty c)).
Proof.
  intros W. unfold data_new. pose proof (fun i e => bus_goes max (dc_width c) (dc_rate c) i e W) as B. split.
  - intros [d H]. apply bind_value in H as (ir & H1 & H). apply bind_value in H as (br & _ & H). apply bind_value in H as (iw & H2 & H). apply bind_value in H as (bw & _ & H).
    apply bind_value in H as (tr & H3 & H). apply bind_value in H as (tw & H4 & _).
    pose proof (proj1 (convert_iff _) (ex_intro _ _ H1)). pose proof (proj1 (convert_iff _) (ex_intro _ _ H2)).
    pose proof (proj1 (toggling_iff _ _ _ _ _ _) (ex_intro _ _ H3)). pose proof (proj1 (toggling_iff _ _ _ _ _ _) (ex_intro _ _ H4)).
    assert (0 < dc_width c)%nat by lia. tauto.
  - intros (I1 & I2 & W0 & R & F1 & F2 & F3 & F4).
    destruct (proj2 (convert_iff _) I1) as [ir ->]. cbn [bind]. destruct (B ir (is_bus m)) as [br ->]. cbn [bind].
    destruct (proj2 (convert_iff _) I2) as [iw ->]. cbn [bind]. destruct (B iw (is_bus m)) as [bw ->]. cbn [bind].
    destruct (proj2 (toggling_iff (N.of_nat (dc_width c)) (dc_rate c) (dc_read_rate c) (dc_read_duty c) (dc_read_idle c) (negb (is_bus m)))) as [tr ->]; [assert (0 < N.of_nat (dc_width c)) by lia; tauto|].
    destruct (proj2 (toggling_iff (N.of_nat (dc_width c)) (dc_rate c) (dc_write_rate c) (dc_write_duty c) (dc_write_idle c) (negb (is_bus m)))) as [tw ->]; [assert (0 < N.of_nat (dc_width c)) by lia; tauto|].
    cbn [bind]. eauto.
Qed.
Lemma bytes_mod n : (N.to_nat n mod 8 = 0)%nat <-> n mod 8 = 0.
Proof. change 8%nat with (N.to_nat 8). rewrite <- N2Nat.inj_mod by discriminate. lia. Qed.
Lemma dbi_iff p : (exists d, new_dbi p = Value d) <-> match fi_std p with DDR4 | LPDDR4 | LPDDR5 => data_width p mod 8 = 0 | _ => True end.
Proof.
  pose proof (bytes_mod (data_width p)) as M. unfold new_dbi, dbi_if_new, dbi_new, dbi_config_of, check.
  destruct (fi_std p); cbn -[Nat.modulo Nat.div N.to_nat]; try (split; eauto; fail);
  (destruct (Nat.eqb_spec (N.to_nat (data_width p) mod 8) 0) as [E|E]; rewrite ?E; cbn -[Nat.modulo Nat.div N.to_nat];
   [split; [intros _; now apply M|eauto]|split; [intros [d H]; discriminate|intros F; apply M in F; contradiction]]).
Qed.
Lemma command_bus_made s : exists b, bus_new (ca_width s) (ca_width s) (ca_rate s) (ca_idle s) true = Value b.
Proof. apply bus_goes. reflexivity. Qed.
Theorem interface_made p sim : (exists i, iface_new p sim = Value i) <-> interface_possible p sim.
Proof.
  unfold iface_new, interface_possible. cbv zeta. change ((fi_bits p * fi_devices p) mod two64) with (data_width p).
  destruct (command_bus_made (fi_std p)) as [cb ->]. cbn [bind].
  pose proof (preset_iff (N.to_nat (data_width p))) as P.
  destruct (preset_capacity (N.to_nat (data_width p))) as [max|f] eqn:E; cbn [bind].
  2:{ split; [intros [i H]; discriminate|]. intros (_ & H & _). destruct (proj2 P) as [m H']; [lia|discriminate]. }
  assert (data_width p <= 4096) as L by (destruct P as [P _]; specialize (P (ex_intro _ max eq_refl)); lia).
  apply preset_holds in E. pose proof (data_iff max (data_config_of p sim) (data_mode sim) E) as D.
  assert ((exists d, data_new max (data_config_of p sim) (data_mode sim) = Value d) <-> 0 < data_width p /\ 0 < fi_rate p /\ match sim with Some d => good_toggle d | None => True end) as D'.
  { rewrite D. clear. unfold data_config_of, good_toggle. destruct sim as [d|]; cbn [dc_read_idle dc_write_idle dc_width dc_rate dc_read_rate dc_read_duty dc_write_rate dc_write_duty].
    - assert ((0 < N.to_nat (data_width p))%nat <-> 0 < data_width p) as -> by lia. tauto.
    - assert (fraction 0) as F0 by (split; intros X; discriminate X).
      unfold bus_config. cbn [td_read_rate td_read_duty td_read_idle td_write_rate td_write_duty td_write_idle].
      assert ((0 < N.to_nat (data_width p))%nat <-> 0 < data_width p) as -> by lia.
      assert (match fi_std p with DDR4 | DDR5 => TogH | _ => TogL end <> TogInvalid) by (destruct (fi_std p); discriminate). tauto. }
  clear D P. destruct (data_new max (data_config_of p sim) (data_mode sim)) as [d|f]; cbn [bind].
  2:{ split; [intros [i H]; discriminate|]. intros (H1 & _ & H2 & H3 & _). destruct (proj2 D') as [d H]; [tauto|discriminate]. }
  destruct (proj1 D' (ex_intro _ d eq_refl)) as (W & R & T). clear D'. pose proof (dbi_iff p) as X.
  split.
  - intros [i H]. apply bind_value in H as (wck & K & H). apply bind_value in H as (db & X1 & _). pose proof (proj1 X (ex_intro _ db X1)) as Y. clear X X1.
    repeat split; auto. destruct (fi_std p); auto; destruct (N.eqb_spec (fi_wck p) 0); try discriminate; auto.
  - intros (_ & _ & _ & _ & H).
    assert (exists wck, match fi_std p with LPDDR5 | LPDDR6 => if fi_wck p =? 0 then Fails UB else Value (clock_new (fi_rate p / fi_wck p) (negb (fi_wck_on p))) | _ => Value (clock_new 2 true) end = Value wck) as [wck ->].
    { destruct (fi_std p); eauto; destruct (N.eqb_spec (fi_wck p) 0); try tauto; eauto. }
    cbn [bind]. destruct (proj2 X) as [db ->]; [destruct (fi_std p); tauto|]. cbn [bind]. eauto.
Qed.

(* ---- sound descriptions ---- *)
Lemma lines_exact w : sound w -> (rw_width w * N.max 1 (rw_devices w)) mod two64 = rw_width w * N.max 1 (rw_devices w).
Proof. intros S. apply N.mod_small. destruct (so_lines w S) as [_ L]. unfold two64. lia. Qed.
Lemma factor_positive n r : n <> 0%nat -> (0 <= r)%Q -> ~ (qnat n * r + (1 - r) == 0)%Q.
Proof.
  intros N0 R E. assert (1 <= qnat n)%Q as L by (unfold qnat, Qle; cbn; lia).
  assert (1 * r <= qnat n * r)%Q as M by (apply Qmult_le_compat_r; assumption).
  assert (1 <= qnat n * r + (1 - r))%Q as K by (setoid_replace (1%Q) with (1 * r + (1 - r))%Q at 1 by ring; apply Qplus_le_compat; [exact M|apply Qle_refl]).
  rewrite E in K. apply K. reflexivity.
Qed.
Lemma arch_banks w arch banks groups : 0 < rw_banks w ->
  (match rw_std w with LPDDR5 => bank_arch_of w | _ => (M16B, rw_banks w, rw_groups w) end) = (arch, banks, groups) -> 0 < banks /\ (rw_std w <> LPDDR5 -> banks = rw_banks w /\ groups = rw_groups w).
Proof.
  intros P H. destruct (standard_eq_dec (rw_std w) LPDDR5) as [S|S].
  - rewrite S in *. split; [|congruence]. unfold bank_arch_of in H.
    destruct (rw_banks w =? 16), (rw_banks w =? 8), ((rw_groups w =? 1) || (rw_groups w =? 0)), (rw_groups w =? 4), (1 <? rw_groups w); injection H as <- <- <-; lia.
  - destruct (rw_std w); try congruence; injection H as <- <- <-; auto.
Qed.
Theorem sound_works w sim grow wild : sound w -> rw_banks w < 2 ^ 60 -> match sim with Some d => good_toggle d | None => True end ->
  exists m d, mem_new w = Value m /\ dram_new (views m sim grow wild) = Value d /\
    DeviceSpec.well_formed (core_view m) /\ EnergySpec.well_formed (energy_view m) /\ sizes_ok (interface_view m grow wild) /\
    (fi_std (interface_view m grow wild) = LPDDR6 -> fi_groups (interface_view m grow wild) = 4).
Proof.
  intros S Hb T. destruct (stops w Hb) as (_ & _ & [_ V]). destruct (V (conj (so_div w S) (so_pasr w S))) as [m M]. clear V. exists m.
  pose proof (interface_takes_all w m grow wild M) as IT. pose proof (core_takes_all w m M) as CT. pose proof (lines_exact w S) as LE.
  destruct (so_lines w S) as [L0 L1].
  assert (interface_possible (interface_view m grow wild) sim) as IP.
  { unfold interface_possible. cbv zeta. rewrite (proj1 (it_width _ _ _ IT)), (it_devices _ _ _ IT), (proj1 (it_rate _ _ _ IT)), (proj1 (it_std _ _ _ IT)), (proj1 (it_wck _ _ _ IT)), LE.
    assert (0 < rw_width w * N.max 1 (rw_devices w)) as L2 by (apply N.mul_pos_pos; lia).
    split; [exact L2|]. split; [exact L1|]. split; [apply (so_rate w S)|]. split; [exact T|].
    pose proof (so_bytes w S) as B. destruct (so_div w S) as [_ D].
    assert (rw_wck w = 0 -> (rw_dr w * rw_wck w) mod two64 = 0) as Z by (intros ->; rewrite N.mul_0_r; reflexivity).
    destruct (rw_std w); try tauto. }
  apply interface_made in IP as [i E]. eexists. split; [exact M|]. split; [unfold dram_new; cbn [views dp_if dp_sim]; rewrite E; reflexivity|].
  destruct (mem_inv w m M) as (bpg & active & burst & arch & banks & groups & E1 & E2 & E3 & E4 & Em).
  destruct (arch_banks w arch banks groups (so_banks w S) E4) as [Bp Bs].
  split; [|split; [|split]].
  - rewrite Em. split; cbn [core_view ms_std ms_banks ms_banksPerGroup ms_groups mm_std mm_banks mm_bpg mm_groups]; [lia|].
    intros D5. destruct Bs as [-> ->]; [congruence|]. unfold banks_per_group in E1. rewrite D5 in E1.
    destruct (so_div w S) as [G _]. destruct (u64_div_cases (rw_banks w) (rw_groups w)) as [[Z _]|[Z X]]; [exfalso; apply G; congruence|].
    rewrite X in E1. apply value_eq in E1. subst bpg. destruct (so_groups w S D5) as [k K]. pose proof (so_banks w S) as P. rewrite K in *. rewrite N.div_mul by exact Z. split; nia.
  - split.
    + rewrite (proj2 (ct_burst _ _ _ CT)). pose proof (so_rate w S). lia.
    + rewrite Em. cbn [energy_view es_banks mm_banks]. lia.
    + rewrite (proj1 (ct_clock _ _ _ CT)). apply (so_tck w S).
    + rewrite (proj2 (ct_ras _ _ _ CT)). apply (so_ras w S).
    + rewrite (proj2 (ct_std _ _ _ CT)). pose proof (so_lpddr w S) as L. rewrite (proj2 (proj2 (proj2 (ct_rfcs _ _ _ CT)))).
      assert (~ (qnat (es_banks (energy_view m)) * es_rho (energy_view m) + (1 - es_rho (energy_view m)) == 0)%Q) as F.
      { apply factor_positive; [rewrite Em; cbn [energy_view es_banks mm_banks]; lia|]. rewrite (ct_rho _ _ _ CT). pose proof (so_rho w S) as R.
        destruct (strip_bankwise (rw_bankwise w)) as [q|]; [apply R; reflexivity|intros X; discriminate X]. }
      destruct (rw_std w) eqn:St; auto. destruct (ct_groups _ _ _ CT) as [_ G]; [congruence|]. rewrite G. destruct (so_div w S) as [G2 _]. rewrite St in G2. specialize (G2 ltac:(discriminate)). lia.
  - assert (dq_lines (interface_view m grow wild) = rw_width w * N.max 1 (rw_devices w)) as Q by (unfold dq_lines; rewrite (proj1 (it_width _ _ _ IT)), (it_devices _ _ _ IT); reflexivity).
    unfold sizes_ok. rewrite Q, (it_burst _ _ _ IT). pose proof (so_burst w S) as B. split; [apply N.mul_pos_pos; lia|]. split; [unfold two64; lia|].
    eapply N.le_lt_trans; [apply N.mul_le_mono_l; exact L1|exact B].
  - rewrite (proj1 (it_std _ _ _ IT)). intros X. rewrite (it_groups _ _ _ IT X). now apply (so_groups6 w S).
Qed.

(* ---- what has no effect ---- *)
Lemma div_eq a b c d x y : a = c -> b = d -> u64_div a b = Value x -> u64_div c d = Value y -> x = y.
Proof. intros -> -> H1 H2. congruence. Qed.
Theorem ignored w w' m m' sim grow wild : same_but w w' -> mem_new w = Value m -> mem_new w' = Value m' ->
  views m sim grow wild = views m' sim grow wild.
Proof.
  intros S H H'. destruct (mem_inv w m H) as (bpg & active & burst & arch & banks & groups & E1 & E2 & _ & E4 & ->).
  destruct (mem_inv w' m' H') as (bpg' & active' & burst' & arch' & banks' & groups' & E1' & E2' & _ & E4' & ->). clear H H'.
  destruct S as [S1 S2 S3 S4 S5 S6 S7 S8 S9 S10 ST SP SF SD]. injection ST as T1 T2 T3 T4 T5 T6 T7 T8 T9 T10 T11 T12 T13 T14 T15. destruct SP as (P1 & P2 & P3 & P4).
  assert (bpg = bpg') as <-.
  { unfold banks_per_group in *. rewrite <- S1, <- S2, <- S7 in E1'. congruence. }
  assert (burst = burst') as <-.
  { unfold burst_time in *. rewrite <- S1, <- S4, <- S5, <- T2 in E2'. congruence. }
  assert ((arch, banks, groups) = (arch', banks', groups')) as E5.
  { rewrite <- E4, <- E4'. unfold bank_arch_of. now rewrite <- S1, <- S2, <- S7. }
  injection E5 as <- <- <-.
  assert (rr_dqs (rates_of w) = rr_dqs (rates_of w')) as R.
  { unfold rates_of, value_or. destruct (rw_rates w) as [r|], (rw_rates w') as [r'|]; cbn in *; destruct SD as [SD|[SD SD']]; congruence. }
  assert (rho_of w = rho_of w') as Rh.
  { unfold rho_of, strip_bankwise in *. destruct (rw_bankwise w) as [b|], (rw_bankwise w') as [b'|]; cbn [value_or]; try rewrite SF; try reflexivity; rewrite <- SF; reflexivity. }
  assert (map (power_of w) (rw_domains w) = map (power_of w') (rw_domains w')) as Pw.
  { rewrite <- P1. apply map_ext. intros d. unfold power_of, refresh_current. now rewrite <- S1, <- S9. }
  unfold views, core_view, interface_view, energy_view, ifenergy_view.
  cbn [mm_std mm_banks mm_rows mm_columns mm_devices mm_bl mm_dr mm_width mm_groups mm_ranks mm_bpg mm_tCK mm_tWCK mm_wck mm_tRAS mm_tRCD mm_tRCDW mm_tRP mm_tRFC mm_tRFCs mm_tREFI
       mm_offRD mm_offWR mm_power mm_vddq mm_rho mm_imp mm_ambles mm_rates mm_arch mm_wck_on].
  rewrite R, Rh, Pw. unfold devices_of, wck_time, refresh_time, offset_read, offset_write.
  rewrite <- S1, <- S3, <- S4, <- S5, <- S6, <- S8, <- S9, <- S10, <- T1, <- T2, <- T3, <- T4, <- T5, <- T6, <- T7, <- T8, <- T9, <- T10, <- T11, <- T12, <- T13, <- T14, <- T15, <- P2, <- P3, <- P4.
  reflexivity.
Qed.

(* ---- LPDDR5 ---- *)
Theorem layouts w m grow wild : rw_std w = LPDDR5 -> mem_new w = Value m -> known_layout w ->
  ms_banks (core_view m) = N.to_nat (rw_banks w) /\ ms_groups (core_view m) = N.to_nat (rw_groups w) /\
  fi_arch (interface_view m grow wild) = (if rw_banks w =? 8 then M8B else if rw_groups w =? 4 then MBG else M16B) /\
  ms_m8b (core_view m) = (rw_banks w =? 8) /\ es_mbg (energy_view m) = (rw_groups w =? 4).
Proof.
  intros S H K. destruct (mem_inv w m H) as (bpg & active & burst & arch & banks & groups & E1 & E2 & _ & E4 & ->).
  rewrite S in E4. unfold bank_arch_of in E4.
  cbn [core_view interface_view energy_view ms_banks ms_groups fi_arch ms_m8b es_mbg mm_banks mm_groups mm_arch mm_std]. rewrite S.
  destruct K as [[B [G|[G|G]]]|[B [G|G]]]; rewrite B, G in E4; cbn in E4; injection E4 as <- <- <-; rewrite B, G; repeat split.
Qed.
Theorem other_layouts w m grow wild : rw_std w = LPDDR5 -> mem_new w = Value m -> ~ known_layout w ->
  exists m', mem_new (as_16_banks w) = Value m' /\ without_group_size (core_view m) = without_group_size (core_view m') /\
    interface_view m grow wild = interface_view m' grow wild /\ energy_view m = energy_view m' /\ ifenergy_view m = ifenergy_view m'.
Proof.
  intros S H K. destruct (mem_inv w m H) as (bpg & active & burst & arch & banks & groups & E1 & E2 & _ & E4 & ->).
  assert ((arch, banks, groups) = (M16B, 16, 1)) as E5.
  { rewrite S in E4. rewrite <- E4. unfold bank_arch_of, known_layout in *.
    destruct (N.eqb_spec (rw_banks w) 16), (N.eqb_spec (rw_banks w) 8), (N.eqb_spec (rw_groups w) 1), (N.eqb_spec (rw_groups w) 0), (N.eqb_spec (rw_groups w) 4), (N.ltb_spec 1 (rw_groups w)); cbn [orb]; try reflexivity; exfalso; try (apply K; tauto); lia. }
  injection E5 as -> -> ->.
  unfold mem_new. change (rw_std (as_16_banks w)) with (rw_std w). change (banks_per_group (as_16_banks w)) with (match rw_std w with DDR4 => Value 0 | _ => u64_div 16 1 end).
  change (burst_time (as_16_banks w)) with (burst_time w). rewrite E2, S. cbn [bind]. change (u64_div 16 1) with (Value 16). cbn [bind].
  change (bank_arch_of (as_16_banks w)) with (M16B, 16, 1). cbv iota beta. eexists. split; [reflexivity|].
  unfold core_view, interface_view, energy_view, ifenergy_view, without_group_size.
  cbn [mm_std mm_banks mm_rows mm_columns mm_devices mm_bl mm_dr mm_width mm_groups mm_ranks mm_bpg mm_tCK mm_tWCK mm_wck mm_tRAS mm_tRCD mm_tRCDW mm_tRP mm_tRFC mm_tRFCs mm_tREFI
       mm_offRD mm_offWR mm_power mm_vddq mm_rho mm_imp mm_ambles mm_rates mm_arch mm_wck_on ms_std ms_ranks ms_banks ms_groups ms_banksPerGroup ms_tRAS ms_tRP ms_tRCD ms_tRCDW ms_tRFC ms_tRFCsb ms_tRFCPB ms_tRFCDB ms_offRD ms_offWR ms_p2bOffset ms_m8b].
  rewrite ?S. repeat split.
Qed.

(* ---- partial self refresh of eight banks ---- *)
Theorem refreshed_banks w m mode b : rw_std w = LPDDR4 -> rw_banks w = 8 -> mem_new w = Value m -> asks_pasr w = Some mode -> b < 8 ->
  bank_active_in_pasr m b = nth (N.to_nat b) (pasr_picture mode) false.
Proof.
  intros S B H A Hb. destruct (mem_inv w m H) as (bpg & active & burst & arch & banks & groups & _ & _ & E3 & _ & ->). specialize (E3 S).
  unfold bank_active_in_pasr. cbn [mm_active]. rewrite asks_spec in A. unfold active_banks in E3. destruct (pasr_of w); [|discriminate]. injection A as A. rewrite A, B in E3. clear A. revert E3.
  assert (b = 0 \/ b = 1 \/ b = 2 \/ b = 3 \/ b = 4 \/ b = 5 \/ b = 6 \/ b = 7) as Cb by lia. clear - Cb.
  assert (forall x l, Value x = Value active -> x = l -> existsb (N.eqb b) active = existsb (N.eqb b) l) as X by (intros x l E <-; congruence).
  destruct mode as [|q]; [|destruct q as [[[q|q|]|[q|q|]|]|[[q|q|]|[q|q|]|]|]];
  intros E; rewrite (X _ _ E eq_refl); repeat (destruct Cb as [->|Cb]; [reflexivity|]); subst b; reflexivity.
Qed.
