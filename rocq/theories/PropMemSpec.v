(* C52: what the parts of a DRAM object take from a memory description. *)
From Coq Require Import NArith QArith List Bool Lia.
From Verif Require Import Base Command CoreModel Bits PatternTables ToggleModel EnergyModel EnergySpec IfEnergyModel IfEnergyMore InterfaceModel InterfaceSpec DramModel DramSpec DeviceSpec ChargeSpec
  MemSpecModel MemSpecSpec MemSpecProofs.
Import ListNotations.
Local Open Scope N_scope.

(* A description of each standard: LPDDR5 with its banks in groups, LPDDR4 with
   eight banks of which a half is refreshed in self refresh, DDR4 with the
   refreshes of its second mode. *)
Definition ex_domain : raw_power := mkRawPower (12#10) (60#1) (50#1) (55#1) (25#1) (30#1) (145#1) (140#1) (220#1) (160#1) (120#1) (90#1) (20#1) (5#1) None.
Definition ex_raw (s : standard) : raw :=
  mkRaw s (match s with LPDDR4 => 8 | _ => 16 end) 65536 1024 (match s with DDR4 => 2 | _ => 0 end) (match s with LPDDR6 => 24 | _ => 16 end) 2 (match s with LPDDR6 => 12 | _ => 16 end)
    (match s with LPDDR4 => 1 | _ => 4 end) 1 (match s with DDR4 => Ref2 | _ => Ref1 end) false
    (125#100) (match s with LPDDR5 | LPDDR6 => 2 | _ => 0 end) 20 8 7 6 10 12 10 1 160 110 80 60 3120
    [ex_domain] (12#10) (Some (mkRawBw (Some (3#10)) None (Some true) (Some (PasrMode 1)))) (ex_imp true) (mkAmbles (5#2) (3#2) 2 1) (Some (mkRawRates 1 2 2)).
Definition with_groups (banks groups : N) (w : raw) : raw :=
  mkRaw (rw_std w) banks (rw_rows w) (rw_columns w) (rw_devices w) (rw_bl w) (rw_dr w) (rw_width w) groups (rw_ranks w) (rw_mode w) (rw_wck_on w)
    (rw_tCK w) (rw_wck w) (rw_ras w) (rw_rcd w) (rw_rcdw w) (rw_rtp w) (rw_wl w) (rw_wr w) (rw_rp w) (rw_al w)
    (rw_rfc1 w) (rw_rfc2 w) (rw_rfc4 w) (rw_rfcs w) (rw_refi w) (rw_domains w) (rw_vddq w) (rw_bankwise w) (rw_imp w) (rw_ambles w) (rw_rates w).
Definition with_rows (rows columns : N) (w : raw) : raw :=
  mkRaw (rw_std w) (rw_banks w) rows columns (rw_devices w) (rw_bl w) (rw_dr w) (rw_width w) (rw_groups w) (rw_ranks w) (rw_mode w) (rw_wck_on w)
    (rw_tCK w) (rw_wck w) (rw_ras w) (rw_rcd w) (rw_rcdw w) (rw_rtp w) (rw_wl w) (rw_wr w) (rw_rp w) (rw_al w)
    (rw_rfc1 w) (rw_rfc2 w) (rw_rfc4 w) (rw_rfcs w) (rw_refi w) (rw_domains w) (rw_vddq w)
    (match rw_bankwise w with Some (mkRawBw rho _ _ _) => Some (mkRawBw rho (Some (1#2)) None None) | None => None end) (rw_imp w) (rw_ambles w) None.

(* Construction stops in a division by zero, or with an exception when more banks
   are left out of a refresh than there are, and in no other way. *)
Theorem C52_construction w : rw_banks w < 2 ^ 60 ->
  (mem_new w = Fails UB <-> ~ divisors_ok w) /\ (mem_new w = Fails Exception <-> divisors_ok w /\ ~ pasr_ok w) /\
  ((exists m, mem_new w = Value m) <-> divisors_ok w /\ pasr_ok w).
Proof. exact (stops w). Qed.
Print Assumptions C52_construction.
Example C52_construction_case :
  (match mem_new (ex_raw DDR5) with Value _ => True | Fails _ => False end) /\
  mem_new (with_groups 16 0 (ex_raw DDR5)) = Fails UB /\ mem_new (with_groups 3 1 (ex_raw LPDDR4)) = Fails Exception.
Proof. split; [exact I|split; reflexivity]. Qed.

(* Every number the core and its energy calculation work with is the one of the
   description; the time and the currents of a refresh are of the same mode. *)
Theorem C52_core w m : mem_new w = Value m -> core_takes w (core_view m) (energy_view m).
Proof. exact (core_takes_all w m). Qed.
Print Assumptions C52_core.
Example C52_core_case : match mem_new (ex_raw DDR4) with
  | Value m => ms_tRFC (core_view m) = 110 /\ map pw_i5 (es_domains (energy_view m)) = [160#1]%Q /\ es_devices (energy_view m) = 2%nat
  | Fails _ => False end.
Proof. vm_compute. auto. Qed.

(* And so with the interface. *)
Theorem C52_interface w m grow wild : mem_new w = Value m -> interface_takes w (interface_view m grow wild) (ifenergy_view m).
Proof. exact (interface_takes_all w m grow wild). Qed.
Print Assumptions C52_interface.
Example C52_interface_case : match mem_new (ex_raw LPDDR6) with
  | Value m => fi_groups (interface_view m S None) = 4 /\ fi_devices (interface_view m S None) = 1 /\ fi_wck (interface_view m S None) = 2
  | Fails _ => False end.
Proof. vm_compute. auto. Qed.

(* The parts of an object take the same numbers where they take the same thing. *)
Theorem C52_parts_agree w m sim grow wild : mem_new w = Value m ->
  views_agree (views m sim grow wild) /\ same_memory (core_view m) (energy_view m).
Proof. exact (parts_agree w m sim grow wild). Qed.
Print Assumptions C52_parts_agree.
Example C52_parts_agree_case s : exists m, mem_new (ex_raw s) = Value m.
Proof. destruct s; eexists; reflexivity. Qed.

(* The precharge of a read or write with auto-precharge comes when the standard
   says. *)
Theorem C52_offsets w m : mem_new w = Value m -> rw_dr w * rw_wck w < two64 -> read_to_precharge w < two64 -> write_to_precharge w < two64 ->
  ms_offRD (core_view m) = read_to_precharge w /\ ms_offWR (core_view m) = write_to_precharge w.
Proof. exact (offsets w m). Qed.
Print Assumptions C52_offsets.
Example C52_offsets_case : match mem_new (ex_raw LPDDR5), mem_new (ex_raw DDR4) with
  | Value m, Value m' => (ms_offRD (core_view m), ms_offWR (core_view m)) = (10, 27) /\ (ms_offRD (core_view m'), ms_offWR (core_view m')) = (7, 30)
  | _, _ => False end.
Proof. vm_compute. auto. Qed.

(* When the interface can be constructed. *)
Theorem C52_interface_possible p sim : (exists i, iface_new p sim = Value i) <-> interface_possible p sim.
Proof. exact (interface_made p sim). Qed.
Print Assumptions C52_interface_possible.
Example C52_interface_possible_case : match mem_new (ex_raw DDR4) with
  | Value m => interface_possible (interface_view m S None) None | Fails _ => False end.
Proof. vm_compute. repeat split. discriminate. Qed.

(* An object of a sound description can be constructed, and its parts meet what the
   theorems about the core, the interface and the energies ask of them. *)
Theorem C52_sound w sim grow wild : sound w -> rw_banks w < 2 ^ 60 -> match sim with Some d => good_toggle d | None => True end ->
  exists m d, mem_new w = Value m /\ dram_new (views m sim grow wild) = Value d /\
    DeviceSpec.well_formed (core_view m) /\ EnergySpec.well_formed (energy_view m) /\ sizes_ok (interface_view m grow wild) /\
    (fi_std (interface_view m grow wild) = LPDDR6 -> fi_groups (interface_view m grow wild) = 4).
Proof. exact (sound_works w sim grow wild). Qed.
Print Assumptions C52_sound.
Example C52_sound_case s : sound (ex_raw s) /\ rw_banks (ex_raw s) < 2 ^ 60.
Proof.
  split; [|destruct s; reflexivity].
  split; try (destruct s; reflexivity || exact I || discriminate).
  - destruct s; split; (intros _ H; discriminate H) || exact I || discriminate.
  - intros S4 mode H. destruct s; try discriminate. injection H as <-. vm_compute. discriminate.
  - destruct s; try discriminate. intros _. exists 4. reflexivity.
  - intros q H. injection H as <-. vm_compute. intros X; discriminate X.
  - destruct s; vm_compute; split; congruence.
Qed.

(* What a description says of rows, columns, the rates of the command and data bus
   and partial self refresh reaches none of the parts. *)
Theorem C52_ignored w w' m m' sim grow wild : same_but w w' -> mem_new w = Value m -> mem_new w' = Value m' ->
  views m sim grow wild = views m' sim grow wild.
Proof. exact (ignored w w' m m' sim grow wild). Qed.
Print Assumptions C52_ignored.
Example C52_ignored_case s : same_but (ex_raw s) (with_rows 7 9 (ex_raw s)) /\ (exists m, mem_new (ex_raw s) = Value m) /\ (exists m, mem_new (with_rows 7 9 (ex_raw s)) = Value m).
Proof. split; [split; try reflexivity; [repeat split|right; split; reflexivity]|]. destruct s; split; eexists; reflexivity. Qed.

(* The three bank architectures of LPDDR5. *)
Theorem C52_layouts w m grow wild : rw_std w = LPDDR5 -> mem_new w = Value m -> known_layout w ->
  ms_banks (core_view m) = N.to_nat (rw_banks w) /\ ms_groups (core_view m) = N.to_nat (rw_groups w) /\
  fi_arch (interface_view m grow wild) = (if rw_banks w =? 8 then M8B else if rw_groups w =? 4 then MBG else M16B) /\
  ms_m8b (core_view m) = (rw_banks w =? 8) /\ es_mbg (energy_view m) = (rw_groups w =? 4).
Proof. exact (layouts w m grow wild). Qed.
Print Assumptions C52_layouts.
Example C52_layouts_case : known_layout (ex_raw LPDDR5) /\ known_layout (with_groups 8 1 (ex_raw LPDDR5)) /\ exists m, mem_new (with_groups 8 1 (ex_raw LPDDR5)) = Value m.
Proof. split; [left; cbn; auto|]. split; [right; cbn; auto|]. eexists. reflexivity. Qed.

(* Every other layout is taken for 16 banks that are not grouped; the number of
   banks in a group is left as it was. *)
Theorem C52_other_layouts w m grow wild : rw_std w = LPDDR5 -> mem_new w = Value m -> ~ known_layout w ->
  exists m', mem_new (as_16_banks w) = Value m' /\ without_group_size (core_view m) = without_group_size (core_view m') /\
    interface_view m grow wild = interface_view m' grow wild /\ energy_view m = energy_view m' /\ ifenergy_view m = ifenergy_view m'.
Proof. exact (other_layouts w m grow wild). Qed.
Print Assumptions C52_other_layouts.
Example C52_other_layouts_case : ~ known_layout (with_groups 32 8 (ex_raw LPDDR5)) /\ exists m, mem_new (with_groups 32 8 (ex_raw LPDDR5)) = Value m.
Proof. split; [intros [[H _]|[H _]]; discriminate H|eexists; reflexivity]. Qed.

(* The core is left with groups that do not make up its banks. *)
Theorem C52_group_size_refuted : exists w m, rw_std w = LPDDR5 /\ mem_new w = Value m /\
  (ms_groups (core_view m) * ms_banksPerGroup (core_view m) <> ms_banks (core_view m))%nat.
Proof. exists (with_groups 32 8 (ex_raw LPDDR5)). eexists. split; [reflexivity|]. split; [reflexivity|]. vm_compute. discriminate. Qed.
Print Assumptions C52_group_size_refuted.

(* The architecture of 16 banks in no group, which the constructor names, cannot be
   constructed: the banks are divided by the groups before. *)
Theorem C52_groupless_refuted : exists w, rw_std w = LPDDR5 /\ known_layout w /\ rw_banks w = 16 /\ mem_new w = Fails UB.
Proof. exists (with_groups 16 0 (ex_raw LPDDR5)). split; [reflexivity|]. split; [left; cbn; auto|]. split; reflexivity. Qed.
Print Assumptions C52_groupless_refuted.

(* The banks of an LPDDR4 with eight banks that are refreshed in self refresh. *)
Theorem C52_refreshed_banks w m mode b : rw_std w = LPDDR4 -> rw_banks w = 8 -> mem_new w = Value m -> asks_pasr w = Some mode -> b < 8 ->
  bank_active_in_pasr m b = nth (N.to_nat b) (pasr_picture mode) false.
Proof. exact (refreshed_banks w m mode b). Qed.
Print Assumptions C52_refreshed_banks.
Example C52_refreshed_banks_case : asks_pasr (ex_raw LPDDR4) = Some 1 /\ match mem_new (ex_raw LPDDR4) with
  | Value m => bank_active_in_pasr m 3 = true /\ bank_active_in_pasr m 4 = false | Fails _ => False end.
Proof. vm_compute. auto. Qed.

(* With another number of banks it is not the fraction the mode is named after:
   with 16 banks the half of them would be eight, but twelve are refreshed. *)
Theorem C52_refreshed_half_refuted : exists w m, rw_std w = LPDDR4 /\ mem_new w = Value m /\ asks_pasr w = Some 1 /\
  (2 * length (mm_active m) <> N.to_nat (rw_banks w))%nat.
Proof. exists (with_groups 16 1 (ex_raw LPDDR4)). eexists. split; [reflexivity|]. split; [reflexivity|]. split; [reflexivity|]. vm_compute. discriminate. Qed.
Print Assumptions C52_refreshed_half_refuted.
