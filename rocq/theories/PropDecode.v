(* Property C80: a device that reads the command pins by the truth table of its
   standard hears the command that was given, with its addresses. *)
From Coq Require Import NArith List Bool.
From Verif Require Import Base Command CoreModel Bits BusModel WaveSpec PatternModel PatternTables PatternSpec DecodeSpec DecodeProofs ToggleModel StatsModel
  InterfaceModel InterfaceSpec InterfaceExamples InterfaceRefuted DecodeBusSpec DecodeBusProofs.
Import ListNotations.
Local Open Scope N_scope.

(* Whatever the settings an interface has reached and the pattern before.  A DDR4
   self-refresh exit takes two beats. *)
Theorem C80_ddr4 : forall o last t c w h,
  settings (ph_over ddr4_handler) ddr4_overrides o -> command_pattern (mkHandler o ddr4_patterns last) t c = Value (w, h) ->
  let meant := ddr4_meant (co_bank c) (co_bankGroup c) (co_row c) (co_column c) t in
  length (ddr4_patterns t) = (27 * length meant)%nat /\
  map (fun k => ddr4_hears (fun i => pin (27 * length meant) w (27 * k + i))) (seq 0 (length meant)) = meant.
Proof. exact ddr4_heard. Qed.
Print Assumptions C80_ddr4.

Theorem C80_ddr5 : forall o last t c w h,
  settings (ph_over ddr5_handler) ddr5_overrides o -> command_pattern (mkHandler o ddr5_patterns last) t c = Value (w, h) ->
  let meant := ddr5_meant (co_bank c) (co_bankGroup c) (co_row c) (co_column c) t in
  let n := ddr5_pins (he_order meant) in length (ddr5_patterns t) = n /\ ddr5_hears (pin n w) = meant.
Proof. exact ddr5_heard. Qed.
Print Assumptions C80_ddr5.

Theorem C80_lpddr4 : forall o last t c w h,
  settings (ph_over lpddr4_handler) lpddr4_overrides o -> command_pattern (mkHandler o lpddr4_patterns last) t c = Value (w, h) ->
  let meant := lpddr4_meant (co_bank c) (co_row c) (co_column c) t in
  let n := lpddr4_pins (he_order meant) in length (lpddr4_patterns t) = n /\ lpddr4_hears (pin n w) = meant.
Proof. exact lpddr4_heard. Qed.
Print Assumptions C80_lpddr4.

Theorem C80_lpddr5 : forall a o last t c w h,
  settings (ph_over (lpddr5_handler a)) lpddr5_overrides o -> command_pattern (mkHandler o (lpddr5_patterns a) last) t c = Value (w, h) ->
  let meant := lpddr5_meant (co_bank c) (co_bankGroup c) (co_row c) (co_column c) (banking_of a) t in
  let n := lpddr5_pins (he_order meant) in length (lpddr5_patterns a t) = n /\ lpddr5_hears (banking_of a) (pin n w) = meant.
Proof. exact lpddr5_heard. Qed.
Print Assumptions C80_lpddr5.

(* With four bank groups, as LPDDR6 has. *)
Theorem C80_lpddr6 : forall e last t c w h,
  ex_groups e = 4 -> command_pattern6 (mkHandler6 e lpddr6_patterns last) t c = Value (w, h) ->
  let meant := lpddr6_meant (co_bank c) (co_bankGroup c) (co_row c) (co_column c) (co_dbank c) t in
  let n := lpddr6_pins (he_order meant) in length (lpddr6_patterns t) = n /\ lpddr6_hears (pin n w) = meant.
Proof. exact lpddr6_heard. Qed.
Print Assumptions C80_lpddr6.

Definition there : coord := mkCoord 6 5 1 0x2a5c1 0x3b7 9 1.
Example C80_cases :
  match command_pattern (mkHandler (ddr4_overrides (ph_over ddr4_handler) 8 true) ddr4_patterns 5) RDA there with
  | Value (w, _) => ddr4_hears (pin 27 w) = mkHeard (Read true) 2 1 0 118 | Fails _ => False end /\
  match command_pattern (mkHandler (ph_over ddr4_handler) ddr4_patterns 5) SREFEX there with Value (w, _) => pin 54 w 0 = true /\ pin 54 w 27 = false | Fails _ => False end /\
  match command_pattern (mkHandler (ph_over ddr5_handler) ddr5_patterns 5) ACT there with
  | Value (w, _) => ddr5_hears (pin 28 w) = mkHeard Activate 2 5 0xa5c1 0 | Fails _ => False end /\
  match command_pattern (mkHandler (lpddr4_overrides (ph_over lpddr4_handler) 32 true) lpddr4_patterns 5) WR there with
  | Value (w, _) => lpddr4_hears (pin 24 w) = mkHeard (Write false) 6 0 0 29 | Fails _ => False end /\
  match command_pattern (mkHandler (ph_over (lpddr5_handler M8B)) (lpddr5_patterns M8B) 5) PRE there with
  | Value (w, _) => lpddr5_hears EightBanks (pin 14 w) = mkHeard Precharge 6 0 0 0 | Fails _ => False end /\
  match command_pattern6 (mkHandler6 (mkExtra 24 4 false) lpddr6_patterns 5) REFDB (mkCoord 6 5 1 0 0 8 1) with
  | Value (w, _) => lpddr6_hears (pin 16 w) = mkHeard (RefreshPair 2) 2 1 0 0 | Fails _ => False end.
Proof. vm_compute. repeat match goal with |- _ /\ _ => split end; reflexivity. Qed.

(* The same on the wires.  Whatever a user calls in whatever order, if every call
   returns: the statistics count the beats of one waveform, and a device that watches
   this waveform from the cycle of a command on hears that command. *)
Theorem C80_on_the_bus : forall p sim i0 xs i t,
  sizes_ok p -> (fi_std p = LPDDR6 -> fi_groups p = 4) -> iface_new p sim = Value i0 ->
  Forall (fun c => cmd_ts c <= t /\ cmd_ts c + burst_cycles p (no_toggle sim) c < two64) (commands xs) -> t * ca_beats (fi_std p) + 64 < two64 ->
  calls_run xs i0 = Value i ->
  let on_wires := wire (idle_word (ca_pins (fi_std p)) (ca_rests_high (fi_std p))) (ca_drives p (no_toggle sim) (commands xs)) in
  bus_get_stats (if_cmd i) t = Value (wrap_stats (sum_beats (fun k => beat_stats (ca_pins (fi_std p))
    (if k =? 0 then idle_word (ca_pins (fi_std p)) (ca_rests_high (fi_std p)) else on_wires (k - 1)) (on_wires k)) (N.to_nat (t * ca_beats (fi_std p))))) /\
  forall c, In c (commands xs) -> silent (fi_std p) (cmd_type c) = false ->
    let meant := device_meant (fi_std p) (fi_arch p) c in
    device_hears (fi_std p) (fi_arch p) (length meant) (seen (ca_pins (fi_std p)) on_wires (cmd_ts c * ca_beats (fi_std p))) = meant.
Proof. exact bus_heard. Qed.
Print Assumptions C80_on_the_bus.
Example C80_on_the_bus_case :
  Forall (fun s => sizes_ok (spec_of_std s) /\ (fi_std (spec_of_std s) = LPDDR6 -> fi_groups (spec_of_std s) = 4) /\
                   (exists i0 i, iface_new (spec_of_std s) None = Value i0 /\ calls_run (a_day s) i0 = Value i) /\
                   Forall (fun c => cmd_ts c <= 200 /\ cmd_ts c + burst_cycles (spec_of_std s) true c < two64) (commands (a_day s)))
         [DDR4; DDR5; LPDDR4; LPDDR5; LPDDR6] /\
  seen 6 (fun k => nth (N.to_nat (k - 20)) [16; 32; 18; 0] 0) 20 1 = true /\
  lpddr4_hears (seen 6 (fun k => nth (N.to_nat (k - 20)) [16; 32; 18; 0] 0) 20) = mkHeard (Read false) 1 0 0 0.
Proof. split; [exact day_runs|]. split; vm_compute; reflexivity. Qed.
