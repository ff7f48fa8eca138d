(* A description and a trace of each standard that meet what C53 asks for. *)
From Coq Require Import NArith QArith String List Bool Ascii Arith Lia.
From Verif Require Import Base Command CoreModel Bits WaveSpec ToggleModel StatsModel EnergyModel IfEnergyModel IfEnergySpec InterfaceModel InterfaceSpec HistorySpec DeviceSpec ExampleCores
  DramModel DramSpec ProgressSpec ProgressExamples ChargeSpec CsvModel CliModel CliSpec CsvProofs CliProofs CliExamples MemSpecModel MemSpecSpec MemSpecProofs PropMemSpec WholeSpec WholeWires WholeProofs.
Import ListNotations.
Local Open Scope N_scope.

(* Four beats in a cycle for the standards with a second clock. *)
Definition with_rate (dr : N) (w : raw) : raw :=
  mkRaw (rw_std w) (rw_banks w) (rw_rows w) (rw_columns w) (rw_devices w) (rw_bl w) dr (rw_width w) (rw_groups w) (rw_ranks w) (rw_mode w) (rw_wck_on w)
    (rw_tCK w) (rw_wck w) (rw_ras w) (rw_rcd w) (rw_rcdw w) (rw_rtp w) (rw_wl w) (rw_wr w) (rw_rp w) (rw_al w)
    (rw_rfc1 w) (rw_rfc2 w) (rw_rfc4 w) (rw_rfcs w) (rw_refi w) (rw_domains w) (rw_vddq w) (rw_bankwise w) (rw_imp w) (rw_ambles w) (rw_rates w).
Definition ex_whole (s : standard) : raw := with_rate (match s with LPDDR5 | LPDDR6 => 4 | _ => 2 end) (ex_raw s).

Definition hex32 : string := "00112233445566778899aabbccddeeff000102030405060708090A0B0C0D0E0F".
Definition byte32 : list N := [0; 17; 34; 51; 68; 85; 102; 119; 136; 153; 170; 187; 204; 221; 238; 255; 0; 1; 2; 3; 4; 5; 6; 7; 8; 9; 10; 11; 12; 13; 14; 15].
Definition run_lines : list line :=
  [mkLine (map bare ["10"; "ACT"; "0"; "0"; "0"; "3"; "0"]%string) [lf];
   mkLine (map padded ["30"; "RD"; "0"; "0"; "0"; "3"; "9"; hex32]%string) [cr; lf];
   mkLine (map bare ["60"; "WR"; "0"; "0"; "0"; "3"; "17"; ("0x" ++ hex32)%string]%string) [lf];
   mkLine (map bare ["100"; "PRE"; "0"; "0"; "0"; "3"; "0"]%string) [lf];
   mkLine (map bare ["150"; "REFA"; "0"; "0"; "0"; "0"; "0"]%string) [lf];
   mkLine (map bare ["400"; "END"; "0"; "0"; "0"; "0"; "0"]%string) [lf]].
Definition run_commands : list Command :=
  [mkCommand 10 ACT 0 0 0 3 0 8 [] 0; mkCommand 30 RD 0 0 0 3 9 8 byte32 256; mkCommand 60 WR 0 0 0 3 17 8 byte32 256;
   mkCommand 100 PRE 0 0 0 3 0 8 [] 0; mkCommand 150 REFA 0 0 0 0 0 8 [] 0; mkCommand 400 END_OF_SIMULATION 0 0 0 0 0 8 [] 0].

Lemma run_lines_ok : Forall line_ok run_lines.
Proof.
  assert (H : Forall (fun l => (2 <= length (li_cells l))%nat /\ forallb cellb (li_cells l) = true /\ Forall line_end (li_end l) /\ (length (li_end l) = 1 \/ length (li_end l) = 2)%nat) run_lines).
  { unfold run_lines. repeat (apply Forall_cons; [split; [cbn; lia|]; split; [vm_compute; reflexivity|]; split; [repeat (apply Forall_cons; [unfold line_end, lf, cr; auto|]); apply Forall_nil|cbn; auto]|]). apply Forall_nil. }
  eapply Forall_impl; [|exact H]. intros l (A & B & C & D). split; [exact A|]. split; [apply cells_check; exact B|]. auto.
Qed.
Lemma run_unmarked : no_mark (lines_text run_lines).
Proof. intros r H; vm_compute in H; discriminate H. Qed.
Lemma run_proper : Forall2 (fun l c => proper (fields (li_cells l)) c) run_lines run_commands.
Proof.
  assert (prints (list_ascii_of_string hex32) byte32) as P by (apply prints_check; vm_compute; reflexivity).
  unfold run_lines, run_commands. repeat apply Forall2_cons; try apply Forall2_nil.
  - proper_row. split; [intros [H|[H|[H|H]]]; discriminate H|reflexivity].
  - proper_row. split; [|intros H; exfalso; apply H; left; reflexivity]. intros _. do 3 eexists. split; [reflexivity|]. split; [|exact P]. left. reflexivity.
  - proper_row. split; [|intros H; exfalso; apply H; right; right; left; reflexivity]. intros _. do 3 eexists. split; [reflexivity|]. split; [|exact P]. right. left. reflexivity.
  - proper_row. split; [intros [H|[H|[H|H]]]; discriminate H|reflexivity].
  - proper_row. split; [intros [H|[H|[H|H]]]; discriminate H|reflexivity].
  - proper_row. split; [intros [H|[H|[H|H]]]; discriminate H|reflexivity].
Qed.
Lemma ex_sound s : sound (ex_whole s) /\ rw_banks (ex_whole s) < 2 ^ 60.
Proof.
  split; [|destruct s; reflexivity].
  split; try (destruct s; reflexivity || exact I || discriminate).
  - destruct s; split; (intros _ H; discriminate H) || exact I || discriminate.
  - intros S4 mode H. destruct s; try discriminate. injection H as <-. vm_compute. discriminate.
  - destruct s; try discriminate. intros _. exists 4. reflexivity.
  - intros q H. injection H as <-. vm_compute. intros X; discriminate X.
  - destruct s; vm_compute; split; congruence.
Qed.
Definition ex_grow (n : nat) : nat := S n.
Ltac show_calm :=
  constructor;
  [vm_compute; repeat split; discriminate
  |reflexivity
  |first [discriminate|reflexivity]
  |let g := fresh "g" in let H := fresh in intros g H; destruct g; cbn in H; try (exfalso; intuition discriminate); (split; [discriminate|intros _ X; discriminate X])
  |first [discriminate|let rank := fresh in let read := fresh in let H := fresh in intros _ rank read H; vm_compute in H; destruct rank as [|rank]; [destruct read; split; reflexivity|exfalso; lia]]
  |first [discriminate|intros _ _; split; reflexivity]
  |reflexivity].
Lemma run_meets s : exists m, mem_new (ex_whole s) = Value m /\
  timely (core_view m) run_commands 400 /\ legal_history (core_view m) run_commands /\ final_time 0 (map cmd_ts run_commands) = 400 /\
  (trace_fits (interface_view m ex_grow None) true run_commands /\ calm (interface_view m ex_grow None) (ifenergy_view m) None run_commands 400) /\
  (trace_fits (interface_view m ex_grow None) false run_commands /\ calm (interface_view m ex_grow None) (ifenergy_view m) toggle_sim run_commands 400).
Proof.
  destruct s; (eexists; split; [reflexivity|]); (split; [show_timely|]); (split; [show_legal|]); (split; [reflexivity|]); unfold run_commands;
    (split; (split; [show_fits|show_calm])).
Qed.

Lemma lengths_differ : exists w m grow wild c, sound w /\ mem_new w = Value m /\
  burst_bits (interface_view m grow wild) false c = rw_bl w * dq_lines (interface_view m grow wild) /\ burst_cycles (interface_view m grow wild) false c <> burst_clocks w.
Proof.
  exists (ex_whole LPDDR5). eexists. exists ex_grow, None, (mkCommand 30 RD 0 0 0 3 9 8 [] 0). split; [apply ex_sound|]. split; [reflexivity|]. split; [reflexivity|].
  vm_compute. discriminate.
Qed.
