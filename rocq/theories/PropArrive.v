(* C81: what was sent can be read off the wires. *)
From Coq Require Import NArith List Bool Arith.
From Verif Require Import Base Command CoreModel Bits BusModel WaveSpec ToggleModel StatsModel PinModel PinSpec FormatSpec InterfaceModel InterfaceSpec InterfaceExamples
  WireSpec WireExamples LineSpec FlagSpec FlagExamples ArriveSpec ArriveProofs.
Import ListNotations.
Local Open Scope N_scope.

(* Whatever a user calls, if every call returns: the statistics of the data bus are
   those of one waveform, and from that waveform a receiver reads every bit of every
   burst.  With the inversion off it is the level it samples; with the inversion on
   it is that level, inverted when the line of the byte was told so for this burst,
   the lines taking turns byte by byte. *)
Theorem C81_data_arrive : forall p i0 xs1 c xs2 i t read, fi_std p <> LPDDR6 -> sizes_ok p -> iface_new p None = Value i0 ->
  Forall (fun c => cmd_ts c <= t /\ data_ok p c) (commands (xs1 ++ Do c :: xs2)) -> t * fi_rate p < two64 ->
  calls_run (xs1 ++ Do c :: xs2) i0 = Value i -> sends read c = true ->
  let w := N.to_nat (dq_lines p) in
  let n := Nat.div (N.to_nat (cmd_sz_bits c)) w in
  let on_wires := wire (idle_word w (dq_rests_high (fi_std p))) (data_drives p read false (0, 0) (xs1 ++ Do c :: xs2)) in
  bus_get_stats (if read then d_read (if_data i) else d_write (if_data i)) t =
    Value (wrap_stats (wave_stats w (idle_word w (dq_rests_high (fi_std p))) (data_drives p read false (0, 0) (xs1 ++ Do c :: xs2)) (t * fi_rate p))) /\
  (switched_on p xs1 = false -> forall k, (k < n * w)%nat -> payload_bit (cmd_data c) k = sampled w on_wires (cmd_ts c * fi_rate p) n k) /\
  (switched_on p xs1 = true -> (0 < flag_lines p)%nat -> Nat.modulo (N.to_nat (cmd_sz_bits c)) 8 = 0%nat -> exists flags,
     (forall line, (line < flag_lines p)%nat -> exists before after,
        told_line p true read line false None (xs1 ++ Do c :: xs2) = before ++ map (fun f => (cmd_ts c * fi_rate p, xorb (dq_rests_high (fi_std p)) f)) (flags line) ++ after) /\
     forall k, (k < n * w)%nat -> payload_bit (cmd_data c) k =
       xorb (nth (Nat.div (Nat.div k 8) (flag_lines p)) (flags (Nat.modulo (Nat.div k 8) (flag_lines p))) false) (sampled w on_wires (cmd_ts c * fi_rate p) n k)).
Proof. exact data_arrive. Qed.
Print Assumptions C81_data_arrive.
Example C81_data_arrive_case :
  Forall (fun s => sizes_ok (spec_of_std s) /\ Forall (fun c => cmd_ts c <= 1000 /\ data_ok (spec_of_std s) c) (commands (flag_day s)) /\
                   1000 * fi_rate (spec_of_std s) + 64 < two64 /\
                   exists st, stats_after (spec_of_std s) None (flag_day s) 1000 = Value st /\ (flag_lines (spec_of_std s) <> 0%nat -> ones (ss_readDBI st) <> 0 /\ changes (ss_writeDBI st) <> 0))
         [DDR4; DDR5; LPDDR4; LPDDR5; LPDDR6] /\
  sends true (cmd_at 60 RD 0 0 9 (shout LPDDR4)) = true /\
  flag_day LPDDR4 = firstn 3 (flag_day LPDDR4) ++ Do (cmd_at 60 RD 0 0 9 (shout LPDDR4)) :: skipn 4 (flag_day LPDDR4) /\
  switched_on (spec_of_std LPDDR4) (firstn 3 (flag_day LPDDR4)) = true /\ switched_on (spec_of_std LPDDR4) (firstn 5 (flag_day LPDDR4)) = false.
Proof. split; [exact flag_days|]. repeat match goal with |- _ /\ _ => split end; reflexivity. Qed.

(* LPDDR6 sends the flags and the metadata in the frame: each bit of the data is the
   level at its own place, inverted when the level at the place of its flag is high,
   and each bit of the metadata set last is at its place. *)
Theorem C81_frame_arrives : forall p i0 xs1 c xs2 i t read halves, fi_std p = LPDDR6 -> sizes_ok p -> iface_new p None = Value i0 ->
  Forall (fun c => cmd_ts c <= t /\ data_ok p c) (commands (xs1 ++ Do c :: xs2)) -> t * fi_rate p < two64 ->
  calls_run (xs1 ++ Do c :: xs2) i0 = Value i -> sends read c = true ->
  cmd_sz_bits c = 256 * N.of_nat halves -> 288 * N.of_nat halves mod dq_lines p = 0 ->
  let w := N.to_nat (dq_lines p) in
  let on_wires := wire (idle_word w (dq_rests_high (fi_std p))) (data_drives p read false (0, 0) (xs1 ++ Do c :: xs2)) in
  let seen := framed w on_wires (cmd_ts c * fi_rate p) halves in
  bus_get_stats (if read then d_read (if_data i) else d_write (if_data i)) t =
    Value (wrap_stats (wave_stats w (idle_word w (dq_rests_high (fi_std p))) (data_drives p read false (0, 0) (xs1 ++ Do c :: xs2)) (t * fi_rate p))) /\
  (forall k, (k < 256 * halves)%nat -> exists h t q h' t' q',
     position halves (h, t, q) /\ shows h t q = Data k /\ position halves (h', t', q') /\ shows h' t' q' = Flag (Nat.div k 16) /\
     payload_bit (cmd_data c) k = xorb (seen h' t' q') (seen h t q)) /\
  (forall h j, (h < halves)%nat -> (j < 16)%nat -> exists t q,
     position halves (h, t, q) /\ shows h t q = Meta h j /\
     N.testbit (if Nat.eqb h 0 then fst (last_meta xs1) else snd (last_meta xs1)) (N.of_nat j) = seen h t q).
Proof. exact frame_arrives. Qed.
Print Assumptions C81_frame_arrives.
Example C81_frame_arrives_case : flag_day LPDDR6 = firstn 2 (flag_day LPDDR6) ++ Do (cmd_at 20 RD 0 0 9 long_row) :: skipn 3 (flag_day LPDDR6) /\
  sends true (cmd_at 20 RD 0 0 9 long_row) = true /\ cmd_sz_bits (cmd_at 20 RD 0 0 9 long_row) = 256 * N.of_nat 1 /\
  288 * N.of_nat 1 mod dq_lines (spec_of_std LPDDR6) = 0 /\ switched_on (spec_of_std LPDDR6) (firstn 2 (flag_day LPDDR6)) = true.
Proof. repeat match goal with |- _ /\ _ => split end; reflexivity. Qed.

(* A receiver that takes the flag from the inversion line in the same beat as the
   data is misled: the words go out last first, the flags first first. *)
Theorem C81_same_beat_refuted : exists i0 i c k,
  let p := spec_of_std LPDDR4 in let xs1 := [SetDbi true; Do (cmd_at 10 ACT 0 5 0 [])] in
  sizes_ok p /\ iface_new p None = Value i0 /\ Forall (fun c => cmd_ts c <= 100 /\ data_ok p c) (commands (xs1 ++ [Do c])) /\
  calls_run (xs1 ++ [Do c]) i0 = Value i /\ sends true c = true /\ switched_on p xs1 = true /\ (k < N.to_nat (cmd_sz_bits c))%nat /\
  payload_bit (cmd_data c) k <> same_beat p true (xs1 ++ [Do c]) (cmd_ts c * fi_rate p) 8 k.
Proof.
  do 2 eexists. exists (cmd_at 20 RD 0 0 9 row1), 0%nat. cbv zeta.
  split; [split; [reflexivity|split; reflexivity]|]. split; [vm_compute; reflexivity|].
  split.
  { cbn [commands app flat_map]. repeat (apply Forall_cons; [|]); [..|apply Forall_nil]; (split; [discriminate|]); intros S; try discriminate S; clear S.
    split; [discriminate|]. split; [repeat constructor|]. split; [discriminate|reflexivity]. }
  split; [vm_compute; reflexivity|]. split; [reflexivity|]. split; [reflexivity|]. split; [vm_compute; apply le_n_S, Nat.le_0_l|]. vm_compute. discriminate.
Qed.
Print Assumptions C81_same_beat_refuted.
