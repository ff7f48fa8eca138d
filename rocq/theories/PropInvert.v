(* C72: exactly which calls an interface takes while its data may be inverted. *)
From Coq Require Import NArith List Bool Lia.
From Verif Require Import Base Command CoreModel Bits WaveSpec ToggleModel PinModel InterfaceModel InterfaceSpec WireSpec InterfaceExamples LineSpec FlagSpec FlagExamples ProgressSpec TakenSpec
  StorageSpec InvertSpec InvertTop InvertShort InvertExamples InvertSix InvertSixExamples.
Import ListNotations.
Local Open Scope N_scope.

(* A new interface of DDR4, DDR5, LPDDR4 or LPDDR5, given commands that make sense
   with switches of the inversion anywhere in between, runs them to the end if and
   only if the commands are allowed as without inversion and every inversion line
   is told its levels in order, never more for one time than its storage holds.
   While the wires are watched all bursts have one size. *)
Theorem C72_calls : forall p sim i0 size t xs, sizes_ok p -> fi_std p <> LPDDR6 -> iface_new p sim = Value i0 -> t * fi_rate p + 64 < two64 ->
  Forall plain_call xs -> Forall (dressed p (no_toggle sim)) (commands xs) -> Forall (same_size size (no_toggle sim)) (commands xs) -> Forall (fun c => cmd_ts c <= t) (commands xs) ->
  ((exists i, calls_run xs i0 = Value i) <-> trace_allowed p (no_toggle sim) (commands xs) /\ lines_allowed p (no_toggle sim) xs).
Proof. exact inverted_exactly. Qed.
Print Assumptions C72_calls.
Example C72_calls_case :
  Forall (fun s => fi_std (spec_of_std s) <> LPDDR6 /\ 1000 * fi_rate (spec_of_std s) + 64 < two64 /\ Forall plain_call (flag_day s) /\
                   Forall (dressed (spec_of_std s) true) (commands (flag_day s)) /\ Forall (same_size (day_size s) true) (commands (flag_day s)) /\
                   Forall (fun c => cmd_ts c <= 1000) (commands (flag_day s)))
         [DDR4; DDR5; LPDDR4; LPDDR5].
Proof. exact invert_days. Qed.

(* Bursts in order that leave room for one level more on every line are taken
   with inversion exactly when they are taken without. *)
Theorem C72_short_bursts : forall p sim i0 size t xs, sizes_ok p -> fi_std p <> LPDDR6 -> iface_new p sim = Value i0 -> t * fi_rate p + 64 < two64 ->
  Forall plain_call xs -> Forall (dressed p (no_toggle sim)) (commands xs) -> Forall (same_size size (no_toggle sim)) (commands xs) -> Forall (fun c => cmd_ts c <= t) (commands xs) ->
  in_order 0 (commands xs) -> (no_toggle sim = true -> Forall (fun c => transfers (cmd_type c) <> None -> short_burst p c) (commands xs)) ->
  ((exists i, calls_run xs i0 = Value i) <-> trace_allowed p (no_toggle sim) (commands xs)).
Proof. exact short_goes. Qed.
Print Assumptions C72_short_bursts.
Example C72_short_bursts_case :
  Forall (fun s => in_order 0 (commands (flag_day s)) /\ Forall (fun c => transfers (cmd_type c) <> None -> short_burst (spec_of_std s) c) (commands (flag_day s))) [DDR4; DDR5; LPDDR4; LPDDR5].
Proof. exact short_days. Qed.

(* A burst that fills the storage of a line is refused after any history when the
   burst before left the line inverted and has been over for a while: the return
   to rest is told for the same time and takes a place. *)
Theorem C72_full_burst : forall p sim i0 pre a b read line t, sizes_ok p -> iface_new p sim = Value i0 -> no_toggle sim = true -> has_dbi p = true -> t * fi_rate p + 64 < two64 ->
  Forall (fun c => cmd_ts c <= t /\ data_ok p c) (commands pre ++ [a; b]) -> (line < flag_lines p)%nat -> sends read a = true -> sends read b = true ->
  last (line_flags p line a) false = true -> cmd_ts a * fi_rate p + burst_beats p true a < cmd_ts b * fi_rate p -> (line_storage (fi_std p) <= length (line_flags p line b))%nat ->
  forall i, calls_run (pre ++ [SetDbi true; Do a; Do b]) i0 <> Value i.
Proof. exact full_burst. Qed.
Print Assumptions C72_full_burst.
Example C72_full_burst_case : let p := spec_of_std DDR4 in
  sizes_ok p /\ has_dbi p = true /\ 1000 * fi_rate p + 64 < two64 /\ Forall (fun c => cmd_ts c <= 1000 /\ data_ok p c) (commands loud_before ++ [loud_a; loud_b]) /\ (0 < flag_lines p)%nat /\
  sends true loud_a = true /\ sends true loud_b = true /\ last (line_flags p 0 loud_a) false = true /\ cmd_ts loud_a * fi_rate p + burst_beats p true loud_a < cmd_ts loud_b * fi_rate p /\
  (line_storage (fi_std p) <= length (line_flags p 0 loud_b))%nat.
Proof. exact loud_hyps. Qed.

(* So switching the inversion on loses traces: two ordinary reads of eight beats on
   DDR4, forty cycles apart, trip an assertion. *)
Theorem C72_any_burst_refuted : exists p i0 size xs, sizes_ok p /\ iface_new p None = Value i0 /\ Forall plain_call xs /\ Forall (dressed p true) (commands xs) /\ Forall (same_size size true) (commands xs) /\
  trace_allowed p true (commands xs) /\ calls_run xs i0 = Fails Assertion.
Proof. exact loud_refused. Qed.
Print Assumptions C72_any_burst_refuted.

(* On LPDDR6, where the flags travel with the data, the inversion loses nothing:
   commands that make sense, with switches of the inversion and of the metadata
   anywhere in between, run to the end exactly if the commands are allowed.  While
   the wires are watched all bursts have one size. *)
Theorem C72_lpddr6 : forall p sim i0 size xs, sizes_ok p -> fi_std p = LPDDR6 -> fi_groups p = 4 -> iface_new p sim = Value i0 ->
  Forall plain_call xs -> Forall (dressed p (no_toggle sim)) (commands xs) -> Forall (same_size size (no_toggle sim)) (commands xs) ->
  ((exists i, calls_run xs i0 = Value i) <-> trace_allowed p (no_toggle sim) (commands xs)).
Proof. exact six_exactly. Qed.
Print Assumptions C72_lpddr6.
Example C72_lpddr6_case : let p := spec_of_std LPDDR6 in sizes_ok p /\ fi_std p = LPDDR6 /\ fi_groups p = 4 /\ Forall plain_call (flag_day LPDDR6) /\
  Forall (dressed p true) (commands (flag_day LPDDR6)) /\ Forall (same_size 256 true) (commands (flag_day LPDDR6)).
Proof. exact six_day. Qed.

(* With bursts of both sizes it does: where the list of flags has room for more than
   it holds, a read of 512 bits after one of 256 writes flags past its end. *)
Theorem C72_two_sizes_refuted : exists p i0 cs i, sizes_ok p /\ fi_std p = LPDDR6 /\ fi_groups p = 4 /\ iface_new p None = Value i0 /\ Forall (dressed p true) cs /\
  calls_run (map Do cs) i0 = Value i /\ calls_run (SetDbi true :: map Do cs) i0 = Fails UB.
Proof. exact two_sizes_refused. Qed.
Print Assumptions C72_two_sizes_refuted.
