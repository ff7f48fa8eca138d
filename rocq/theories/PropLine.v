(* C71: exactly what an inversion line takes and counts.  Nothing is assumed about
   the order of the bursts, the gaps between them or the switching. *)
From Coq Require Import NArith List Bool.
From Verif Require Import Base Command CoreModel Bits WaveSpec PinModel PinSpec StatsModel InterfaceModel InterfaceSpec WireSpec InterfaceExamples LineSpec LineProofs FlagSpec StorageSpec FlagTop FlagExamples.
Import ListNotations.
Local Open Scope N_scope.

(* A pin takes what it is told exactly when the times never go back and no time
   is given more levels than the storage holds.  Everything else is an
   assertion. *)
Theorem C71_pin_takes max init idle l : in_time (grouped l) ->
  (onwards 0 l /\ roomy max (grouped l) -> exists p, pin_told l (pin_new max init idle) = Value p) /\
  (~ (onwards 0 l /\ roomy max (grouped l)) -> pin_told l (pin_new max init idle) = Fails Assertion).
Proof. exact (line_takes max init idle l). Qed.
Print Assumptions C71_pin_takes.
Example C71_pin_takes_case :
  let l := [(3, true); (3, false); (3, true); (4, true); (9, false)] in
  in_time (grouped l) /\ onwards 0 l /\ roomy 3 (grouped l) /\ ~ roomy 2 (grouped l) /\ ~ onwards 0 (l ++ [(8, true)]) /\ in_time (grouped (l ++ [(8, true)])).
Proof.
  split; [repeat constructor|]. split; [repeat split; discriminate|]. split; [repeat constructor|]. split; [|split; [|repeat constructor]].
  - intros H. apply Forall_inv in H. cbn in H. do 2 apply le_S_n in H. inversion H.
  - cbn. intros (_ & _ & _ & _ & _ & H & _). now apply H.
Qed.

(* What it counts by beat t * rate, and when it can be asked. *)
Theorem C71_pin_counts max init idle l p t rate : in_time (grouped l) -> pin_told l (pin_new max init idle) = Value p -> t * rate < two64 ->
  pin_stats_at p t rate = if told_last l <=? t * rate then Value (wrap_stats (told_wave init idle (grouped l) (t * rate))) else Fails Assertion.
Proof. exact (line_stats max init idle l p t rate). Qed.
Print Assumptions C71_pin_counts.
Example C71_pin_counts_case :
  let l := [(3, true); (3, false); (3, true); (4, true); (9, false)] in
  in_time (grouped l) /\ (exists p, pin_told l (pin_new 3 PinL PinH) = Value p) /\
  told_wave PinL PinH (grouped l) 12 = mkStats 11 1 3 1 2.
Proof. split; [repeat constructor|]. split; [eexists; vm_compute; reflexivity|]. vm_compute. reflexivity. Qed.

(* The inversion lines of an interface, whatever it was called with: what they
   have been told is what the calls say, and they count the resulting waves. *)
Theorem C71_lines p sim i0 xs i t st st' : sizes_ok p -> iface_new p sim = Value i0 ->
  Forall (fun c => cmd_ts c <= t /\ data_ok p c) (commands xs) -> t * fi_rate p + 64 < two64 -> t * 2 < two64 ->
  calls_run xs i0 = Value i -> flags_blank st -> if_window i t st = Value st' ->
  ss_readDBI st' = wrap_stats (flag_stats p (no_toggle sim) true xs (t * 2)) /\
  ss_writeDBI st' = wrap_stats (flag_stats p (no_toggle sim) false xs (t * 2)).
Proof. exact (flags_exactly p sim i0 xs i t st st'). Qed.
Print Assumptions C71_lines.
Example C71_lines_case :
  Forall (fun s => sizes_ok (spec_of_std s) /\ Forall (fun c => cmd_ts c <= 1000 /\ data_ok (spec_of_std s) c) (commands (flag_day s)) /\
                   1000 * fi_rate (spec_of_std s) + 64 < two64 /\
                   exists st, stats_after (spec_of_std s) None (flag_day s) 1000 = Value st /\ (flag_lines (spec_of_std s) <> 0%nat -> ones (ss_readDBI st) <> 0 /\ changes (ss_writeDBI st) <> 0))
         [DDR4; DDR5; LPDDR4; LPDDR5; LPDDR6].
Proof. exact flag_days. Qed.

(* Calls that return have told every line in order and within its storage. *)
Theorem C71_lines_taken p sim i0 xs i t : sizes_ok p -> iface_new p sim = Value i0 ->
  Forall (fun c => cmd_ts c <= t /\ data_ok p c) (commands xs) -> t * fi_rate p + 64 < two64 -> calls_run xs i0 = Value i ->
  forall read line, (line < flag_lines p)%nat -> let l := told_line p (no_toggle sim) read line false None xs in
    onwards 0 l /\ roomy (line_storage (fi_std p)) (grouped l).
Proof. exact (flags_taken p sim i0 xs i t). Qed.
Print Assumptions C71_lines_taken.
Example C71_lines_taken_case :
  (0 < flag_lines (spec_of_std LPDDR4))%nat /\
  grouped (told_line (spec_of_std LPDDR4) true true 0 false None (flag_day LPDDR4)) =
    [(40, [false; true; false; true; false; false; false; true]);
     (120, [false; false; true; false; true; false; false; false; true]);
     (240, [false; false; true; false; true; false; false; false; true]); (950, [false])].
Proof. split; [apply le_n|vm_compute; reflexivity]. Qed.
