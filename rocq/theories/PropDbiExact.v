(* What exactly data bus inversion decides: C19, C20. *)
From Coq Require Import NArith Lia List Bool Arith.
From Verif Require Import Base Bits WaveSpec PinModel DbiModel DbiSpec DbiProofs DbiBounds DbiExactSpec DbiExact PropDbi.
Import ListNotations.
Local Open Scope N_scope.

(* ---- C19 ---- *)

(* With any number of entries per chunk: a chunk is inverted exactly when more
   than half of the lines consume current among its first entry and the later
   entries of the chunk before it, as those were sent.  The entries on the wires
   and the flags that are kept follow from that. *)
Theorem C19_static_exactly d t n_bits data read d' ev out (high : bool) : let c := db_config d in
  dbi_config_ok c -> dg_alg c = Static -> dg_idle c = (if high then PinH else PinL) -> entries_ok (dg_digits c) data ->
  dbi_update d t n_bits (Some data) read = Value (d', ev, Some out) ->
  let rule := static_rule (dg_digits c) (dg_sub c) high data out in
  length out = Nat.div n_bits (dg_digits c) /\
  follows (dg_digits c) (dg_sub c) rule data out /\
  forall ch, (ch * dg_sub c < length out)%nat -> nth_error (lb_inv (db_side d' read)) ch = Some (rule ch).
Proof. exact (static_exactly d t n_bits data read d' ev out high). Qed.
Print Assumptions C19_static_exactly.

(* Two entries per chunk: the second entry of the first chunk, sent inverted,
   takes part in deciding the second chunk. *)
Example C19_static_exactly_case : dbi_config_ok lpddr6_dbi /\ entries_ok 8 [31; 255; 15; 255; 255; 0] /\
  exists d d' ev, dbi_new lpddr6_dbi true = Value d /\ db_config d = lpddr6_dbi /\
  dbi_update d 0 48 (Some [31; 255; 15; 255; 255; 0]) true = Value (d', ev, Some [224; 0; 15; 255; 0; 255]) /\
  lb_inv (db_side d' true) = [true; false; true] /\
  map (static_rule 8 2 false [31; 255; 15; 255; 255; 0] [224; 0; 15; 255; 0; 255]) [0; 1; 2]%nat = [true; false; true].
Proof.
  split; [split; [cbn; lia|]; split; [cbn; lia|exact I]|]. split; [repeat constructor|].
  do 3 eexists. split; [vm_compute; reflexivity|]. split; [reflexivity|]. split; [vm_compute; reflexivity|].
  split; [vm_compute; reflexivity|]. vm_compute. reflexivity.
Qed.

(* ---- C20 ---- *)

(* A series of bursts of one size in both directions, however long the gaps: a
   chunk is inverted exactly when the lines that change, against the beat before,
   exceed the threshold; the beat before a burst is the last one sent in either
   direction if a burst of the same direction ended at that moment and bursts
   have two beats or more, and the idle level otherwise. *)
Theorem C20_dynamic_exactly c k (high : bool) per_beat beats ops d d' outs :
  (0 < dg_sub c)%nat -> dg_alg c = Dynamic k -> dg_idle c = (if high then PinH else PinL) -> (0 < dg_digits c)%nat ->
  dg_width c = Some (per_beat * dg_digits c)%nat -> (0 < per_beat)%nat -> (1 <= beats)%nat ->
  Forall (fun o => entries_ok (dg_digits c) (tr_data o) /\ tr_time o + N.of_nat beats < two64) ops ->
  dbi_new c true = Value d ->
  dbi_run (beats * per_beat * dg_digits c) ops d = Value (d', outs) ->
  decided (dg_digits c) (dg_sub c) beats per_beat (idle_word (dg_digits c) high) k (fun _ => None) [] ops outs.
Proof. exact (dynamic_exactly_new c k high per_beat beats ops d d' outs). Qed.
Print Assumptions C20_dynamic_exactly.

(* The third burst continues the first, and is compared with the second. *)
Example C20_dynamic_exactly_case : exists d d', dbi_new dynamic_dbi true = Value d /\
  Forall (fun o => entries_ok 8 (tr_data o) /\ tr_time o + N.of_nat 2 < two64)
    [mkTransfer 0 true [0; 15]; mkTransfer 0 false [0; 240]; mkTransfer 2 true [15; 0]] /\
  dbi_run (2 * 1 * 8) [mkTransfer 0 true [0; 15]; mkTransfer 0 false [0; 240]; mkTransfer 2 true [15; 0]] d =
    Value (d', [[0; 15]; [0; 240]; [240; 0]]).
Proof.
  do 2 eexists. split; [vm_compute; reflexivity|]. split; [repeat constructor|]. vm_compute. reflexivity.
Qed.
