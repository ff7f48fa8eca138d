(* What was sent can be read off the wires. *)
From Coq Require Import NArith List Bool Arith Lia.
From Verif Require Import Base Command CoreModel Bits BusModel WaveSpec BitFacts StorageProofs BusProofs ClockProofs ToggleModel ToggleProofs DataProofs
  PinModel PinSpec DbiSpec DbiModel DbiPinModel DbiPinSpec PatternModel PatternProofs FormatModel FormatSpec FormatProofs StatsModel InterfaceModel InterfaceSpec InterfaceCa InterfaceRun InterfaceTop
  WireSpec InterfaceData LineSpec FlagSpec DecodeBusProofs ArriveSpec.
Import ListNotations.
Local Open Scope N_scope.

Lemma switched_after p xs : dbi_after p false xs = switched_on p xs.
Proof.
  unfold dbi_after, switched_on. assert (forall d, (has_dbi p = false -> d = false) ->
    fold_left (fun d x => match x with SetDbi e => if has_dbi p then e else d | _ => d end) xs d = fold_left (fun d x => match x with SetDbi e => has_dbi p && e | _ => d end) xs d) as K.
  { induction xs as [|x xs IH]; intros d H; [reflexivity|]. cbn [fold_left]. destruct x as [c|e|a b|e|t|t]; try (apply IH; exact H).
    destruct (has_dbi p); cbn [andb]; [apply IH; discriminate|]. rewrite (H eq_refl). apply IH. reflexivity. }
  apply K. reflexivity.
Qed.

(* The wires of one direction. *)
Lemma direction_waves p i0 xs i t : sizes_ok p -> iface_new p None = Value i0 -> Forall (fun c => cmd_ts c <= t /\ data_ok p c) (commands xs) -> t * fi_rate p < two64 ->
  calls_run xs i0 = Value i -> forall read, let w := N.to_nat (dq_lines p) in
  apart 0 (data_drives p read false (0, 0) xs) /\
  bus_get_stats (if read then d_read (if_data i) else d_write (if_data i)) t =
    Value (wrap_stats (wave_stats w (idle_word w (dq_rests_high (fi_std p))) (data_drives p read false (0, 0) xs) (t * fi_rate p))).
Proof.
  intros Sz New F T Run read w.
  assert (Forall (fun c => cmd_ts c <= t) (commands xs)) as F1 by (eapply Forall_impl; [|exact F]; intros c H; exact (proj1 H)).
  assert (Forall (data_ok p) (commands xs)) as F2 by (eapply Forall_impl; [|exact F]; intros c H; exact (proj2 H)).
  destruct (wire_start p i0 Sz New) as (max & Wm & V0 & Tg).
  assert (0 < fi_rate p) as R0 by (destruct (new_config p None i0 Sz New) as (? & _ & _ & (_ & _ & R0 & _) & _); exact R0).
  pose proof (wire_run p max i0 Sz Wm R0 xs [] i0 i F2 V0 Run) as V. cbn [app] in V.
  destruct read.
  - exact (dq_stats p max true _ _ xs t _ Sz Wm R0 F1 T (wi_read _ _ _ _ _ V)).
  - exact (dq_stats p max false _ _ xs t _ Sz Wm R0 F1 T (wi_write _ _ _ _ _ V)).
Qed.

(* One bit of a burst. *)
Lemma back_lt n q : (q < n)%nat -> (n - 1 - q < n)%nat.
Proof. lia. Qed.
Lemma back_back n q : (q < n)%nat -> (n - 1 - (n - 1 - q) = q)%nat.
Proof. lia. Qed.
Lemma bit_sampled p xs1 c xs2 read idle : apart 0 (data_drives p read false (0, 0) (xs1 ++ Do c :: xs2)) -> sends read c = true -> (0 < dq_lines p) ->
  let w := N.to_nat (dq_lines p) in let n := Nat.div (N.to_nat (burst_bits p true c)) w in
  forall k, (k < n * w)%nat ->
  sampled w (wire idle (data_drives p read false (0, 0) (xs1 ++ Do c :: xs2))) (cmd_ts c * fi_rate p) n k =
  wire_bit p (switched_on p xs1) (last_meta xs1) (cmd_data c) (N.to_nat (cmd_sz_bits c)) k.
Proof.
  intros A S W w n k Hk. rewrite <- switched_after. change (last_meta xs1) with (meta_after (0, 0) xs1).
  rewrite data_drives_app in *. cbn [data_drives] in *. rewrite S in *. cbn [app] in *.
  set (d := (cmd_ts c * fi_rate p, burst_words p (dbi_after p false xs1) (meta_after (0, 0) xs1) c)) in *.
  assert (Hw : (0 < w)%nat) by lia. assert (Hq : (Nat.div k w < n)%nat) by (apply Nat.div_lt_upper_bound; lia).
  assert (I : In d (data_drives p read false (0, 0) xs1 ++ d :: data_drives p read (dbi_after p false xs1) (meta_after (0, 0) xs1) xs2)) by (apply in_or_app; right; left; reflexivity).
  destruct (apart_find idle _ 0 d A I) as [_ F]. unfold sampled. change (cmd_ts c * fi_rate p) with (fst d).
  assert (L : length (snd d) = n) by (unfold d, burst_words; cbn [snd]; rewrite map_length, seq_length; reflexivity).
  rewrite F by (rewrite L; apply back_lt; exact Hq). unfold d. cbn [snd]. unfold burst_words. fold w. fold n. set (g := fun b : nat => word_of w _).
  rewrite (nth_indep _ idle (g 0%nat)) by (rewrite map_length, seq_length; apply back_lt; exact Hq). rewrite map_nth, seq_nth by (apply back_lt; exact Hq). unfold g. rewrite level_word_of.
  pose proof (Nat.mod_upper_bound k w ltac:(lia)) as M. rewrite (proj2 (Nat.ltb_lt _ _) M). cbn [andb Nat.add]. f_equal.
  pose proof (Nat.div_mod k w ltac:(lia)) as D. rewrite back_back by exact Hq. rewrite D at 3. rewrite (Nat.mul_comm w). reflexivity.
Qed.

(* The flags of every [n]-th byte. *)
Lemma every_nth L line m : (line < L)%nat -> filter (fun j => Nat.eqb (Nat.modulo j L) line) (seq 0 m) = map (fun q => (q * L + line)%nat) (seq 0 (Nat.div (m + (L - 1 - line)) L)).
Proof.
  intros H. induction m as [|m IH].
  - rewrite (Nat.div_small (0 + (L - 1 - line)) L) by lia. reflexivity.
  - rewrite seq_S, filter_app, IH. cbn [Nat.add filter]. pose proof (Nat.div_mod m L ltac:(lia)) as D. pose proof (Nat.mod_upper_bound m L ltac:(lia)) as M.
    set (r := Nat.modulo m L) in *. set (q := Nat.div m L) in *.
    destruct (Nat.eqb_spec r line) as [E|E].
    + assert (E1 : Nat.div (m + (L - 1 - line)) L = q) by (symmetry; apply (Nat.div_unique _ _ q (L - 1)); lia).
      assert (E2 : Nat.div (S (m + (L - 1 - line))) L = S q) by (symmetry; apply (Nat.div_unique _ _ (S q) 0); lia).
      rewrite E1, E2, seq_S, map_app. cbn [Nat.add map]. do 2 f_equal. lia.
    + rewrite app_nil_r. do 2 f_equal. destruct (Nat.lt_ge_cases r line) as [K|K].
      * transitivity q; [symmetry; apply (Nat.div_unique _ _ q (r + (L - 1 - line))); lia|apply (Nat.div_unique _ _ q (S (r + (L - 1 - line)))); lia].
      * transitivity (S q); [symmetry; apply (Nat.div_unique _ _ (S q) (r - 1 - line)); lia|apply (Nat.div_unique _ _ (S q) (r - line)); lia].
Qed.
Lemma flag_at p c j : (0 < flag_lines p)%nat -> (j < Nat.div (N.to_nat (cmd_sz_bits c)) 8)%nat ->
  nth (Nat.div j (flag_lines p)) (line_flags p (Nat.modulo j (flag_lines p)) c) false = flipped p (cmd_data c) j.
Proof.
  intros H J. set (L := flag_lines p) in *. unfold line_flags. fold L. set (m := Nat.div _ 8) in *.
  pose proof (Nat.div_mod j L ltac:(lia)) as D. pose proof (Nat.mod_upper_bound j L ltac:(lia)) as M.
  rewrite (every_nth L _ m M). set (q := Nat.div j L) in *. set (r := Nat.modulo j L) in *.
  assert (K : (q < Nat.div (m + (L - 1 - r)) L)%nat) by (apply Nat.div_le_lower_bound; lia).
  rewrite map_map. set (g := fun x => flipped p (cmd_data c) (x * L + r)). rewrite (nth_indep _ false (g 0%nat)) by (rewrite map_length, seq_length; exact K).
  rewrite map_nth, seq_nth by exact K. unfold g. f_equal. lia.
Qed.

(* What a line is told for one burst. *)
Lemma told_for p bus read line c xs2 : sends read c = true -> forall xs1 dbi held, exists before after,
  told_line p bus read line dbi held (xs1 ++ Do c :: xs2) =
  before ++ (if dbi_after p dbi xs1 && bus then map (fun f => (cmd_ts c * fi_rate p, xorb (dq_rests_high (fi_std p)) f)) (line_flags p line c) else []) ++ after.
Proof.
  intros S. induction xs1 as [|x xs1 IH]; intros dbi held.
  - cbn [app dbi_after fold_left]. cbn [told_line]. rewrite S. cbn [andb]. destruct (dbi && bus).
    + eexists _, _. reflexivity.
    + eexists [], _. reflexivity.
  - cbn [app]. unfold dbi_after. cbn [fold_left]. destruct x as [a|e|a b|e|u|u]; cbn [told_line]; try apply IH.
    destruct (sends read a && dbi && bus).
    + destruct (IH dbi (if last (line_flags p line a) false then Some (cmd_ts a * fi_rate p + burst_beats p true a) else None)) as (bf & af & E).
      exists (back_to_rest (dq_rests_high (fi_std p)) held (cmd_ts a * fi_rate p) ++ map (fun b => (cmd_ts a * fi_rate p, xorb (dq_rests_high (fi_std p)) b)) (line_flags p line a) ++ bf), af.
      rewrite E, <- !app_assoc. reflexivity.
    + destruct (cmd_type a); try apply IH. destruct (IH dbi (still_held held (cmd_ts a))) as (bf & af & E). exists (back_to_rest (dq_rests_high (fi_std p)) held (cmd_ts a) ++ bf), af. rewrite E, <- !app_assoc. reflexivity.
Qed.

(* All standards but LPDDR6. *)
Theorem data_arrive p i0 xs1 c xs2 i t read : fi_std p <> LPDDR6 -> sizes_ok p -> iface_new p None = Value i0 ->
  Forall (fun c => cmd_ts c <= t /\ data_ok p c) (commands (xs1 ++ Do c :: xs2)) -> t * fi_rate p < two64 ->
  calls_run (xs1 ++ Do c :: xs2) i0 = Value i -> sends read c = true ->
  let w := N.to_nat (dq_lines p) in
  let n := Nat.div (N.to_nat (cmd_sz_bits c)) w in
  let on_wires := wire (idle_word w (dq_rests_high (fi_std p))) (data_drives p read false (0, 0) (xs1 ++ Do c :: xs2)) in
  bus_get_stats (if read then d_read (if_data i) else d_write (if_data i)) t =
    Value (wrap_stats (wave_stats w (idle_word w (dq_rests_high (fi_std p))) (data_drives p read false (0, 0) (xs1 ++ Do c :: xs2)) (t * fi_rate p))) /\
  (switched_on p xs1 = false -> forall k, (k < n * w)%nat -> payload_bit (cmd_data c) k = sampled w on_wires (cmd_ts c * fi_rate p) n k) /\
  (switched_on p xs1 = true -> (0 < flag_lines p)%nat -> Nat.modulo (N.to_nat (cmd_sz_bits c)) 8 = 0%nat -> exists flags,
     (forall line, (line < flag_lines p)%nat -> exists before after,
        told_line p true read line false None (xs1 ++ Do c :: xs2) = before ++ map (fun f => (cmd_ts c * fi_rate p, xorb (dq_rests_high (fi_std p)) f)) (flags line) ++ after) /\
     forall k, (k < n * w)%nat -> payload_bit (cmd_data c) k =
       xorb (nth (Nat.div (Nat.div k 8) (flag_lines p)) (flags (Nat.modulo (Nat.div k 8) (flag_lines p))) false) (sampled w on_wires (cmd_ts c * fi_rate p) n k)).
Proof.
  intros S6 Sz New F T Run S w n on_wires. destruct (direction_waves p i0 _ i t Sz New F T Run read) as [A G].
  assert (W : 0 < dq_lines p) by exact (proj1 Sz).
  assert (Hz : (cmd_sz_bits c =? 0) = false) by (unfold sends in S; destruct (transfers (cmd_type c)); [|discriminate]; destruct (cmd_sz_bits c =? 0); [rewrite andb_false_r in S; discriminate|reflexivity]).
  assert (B : burst_bits p true c = cmd_sz_bits c) by (unfold burst_bits; rewrite Hz; destruct (fi_std p); try reflexivity; contradiction).
  assert (K : forall k, (k < n * w)%nat -> sampled w on_wires (cmd_ts c * fi_rate p) n k = data_bit p (switched_on p xs1) (cmd_data c) k).
  { intros k Hk. pose proof (bit_sampled p xs1 c xs2 read (idle_word w (dq_rests_high (fi_std p))) A S W) as Q. cbv zeta in Q. rewrite B in Q. fold w in Q. fold n in Q. unfold on_wires. rewrite (Q k Hk).
    unfold wire_bit. destruct (fi_std p); try reflexivity. contradiction. }
  split; [exact G|]. split.
  - intros Off k Hk. rewrite (K k Hk), Off. unfold data_bit. cbn [andb]. symmetry. apply xorb_false_l.
  - intros On L Whole. exists (fun line => line_flags p line c). split.
    + intros line _. destruct (told_for p true read line c xs2 S xs1 false None) as (bf & af & E). exists bf, af. rewrite switched_after, On in E. exact E.
    + intros k Hk. rewrite (K k Hk), On. unfold data_bit. cbn [andb].
      rewrite flag_at; [|exact L|].
      * rewrite <- xorb_assoc, xorb_nilpotent, xorb_false_l. reflexivity.
      * apply Nat.div_lt_upper_bound; [lia|].
        pose proof (Nat.div_mod (N.to_nat (cmd_sz_bits c)) w ltac:(unfold w; lia)) as D1. fold n in D1.
        pose proof (Nat.div_mod (N.to_nat (cmd_sz_bits c)) 8 ltac:(lia)) as D2. rewrite Whole in D2. lia.
Qed.

(* LPDDR6: the flags come with the data. *)
Lemma frame_place n h t q : position n (h, t, q) -> let r := (288 * h + 12 * t + q)%nat in
  (r < 288 * n)%nat /\ Nat.div r 288 = h /\ Nat.div (Nat.modulo r 288) 12 = t /\ Nat.modulo (Nat.modulo r 288) 12 = q.
Proof.
  intros (H & T & Q) r. split; [unfold r; nia|].
  assert (Nat.div r 288 = h) as D by (symmetry; apply (Nat.div_unique _ _ h (12 * t + q)); unfold r; lia).
  assert (Nat.modulo r 288 = 12 * t + q)%nat as M by (symmetry; apply (Nat.mod_unique _ _ h); unfold r; lia).
  rewrite M. split; [exact D|]. split.
  - symmetry. apply (Nat.div_unique _ _ t q); lia.
  - symmetry. apply (Nat.mod_unique _ _ t q); lia.
Qed.
Lemma frame_flip a b : (b < a)%nat -> (a - 1 - b < a /\ a - 1 - (a - 1 - b) = b)%nat.
Proof. lia. Qed.
Theorem frame_arrives p i0 xs1 c xs2 i t read halves : fi_std p = LPDDR6 -> sizes_ok p -> iface_new p None = Value i0 ->
  Forall (fun c => cmd_ts c <= t /\ data_ok p c) (commands (xs1 ++ Do c :: xs2)) -> t * fi_rate p < two64 ->
  calls_run (xs1 ++ Do c :: xs2) i0 = Value i -> sends read c = true ->
  cmd_sz_bits c = 256 * N.of_nat halves -> 288 * N.of_nat halves mod dq_lines p = 0 ->
  let w := N.to_nat (dq_lines p) in
  let on_wires := wire (idle_word w (dq_rests_high (fi_std p))) (data_drives p read false (0, 0) (xs1 ++ Do c :: xs2)) in
  let seen := framed w on_wires (cmd_ts c * fi_rate p) halves in
  bus_get_stats (if read then d_read (if_data i) else d_write (if_data i)) t =
    Value (wrap_stats (wave_stats w (idle_word w (dq_rests_high (fi_std p))) (data_drives p read false (0, 0) (xs1 ++ Do c :: xs2)) (t * fi_rate p))) /\
  (forall k, (k < 256 * halves)%nat -> exists h t q h' t' q',
     position halves (h, t, q) /\ shows h t q = Data k /\ position halves (h', t', q') /\ shows h' t' q' = Flag (Nat.div k 16) /\
     payload_bit (cmd_data c) k = xorb (seen h' t' q') (seen h t q)) /\
  (forall h j, (h < halves)%nat -> (j < 16)%nat -> exists t q,
     position halves (h, t, q) /\ shows h t q = Meta h j /\
     N.testbit (if Nat.eqb h 0 then fst (last_meta xs1) else snd (last_meta xs1)) (N.of_nat j) = seen h t q).
Proof.
  intros S6 Sz New F T Run S Hn Hw w on_wires seen. destruct (direction_waves p i0 _ i t Sz New F T Run read) as [A G].
  assert (W : 0 < dq_lines p) by exact (proj1 Sz).
  assert (Hz : (cmd_sz_bits c =? 0) = false) by (unfold sends in S; destruct (transfers (cmd_type c)); [|discriminate]; destruct (cmd_sz_bits c =? 0); [rewrite andb_false_r in S; discriminate|reflexivity]).
  assert (B : N.to_nat (burst_bits p true c) = (288 * halves)%nat).
  { unfold burst_bits. rewrite Hz, S6, Hn. replace (9 * (256 * N.of_nat halves)) with ((288 * N.of_nat halves) * 8) by lia. rewrite N.div_mul by lia. lia. }
  assert (Bw : (Nat.div (288 * halves) w * w = 288 * halves)%nat).
  { pose proof (Nat.div_mod (288 * halves) w ltac:(unfold w; lia)) as D. assert (Nat.modulo (288 * halves) w = 0%nat) as M; [|rewrite M in D; lia].
    unfold w. replace (288 * halves)%nat with (N.to_nat (288 * N.of_nat halves)) by lia. rewrite <- N2Nat.inj_mod, Hw. reflexivity. }
  assert (Z9 : Nat.div (9 * N.to_nat (cmd_sz_bits c)) 8 = (288 * halves)%nat).
  { rewrite Hn. replace (9 * N.to_nat (256 * N.of_nat halves))%nat with ((288 * halves) * 8)%nat by lia. apply Nat.div_mul. lia. }
  assert (K : forall h t q, position halves (h, t, q) -> seen h t q =
    match shows h t q with
    | Data j => data_bit p (switched_on p xs1) (cmd_data c) j
    | Meta h j => N.testbit (if Nat.eqb h 0 then fst (last_meta xs1) else snd (last_meta xs1)) (N.of_nat j)
    | Flag j => switched_on p xs1 && flag6 (cmd_data c) j
    end).
  { intros h u q P. destruct (frame_place halves h u q P) as (P1 & P2 & P3 & P4). unfold seen, framed. set (r := (288 * h + 12 * u + q)%nat) in *.
    destruct (frame_flip _ _ P1) as [Q1 Q2].
    pose proof (bit_sampled p xs1 c xs2 read (idle_word w (dq_rests_high (fi_std p))) A S W) as Q. cbv zeta in Q. rewrite B in Q. fold w in Q. rewrite Bw in Q.
    unfold on_wires. rewrite (Q _ Q1). unfold wire_bit. rewrite S6, Z9, Q2, P2, P3, P4. reflexivity. }
  split; [exact G|]. split.
  - intros k Hk.
    destruct (every_source_once halves (Data k) Hk) as ([[h u] q] & P & E & _).
    assert (Hf : source_of halves (Flag (Nat.div k 16))) by (cbn [source_of]; apply Nat.div_lt_upper_bound; lia).
    destruct (every_source_once halves _ Hf) as ([[h' u'] q'] & P' & E' & _).
    exists h, u, q, h', u', q'. split; [exact P|]. split; [exact E|]. split; [exact P'|]. split; [exact E'|].
    rewrite (K _ _ _ P), (K _ _ _ P'), E, E'. unfold data_bit, flipped. rewrite S6, Nat.div_div by lia. change (8 * 2)%nat with 16%nat.
    rewrite <- xorb_assoc, xorb_nilpotent, xorb_false_l. reflexivity.
  - intros h j Hh Hj. destruct (every_source_once halves (Meta h j) (conj Hh Hj)) as ([[h' u] q] & P & E & _).
    assert (h' = h) as -> by (unfold shows in E; repeat match type of E with context [match ?x with _ => _ end] => destruct x; try discriminate E end; injection E as -> _; reflexivity).
    exists u, q. split; [exact P|]. split; [exact E|]. rewrite (K _ _ _ P), E. reflexivity.
Qed.
