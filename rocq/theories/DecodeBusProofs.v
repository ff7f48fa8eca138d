(* From the calls of a user to what a device hears on the command bus. *)
From Coq Require Import Arith NArith List Bool Lia.
From Verif Require Import Base Command CoreModel Bits BusModel WaveSpec BitFacts StorageProofs BusProofs ClockProofs DataProofs PatternModel PatternTables PatternSpec PatternProofs
  FormatProofs DecodeSpec DecodeProofs InterfaceModel InterfaceSpec InterfaceCa InterfaceRun InterfaceTop DecodeBusSpec.
Import ListNotations.
Local Open Scope N_scope.

(* Words in their place on the wires. *)
Lemma apart_find idle ds : forall from d, apart from ds -> In d ds -> from <= fst d /\
  forall i, (i < length (snd d))%nat -> wire idle ds (fst d + N.of_nat i) = nth i (snd d) idle.
Proof.
  induction ds as [|a ds IH]; intros from d A I; [contradiction|]. destruct A as [A1 A2]. destruct I as [->|I].
  - split; [exact A1|]. intros i Hi. unfold wire. cbn [find].
    rewrite (proj2 (N.leb_le _ _)), (proj2 (N.ltb_lt _ _)) by lia. cbn [andb]. f_equal. lia.
  - destruct (IH _ d A2 I) as [L F]. split; [lia|]. intros i Hi. specialize (F i Hi). unfold wire in *. cbn [find].
    rewrite (proj2 (N.ltb_ge _ _)) by lia. rewrite andb_false_r. exact F.
Qed.

Lemma words_seen {A} width (p : list A) (show : A -> bool) : (0 < width)%nat -> length p = (Nat.div (length p) width * width)%nat ->
  forall idle i d, nth_error p i = Some d -> level (nth (Nat.div i width) (words_of width p show) idle) (width - 1 - Nat.modulo i width) = show d.
Proof.
  intros W L idle i d E. assert (Hi : (i < length p)%nat) by (apply nth_error_Some; congruence).
  pose proof (Nat.div_mod i width ltac:(lia)) as D. pose proof (Nat.mod_upper_bound i width ltac:(lia)) as M.
  assert (Hb : (Nat.div i width < Nat.div (length p) width)%nat) by (apply Nat.div_lt_upper_bound; lia).
  unfold words_of. set (g := fun b : nat => word_of width _). rewrite (nth_indep _ idle (g 0%nat)) by (rewrite map_length, seq_length; exact Hb).
  rewrite map_nth, seq_nth by exact Hb. unfold g. rewrite level_word_of. rewrite (proj2 (Nat.ltb_lt _ _)) by lia. cbn [andb Nat.add].
  replace (Nat.div i width * width + (width - 1 - (width - 1 - Nat.modulo i width)))%nat with i by lia. rewrite E. reflexivity.
Qed.

(* A command that is taken has words. *)
Lemma taken_words p sim i0 xs i : sizes_ok p -> (fi_std p = LPDDR6 -> fi_groups p = 4) -> iface_new p sim = Value i0 ->
  Forall (command_ok p (no_toggle sim)) (commands xs) -> calls_run xs i0 = Value i ->
  forall c, In c (commands xs) -> silent (fi_std p) (cmd_type c) = false -> command_words p (no_toggle sim) c <> [].
Proof.
  intros Sz G New F R c Ic S. apply in_flat_map in Ic as (x & Ix & Ic). destruct x; try contradiction. destruct Ic as [->|[]].
  apply in_split in Ix as (xs1 & xs2 & ->). rewrite commands_app in F. apply Forall_app in F as [F1 F2]. cbn [commands flat_map app] in F2. inversion F2 as [|? ? K _]; subst.
  unfold calls_run in R. rewrite BusProofs.loop_app in R. apply bind_inv in R as (j & R1 & R2). cbn [loop call_do] in R2. apply bind_inv in R2 as (j' & R2 & _).
  destruct (run_inv_top p sim i0 xs1 j Sz G New F1 R1) as [Sp Mo V (ls & B & _) _ _ _ _ _].
  pose proof (command_effect p (no_toggle sim) c j j' Sp Mo Sz V G (bi_width _ _ _ _ _ _ B) (proj2 K) R2) as [_ _ _ _ E _ _ _ _ _].
  rewrite S in E. destruct E as (bytes & len & L1 & _ & _ & _ & P). rewrite <- P. intros X. apply (f_equal (@length N)) in X.
  rewrite played_length, Nat.div_mul in X; [cbn in X; lia|]. destruct (fi_std p); discriminate.
Qed.

Lemma ddr4_free b c d : existsb (desc_eqb d) ddr4_hid = false -> shown DDR4 b c d = unset c d.
Proof. intros H. unfold shown. destruct b as [[n r]|], d as [| | | |k|k|k|[|[|[|k]]]|k|k| |]; try discriminate H; reflexivity. Qed.
Lemma ddr5_free b c d : existsb (desc_eqb d) ddr5_hid = false -> shown DDR5 b c d = unset c d.
Proof. intros H. unfold shown. destruct b as [[n r]|], d as [| | | |k|k|k|[|[|[|[|[|[|[|[|[|[|[|k]]]]]]]]]]]|k|k| |]; try discriminate H; reflexivity. Qed.
Lemma lpddr4_free b c d : existsb (desc_eqb d) lpddr4_hid = false -> shown LPDDR4 b c d = unset c d.
Proof. intros H. unfold shown. destruct b as [[n r]|], d as [| | | |k|k|k|[|[|[|[|[|k]]]]]|k|k| |]; try discriminate H; reflexivity. Qed.
Lemma lpddr5_free b c d : existsb (desc_eqb d) lpddr5_hid = false -> shown LPDDR5 b c d = unset c d.
Proof. intros H. unfold shown. destruct b as [[n r]|], d as [| | | |k|k|k|[|k]|k|k| |]; try discriminate H; reflexivity. Qed.

Theorem bus_heard p sim i0 xs i t : sizes_ok p -> (fi_std p = LPDDR6 -> fi_groups p = 4) -> iface_new p sim = Value i0 ->
  Forall (fun c => cmd_ts c <= t /\ cmd_ts c + burst_cycles p (no_toggle sim) c < two64) (commands xs) -> t * ca_beats (fi_std p) + 64 < two64 ->
  calls_run xs i0 = Value i ->
  let on_wires := wire (idle_word (ca_pins (fi_std p)) (ca_rests_high (fi_std p))) (ca_drives p (no_toggle sim) (commands xs)) in
  bus_get_stats (if_cmd i) t = Value (wrap_stats (sum_beats (fun k => beat_stats (ca_pins (fi_std p))
    (if k =? 0 then idle_word (ca_pins (fi_std p)) (ca_rests_high (fi_std p)) else on_wires (k - 1)) (on_wires k)) (N.to_nat (t * ca_beats (fi_std p))))) /\
  forall c, In c (commands xs) -> silent (fi_std p) (cmd_type c) = false ->
    let meant := device_meant (fi_std p) (fi_arch p) c in
    device_hears (fi_std p) (fi_arch p) (length meant) (seen (ca_pins (fi_std p)) on_wires (cmd_ts c * ca_beats (fi_std p))) = meant.
Proof.
  intros Sz G New F T R. assert (F' : Forall (command_ok p (no_toggle sim)) (commands xs)).
  { eapply Forall_impl; [|exact F]. intros c [H1 H2]. split; [|exact H2]. eapply N.le_lt_trans; [|exact T]. apply N.add_le_mono_r. now apply N.mul_le_mono_r. }
  destruct (command_bus_counts p sim i0 xs i t Sz G New F T R) as [A St].
  set (idle := idle_word (ca_pins (fi_std p)) (ca_rests_high (fi_std p))) in *. set (ds := ca_drives p (no_toggle sim) (commands xs)) in *.
  intros on_wires. split; [exact St|]. unfold on_wires. clear on_wires. intros c Ic S.
  pose proof (taken_words p sim i0 xs i Sz G New F' R c Ic S) as NE.
  assert (Id : In (cmd_ts c * ca_beats (fi_std p), command_words p (no_toggle sim) c) ds).
  { unfold ds, ca_drives. apply in_flat_map. exists c. split; [exact Ic|]. rewrite S. left. reflexivity. }
  destruct (apart_find idle ds 0 _ A Id) as [_ W]. cbn [fst snd] in W. clear A St R New F F' Id Ic. clearbody ds.
  set (v := seen _ _ _).
  destruct (fi_std p) eqn:St; cbn [ca_pins ca_beats device_hears device_meant] in *; unfold command_words in *; rewrite St in *; unfold table_of in *; try rewrite St in *; cbn [ca_pins] in *.
  - assert (Q : forall k d, nth_error (ddr4_patterns (cmd_type c)) k = Some d -> existsb (desc_eqb d) ddr4_hid = false -> v k = unset (named_place c) d).
    { intros k d E H. unfold v, seen. rewrite W.
      - rewrite (words_seen 27 _ _ ltac:(lia) (lengths_at 27 (fun t => length (ddr4_patterns t)) (cmd_type c) ltac:(lia) ltac:(vm_compute; reflexivity)) idle k d E). now apply ddr4_free.
      - rewrite words_length. apply Nat.div_lt_upper_bound; [lia|]. assert (k < length (ddr4_patterns (cmd_type c)))%nat by (apply nth_error_Some; congruence).
        pose proof (lengths_at 27 (fun t => length (ddr4_patterns t)) (cmd_type c) ltac:(lia) ltac:(vm_compute; reflexivity)) as L. cbv beta in L. lia. }
    apply (ddr4_reads (cmd_type c) (named_place c) v); [|exact Q]. intros X. apply NE. rewrite X. reflexivity.
  - assert (Q : forall k d, nth_error (ddr5_patterns (cmd_type c)) k = Some d -> existsb (desc_eqb d) ddr5_hid = false -> v k = unset (named_place c) d).
    { intros k d E H. unfold v, seen. rewrite W.
      - rewrite (words_seen 14 _ _ ltac:(lia) (lengths_at 14 (fun t => length (ddr5_patterns t)) (cmd_type c) ltac:(lia) ltac:(vm_compute; reflexivity)) idle k d E). now apply ddr5_free.
      - rewrite words_length. apply Nat.div_lt_upper_bound; [lia|]. assert (k < length (ddr5_patterns (cmd_type c)))%nat by (apply nth_error_Some; congruence).
        pose proof (lengths_at 14 (fun t => length (ddr5_patterns t)) (cmd_type c) ltac:(lia) ltac:(vm_compute; reflexivity)) as L. cbv beta in L. lia. }
    f_equal. apply (ddr5_reads (cmd_type c) (named_place c) v); [|exact Q]. intros X. apply NE. rewrite X. reflexivity.
  - assert (Q : forall k d, nth_error (lpddr4_patterns (cmd_type c)) k = Some d -> existsb (desc_eqb d) lpddr4_hid = false -> v k = unset (named_place c) d).
    { intros k d E H. unfold v, seen. rewrite W.
      - rewrite (words_seen 6 _ _ ltac:(lia) (lengths_at 6 (fun t => length (lpddr4_patterns t)) (cmd_type c) ltac:(lia) ltac:(vm_compute; reflexivity)) idle k d E). now apply lpddr4_free.
      - rewrite words_length. apply Nat.div_lt_upper_bound; [lia|]. assert (k < length (lpddr4_patterns (cmd_type c)))%nat by (apply nth_error_Some; congruence).
        pose proof (lengths_at 6 (fun t => length (lpddr4_patterns t)) (cmd_type c) ltac:(lia) ltac:(vm_compute; reflexivity)) as L. cbv beta in L. lia. }
    f_equal. apply (lpddr4_reads (cmd_type c) (named_place c) v); [|exact Q]. intros X. apply NE. rewrite X. reflexivity.
  - assert (L : length (lpddr5_patterns (fi_arch p) (cmd_type c)) = (Nat.div (length (lpddr5_patterns (fi_arch p) (cmd_type c))) 7 * 7)%nat).
    { apply (lengths_at 7 (fun t => length (lpddr5_patterns (fi_arch p) t)) (cmd_type c)); [lia|]. destruct (fi_arch p); vm_compute; reflexivity. }
    assert (Q : forall k d, nth_error (lpddr5_patterns (fi_arch p) (cmd_type c)) k = Some d -> existsb (desc_eqb d) lpddr5_hid = false -> v k = unset (named_place c) d).
    { intros k d E H. unfold v, seen. rewrite W.
      - rewrite (words_seen 7 _ _ ltac:(lia) L idle k d E). now apply lpddr5_free.
      - rewrite words_length. apply Nat.div_lt_upper_bound; [lia|]. assert (k < length (lpddr5_patterns (fi_arch p) (cmd_type c)))%nat by (apply nth_error_Some; congruence). lia. }
    f_equal. apply (lpddr5_reads (fi_arch p) (cmd_type c) (named_place c) v); [|exact Q]. intros X. apply NE. rewrite X. reflexivity.
  - set (e := mkExtra (burst_beats p (no_toggle sim) c) 4 false) in *.
    assert (Q : forall k d, nth_error (lpddr6_patterns (cmd_type c)) k = Some d -> d = d -> v k = demanded6 e (named_place c) d).
    { intros k d E H. unfold v, seen. rewrite W.
      - apply (words_seen 4 _ _ ltac:(lia) (lengths_at 4 _ (cmd_type c) ltac:(lia) lpddr6_lengths) idle k d E).
      - rewrite words_length. apply Nat.div_lt_upper_bound; [lia|]. assert (k < length (lpddr6_patterns (cmd_type c)))%nat by (apply nth_error_Some; congruence).
        pose proof (lengths_at 4 _ (cmd_type c) ltac:(lia) lpddr6_lengths) as L. cbv beta in L. lia. }
    f_equal. apply (lpddr6_reads e (cmd_type c) (named_place c) v); [|exact Q]. intros X. apply NE. rewrite X. reflexivity.
Qed.
