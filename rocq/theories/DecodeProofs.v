(* The encoded commands mean to a device what they should. *)
From Coq Require Import Arith NArith List Bool Lia.
From Verif Require Import Base Command Bits PatternModel PatternTables PatternSpec PatternProofs DecodeSpec.
Import ListNotations.
Local Open Scope N_scope.

Lemma number_field x : forall n lo, number (map (fun i => N.testbit x (N.of_nat i)) (seq lo n)) = (x / 2 ^ N.of_nat lo) mod 2 ^ N.of_nat n.
Proof.
  induction n as [|n IH]; intros lo; cbn [seq map number].
  - cbn. rewrite N.mod_1_r. reflexivity.
  - rewrite IH. replace (2 ^ N.of_nat (S lo)) with (2 ^ N.of_nat lo * 2) by (rewrite Nat2N.inj_succ, N.pow_succ_r'; lia).
    rewrite <- N.div_div by (try apply N.pow_nonzero; discriminate).
    rewrite Nat2N.inj_succ, N.pow_succ_r'. set (y := x / 2 ^ N.of_nat lo).
    rewrite N.mod_mul_r by (try apply N.pow_nonzero; discriminate).
    f_equal. unfold y. rewrite N.testbit_spec' . reflexivity.
Qed.

(* The pins of an encoded word. *)
Lemma pins_of o m last t c w h : command_pattern (mkHandler o m last) t c = Value (w, h) ->
  forall i d, nth_error (m t) i = Some d -> pin (length (m t)) w i = demanded o last c (length (m t) - 1 - i) d.
Proof. intros H i d E. destruct (command_pattern_encode _ _ _ _ _ _ _ H) as [_ H1]. apply encode_places in H1 as [H1 _]. exact (H1 i d E). Qed.
Lemma not_set hid o last c pos d : within hid o -> existsb (desc_eqb d) hid = false -> demanded o last c pos d = unset c d.
Proof. intros W E. unfold demanded. rewrite (W d E). destruct (settable d); reflexivity. Qed.

(* Reads the pins off the pattern. *)
Ltac look V Q := repeat (match goal with |- context [V ?k] => rewrite (Q k _ eq_refl eq_refl) end).
Ltac fields := repeat match goal with
  | |- context [number ?l] => match l with N.testbit ?x ?k :: _ => let lo := eval vm_compute in (N.to_nat k) in let n := eval vm_compute in (length l) in
      change (number l) with (number (map (fun i => N.testbit x (N.of_nat i)) (seq lo n))); rewrite (number_field x n lo) end end;
  change (2 ^ N.of_nat 0) with 1; rewrite ?N.div_1_r.

(* From the levels of the lines that no setting touches to what the device hears. *)
Lemma ddr4_reads t c v : ddr4_patterns t <> [] -> (forall i d, nth_error (ddr4_patterns t) i = Some d -> existsb (desc_eqb d) ddr4_hid = false -> v i = unset c d) ->
  let meant := ddr4_meant (co_bank c) (co_bankGroup c) (co_row c) (co_column c) t in
  map (fun k => ddr4_hears (fun i => v (27 * k + i)%nat)) (seq 0 (length meant)) = meant.
Proof.
  intros NE Q meant. subst meant.
  destruct t; try (exfalso; apply NE; reflexivity); clear NE; cbn [ddr4_meant length seq map]; unfold ddr4_hears, on; cbn [map Nat.add Nat.mul];
    look v Q; cbn [unset addr Nat.leb field_of negb]; unfold only; fields; reflexivity.
Qed.
Lemma ddr4_heard o last t c w h : settings (ph_over ddr4_handler) ddr4_overrides o -> command_pattern (mkHandler o ddr4_patterns last) t c = Value (w, h) ->
  let meant := ddr4_meant (co_bank c) (co_bankGroup c) (co_row c) (co_column c) t in
  length (ddr4_patterns t) = (27 * length meant)%nat /\
  map (fun k => ddr4_hears (fun i => pin (27 * length meant) w (27 * k + i))) (seq 0 (length meant)) = meant.
Proof.
  intros S H meant. pose proof (ddr4_within o S) as W. pose proof (pins_of _ _ _ _ _ _ _ H) as P.
  destruct (command_pattern_encode _ _ _ _ _ _ _ H) as [NE _].
  assert (L : length (ddr4_patterns t) = (27 * length meant)%nat) by (destruct t; try reflexivity; exfalso; apply NE; reflexivity).
  split; [exact L|]. rewrite <- L. clear L. set (v := pin (length (ddr4_patterns t)) w) in *. clearbody v.
  assert (Q : forall i d, nth_error (ddr4_patterns t) i = Some d -> existsb (desc_eqb d) ddr4_hid = false -> v i = unset c d).
  { intros i d E1 E2. rewrite (P i d E1). apply (not_set ddr4_hid); assumption. }
  exact (ddr4_reads t c v NE Q).
Qed.

Lemma ddr5_reads t c v : ddr5_patterns t <> [] -> (forall i d, nth_error (ddr5_patterns t) i = Some d -> existsb (desc_eqb d) ddr5_hid = false -> v i = unset c d) ->
  ddr5_hears v = ddr5_meant (co_bank c) (co_bankGroup c) (co_row c) (co_column c) t.
Proof.
  intros NE Q.
  destruct t; try (exfalso; apply NE; reflexivity); clear NE; cbn [ddr5_meant]; unfold ddr5_hears, on; cbn [map];
    look v Q; cbn [unset addr Nat.leb field_of negb]; unfold only; fields; reflexivity.
Qed.
Lemma ddr5_heard o last t c w h : settings (ph_over ddr5_handler) ddr5_overrides o -> command_pattern (mkHandler o ddr5_patterns last) t c = Value (w, h) ->
  let meant := ddr5_meant (co_bank c) (co_bankGroup c) (co_row c) (co_column c) t in
  let n := ddr5_pins (he_order meant) in length (ddr5_patterns t) = n /\ ddr5_hears (pin n w) = meant.
Proof.
  intros S H meant n. pose proof (ddr5_within o S) as W. pose proof (pins_of _ _ _ _ _ _ _ H) as P.
  destruct (command_pattern_encode _ _ _ _ _ _ _ H) as [NE _].
  assert (L : length (ddr5_patterns t) = n) by (destruct t; try reflexivity; exfalso; apply NE; reflexivity).
  split; [exact L|]. rewrite <- L. clear L n. set (v := pin (length (ddr5_patterns t)) w) in *. clearbody v.
  assert (Q : forall i d, nth_error (ddr5_patterns t) i = Some d -> existsb (desc_eqb d) ddr5_hid = false -> v i = unset c d).
  { intros i d E1 E2. rewrite (P i d E1). apply (not_set ddr5_hid); assumption. }
  exact (ddr5_reads t c v NE Q).
Qed.

Lemma lpddr4_reads t c v : lpddr4_patterns t <> [] -> (forall i d, nth_error (lpddr4_patterns t) i = Some d -> existsb (desc_eqb d) lpddr4_hid = false -> v i = unset c d) ->
  lpddr4_hears v = lpddr4_meant (co_bank c) (co_row c) (co_column c) t.
Proof.
  intros NE Q.
  destruct t; try (exfalso; apply NE; reflexivity); clear NE; cbn [lpddr4_meant]; unfold lpddr4_hears, on; cbn [map];
    look v Q; cbn [unset addr Nat.leb field_of negb andb]; unfold only; fields; reflexivity.
Qed.
Lemma lpddr4_heard o last t c w h : settings (ph_over lpddr4_handler) lpddr4_overrides o -> command_pattern (mkHandler o lpddr4_patterns last) t c = Value (w, h) ->
  let meant := lpddr4_meant (co_bank c) (co_row c) (co_column c) t in
  let n := lpddr4_pins (he_order meant) in length (lpddr4_patterns t) = n /\ lpddr4_hears (pin n w) = meant.
Proof.
  intros S H meant n. pose proof (lpddr4_within o S) as W. pose proof (pins_of _ _ _ _ _ _ _ H) as P.
  destruct (command_pattern_encode _ _ _ _ _ _ _ H) as [NE _].
  assert (L : length (lpddr4_patterns t) = n) by (destruct t; try reflexivity; exfalso; apply NE; reflexivity).
  split; [exact L|]. rewrite <- L. clear L n. set (v := pin (length (lpddr4_patterns t)) w) in *. clearbody v.
  assert (Q : forall i d, nth_error (lpddr4_patterns t) i = Some d -> existsb (desc_eqb d) lpddr4_hid = false -> v i = unset c d).
  { intros i d E1 E2. rewrite (P i d E1). apply (not_set lpddr4_hid); assumption. }
  exact (lpddr4_reads t c v NE Q).
Qed.

Definition banking_of (a : bank_arch) : banking := match a with MBG => FourGroups | M16B => SixteenBanks | M8B => EightBanks end.
Lemma lpddr5_reads a t c v : lpddr5_patterns a t <> [] -> (forall i d, nth_error (lpddr5_patterns a t) i = Some d -> existsb (desc_eqb d) lpddr5_hid = false -> v i = unset c d) ->
  lpddr5_hears (banking_of a) v = lpddr5_meant (co_bank c) (co_bankGroup c) (co_row c) (co_column c) (banking_of a) t.
Proof.
  intros NE Q.
  destruct a; destruct t; try (exfalso; apply NE; reflexivity); clear NE; cbn [lpddr5_meant banking_of]; unfold lpddr5_hears, on; cbn [map];
    look v Q; cbn [unset addr Nat.leb field_of negb andb]; unfold only; fields; reflexivity.
Qed.
Lemma lpddr5_heard a o last t c w h : settings (ph_over (lpddr5_handler a)) lpddr5_overrides o -> command_pattern (mkHandler o (lpddr5_patterns a) last) t c = Value (w, h) ->
  let meant := lpddr5_meant (co_bank c) (co_bankGroup c) (co_row c) (co_column c) (banking_of a) t in
  let n := lpddr5_pins (he_order meant) in length (lpddr5_patterns a t) = n /\ lpddr5_hears (banking_of a) (pin n w) = meant.
Proof.
  intros S H meant n. pose proof (lpddr5_within a o S) as W. pose proof (pins_of _ _ _ _ _ _ _ H) as P.
  destruct (command_pattern_encode _ _ _ _ _ _ _ H) as [NE _].
  assert (L : length (lpddr5_patterns a t) = n) by (destruct a; destruct t; try reflexivity; exfalso; apply NE; reflexivity).
  split; [exact L|]. rewrite <- L. clear L n. set (v := pin (length (lpddr5_patterns a t)) w) in *. clearbody v.
  assert (Q : forall i d, nth_error (lpddr5_patterns a t) i = Some d -> existsb (desc_eqb d) lpddr5_hid = false -> v i = unset c d).
  { intros i d E1 E2. rewrite (P i d E1). apply (not_set lpddr5_hid); assumption. }
  exact (lpddr5_reads a t c v NE Q).
Qed.

Lemma lpddr6_reads e t c v : lpddr6_patterns t <> [] -> (forall i d, nth_error (lpddr6_patterns t) i = Some d -> d = d -> v i = demanded6 e c d) ->
  lpddr6_hears v = lpddr6_meant (co_bank c) (co_bankGroup c) (co_row c) (co_column c) (co_dbank c) t.
Proof.
  intros NE Q.
  destruct t; try (exfalso; apply NE; reflexivity); clear NE; cbn [lpddr6_meant]; unfold lpddr6_hears, on; cbn [map];
    look v Q; cbn [demanded6 addr6 field_of negb andb]; unfold only; fields; reflexivity.
Qed.
Lemma lpddr6_heard e last t c w h : ex_groups e = 4 -> command_pattern6 (mkHandler6 e lpddr6_patterns last) t c = Value (w, h) ->
  let meant := lpddr6_meant (co_bank c) (co_bankGroup c) (co_row c) (co_column c) (co_dbank c) t in
  let n := lpddr6_pins (he_order meant) in length (lpddr6_patterns t) = n /\ lpddr6_hears (pin n w) = meant.
Proof.
  intros G H meant n. destruct (command_pattern6_encode _ _ _ _ _ _ _ H) as [NE _].
  assert (L : length (lpddr6_patterns t) = n) by (destruct t; try reflexivity; exfalso; apply NE; reflexivity).
  destruct (places6 e last t c w h G H) as [_ P].
  split; [exact L|]. rewrite <- L. clear L n. set (v := pin (length (lpddr6_patterns t)) w) in *.
  assert (Q : forall i d, nth_error (lpddr6_patterns t) i = Some d -> d = d -> v i = demanded6 e c d) by (intros i d E _; exact (P i d E)).
  exact (lpddr6_reads e t c v NE Q).
Qed.
