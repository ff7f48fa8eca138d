(* C21 and C22: command encoding. *)
From Coq Require Import NArith List Bool Arith.
From Verif Require Import Base Command Bits BusModel WaveSpec BitFacts PatternModel PatternTables PatternSpec PatternProofs ParityProofs.
Import ListNotations.
Local Open Scope N_scope.

(* A coordinate used below. *)
Definition here : coord := mkCoord 2 3 0 0x2a5c1 0x2f8 4 1.

(* C21: bit |p| - 1 - i is the level descriptor i demands and all further bits
   are zero; encoding succeeds exactly for 1 to 64 descriptors. *)
Theorem C21_encoding_places_every_bit : forall o last c p w, encode o last c p = Value w ->
  (forall i d, nth_error p i = Some d -> N.testbit w (N.of_nat (length p - 1 - i)) = demanded o last c (length p - 1 - i) d) /\
  (forall j, (length p <= j)%nat -> N.testbit w (N.of_nat j) = false).
Proof. exact encode_places. Qed.
Print Assumptions C21_encoding_places_every_bit.
Example C21_encoding_places_every_bit_case :
  encode (ph_over ddr4_handler) (N.ones 27) here (ddr4_patterns ACT) = Value 12039694 /\
  nth_error (ddr4_patterns ACT) 9 = Some DV /\ N.testbit 12039694 (27 - 1 - 9) = true /\
  demanded (ov_new [(DV, SpecLast)]) 4 here 2 DV = true /\ demanded (ov_new [(DV, SpecLast)]) 3 here 2 DV = false /\
  demanded (ov_new [(DC 3, SpecL)]) 0 here 2 (DC 3) = false /\ demanded [] 0 here 2 (DC 3) = true.
Proof. vm_compute. repeat split; reflexivity. Qed.

Theorem C21_encoding_accepts : forall o last c p,
  if Nat.ltb 0 (length p) && Nat.leb (length p) 64 then exists w, encode o last c p = Value w else encode o last c p = Fails Assertion.
Proof. exact encode_accepts. Qed.
Print Assumptions C21_encoding_accepts.
Example C21_encoding_accepts_case : encode [] 0 here (repeat DH 65) = Fails Assertion /\ encode [] 0 here (repeat DH 64) = Value (N.ones 64).
Proof. split; vm_compute; reflexivity. Qed.

(* On the command bus, beat b shows descriptors b * width ... in order, the
   first of them on the highest line. *)
Theorem C21_pattern_on_the_bus : forall o last c p w width len, encode o last c p = Value w -> (0 < width)%nat -> length p = (len * width)%nat ->
  forall b j d, (b < len)%nat -> (j < width)%nat -> nth_error p (b * width + (width - 1 - j)) = Some d ->
  level (nth b (played width (bytes_of_word (Nat.div (len * width + 7) 8) w) (len * width)) 0) j =
  demanded o last c (length p - 1 - (b * width + (width - 1 - j))) d.
Proof. exact on_the_bus. Qed.
Print Assumptions C21_pattern_on_the_bus.
Example C21_pattern_on_the_bus_case :
  encode (ph_over ddr5_handler) 0 here (ddr5_patterns ACT) = Value 35507861 /\
  played 14 (bytes_of_word 4 35507861) 28 = [2167; 3733] /\ nth_error (ddr5_patterns ACT) (1 * 14 + (14 - 1 - 2)) = Some (DR 15) /\
  level 3733 2 = N.testbit 0x2a5c1 15.
Proof. vm_compute. repeat split; reflexivity. Qed.

(* In a series of commands a line that holds its level shows the bit of the word
   before. *)
Theorem C21_hold_repeats_last_word : forall cs h ws, pattern_run h cs = Value ws -> length ws = length cs /\
  forall k t c, nth_error cs k = Some (t, c) -> forall i d, nth_error (ph_map h t) i = Some d ->
    N.testbit (nth k ws 0) (N.of_nat (length (ph_map h t) - 1 - i)) =
    demanded (ph_over h) (match k with O => ph_last h | S j => nth j ws 0 end) c (length (ph_map h t) - 1 - i) d.
Proof. exact run_places. Qed.
Print Assumptions C21_hold_repeats_last_word.
Example C21_hold_repeats_last_word_case :
  pattern_run (mkHandler (ov_new [(DV, SpecLast)]) (fun t => match t with ACT => [DR 0; DR 1] | _ => [DV; DL] end) 0) [(ACT, here); (PRE, here); (PRE, here)] = Value [2; 2; 2] /\
  pattern_run (mkHandler (ov_new [(DV, SpecH)]) (fun t => match t with ACT => [DR 1; DR 2] | _ => [DV; DL] end) 0) [(ACT, here); (PRE, here)] = Value [0; 2].
Proof. split; vm_compute; reflexivity. Qed.

(* The LPDDR6 encoder, for patterns without PAR in third position (all that
   are registered). *)
Theorem C21_lpddr6_encoding_places_every_bit : forall e c p w, ex_groups e = 4 -> encode6 e c p = Value w -> nth_error p 2 <> Some EPAR ->
  (forall i d, nth_error p i = Some d -> N.testbit w (N.of_nat (length p - 1 - i)) = demanded6 e c d) /\
  (forall j, (length p <= j)%nat -> N.testbit w (N.of_nat j) = false).
Proof. exact encode6_places. Qed.
Print Assumptions C21_lpddr6_encoding_places_every_bit.
Example C21_lpddr6_encoding_places_every_bit_case :
  encode6 (mkExtra 24 4 true) here (lpddr6_patterns RD) = Value 0xC177 /\ nth_error (lpddr6_patterns RD) 2 = Some EL /\
  nth_error (lpddr6_patterns RD) 7 = Some ESC /\ N.testbit 0xC177 8 = true.
Proof. vm_compute. repeat split; reflexivity. Qed.

(* With parity checking on, the parity bit of every registered pattern stays
   low, whatever the other bits are: the code looks for PAR in position 2 and
   every pattern has it in position 3. *)
Theorem C21_lpddr6_parity_refuted : exists e c w, ex_parity e = true /\ nth_error (lpddr6_patterns RD) 3 = Some EPAR /\
  encode6 e c (lpddr6_patterns RD) = Value w /\ N.odd (popcount w) = true.
Proof. exists (mkExtra 24 4 true), (mkCoord 1 0 0 0 0 0 0), 0xC008. vm_compute. repeat split; reflexivity. Qed.
Print Assumptions C21_lpddr6_parity_refuted.

(* A pattern with PAR in third position, and parity checking on: the bit makes the
   number of ones even, and every other bit is the level its descriptor demands. *)
Theorem C21_lpddr6_parity : forall e c p w, ex_groups e = 4 -> encode6 e c p = Value w -> ex_parity e = true -> nth_error p 2 = Some EPAR ->
  N.odd (popcount w) = false /\ forall i d, i <> 2%nat -> nth_error p i = Some d -> N.testbit w (N.of_nat (length p - 1 - i)) = demanded6 e c d.
Proof. exact parity_even. Qed.
Print Assumptions C21_lpddr6_parity.
Example C21_lpddr6_parity_case :
  encode6 (mkExtra 24 4 true) here [EH; EL; EPAR; EH; EH] = Value 23 /\ encode6 (mkExtra 24 4 true) here [EH; EL; EPAR; EH; EL] = Value 18.
Proof. split; vm_compute; reflexivity. Qed.

(* C22: with the same word and type, two commands agree in every address bit
   the command is meant to carry.  The settings may differ as far as the
   interface changes them; the previous patterns are arbitrary. *)
Theorem C22_ddr4_addresses : forall o o' last last' t c c' w h h',
  settings (ph_over ddr4_handler) ddr4_overrides o -> settings (ph_over ddr4_handler) ddr4_overrides o' ->
  command_pattern (mkHandler o ddr4_patterns last) t c = Value (w, h) -> command_pattern (mkHandler o' ddr4_patterns last') t c' = Value (w, h') ->
  Forall (same_part c c') (ddr4_carried t).
Proof. exact (fun o o' last last' t c c' w h h' S S' => addresses_kept _ _ _ (proj1 ddr4_tables) o o' last last' t c c' w h h' (ddr4_within o S) (ddr4_within o' S')). Qed.
Print Assumptions C22_ddr4_addresses.
Example C22_ddr4_addresses_case :
  exists h h', command_pattern (mkHandler (ddr4_overrides (ph_over ddr4_handler) 8 true) ddr4_patterns 0) RD here = Value (58194045, h) /\
  command_pattern (mkHandler (ddr4_overrides (ph_over ddr4_handler) 4 true) ddr4_patterns 7) RD (mkCoord 6 7 1 0 0x6ff 0 0) = Value (58194045, h').
Proof. do 2 eexists. split; [vm_compute; reflexivity|]. vm_compute. reflexivity. Qed.

Theorem C22_ddr5_addresses : forall o o' last last' t c c' w h h',
  settings (ph_over ddr5_handler) ddr5_overrides o -> settings (ph_over ddr5_handler) ddr5_overrides o' ->
  command_pattern (mkHandler o ddr5_patterns last) t c = Value (w, h) -> command_pattern (mkHandler o' ddr5_patterns last') t c' = Value (w, h') ->
  Forall (same_part c c') (ddr5_carried t).
Proof. exact (fun o o' last last' t c c' w h h' S S' => addresses_kept _ _ _ (proj1 ddr5_tables) o o' last last' t c c' w h h' (ddr5_within o S) (ddr5_within o' S')). Qed.
Print Assumptions C22_ddr5_addresses.
Example C22_ddr5_addresses_case :
  exists w h h', command_pattern (mkHandler (ddr5_overrides (ph_over ddr5_handler) 16 true) ddr5_patterns 0) RD here = Value (w, h) /\
  command_pattern (mkHandler (ddr5_overrides (ph_over ddr5_handler) 8 true) ddr5_patterns 7) RD (mkCoord 6 3 1 0 0x2ff 0 0) = Value (w, h') /\
  same_part here (mkCoord 6 3 1 0 0x2ff 0 0) (Column, 4%nat, 6%nat).
Proof. do 3 eexists. split; [vm_compute; reflexivity|]. split; vm_compute; reflexivity. Qed.

Theorem C22_lpddr4_addresses : forall o o' last last' t c c' w h h',
  settings (ph_over lpddr4_handler) lpddr4_overrides o -> settings (ph_over lpddr4_handler) lpddr4_overrides o' ->
  command_pattern (mkHandler o lpddr4_patterns last) t c = Value (w, h) -> command_pattern (mkHandler o' lpddr4_patterns last') t c' = Value (w, h') ->
  Forall (same_part c c') (lpddr4_carried t).
Proof. exact (fun o o' last last' t c c' w h h' S S' => addresses_kept _ _ _ (proj1 lpddr4_tables) o o' last last' t c c' w h h' (lpddr4_within o S) (lpddr4_within o' S')). Qed.
Print Assumptions C22_lpddr4_addresses.
Example C22_lpddr4_addresses_case :
  exists w h h', command_pattern (mkHandler (ph_over lpddr4_handler) lpddr4_patterns 0) ACT here = Value (w, h) /\
  command_pattern (mkHandler (lpddr4_overrides (ph_over lpddr4_handler) 32 true) lpddr4_patterns 7) ACT (mkCoord 10 0 1 0x6a5c1 0 0 0) = Value (w, h').
Proof. do 3 eexists. split; [vm_compute; reflexivity|]. vm_compute. reflexivity. Qed.

Theorem C22_lpddr5_addresses : forall a o o' last last' t c c' w h h',
  settings (ph_over (lpddr5_handler a)) lpddr5_overrides o -> settings (ph_over (lpddr5_handler a)) lpddr5_overrides o' ->
  command_pattern (mkHandler o (lpddr5_patterns a) last) t c = Value (w, h) -> command_pattern (mkHandler o' (lpddr5_patterns a) last') t c' = Value (w, h') ->
  Forall (same_part c c') (lpddr5_carried a t).
Proof. exact (fun a o o' last last' t c c' w h h' S S' => addresses_kept _ _ _ (proj1 (lpddr5_tables a)) o o' last last' t c c' w h h' (lpddr5_within a o S) (lpddr5_within a o' S')). Qed.
Print Assumptions C22_lpddr5_addresses.
Example C22_lpddr5_addresses_case :
  exists w h h', command_pattern (mkHandler (ph_over (lpddr5_handler M16B)) (lpddr5_patterns M16B) 0) PRE here = Value (w, h) /\
  command_pattern (mkHandler (lpddr5_overrides (ph_over (lpddr5_handler M16B)) 32 true) (lpddr5_patterns M16B) 7) PRE (mkCoord 18 0 1 0x6a5c1 0 0 0) = Value (w, h').
Proof. do 3 eexists. split; [vm_compute; reflexivity|]. vm_compute. reflexivity. Qed.

Theorem C22_lpddr6_addresses : forall e e' last last' t c c' w h h', ex_groups e = 4 -> ex_groups e' = 4 ->
  command_pattern6 (mkHandler6 e lpddr6_patterns last) t c = Value (w, h) -> command_pattern6 (mkHandler6 e' lpddr6_patterns last') t c' = Value (w, h') ->
  Forall (same_part c c') (lpddr6_carried t) /\
  (In ESC (lpddr6_patterns t) -> (co_sub c =? 1) = (co_sub c' =? 1)) /\
  (In EBL (lpddr6_patterns t) -> (ex_burst e =? 24) = (ex_burst e' =? 24) /\ (ex_burst e = 24 -> same_part c c' (Column, 0%nat, 6%nat))).
Proof. exact lpddr6_addresses. Qed.
Print Assumptions C22_lpddr6_addresses.
Example C22_lpddr6_addresses_case :
  exists w h h', command_pattern6 (mkHandler6 (mkExtra 24 4 false) lpddr6_patterns 0) RD here = Value (w, h) /\
  command_pattern6 (mkHandler6 (mkExtra 24 4 true) lpddr6_patterns 9) RD (mkCoord 6 7 1 0 0xef8 0 1) = Value (w, h').
Proof. do 3 eexists. split; [vm_compute; reflexivity|]. vm_compute. reflexivity. Qed.

(* Commands of the same length and word have the same type, or types of one
   class.  LPDDR4 has no such classes. *)
Theorem C22_ddr4_types : forall o o' last last' t t' c c' w h h',
  command_pattern (mkHandler o ddr4_patterns last) t c = Value (w, h) -> command_pattern (mkHandler o' ddr4_patterns last') t' c' = Value (w, h') ->
  length (ddr4_patterns t) = length (ddr4_patterns t') -> alike ddr4_alike t t' = true.
Proof. exact (types_kept _ _ (proj2 ddr4_tables)). Qed.
Print Assumptions C22_ddr4_types.
Theorem C22_ddr5_types : forall o o' last last' t t' c c' w h h',
  command_pattern (mkHandler o ddr5_patterns last) t c = Value (w, h) -> command_pattern (mkHandler o' ddr5_patterns last') t' c' = Value (w, h') ->
  length (ddr5_patterns t) = length (ddr5_patterns t') -> alike ddr5_alike t t' = true.
Proof. exact (types_kept _ _ (proj2 ddr5_tables)). Qed.
Print Assumptions C22_ddr5_types.
Theorem C22_lpddr4_types : forall o o' last last' t t' c c' w h h',
  command_pattern (mkHandler o lpddr4_patterns last) t c = Value (w, h) -> command_pattern (mkHandler o' lpddr4_patterns last') t' c' = Value (w, h') ->
  length (lpddr4_patterns t) = length (lpddr4_patterns t') -> alike [] t t' = true.
Proof. exact (types_kept _ _ (proj2 lpddr4_tables)). Qed.
Print Assumptions C22_lpddr4_types.
Theorem C22_lpddr5_types : forall a o o' last last' t t' c c' w h h',
  command_pattern (mkHandler o (lpddr5_patterns a) last) t c = Value (w, h) -> command_pattern (mkHandler o' (lpddr5_patterns a) last') t' c' = Value (w, h') ->
  length (lpddr5_patterns a t) = length (lpddr5_patterns a t') -> alike lpddr5_alike t t' = true.
Proof. exact (fun a => types_kept _ _ (proj2 (lpddr5_tables a))). Qed.
Print Assumptions C22_lpddr5_types.
Theorem C22_lpddr6_types : forall e e' last last' t t' c c' w h h', ex_groups e = 4 -> ex_groups e' = 4 ->
  command_pattern6 (mkHandler6 e lpddr6_patterns last) t c = Value (w, h) -> command_pattern6 (mkHandler6 e' lpddr6_patterns last') t' c' = Value (w, h') ->
  length (lpddr6_patterns t) = length (lpddr6_patterns t') -> alike lpddr6_alike t t' = true.
Proof. exact lpddr6_types. Qed.
Print Assumptions C22_lpddr6_types.
Example C22_types_case :
  alike ddr4_alike RD WR = false /\ alike ddr5_alike PRE PREA = false /\ alike lpddr5_alike REFA REFB = false /\ alike lpddr6_alike PRE PREA = false /\
  (exists h, command_pattern ddr4_handler REFA here = Value (41943039, h)) /\ (exists h, command_pattern ddr4_handler SREFEN here = Value (41943039, h)) /\
  (exists h, command_pattern6 (lpddr6_handler 4) NOP here = Value (0, h)) /\ (exists h, command_pattern6 (lpddr6_handler 4) PDXA here = Value (0, h)) /\
  (exists h, command_pattern lpddr4_handler REFA here = Value (0x140, h)) /\
  (exists h, command_pattern ddr5_handler NOP here = Value (0x3FFF, h)) /\ (exists h, command_pattern (lpddr5_handler MBG) SREFEX here = Value (0x500, h)).
Proof. vm_compute. repeat split; try reflexivity; eexists; reflexivity. Qed.

(* The classes cannot be dropped: these types are encoded alike for every
   setting, previous pattern and coordinate. *)
Theorem C22_ddr4_types_refuted : exists t t', t <> t' /\ forall o last c, exists w h,
  command_pattern (mkHandler o ddr4_patterns last) t c = Value (w, h) /\ command_pattern (mkHandler o ddr4_patterns last) t' c = Value (w, h).
Proof. exists REFA, SREFEN. split; [discriminate|]. intros o last c. do 2 eexists. split; reflexivity. Qed.
Print Assumptions C22_ddr4_types_refuted.
Theorem C22_ddr5_types_refuted : exists t t', t <> t' /\ forall o last c, exists w h,
  command_pattern (mkHandler o ddr5_patterns last) t c = Value (w, h) /\ command_pattern (mkHandler o ddr5_patterns last) t' c = Value (w, h).
Proof. exists NOP, PDXA. split; [discriminate|]. intros o last c. do 2 eexists. split; reflexivity. Qed.
Print Assumptions C22_ddr5_types_refuted.
Theorem C22_lpddr5_types_refuted : exists t t', t <> t' /\ forall o last c, exists w h,
  command_pattern (mkHandler o (lpddr5_patterns MBG) last) t c = Value (w, h) /\ command_pattern (mkHandler o (lpddr5_patterns MBG) last) t' c = Value (w, h).
Proof. exists REFB, REFP2B. split; [discriminate|]. intros o last c. do 2 eexists. split; reflexivity. Qed.
Print Assumptions C22_lpddr5_types_refuted.
Theorem C22_lpddr6_types_refuted : exists t t' e c w h, t <> t' /\
  command_pattern6 (mkHandler6 e lpddr6_patterns 0) t c = Value (w, h) /\ command_pattern6 (mkHandler6 e lpddr6_patterns 0) t' c = Value (w, h).
Proof. exists NOP, PDXA, (mkExtra 24 4 false), here. do 2 eexists. split; [discriminate|]. split; [vm_compute; reflexivity|]. vm_compute. reflexivity. Qed.
Print Assumptions C22_lpddr6_types_refuted.

(* An LPDDR5 per-bank refresh of banks 0 and 8 (16 banks) or of bank groups 0
   and 2 (bank group mode) is the same word, though PRE tells them apart. *)
Theorem C22_lpddr5_refresh_bank_refuted : exists c c', co_bank c = 0 /\ co_bank c' = 8 /\ forall o last, exists w h,
  command_pattern (mkHandler o (lpddr5_patterns M16B) last) REFB c = Value (w, h) /\ command_pattern (mkHandler o (lpddr5_patterns M16B) last) REFB c' = Value (w, h).
Proof. exists (mkCoord 0 0 0 0 0 0 0), (mkCoord 8 0 0 0 0 0 0). split; [reflexivity|]. split; [reflexivity|]. intros o last. do 2 eexists. split; reflexivity. Qed.
Print Assumptions C22_lpddr5_refresh_bank_refuted.
Theorem C22_lpddr5_refresh_group_refuted : exists c c', co_bankGroup c = 0 /\ co_bankGroup c' = 2 /\ forall o last, exists w h,
  command_pattern (mkHandler o (lpddr5_patterns MBG) last) REFB c = Value (w, h) /\ command_pattern (mkHandler o (lpddr5_patterns MBG) last) REFB c' = Value (w, h).
Proof. exists (mkCoord 0 0 0 0 0 0 0), (mkCoord 0 2 0 0 0 0 0). split; [reflexivity|]. split; [reflexivity|]. intros o last. do 2 eexists. split; reflexivity. Qed.
Print Assumptions C22_lpddr5_refresh_group_refuted.
(* LPDDR4 activate names row bit 18 in its pattern, yet the bit stays low. *)
Theorem C22_lpddr4_row_refuted : exists c c', In (DR 18) (lpddr4_patterns ACT) /\ co_row c = 0 /\ co_row c' = 2 ^ 18 /\ forall o last, exists w h,
  command_pattern (mkHandler o lpddr4_patterns last) ACT c = Value (w, h) /\ command_pattern (mkHandler o lpddr4_patterns last) ACT c' = Value (w, h).
Proof.
  exists (mkCoord 0 0 0 0 0 0 0), (mkCoord 0 0 0 (2 ^ 18) 0 0 0). split; [cbn; tauto|]. split; [reflexivity|]. split; [reflexivity|].
  intros o last. do 2 eexists. split; reflexivity.
Qed.
Print Assumptions C22_lpddr4_row_refuted.
