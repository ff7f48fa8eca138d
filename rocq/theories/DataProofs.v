(* The data bus: directions do not disturb each other, and each mode counts what
   it should. *)
From Coq Require Import NArith ZArith QArith Lia List Bool.
From Verif Require Import Base Bits BusModel WaveSpec BitFacts StorageProofs BusProofs BusMore ClockProofs ToggleModel ToggleProofs.
Import ListNotations.
Local Open Scope N_scope.
Ltac Zify.zify_post_hook ::= idtac.

(* Requests to the data bus: a burst in one direction, and the mode switches. *)
Inductive data_op :=
| DLoad (read : bool) (t : N) (n_bits : nat) (data : option (list N))
| DBus (t : N)
| DToggle (t : N).
Definition data_do (o : data_op) (d : data_bus) : result data_bus :=
  match o with
  | DLoad true t n data => data_load_read d t n data
  | DLoad false t n data => data_load_write d t n data
  | DBus t => data_enable_bus d t
  | DToggle t => data_enable_toggling d t
  end.
Definition data_run (ops : list data_op) (d : data_bus) : result data_bus := loop data_do ops d.

(* The bursts of one direction, as payloads and as lengths. *)
Definition payloads (read : bool) (ops : list data_op) : list load_op :=
  flat_map (fun o => match o with
    | DLoad r t n (Some bytes) => if eqb r read && negb (Nat.eqb n 0) then [mkLoad t bytes n] else []
    | _ => [] end) ops.
Definition lengths (read : bool) (ops : list data_op) : list toggle_op :=
  flat_map (fun o => match o with
    | DLoad r t n _ => if eqb r read then [TLoad t (N.of_nat n)] else []
    | _ => [] end) ops.
Definition is_load (o : data_op) : Prop := match o with DLoad _ _ _ _ => True | _ => False end.
(* Requests that concern one direction. *)
Definition concerns (read : bool) (o : data_op) : bool :=
  match o with DLoad r _ _ _ => eqb r read | _ => true end.
(* One direction of the data bus. *)
Definition side (read : bool) (d : data_bus) : bus * toggling * bus_mode :=
  if read then (d_read d, d_tread d, d_mode d) else (d_write d, d_twrite d, d_mode d).

(* ---- independence of the directions ---- *)
Lemma do_side read o d d' e : data_do o d = Value d' -> side read d = side read e ->
  (concerns read o = false -> side read d' = side read e) /\
  (forall e', concerns read o = true -> data_do o e = Value e' -> side read d' = side read e').
Proof.
  intros Do S. split.
  - intros C. rewrite <- S. destruct o as [r t n data|t|t]; try discriminate. cbn in C.
    destruct r, read; try discriminate; cbn [data_do] in Do; unfold data_load_read, data_load_write in Do;
      match type of Do with bind ?m _ = _ => destruct m as [x|]; [|discriminate] end; injection Do as <-; reflexivity.
  - intros e' C De. destruct o as [r t n data|t|t]; cbn [data_do concerns] in *.
    + destruct r, read; try discriminate; unfold data_load_read, data_load_write in *; cbn [side] in S; injection S as S1 S2 S3;
      rewrite S1, S2, S3 in Do; match type of Do with bind ?m _ = _ => destruct m as [x|]; [|discriminate] end;
      cbn [bind] in *; injection Do as <-; injection De as <-; reflexivity.
    + unfold data_enable_bus in *. cbn [side] in S. destruct read; injection S as S1 S2 S3.
      * rewrite S1 in Do. destruct (bus_enable (d_read e) t) as [x|]; [|discriminate]. cbn [bind] in *.
        destruct (bus_enable (d_write d) t) as [y|]; [|discriminate]. destruct (bus_enable (d_write e) t) as [z|]; [|discriminate].
        cbn [bind] in *. injection Do as <-. injection De as <-. cbn. rewrite S2. reflexivity.
      * destruct (bus_enable (d_read d) t) as [x|]; [|discriminate]. destruct (bus_enable (d_read e) t) as [x'|]; [|discriminate]. cbn [bind] in *.
        rewrite S1 in Do. destruct (bus_enable (d_write e) t) as [z|]; [|discriminate].
        cbn [bind] in *. injection Do as <-. injection De as <-. cbn. rewrite S2. reflexivity.
    + unfold data_enable_toggling in *. cbn [side] in S. destruct read; injection S as S1 S2 S3.
      * rewrite S1 in Do. destruct (bus_disable (d_read e) t) as [x|]; [|discriminate]. cbn [bind] in *.
        destruct (bus_disable (d_write d) t) as [y|]; [|discriminate]. destruct (bus_disable (d_write e) t) as [z|]; [|discriminate].
        cbn [bind] in *. injection Do as <-. injection De as <-. cbn. rewrite S2. reflexivity.
      * destruct (bus_disable (d_read d) t) as [x|]; [|discriminate]. destruct (bus_disable (d_read e) t) as [x'|]; [|discriminate]. cbn [bind] in *.
        rewrite S1 in Do. destruct (bus_disable (d_write e) t) as [z|]; [|discriminate].
        cbn [bind] in *. injection Do as <-. injection De as <-. cbn. rewrite S2. reflexivity.
Qed.

(* Two histories that agree on one direction (and the mode switches) leave that
   direction in the same state. *)
Theorem sides_independent read ops : forall ops' d e d' e', filter (concerns read) ops = filter (concerns read) ops' ->
  side read d = side read e -> data_run ops d = Value d' -> data_run ops' e = Value e' -> side read d' = side read e'.
Proof.
  induction ops as [|o r IH]; intros ops' d e d' e' F S R R'.
  - cbn in R. injection R as <-. cbn in F.
    revert e S R'. induction ops' as [|o' r' IH']; intros e S R'.
    + cbn in R'. injection R' as <-. exact S.
    + cbn [filter] in F. destruct (concerns read o') eqn:C; [discriminate|].
      unfold data_run in R'. cbn [loop] in R'. destruct (data_do o' e) as [e1|] eqn:D; [|discriminate]. cbn [bind] in R'.
      apply (IH' F e1); auto. destruct (do_side read o' e e1 d D (eq_sym S)) as [X _]. symmetry. apply X. exact C.
  - unfold data_run in R. cbn [loop] in R. destruct (data_do o d) as [d1|] eqn:D; [|discriminate]. cbn [bind] in R.
    cbn [filter] in F. destruct (concerns read o) eqn:C.
    + revert e S R' F. induction ops' as [|o' r' IH']; intros e S R' F; [discriminate|].
      unfold data_run in R'. cbn [loop] in R'. destruct (data_do o' e) as [e1|] eqn:D'; [|discriminate]. cbn [bind] in R'.
      cbn [filter] in F. destruct (concerns read o') eqn:C'.
      * injection F as <- F. apply (IH r' d1 e1); auto.
        destruct (do_side read o d d1 e D S) as [_ X]. apply X; auto.
      * apply (IH' e1); auto. destruct (do_side read o' e e1 d D' (eq_sym S)) as [X _]. symmetry. apply X. exact C'.
    + apply (IH ops' d1 e); auto. destruct (do_side read o d d1 e D S) as [X _]. apply X. exact C.
Qed.

(* ---- histories of loads in one mode ---- *)
Lemma loop_cons_inv {A I} (f : I -> A -> result A) i l a b : loop f (i :: l) a = Value b ->
  exists c, f i a = Value c /\ loop f l c = Value b.
Proof. cbn [loop]. destruct (f i a) as [c|]; [|discriminate]. cbn [bind]. intros H. exists c. split; auto. Qed.

Lemma data_run_bus ops : forall d r w, Forall is_load ops -> d_mode d = ModeBus ->
  run_loads (payloads true ops) (d_read d) = Value r -> run_loads (payloads false ops) (d_write d) = Value w ->
  data_run ops d = Value (mkDataBus r w (d_tread d) (d_twrite d) ModeBus).
Proof.
  induction ops as [|o l IH]; intros d r w F M R W.
  - cbn in R, W. injection R as <-. injection W as <-. cbn. rewrite <- M. destruct d; reflexivity.
  - inversion F as [|? ? F1 F2]; subst. destruct o as [rd t n data| |]; try destruct F1.
    unfold data_run. cbn [loop]. cbn [payloads flat_map] in R, W. fold (payloads true l) in R. fold (payloads false l) in W.
    destruct rd; cbn [data_do eqb andb] in *; unfold data_load_read, data_load_write, data_load; rewrite M.
    + destruct data as [bytes|].
      * destruct (Nat.eqb n 0).
        -- cbn [bind fst snd negb app] in *. rewrite (IH _ r w); auto.
        -- cbn [negb app] in R. apply loop_cons_inv in R as [b1 [R1 R2]]. cbn [lo_time lo_data lo_bits] in R1.
           rewrite R1. cbn [bind fst snd app] in *. rewrite (IH _ r w); auto.
      * cbn [bind fst snd app] in *. rewrite (IH _ r w); auto.
    + destruct data as [bytes|].
      * destruct (Nat.eqb n 0).
        -- cbn [bind fst snd negb app] in *. rewrite (IH _ r w); auto.
        -- cbn [negb app] in W. apply loop_cons_inv in W as [b1 [R1 R2]]. cbn [lo_time lo_data lo_bits] in R1.
           rewrite R1. cbn [bind fst snd app] in *. rewrite (IH _ r w); auto.
      * cbn [bind fst snd app] in *. rewrite (IH _ r w); auto.
Qed.

Lemma data_run_toggling ops : forall d r w, Forall is_load ops -> d_mode d = ModeToggling ->
  toggle_run (lengths true ops) (d_tread d) = Value r -> toggle_run (lengths false ops) (d_twrite d) = Value w ->
  data_run ops d = Value (mkDataBus (d_read d) (d_write d) r w ModeToggling).
Proof.
  induction ops as [|o l IH]; intros d r w F M R W.
  - cbn in R, W. injection R as <-. injection W as <-. cbn. rewrite <- M. destruct d; reflexivity.
  - inversion F as [|? ? F1 F2]; subst. destruct o as [rd t n data| |]; try destruct F1.
    unfold data_run. cbn [loop]. cbn [lengths flat_map] in R, W. fold (lengths true l) in R. fold (lengths false l) in W.
    destruct rd; cbn [data_do eqb app] in *; unfold data_load_read, data_load_write, data_load; rewrite M.
    + apply loop_cons_inv in R as [b1 [R1 R2]]. cbn [toggle_do] in R1. rewrite R1. cbn [bind fst snd].
      rewrite (IH _ r w); auto.
    + apply loop_cons_inv in W as [b1 [R1 R2]]. cbn [toggle_do] in R1. rewrite R1. cbn [bind fst snd].
      rewrite (IH _ r w); auto.
Qed.

(* ---- specification of a legal configuration and of the statistics ---- *)
Definition config_ok (max : nat) (c : data_config) : Prop :=
  (0 < dc_width c <= max)%nat /\ N.of_nat (dc_width c) < two64 /\ 0 < dc_rate c /\
  in_unit (dc_read_rate c) = true /\ in_unit (dc_read_duty c) = true /\
  in_unit (dc_write_rate c) = true /\ in_unit (dc_write_duty c) = true.

(* Bursts of one direction that the bus must accept. *)
Definition payloads_ok (c : data_config) (read : bool) (ops : list data_op) : Prop :=
  Forall (load_ok (dc_width c) (dc_rate c)) (payloads read ops) /\
  well_timed (dc_width c) (dc_rate c) 0 (payloads read ops).

Definition wave_of (c : data_config) (read high : bool) (ops : list data_op) (n : N) : bus_stats :=
  wave_stats (dc_width c) (idle_word (dc_width c) high) (map (drive_of (dc_width c) (dc_rate c)) (payloads read ops)) n.

Lemma convert_high i high : high_idle i = Some high -> convert_idle i = Value (spec_of high).
Proof. destruct i, high; cbn; intros H; try discriminate; reflexivity. Qed.

Lemma check_true {A} (b : bool) (k : result A) : b = true -> check b k = k.
Proof. intros ->. reflexivity. Qed.

Lemma toggling_new_ok width datarate rate duty idle on : 0 < width -> 0 < datarate -> in_unit duty = true -> in_unit rate = true ->
  toggling_new width datarate rate duty idle on = Value (mkToggling width datarate rate duty 0 0 true on 0 0 0 idle).
Proof.
  intros H1 H2 H3 H4. unfold toggling_new. rewrite (check_true (0 <? width)) by (apply N.ltb_lt; exact H1).
  rewrite (check_true (0 <? datarate)) by (apply N.ltb_lt; exact H2). rewrite H3, H4. reflexivity.
Qed.

Lemma share_0 q : share 0 q = 0.
Proof.
  unfold share. assert (of_u64 0 * q == 0)%Q as -> by (unfold of_u64; cbn; ring). reflexivity.
Qed.

Lemma beats_false n : beats n (fun _ => false) = 0.
Proof. apply (lines_const _ false). Qed.

(* An estimator that was never on reports nothing. *)
Lemma toggling_off width datarate rate duty idle high t h0 :
  toggling_new width datarate rate duty idle false = Value h0 -> high_idle idle = Some high -> t * datarate < two64 ->
  toggling_get h0 t = Value stats0.
Proof.
  intros New Hi T. destruct (toggling_is_estimate width datarate rate duty idle high false [] t h0 h0 New Hi (N.le_0_l t) T eq_refl) as [_ E].
  rewrite E. f_equal. unfold beats_driven, beats_on. cbn [est_at fold_left]. unfold driven. cbn [e_on e_burst].
  rewrite !beats_false. unfold estimate. rewrite !share_0. destruct high; cbn; rewrite !N.mul_0_r; reflexivity.
Qed.

(* A bus that was constructed disabled reports nothing. *)
Lemma bus_off max width rate high : (0 < width <= max)%nat -> exists b, bus_new max width rate (spec_of high) false = Value b /\
  forall t, t * rate < two64 -> bus_get_stats b t = Value stats0.
Proof.
  intros Hw. unfold bus_new. rewrite idle_burst_ok by lia. cbn [bind]. eexists. split; [reflexivity|].
  intros t T. unfold bus_get_stats. cbn. rewrite check_true by (apply N.leb_le; apply N.le_0_l). destruct (u64_mul t rate =? 0); reflexivity.
Qed.

Lemma wrap_0 s : stats_add stats0 (wrap_stats s) = wrap_stats s.
Proof.
  change stats0 with (wrap_stats stats0) at 1. rewrite stats_add_wrap. f_equal. rewrite add_exact_comm. apply add_exact_0.
Qed.

Theorem bus_mode_counts max c rh wh ops t : config_ok max c ->
  high_idle (dc_read_idle c) = Some rh -> high_idle (dc_write_idle c) = Some wh ->
  Forall is_load ops -> payloads_ok c true ops -> payloads_ok c false ops ->
  last_start (dc_rate c) (payloads true ops) <= t * dc_rate c -> last_start (dc_rate c) (payloads false ops) <= t * dc_rate c ->
  t * dc_rate c < two64 ->
  exists d d', data_new max c ModeBus = Value d /\ data_run ops d = Value d' /\
    data_get d' t = Value (mkDataStats (wrap_stats (wave_of c true rh ops (t * dc_rate c)))
                                       (wrap_stats (wave_of c false wh ops (t * dc_rate c))) stats0 stats0).
Proof.
  intros [Hw [H64 [Hr [U1 [U2 [U3 U4]]]]]] IR IW F [R1 R2] [W1 W2] LR LW T.
  unfold data_new. rewrite (convert_high _ _ IR), (convert_high _ _ IW). cbn [bind is_bus negb].
  destruct (bus_after_inv max _ _ rh _ Hw H64 Hr R1 R2) as [br [ER BR]].
  destruct (bus_after_inv max _ _ wh _ Hw H64 Hr W1 W2) as [bw [EW BW]].
  unfold bus_after in ER, EW.
  destruct (bus_new max (dc_width c) (dc_rate c) (spec_of rh) true) as [b0|] eqn:NR; [|discriminate].
  destruct (bus_new max (dc_width c) (dc_rate c) (spec_of wh) true) as [b1|] eqn:NW; [|discriminate].
  cbn [bind] in *. rewrite !toggling_new_ok by (auto; lia). cbn [bind].
  eexists. eexists. split; [reflexivity|].
  split; [apply (data_run_bus ops _ br bw); auto|].
  unfold data_get. cbn [d_read d_write d_tread d_twrite].
  rewrite (get_stats_ok max _ _ _ Hw H64 Hr (word_of_bound _ _) _ _ t BR LR T). cbn [bind].
  rewrite (get_stats_ok max _ _ _ Hw H64 Hr (word_of_bound _ _) _ _ t BW LW T). cbn [bind].
  erewrite toggling_off; [|apply toggling_new_ok; auto; lia|exact IR|exact T]. cbn [bind].
  erewrite toggling_off; [|apply toggling_new_ok; auto; lia|exact IW|exact T]. cbn [bind].
  rewrite !wrap_0. reflexivity.
Qed.

(* The estimate for one direction. *)
Definition estimate_of (c : data_config) (read on high : bool) (ops : list toggle_op) (n : N) : bus_stats :=
  let w := N.of_nat (dc_width c) in
  let d := beats_driven w (dc_rate c) on ops n in
  estimate w d (beats_on w (dc_rate c) on ops n - d) (if read then dc_read_rate c else dc_write_rate c)
           (if read then dc_read_duty c else dc_write_duty c) high.

Theorem toggling_mode_counts max c rh wh ops t d d' : config_ok max c ->
  high_idle (dc_read_idle c) = Some rh -> high_idle (dc_write_idle c) = Some wh ->
  Forall is_load ops ->
  toggles_in_order (N.of_nat (dc_width c)) (dc_rate c) 0 t (lengths true ops) ->
  toggles_in_order (N.of_nat (dc_width c)) (dc_rate c) 0 t (lengths false ops) ->
  t * dc_rate c < two64 ->
  data_new max c ModeToggling = Value d -> data_run ops d = Value d' ->
  data_get d' t = Value (mkDataStats stats0 stats0 (wrap_stats (estimate_of c true true rh (lengths true ops) (t * dc_rate c)))
                                                   (wrap_stats (estimate_of c false true wh (lengths false ops) (t * dc_rate c)))).
Proof.
  intros [Hw [H64 [Hr [U1 [U2 [U3 U4]]]]]] IR IW F OR OW T New Run.
  unfold data_new in New. rewrite (convert_high _ _ IR), (convert_high _ _ IW) in New. cbn [bind is_bus negb] in New.
  destruct (bus_off max (dc_width c) (dc_rate c) rh Hw) as [br [NR GR]].
  destruct (bus_off max (dc_width c) (dc_rate c) wh Hw) as [bw [NW GW]].
  rewrite NR, NW in New. cbn [bind] in New. rewrite !toggling_new_ok in New by (auto; lia). cbn [bind] in New. injection New as <-.
  set (h0 := mkToggling (N.of_nat (dc_width c)) (dc_rate c) (dc_read_rate c) (dc_read_duty c) 0 0 true true 0 0 0 (dc_read_idle c)) in *.
  set (h1 := mkToggling (N.of_nat (dc_width c)) (dc_rate c) (dc_write_rate c) (dc_write_duty c) 0 0 true true 0 0 0 (dc_write_idle c)) in *.
  assert (exists r w, toggle_run (lengths true ops) h0 = Value r /\ toggle_run (lengths false ops) h1 = Value w) as [r [w [Rr Rw]]].
  { clear OR OW. revert Run. generalize h0 h1 d'. clear - F. induction ops as [|o l IH]; intros h0 h1 d' Run.
    - exists h0, h1. split; reflexivity.
    - inversion F as [|? ? F1 F2]; subst. destruct o as [rd t n data| |]; try destruct F1.
      apply loop_cons_inv in Run as [d1 [D1 Run]]. destruct rd; cbn [data_do] in D1; unfold data_load_read, data_load_write, data_load in D1; cbn [d_mode d_tread d_twrite d_read d_write] in D1.
      + destruct (toggling_bits h0 t (N.of_nat n)) as [h|] eqn:B; [|discriminate]. cbn [bind fst snd] in D1. injection D1 as <-.
        destruct (IH F2 _ _ _ Run) as [r [w [X Y]]]. exists r, w. split; [|exact Y]. unfold toggle_run. cbn [lengths flat_map eqb app loop toggle_do]. rewrite B. exact X.
      + destruct (toggling_bits h1 t (N.of_nat n)) as [h|] eqn:B; [|discriminate]. cbn [bind fst snd] in D1. injection D1 as <-.
        destruct (IH F2 _ _ _ Run) as [r [w [X Y]]]. exists r, w. split; [exact X|]. unfold toggle_run. cbn [lengths flat_map eqb app loop toggle_do]. rewrite B. exact Y. }
  rewrite (data_run_toggling ops (mkDataBus br bw h0 h1 ModeToggling) r w F eq_refl Rr Rw) in Run. injection Run as <-.
  unfold data_get. cbn [d_read d_write d_tread d_twrite]. rewrite GR, GW by auto. cbn [bind].
  destruct (toggling_is_estimate (N.of_nat (dc_width c)) (dc_rate c) (dc_read_rate c) (dc_read_duty c) (dc_read_idle c) rh true (lengths true ops) t h0 r) as [_ E1]; auto.
  { apply toggling_new_ok; auto; lia. }
  destruct (toggling_is_estimate (N.of_nat (dc_width c)) (dc_rate c) (dc_write_rate c) (dc_write_duty c) (dc_write_idle c) wh true (lengths false ops) t h1 w) as [_ E2]; auto.
  { apply toggling_new_ok; auto; lia. }
  rewrite E1, E2. cbn [bind]. rewrite !wrap_0. reflexivity.
Qed.

(* ---- switching from the bus to the estimator ---- *)
Theorem switch_counts max c rh wh ops ops' s u d d' : config_ok max c ->
  high_idle (dc_read_idle c) = Some rh -> high_idle (dc_write_idle c) = Some wh ->
  Forall is_load ops -> Forall is_load ops' -> payloads_ok c true ops -> payloads_ok c false ops ->
  last_start (dc_rate c) (payloads true ops) < s * dc_rate c -> last_start (dc_rate c) (payloads false ops) < s * dc_rate c ->
  toggles_in_order (N.of_nat (dc_width c)) (dc_rate c) s u (lengths true ops') ->
  toggles_in_order (N.of_nat (dc_width c)) (dc_rate c) s u (lengths false ops') ->
  u * dc_rate c < two64 ->
  data_new max c ModeBus = Value d -> data_run (ops ++ DToggle s :: ops') d = Value d' ->
  data_get d' u = Value (mkDataStats (wrap_stats (wave_of c true rh ops (s * dc_rate c))) (wrap_stats (wave_of c false wh ops (s * dc_rate c)))
    (wrap_stats (estimate_of c true false rh (TEnable s :: lengths true ops') (u * dc_rate c)))
    (wrap_stats (estimate_of c false false wh (TEnable s :: lengths false ops') (u * dc_rate c)))).
Proof.
  intros [Hw [H64 [Hr [U1 [U2 [U3 U4]]]]]] IR IW F F' [R1 R2] [W1 W2] LR LW OR OW T New Run.
  assert (s <= u) as Su by (eapply toggles_le; exact OR).
  assert (s * dc_rate c <= u * dc_rate c) as Sm by (apply N.mul_le_mono_r; exact Su).
  unfold data_new in New. rewrite (convert_high _ _ IR), (convert_high _ _ IW) in New. cbn [bind is_bus negb] in New.
  destruct (bus_after_inv max _ _ rh _ Hw H64 Hr R1 R2) as [br [ER BR]].
  destruct (bus_after_inv max _ _ wh _ Hw H64 Hr W1 W2) as [bw [EW BW]].
  unfold bus_after in ER, EW.
  destruct (bus_new max (dc_width c) (dc_rate c) (spec_of rh) true) as [b0|] eqn:NR; [|discriminate].
  destruct (bus_new max (dc_width c) (dc_rate c) (spec_of wh) true) as [b1|] eqn:NW; [|discriminate].
  cbn [bind] in *. rewrite !toggling_new_ok in New by (auto; lia). cbn [bind] in New. injection New as <-.
  set (h0 := mkToggling (N.of_nat (dc_width c)) (dc_rate c) (dc_read_rate c) (dc_read_duty c) 0 0 true false 0 0 0 (dc_read_idle c)) in *.
  set (h1 := mkToggling (N.of_nat (dc_width c)) (dc_rate c) (dc_write_rate c) (dc_write_duty c) 0 0 true false 0 0 0 (dc_write_idle c)) in *.
  unfold data_run in Run. rewrite loop_app in Run. fold (data_run ops (mkDataBus b0 b1 h0 h1 ModeBus)) in Run.
  rewrite (data_run_bus ops (mkDataBus b0 b1 h0 h1 ModeBus) br bw F eq_refl ER EW) in Run. cbn [bind] in Run.
  apply loop_cons_inv in Run as [d1 [D1 Run]]. cbn [data_do] in D1. unfold data_enable_toggling in D1. cbn [d_read d_write d_tread d_twrite] in D1.
  destruct (disable_ok max _ _ _ _ br s Hw H64 Hr (word_of_bound _ _) BR LR ltac:(lia)) as [br' [DR [_ [_ GR]]]].
  destruct (disable_ok max _ _ _ _ bw s Hw H64 Hr (word_of_bound _ _) BW LW ltac:(lia)) as [bw' [DW [_ [_ GW]]]].
  rewrite DR, DW in D1. cbn [bind fst snd] in D1. injection D1 as <-.
  assert (exists r w, toggle_run (TEnable s :: lengths true ops') h0 = Value r /\ toggle_run (TEnable s :: lengths false ops') h1 = Value w) as [r [w [Rr Rw]]].
  { unfold toggle_run. cbn [loop toggle_do bind]. clear OR OW. revert Run. generalize (toggling_enable h0 s) (toggling_enable h1 s) d'. clear - F'.
    induction ops' as [|o l IH]; intros g0 g1 d' Run.
    - exists g0, g1. split; reflexivity.
    - inversion F' as [|? ? F1 F2]; subst. destruct o as [rd t n data| |]; try destruct F1.
      apply loop_cons_inv in Run as [d1 [D1 Run]]. destruct rd; cbn [data_do] in D1; unfold data_load_read, data_load_write, data_load in D1; cbn [d_mode d_tread d_twrite d_read d_write] in D1.
      + destruct (toggling_bits g0 t (N.of_nat n)) as [h|] eqn:B; [|discriminate]. cbn [bind fst snd] in D1. injection D1 as <-.
        destruct (IH F2 _ _ _ Run) as [r [w [X Y]]]. exists r, w. split; [|exact Y]. cbn [lengths flat_map eqb app loop toggle_do]. rewrite B. exact X.
      + destruct (toggling_bits g1 t (N.of_nat n)) as [h|] eqn:B; [|discriminate]. cbn [bind fst snd] in D1. injection D1 as <-.
        destruct (IH F2 _ _ _ Run) as [r [w [X Y]]]. exists r, w. split; [exact X|]. cbn [lengths flat_map eqb app loop toggle_do]. rewrite B. exact Y. }
  fold (data_run ops' (mkDataBus br' bw' (toggling_enable h0 s) (toggling_enable h1 s) ModeToggling)) in Run.
  rewrite (data_run_toggling ops' (mkDataBus br' bw' (toggling_enable h0 s) (toggling_enable h1 s) ModeToggling) r w F' eq_refl) in Run; [|exact Rr|exact Rw]. injection Run as <-.
  unfold data_get. cbn [d_read d_write d_tread d_twrite].
  destruct (GR u Su T) as [GR1 _]. destruct (GW u Su T) as [GW1 _]. rewrite GR1, GW1. cbn [bind].
  destruct (toggling_is_estimate (N.of_nat (dc_width c)) (dc_rate c) (dc_read_rate c) (dc_read_duty c) (dc_read_idle c) rh false (TEnable s :: lengths true ops') u h0 r) as [_ E1]; auto.
  { apply toggling_new_ok; auto; lia. }
  { split; [apply N.le_0_l|]. split; [exact I|exact OR]. }
  destruct (toggling_is_estimate (N.of_nat (dc_width c)) (dc_rate c) (dc_write_rate c) (dc_write_duty c) (dc_write_idle c) wh false (TEnable s :: lengths false ops') u h1 w) as [_ E2]; auto.
  { apply toggling_new_ok; auto; lia. }
  { split; [apply N.le_0_l|]. split; [exact I|exact OW]. }
  rewrite E1, E2. cbn [bind]. rewrite !wrap_0. reflexivity.
Qed.

(* After the switch the beats counted by the bus and by the estimator add up to
   the beats that have passed. *)
Lemma on_after width rate s u ops : 0 < rate -> toggles_in_order width rate s u ops -> Forall (fun o => match o with TLoad _ _ => True | _ => False end) ops ->
  beats_on width rate false (TEnable s :: ops) (u * rate) = (u - s) * rate.
Proof.
  intros Hr O F. pose proof (toggles_le width rate ops s u O) as Su.
  assert (s * rate <= u * rate) as Sm by (apply N.mul_le_mono_r; exact Su).
  unfold beats_on. set (f := fun i => e_on (est_at width rate (mkEst false None) (TEnable s :: ops) i)).
  assert (beats (u * rate) f = span f 0 (u * rate)) as ->.
  { unfold span, beats. rewrite N.sub_0_r. reflexivity. }
  rewrite (span_split f 0 (s * rate) (u * rate)) by lia.
  assert (forall l st i, Forall (fun o => match o with TLoad _ _ => True | _ => False end) l -> e_on (est_at width rate st l i) = e_on st) as K.
  { clear. induction l as [|o l IH]; intros st i F; [reflexivity|]. inversion F as [|? ? F1 F2]; subst. unfold est_at. cbn [fold_left].
    change (e_on (est_at width rate (if toggle_time o * rate <=? i then est_step width rate o st else st) l i) = e_on st).
    rewrite IH by exact F2. destruct o; try destruct F1. cbn [toggle_time est_step]. destruct (t * rate <=? i); [|reflexivity]. destruct (e_on st) eqn:E; [reflexivity|exact E]. }
  rewrite (span_ext f (fun _ => false) 0 (s * rate)).
  2: { intros i _ Hi. unfold f, est_at. cbn [fold_left toggle_time]. destruct (N.leb_spec (s * rate) i); [lia|]. apply (K ops (mkEst false None) i F). }
  rewrite (span_ext f (fun _ => true) (s * rate) (u * rate)).
  2: { intros i Hi _. unfold f, est_at. cbn [fold_left toggle_time]. destruct (N.leb_spec (s * rate) i); [|lia]. apply (K ops (mkEst true None) i F). }
  rewrite !span_const. rewrite N.mul_sub_distr_r. lia.
Qed.

Lemma lengths_loads read ops : Forall (fun o => match o with TLoad _ _ => True | _ => False end) (lengths read ops).
Proof.
  induction ops as [|o l IH]; [constructor|]. cbn [lengths flat_map]. apply Forall_app. split; [|exact IH].
  destruct o as [r t n data| |]; try constructor. destruct (eqb r read); repeat constructor.
Qed.

Lemma lines_mono k f g : (forall j, f j = true -> g j = true) -> lines k f <= lines k g.
Proof.
  intros H. induction k; [rewrite !lines_0; lia|]. rewrite !lines_snoc. specialize (H k). destruct (f k); [rewrite H by reflexivity|]; destruct (g k); lia.
Qed.

Lemma driven_le width rate on ops n : beats_driven width rate on ops n <= beats_on width rate on ops n.
Proof.
  apply lines_mono. intros j. generalize (N.of_nat j) as i. clear j. intros i.
  assert (forall l st, (e_burst st <> None -> e_on st = true) -> e_burst (est_at width rate st l i) <> None -> e_on (est_at width rate st l i) = true) as K.
  { induction l as [|o l IH]; intros st H; [exact H|]. unfold est_at. cbn [fold_left]. apply IH.
    destruct (toggle_time o * rate <=? i); [|exact H]. destruct o; cbn [est_step].
    - destruct (e_on st) eqn:E; [reflexivity|]. rewrite E. exact H.
    - cbn. congruence.
    - reflexivity. }
  intros D. apply K; [cbn; congruence|]. unfold driven in D. destruct (e_burst _) as [[b l]|]; [discriminate|discriminate].
Qed.

Theorem switch_conserves max c (read high : bool) ops ops' s u : config_ok max c ->
  toggles_in_order (N.of_nat (dc_width c)) (dc_rate c) s u (lengths read ops') ->
  let b := wave_of c read high ops (s * dc_rate c) in
  let e := estimate_of c read false high (TEnable s :: lengths read ops') (u * dc_rate c) in
  let all := N.of_nat (dc_width c) * (u * dc_rate c) in
  ones b + zeroes b + (ones e + zeroes e) <= all /\ all <= ones b + zeroes b + (ones e + zeroes e) + N.of_nat (dc_width c).
Proof.
  intros [Hw [H64 [Hr [U1 [U2 [U3 U4]]]]]] O. cbn zeta.
  pose proof (toggles_le _ _ _ _ _ O) as Su.
  pose proof (wave_conserves (dc_width c) (idle_word (dc_width c) high) (map (drive_of (dc_width c) (dc_rate c)) (payloads read ops)) (s * dc_rate c)) as [C _].
  unfold wave_of. rewrite C.
  pose proof (driven_le (N.of_nat (dc_width c)) (dc_rate c) false (TEnable s :: lengths read ops') (u * dc_rate c)) as DL.
  unfold estimate_of. rewrite (on_after _ _ s u) in * by (auto using lengths_loads).
  set (D := beats_driven _ _ _ _ _) in *.
  destruct (estimate_conserves (N.of_nat (dc_width c)) D ((u - s) * dc_rate c - D) (if read then dc_read_rate c else dc_write_rate c) (if read then dc_read_duty c else dc_write_duty c) high) as [E1 [E2 _]];
    [destruct read; auto|destruct read; auto|].
  replace (D + ((u - s) * dc_rate c - D)) with ((u - s) * dc_rate c) in * by lia.
  assert (N.of_nat (dc_width c) * (s * dc_rate c) + N.of_nat (dc_width c) * ((u - s) * dc_rate c) = N.of_nat (dc_width c) * (u * dc_rate c)) as Sum.
  { rewrite <- N.mul_add_distr_l, <- N.mul_add_distr_r. do 2 f_equal. lia. }
  rewrite <- Sum. lia.
Qed.

Theorem preset_capacity_ok width :
  ((width <= 4096)%nat -> exists max, preset_capacity width = Value max /\ (width <= max)%nat) /\
  ((4096 < width)%nat -> preset_capacity width = Fails Assertion).
Proof.
  unfold preset_capacity.
  destruct (Nat.leb_spec width 64); [split; [intros; eexists; split; [reflexivity|lia]|lia]|].
  destruct (Nat.leb_spec width 256); [split; [intros; eexists; split; [reflexivity|lia]|lia]|].
  destruct (Nat.leb_spec width 1024); [split; [intros; eexists; split; [reflexivity|lia]|lia]|].
  destruct (Nat.leb_spec width 4096); [split; [intros; eexists; split; [reflexivity|lia]|lia]|].
  split; [lia|reflexivity].
Qed.
