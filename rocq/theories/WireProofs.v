(* The data lines of an interface: what the inverter and the formatter make of a
   burst. *)
From Coq Require Import NArith List Bool Arith Lia.
From Verif Require Import Base Command CoreModel Bits BusModel WaveSpec BitFacts ListFacts StorageProofs BusProofs BusMore ToggleModel ToggleProofs DataProofs
  PinModel DbiModel DbiSpec DbiProofs DbiBounds DbiPinModel DbiPinSpec DbiPinProofs FormatModel FormatSpec FormatProofs InterfaceModel InterfaceSpec WireSpec InterfaceCa InterfaceRun.
Import ListNotations.
Local Open Scope N_scope.
Ltac Zify.zify_post_hook ::= idtac.

(* ---- flags of pairs ---- *)
Definition sent_load (data : list N) (k : nat) : N :=
  let before := consuming 8 false (nth (2 * k + 1) data 0) in if flag6 data k then 8 - before else before.
Lemma consuming_le v : consuming 8 false v <= 8.
Proof. unfold consuming. apply (lines_le 8). Qed.
Lemma sent_load_le data k : sent_load data k <= 8.
Proof. unfold sent_load. pose proof (consuming_le (nth (2 * k + 1) data 0)). destruct (flag6 data k); lia. Qed.

Lemma pair_flags c prev t read orig inv s : dg_sub c = 2%nat -> dg_digits c = 8%nat -> dg_alg c = Static -> dg_idle c = PinL -> entries_ok 8 orig ->
  compute c prev t read (mkScan orig 0 0 0 0 inv []) = Value s ->
  forall k, (2 * k < length orig)%nat -> nth k (sc_inv s) false = flag6 orig k.
Proof.
  intros Hk Hd Halg Hidle Hent H. unfold compute in H. rewrite Halg in H. cbn [sc_data] in H.
  apply (loop_range _ (fun i s => scan_inv c t read orig inv i s /\
           (forall k, i = (2 * k)%nat -> match k with O => sc_a s = 0 /\ sc_b s = 0 | S k => sc_a s = sent_load orig k /\ sc_b s = 8 - sent_load orig k end) /\
           (forall k, i = (2 * k + 1)%nat -> sc_a s = 0 /\ sc_b s = 0) /\
           forall k, (2 * k < i)%nat -> nth k (sc_inv s) false = flag6 orig k)) in H.
  - destruct H as (_ & _ & _ & H). exact H.
  - split; [apply scan_start; lia|]. split; [|split].
    + intros [|k] E; [split; reflexivity|lia].
    + intros k E. lia.
    + intros k E. lia.
  - intros i a a' Hi (I & He & Ho & Hf) E. split; [eapply static_inv; eauto; lia|].
    unfold static_step in E. destruct (fetch (sc_data a) i) as [v|] eqn:Ef; [|discriminate]. cbn [bind] in E.
    apply fetch_nth in Ef as [_ Hv]. specialize (Hv 0). rewrite (si_data _ _ _ _ _ _ _ I i) in Hv by lia. rewrite Hk in Hv.
    pose proof (bounded_entry _ _ i Hent) as Hb.
    unfold is_last in E. rewrite (si_sub _ _ _ _ _ _ _ I), Hk, Hd, Hidle in E. rewrite Nat.mod_mod in E by lia.
    destruct (Nat.Even_or_Odd i) as [[k Ek]|[k Ek]].
    + assert (i mod 2 = 0 /\ i / 2 = k)%nat as [M D].
      { subst i. rewrite Nat.mul_comm. split; [apply Nat.mod_mul; lia|apply Nat.div_mul; lia]. }
      rewrite M, Nat.eqb_refl in E. rewrite D in Hv.
      assert (reached 2 i k = false) as Hr by (apply Nat.ltb_ge; lia). rewrite Hr in Hv. cbn [andb] in Hv. subst v.
      apply bind_value in E as (s1 & Ev & E). injection E as <-.
      apply visit_spec in Ev as (ev & _ & _ & Hc & Hl & Hn & _). cbn [set_counters sc_chunk sc_inv] in *.
      pose proof (si_chunk _ _ _ _ _ _ _ I) as Hch. rewrite Hk, D in Hch. rewrite Hch in *.
      assert (forall b, b = flag6 orig k -> (forall j, (j < length (sc_inv a))%nat -> nth j (sc_inv s1) false = if Nat.eqb k j then b else nth j (sc_inv a) false) ->
                forall j, (2 * j < S i)%nat -> nth j (sc_inv s1) false = flag6 orig j) as Fl.
      { intros b -> Hn' j Hj. destruct (Nat.eq_dec j k) as [->|Hne]; [rewrite Hn' by exact Hc; now rewrite Nat.eqb_refl|].
        rewrite Hn' by lia. rewrite (proj2 (Nat.eqb_neq k j)) by lia. apply Hf. lia. }
      split; [intros [|k'] E'; lia|]. split.
      * intros k' _. unfold next_entry, set_counters. destruct (Nat.leb _ _); split; reflexivity.
      * rewrite inv_next. eapply Fl; [|exact Hn]. specialize (He k Ek).
        destruct (consuming_popcount _ _ Hb) as [P1 _]. pose proof (popcount_le _ _ Hb) as P2. destruct k as [|k].
        -- destruct He as [-> ->]. subst i. cbn [Nat.mul Nat.add] in *. cbn [flag6]. unfold inverts. rewrite P1. cbn [N.of_nat Pos.of_succ_nat Pos.succ] in *.
           destruct (N.ltb_spec (0 + (8 - popcount (nth 0 orig 0))) (0 + popcount (nth 0 orig 0))), (N.ltb_spec 8 (2 * popcount (nth 0 orig 0))); try reflexivity; lia.
        -- destruct He as [-> ->]. replace i with (2 * k + 2)%nat in * by lia. cbn [flag6]. fold (sent_load orig k). rewrite P1. pose proof (sent_load_le orig k) as P3.
           change (N.of_nat 8) with 8 in *.
           destruct (N.ltb_spec (8 - sent_load orig k + (8 - popcount (nth (2 * k + 2) orig 0))) (sent_load orig k + popcount (nth (2 * k + 2) orig 0))),
             (N.ltb_spec 8 (sent_load orig k + popcount (nth (2 * k + 2) orig 0))); try reflexivity; lia.
    + assert (i mod 2 = 1 /\ i / 2 = k)%nat as [M D].
      { split; [symmetry; apply (Nat.mod_unique _ _ k); lia|symmetry; apply (Nat.div_unique _ _ _ 1); lia]. }
      rewrite M in E. cbn [Nat.eqb] in E. injection E as <-. rewrite D in Hv.
      assert (reached 2 i k = true) as Hr by (apply Nat.ltb_lt; lia). rewrite Hr in Hv. cbn [andb] in Hv. rewrite (Hf k) in Hv by lia.
      destruct (Ho k Ek) as [Ha0 Hb0]. split; [|split].
      * intros [|k'] E'; [lia|]. assert (k' = k) as -> by lia.
        assert (popcount v = sent_load orig k) as Hp.
        { unfold sent_load. rewrite <- Ek. pose proof (consuming_flip c false (nth i orig 0)) as F. rewrite Hd in F. change (N.of_nat 8) with 8 in F.
          destruct (flag6 orig k); subst v.
          - assert (bounded 8 (flip_entry c (nth i orig 0))) as Hb'.
            { intros j Hj. rewrite level_flip, Hd, (proj2 (Nat.ltb_ge j 8)) by exact Hj. apply Hb. exact Hj. }
            destruct (consuming_popcount _ _ Hb') as [P1 _]. rewrite <- P1. lia.
          - destruct (consuming_popcount _ _ Hb) as [P1 _]. now rewrite P1. }
        unfold next_entry, set_counters. destruct (Nat.leb _ _); cbn [sc_a sc_b]; rewrite Ha0, Hb0, Hp; change (N.of_nat 8) with 8; rewrite !N.add_0_l; split; reflexivity.
      * intros k' E'. lia.
      * intros j Hj. rewrite inv_next. apply Hf. lia.
Qed.

(* ---- the inverter of an interface ---- *)
Definition dbi_state (p : ifspec) (dbi : bool) (x : option dbi_pins_if) : Prop :=
  match x with
  | Some x => fi_std p <> DDR5 /\ db_config (di_dbi x) = dbi_config_of p /\ db_enable (di_dbi x) = dbi
  | None => fi_std p = DDR5 /\ dbi = false
  end.

Lemma deliver_dbi c evs : forall i i', deliver c evs i = Value i' -> di_dbi i' = di_dbi i.
Proof.
  induction evs as [|e r IH]; intros i i' E; [injection E as <-; reflexivity|].
  unfold deliver in E. apply loop_cons_inv in E as (j & E1 & E2). rewrite (IH _ _ E2).
  unfold pin_change_handler in E1. apply check_inv in E1 as [_ E1]. cbv zeta in E1. apply bind_inv in E1 as (? & _ & E1). apply bind_inv in E1 as (? & _ & E1). apply bind_inv in E1 as (? & _ & E1).
  injection E1 as <-. reflexivity.
Qed.

(* Bit k of the data after inversion. *)
Lemma flip_bit c data out flag k : dg_digits c = 8%nat ->
  nth (Nat.div k 8) out 0 = (if flag : bool then flip_entry c (nth (Nat.div k 8) data 0) else nth (Nat.div k 8) data 0) ->
  payload_bit out k = xorb flag (payload_bit data k).
Proof.
  intros Hd H. unfold payload_bit. rewrite H. destruct flag; [|now rewrite xorb_false_l].
  change (level (flip_entry c (nth (k / 8) data 0)) (k mod 8) = xorb true (level (nth (k / 8) data 0) (k mod 8))).
  rewrite level_flip, Hd. rewrite (proj2 (Nat.ltb_lt _ _)) by (apply Nat.mod_upper_bound; lia). reflexivity.
Qed.

Lemma dbi_data_spec p x t n data read x' out : fi_std p <> DDR5 -> db_config (di_dbi x) = dbi_config_of p -> db_enable (di_dbi x) = true ->
  data <> [] -> n <> 0%nat -> Forall (fun v => v < 256) data -> (0 < N.to_nat (data_width p))%nat ->
  dbi_if_data x t n (Some data) read = Value (x', out) ->
  db_config (di_dbi x') = dbi_config_of p /\ db_enable (di_dbi x') = true /\
  exists bytes, out = Some bytes /\ length bytes = Nat.div n 8 /\ Nat.modulo n 8 = 0%nat /\ (n <= 8 * length data)%nat /\
    (forall k, (k < n)%nat -> payload_bit bytes k = data_bit p true data k) /\
    (fi_std p = LPDDR6 -> forall k, (16 * k < n)%nat -> nth k (lb_inv (db_side (di_dbi x') read)) false = flag6 data k).
Proof.
  intros S Hc He Hne Hn Hb Hw0 E. unfold dbi_if_data in E. rewrite (proj2 (Nat.eqb_neq _ _) Hn), He in E. cbn [orb negb] in E.
  apply bind_inv in E as ([[d evs] o] & U & E). apply bind_inv in E as (j & D & E). injection E as <- <-. apply deliver_dbi in D. rewrite D. cbn [di_with di_dbi].
  assert (exists bytes, o = Some bytes) as [bytes ->].
  { unfold dbi_update in U. rewrite (proj2 (Nat.eqb_neq _ _) Hn), He, Hc in U. cbn [orb negb] in U.
    assert (pin_eqb PinZ (dg_idle (dbi_config_of p)) = false) as Z by (unfold dbi_config_of; destruct (fi_std p); reflexivity). rewrite Z in U.
    apply bind_inv in U as (r & _ & U). apply check_inv in U as [_ U]. cbv zeta in U. destruct (Nat.ltb _ _) in U; [discriminate|]. apply bind_inv in U as (prev & _ & U).
    apply check_inv in U as [_ U]. destruct (grow_inversions _ _ _) in U. apply bind_inv in U as (s & _ & U). apply bind_inv in U as (te & _ & U). injection U as _ _ <-. eexists. reflexivity. }
  pose proof U as U'. apply update_spec in U'. cbv zeta in U'.
  destruct U' as (_ & _ & _ & Hm & Hmc & Hlen & d1 & ev1 & prev & s & inv & cap & Hr & Hp & Hg & Hs & Ho & _ & Hc' & He' & _ & _ & Hside).
  rewrite Hc in *.
  assert (dg_digits (dbi_config_of p) = 8%nat /\ dg_alg (dbi_config_of p) = Static /\ dg_sub (dbi_config_of p) = match fi_std p with LPDDR6 => 2 | _ => 1 end%nat) as (Cd & Ca & Cs)
    by (unfold dbi_config_of; destruct (fi_std p); repeat split).
  rewrite Cd in *. split; [exact Hc'|]. split; [exact He'|]. exists bytes. split; [reflexivity|].
  assert (0 < dg_sub (dbi_config_of p))%nat as Hsb by (rewrite Cs; destruct (fi_std p); lia).
  pose proof (compute_inv _ _ _ _ _ _ _ Hsb Hs) as I. set (m := (n / 8)%nat) in *.
  assert (length (firstn m data) = m) as Hol by (rewrite firstn_length; lia).
  pose proof (si_len _ _ _ _ _ _ _ I) as Hdl. rewrite Hol in Hdl. subst bytes.
  pose proof (Nat.div_mod n 8 ltac:(lia)) as Hdm. fold m in Hdm. rewrite Hm in Hdm.
  split; [exact Hdl|]. split; [exact Hm|]. split; [lia|].
  assert (forall i, (i < m)%nat -> nth i (firstn m data) 0 = nth i data 0) as Hno by (intros; now apply nth_firstn).
  assert (entries_ok 8 data) as Hent by exact Hb.
  assert (entries_ok 8 (firstn m data)) as Hent'.
  { unfold entries_ok in *. rewrite Forall_forall in *. intros v Hv. apply Hent. rewrite <- (firstn_skipn m data). apply in_or_app. now left. }
  assert (forall i, (i < m)%nat -> nth i (sc_data s) 0 = if nth (i / dg_sub (dbi_config_of p)) (sc_inv s) false then flip_entry (dbi_config_of p) (nth i data 0) else nth i data 0) as Hout.
  { intros i Hi. rewrite (si_data _ _ _ _ _ _ _ I i) by lia. rewrite Hno by exact Hi. unfold reached. rewrite Hol.
    rewrite (proj2 (Nat.ltb_lt _ _)); [reflexivity|]. pose proof (Nat.div_mod i (dg_sub (dbi_config_of p)) ltac:(lia)). lia. }
  assert (forall k, (k < n)%nat -> (k / 8 < m)%nat) as Hk8.
  { intros k Hk. apply Nat.div_lt_upper_bound; lia. }
  destruct (match fi_std p with LPDDR6 => true | _ => false end) eqn:S6.
  - assert (fi_std p = LPDDR6) as L6 by (destruct (fi_std p); try discriminate; reflexivity). rewrite L6 in *.
    assert (dg_idle (dbi_config_of p) = PinL) as Ci by (unfold dbi_config_of; rewrite L6; reflexivity).
    pose proof (pair_flags _ _ _ _ _ _ _ Cs Cd Ca Ci Hent' Hs) as Hf. rewrite Hol in Hf.
    assert (forall k, (2 * k < m)%nat -> flag6 (firstn m data) k = flag6 data k) as Hff.
    { induction k as [|k IH]; intros Hk.
      - cbn [flag6]. rewrite Hno by lia. reflexivity.
      - cbn [flag6]. rewrite IH by lia. rewrite !Hno by lia. reflexivity. }
    split.
    + intros k Hk. unfold data_bit, flipped. rewrite L6. cbn [andb]. apply (flip_bit (dbi_config_of p)); [exact Cd|]. rewrite (Hout _ (Hk8 k Hk)), Cs.
      pose proof (Hk8 k Hk) as H8. pose proof (Nat.div_mod (k / 8) 2 ltac:(lia)). rewrite Hf, Hff by lia. reflexivity.
    + intros _ k Hk. rewrite Hside. cbn [lb_inv]. rewrite Hf, Hff by lia. reflexivity.
  - assert (dg_sub (dbi_config_of p) = 1%nat) as Cs1 by (rewrite Cs; destruct (fi_std p); try discriminate; reflexivity).
    pose proof (static_flags _ _ _ _ _ _ _ Cs1 Ca Hs) as Hf. rewrite Hol in Hf.
    assert (dg_idle (dbi_config_of p) = if dq_rests_high (fi_std p) then PinH else PinL) as Ci by (unfold dbi_config_of; destruct (fi_std p); try reflexivity; contradiction).
    split; [|intros L6; rewrite L6 in S6; discriminate].
    intros k Hk. unfold data_bit. cbn [andb].
    assert (flipped p data (k / 8) = inverts 8 (dq_rests_high (fi_std p)) (nth (k / 8) data 0)) as -> by (unfold flipped; destruct (fi_std p); try reflexivity; discriminate).
    apply (flip_bit (dbi_config_of p)); [exact Cd|]. rewrite (Hout _ (Hk8 k Hk)), Cs1, Nat.div_1_r, Hf, Hno by (exact (Hk8 k Hk)).
    rewrite (decision_inverts (dbi_config_of p) (dq_rests_high (fi_std p))); [now rewrite Cd|exact Ci|]. rewrite Cd. now apply bounded_entry.
Qed.

(* ---- one burst ---- *)
Lemma played_bits width bytes n f : (0 < width)%nat -> (forall k, (k < n)%nat -> payload_bit bytes k = f k) ->
  played width bytes n = map (fun b => word_of width (fun j => f ((Nat.div n width - 1 - b) * width + j)%nat)) (seq 0 (Nat.div n width)).
Proof.
  intros Hw H. unfold played, payload_words. set (len := Nat.div n width).
  assert (len * width <= n)%nat as Hl by (unfold len; pose proof (Nat.div_mod n width ltac:(lia)); lia).
  apply (nth_ext _ _ 0 0); [now rewrite rev_length, !map_length|].
  intros b Hb. rewrite rev_length, map_length, seq_length in Hb.
  rewrite rev_nth by (now rewrite map_length, seq_length). rewrite map_length, seq_length.
  set (g := fun i => word_of width (fun j => payload_bit _ (i * width + j))).
  set (h := fun b => word_of width (fun j => f _)).
  rewrite (nth_indep _ 0 (g 0%nat)) by (rewrite map_length, seq_length; lia). rewrite map_nth, seq_nth by lia.
  rewrite (nth_indep (map h _) 0 (h 0%nat)) by (rewrite map_length, seq_length; lia). rewrite map_nth, seq_nth by lia.
  unfold g, h. cbn [Nat.add]. apply (bounded_eq width); try apply word_of_bound. intros j Hj.
  rewrite !level_word_of. rewrite (proj2 (Nat.ltb_lt _ _) Hj). cbn [andb]. rewrite H; [f_equal; lia|]. nia.
Qed.

Lemma data_of_some c : cmd_data c <> [] -> data_of c = Some (cmd_data c).
Proof. unfold data_of. now destruct (cmd_data c). Qed.

Lemma frame_bit p dbi meta data bytes inv r n k : fi_std p = LPDDR6 -> (n = 1 \/ n = 2)%nat ->
  (forall i, (i < 256 * n)%nat -> payload_bit bytes i = data_bit p dbi data i) ->
  (forall i, (i < 16 * n)%nat -> nth i (flags inv) false = dbi && flag6 data i) ->
  (forall h i, (h < n)%nat -> (i < 288)%nat -> payload_bit r (n * 288 - 1 - (h * 288 + i)) = source_value bytes (meta_of meta) (flags inv) (shows h (i / 12) (i mod 12))) ->
  (k < n * 288)%nat -> payload_bit r k = wire_bit p dbi meta data (256 * n) k.
Proof.
  intros S Hn Hd Hf H Hk. unfold wire_bit. rewrite S. cbv zeta.
  assert (9 * (256 * n) / 8 = n * 288)%nat as -> by (destruct Hn as [-> | ->]; reflexivity).
  set (q := (n * 288 - 1 - k)%nat). pose proof (Nat.div_mod q 288 ltac:(lia)) as D. pose proof (Nat.mod_upper_bound q 288 ltac:(lia)) as M.
  assert (q / 288 < n)%nat as Hh by (apply Nat.div_lt_upper_bound; unfold q; lia).
  specialize (H (q / 288) (q mod 288) Hh M)%nat.
  replace (n * 288 - 1 - (q / 288 * 288 + q mod 288))%nat with k in H by (unfold q in *; lia). rewrite H.
  assert (source_of n (shows (q / 288) (q mod 288 / 12) (q mod 288 mod 12))) as In.
  { apply every_position_shows. split; [exact Hh|]. split; [apply Nat.div_lt_upper_bound; lia|apply Nat.mod_upper_bound; lia]. }
  destruct (shows (q / 288) (q mod 288 / 12) (q mod 288 mod 12)) as [i|h i|i]; cbn [source_value].
  - apply Hd. exact In.
  - reflexivity.
  - apply Hf. exact In.
Qed.

Lemma data_load_none d read t n : load_data d read t n None = Value d \/ d_mode d = ModeToggling.
Proof.
  destruct (d_mode d) eqn:M; [left|now right]. unfold load_data, data_load_read, data_load_write, data_load. rewrite M. cbn [bind fst snd]. destruct d, read; cbn in *; subst; reflexivity.
Qed.

Lemma burst_wire p c read i x dbi meta : if_spec i = p -> d_mode (if_data i) = ModeBus -> sizes_ok p -> dbi_state p dbi (if_dbi i) -> if_meta i = meta ->
  transfers (cmd_type c) = Some read -> data_ok p c -> handle_burst c read i = Value x ->
  exists d y buf, fst x = if_with_data i d y buf /\ dbi_state p dbi y /\
    if sends read c then
      exists bytes, load_data (if_data i) read (cmd_ts c) (N.to_nat (burst_bits p true c)) (Some bytes) = Value d /\
        (N.to_nat (burst_bits p true c) <= 8 * length bytes)%nat /\
        forall k, (k < N.to_nat (burst_bits p true c))%nat -> payload_bit bytes k = wire_bit p dbi meta (cmd_data c) (N.to_nat (cmd_sz_bits c)) k
    else d = if_data i.
Proof.
  intros Sp Mo Sz Ds Me T Ok E. pose proof Sz as (W0 & W64 & B64). unfold handle_burst in E. unfold bus_lines in E. rewrite Sp in E. rewrite (width_eq p W64) in E.
  unfold data_ok in Ok. unfold sends in Ok |- *. rewrite T in Ok |- *. rewrite eqb_reflx. cbn [andb].
  destruct (N.eqb_spec (cmd_sz_bits c) 0) as [Z|Z].
  { rewrite Mo in E. apply value_inj in E. subst x. exists (if_data i), (if_dbi i), (if_buf i). cbn [negb andb fst].
    split; [destruct i; reflexivity|]. split; [exact Ds|reflexivity]. }
  cbn [negb andb] in *. destruct (N.eqb_spec (dq_lines p) 0) as [|_]; [lia|]. apply bind_inv in E as ([y o] & V & E). cbv zeta in E. cbn [fst snd] in E.
  unfold invert_data in V. rewrite Mo in V. cbn [is_bus andb] in V.
  destruct (cmd_data c) as [|b0 br] eqn:Dc.
  - assert (data_of c = None) as D0 by (unfold data_of; now rewrite Dc).
    assert (dbi_state p dbi y /\ o = None) as [Dy ->].
    { destruct (if_dbi i) as [z|]; [|injection V as <- <-; now split]. destruct (db_enable (di_dbi z)).
      - rewrite D0 in V. cbn [dbi_if_data bind fst snd] in V. injection V as <- <-. now split.
      - injection V as <- <-. now split. }
    rewrite D0 in E. 
    assert (forall n d, load_data (if_data i) read (cmd_ts c) n None = Value d -> d = if_data i) as Ln.
    { intros n d L. destruct (data_load_none (if_data i) read (cmd_ts c) n) as [L'|L']; congruence. }
    destruct (fi_std p); try (apply bind_inv in E as (d & L & E); apply value_inj in E; subst x; exists d, y, (if_buf i); cbn [fst]; split; [reflexivity|]; split; [exact Dy|]; exact (Ln _ _ L)).
    apply bind_inv in E as ([r k] & F & E). apply bind_inv in E as (d & L & E). apply value_inj in E. subst x.
    assert (r = None) as -> by (unfold format_data in F; apply check_inv in F as [_ F]; injection F as <- _; reflexivity).
    exists d, y, (if_buf i). split; [reflexivity|]. split; [exact Dy|]. exact (Ln _ _ L).
  - rewrite <- Dc in *. assert (cmd_data c <> []) as Dn by (rewrite Dc; discriminate). rewrite (data_of_some c Dn) in *.
    assert (if match cmd_data c with [] => false | _ => true end then True else False) as _ by (rewrite Dc; exact I).
    rewrite !andb_true_r in Ok. destruct Ok as (O1 & O2 & O3 & O4); [destruct read; reflexivity|].
    assert (dbi_state p dbi y /\ exists bytes, match o with Some l => Some l | None => Some (cmd_data c) end = Some bytes /\
              (N.to_nat (cmd_sz_bits c) <= 8 * length bytes)%nat /\
              (forall k, (k < N.to_nat (cmd_sz_bits c))%nat -> payload_bit bytes k = data_bit p dbi (cmd_data c) k) /\
              (fi_std p = LPDDR6 -> forall k, (16 * k < N.to_nat (cmd_sz_bits c))%nat ->
                 nth k (flags (match y with Some y => if db_enable (di_dbi y) then Some (lb_inv (db_side (di_dbi y) read)) else None | None => None end)) false = dbi && flag6 (cmd_data c) k))
      as (Dy & bytes & Eb & Lb & Pb & Fb).
    { assert (dbi = false -> dbi_state p dbi y /\ o = None -> dbi_state p dbi y /\ exists bytes, match o with Some l => Some l | None => Some (cmd_data c) end = Some bytes /\
              (N.to_nat (cmd_sz_bits c) <= 8 * length bytes)%nat /\
              (forall k, (k < N.to_nat (cmd_sz_bits c))%nat -> payload_bit bytes k = data_bit p dbi (cmd_data c) k) /\
              (fi_std p = LPDDR6 -> forall k, (16 * k < N.to_nat (cmd_sz_bits c))%nat ->
                 nth k (flags (match y with Some y => if db_enable (di_dbi y) then Some (lb_inv (db_side (di_dbi y) read)) else None | None => None end)) false = dbi && flag6 (cmd_data c) k)) as Off.
      { intros -> [Dy ->]. split; [exact Dy|]. exists (cmd_data c). split; [reflexivity|]. split; [lia|]. split.
        - intros k _. unfold data_bit. cbn [andb]. now rewrite xorb_false_l.
        - intros L6 k _. unfold dbi_state in Dy. destruct y as [y|]; [|destruct Dy; congruence]. destruct Dy as (_ & _ & ->). now destruct k. }
      unfold dbi_state in Ds. destruct (if_dbi i) as [z|].
      - destruct Ds as (Sd & Sc & Se). rewrite Se in V. destruct dbi.
        + apply bind_inv in V as ([z' o'] & V & V'). injection V' as <- <-. cbn [fst snd].
          destruct (dbi_data_spec p z (cmd_ts c) (N.to_nat (cmd_sz_bits c)) (cmd_data c) read z' o' Sd Sc Se Dn ltac:(lia) O2) as (R1 & R2 & bytes & -> & R3 & R4 & R5 & R6 & R7).
          { rewrite (width_eq p W64). lia. }
          { exact V. }
          split; [now split|]. exists bytes. split; [reflexivity|]. split; [pose proof (Nat.div_mod (N.to_nat (cmd_sz_bits c)) 8 ltac:(lia)); lia|].
          split; [exact R6|]. intros L6 k Hk. rewrite R2. cbn [flags andb]. now apply R7.
        + injection V as <- <-. apply Off; [reflexivity|]. split; [now split|reflexivity].
      - injection V as <- <-. destruct Ds as [Ds ->]. apply Off; [reflexivity|]. split; [now split|reflexivity]. }
    rewrite Eb in E. unfold burst_bits. rewrite (proj2 (N.eqb_neq _ _) Z).
    assert (fi_std p = LPDDR6 \/ fi_std p <> LPDDR6) as [L6|L6] by (destruct (fi_std p); auto; right; discriminate).
    + rewrite L6 in E. apply bind_inv in E as ([r k] & F & E). pose proof F as F'. apply InterfaceCa.format_bits in F' as [Hk Hn]. cbn [fst snd] in E.
      apply bind_inv in E as (d & L & E). apply value_inj in E. subst x.
      exists d, y, (match r with Some b => b | None => if_buf i end). split; [reflexivity|]. split; [exact Dy|]. rewrite L6.
      assert (exists n, (n = 1 \/ n = 2)%nat /\ N.to_nat (cmd_sz_bits c) = (256 * n)%nat) as (n & N12 & Nn) by (destruct Hn as [Hn|Hn]; [exists 1%nat|exists 2%nat]; split; auto).
      assert (N.to_nat (9 * cmd_sz_bits c / 8) = k) as Qk.
      { rewrite Hk. destruct Hn as [Hn|Hn]; assert (cmd_sz_bits c = N.of_nat (N.to_nat (cmd_sz_bits c))) as -> by lia; rewrite Hn; reflexivity. }
      assert (k = n * 288)%nat as Kn by (rewrite Hk, Nn; destruct N12 as [-> | ->]; reflexivity).
      rewrite Nn in F, Fb, Pb, Lb.
      assert (n = 2 -> fi_wild p <> None)%nat as Hw.
      { intros -> W. rewrite W in F. rewrite format_undefined in F by lia. discriminate. }
      destruct (FormatProofs.format_bits (fi_wild p) (if_meta i) (if_buf i) bytes (match y with Some y => if db_enable (di_dbi y) then Some (lb_inv (db_side (di_dbi y) read)) else None | None => None end) n N12 Lb Hw)
        as (bs & F1 & F2 & F3).
      rewrite F1 in F. injection F as <- _. exists bs. rewrite Qk, Kn. split; [rewrite <- Kn; exact L|]. split; [lia|].
      intros q Hq. rewrite Nn. eapply frame_bit; [exact L6|exact N12|exact Pb| |rewrite <- Me; exact F3|exact Hq]. intros q' Hq'. apply (Fb L6). lia.
    + assert (d <- load_data (if_data i) read (cmd_ts c) (N.to_nat (cmd_sz_bits c)) (Some bytes) ;; Value (if_with_data i d y (if_buf i), cmd_sz_bits c / dq_lines p) = Value x) as E'
        by (destruct (fi_std p); try exact E; contradiction).
      apply bind_inv in E' as (d & L & E'). apply value_inj in E'. subst x.
      assert (match fi_std p with LPDDR6 => 9 * cmd_sz_bits c / 8 | _ => cmd_sz_bits c end = cmd_sz_bits c) as -> by (destruct (fi_std p); try reflexivity; contradiction).
      exists d, y, (if_buf i). split; [reflexivity|]. split; [exact Dy|]. exists bytes. split; [exact L|]. split; [exact Lb|].
      intros k Hk. rewrite Pb by exact Hk. unfold wire_bit. destruct (fi_std p); try reflexivity. contradiction.
Qed.
