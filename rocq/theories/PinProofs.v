(* The pin's statistics equal its waveform. *)
From Coq Require Import NArith List Bool Lia Arith.
From Verif Require Import Base Bits WaveSpec BitFacts PinModel PinSpec.
Import ListNotations.
Local Open Scope N_scope.
Ltac Zify.zify_post_hook ::= idtac.

(* ---- the storage ---- *)

Lemma level_mask max m j : (m <= max)%nat -> level (bit_mask max m) j = Nat.ltb j m.
Proof.
  intros H. unfold bit_mask, level.
  destruct (Nat.eqb_spec m 0) as [->|Hm].
  - rewrite N.bits_0. symmetry. apply Nat.ltb_ge. lia.
  - destruct (Nat.ltb_spec m max) as [Hl|Hl].
    + rewrite N.shiftr_spec by lia. destruct (Nat.ltb_spec j m).
      * apply N.ones_spec_low. lia.
      * apply N.ones_spec_high. lia.
    + destruct (Nat.ltb_spec j m).
      * apply N.ones_spec_low. lia.
      * apply N.ones_spec_high. lia.
Qed.

(* The storage holds the burst. *)
Definition holds (s : bit_store) (bits : list bool) : Prop :=
  bt_count s = length bits /\ forall j, (j < length bits)%nat -> level (bt_bits s) j = nth j bits false.

Lemma lines_pred m f : (1 <= m)%nat -> (forall j, (m - 1 <= j)%nat -> f j = false) -> lines m f = lines (m - 1) f.
Proof.
  intros H Hf. destruct m as [|m]; [lia|]. rewrite lines_snoc. replace (S m - 1)%nat with m by lia.
  rewrite Hf by lia. lia.
Qed.

(* What count returns for the first m levels: as beats whose first one counts no
   transition. *)
Definition inner (m : nat) (f : nat -> bool) : bus_stats :=
  mkStats (lines m f) (lines m (fun j => negb (f j)))
          (lines (m - 1) (fun j => xorb (f j) (f (S j))))
          (lines (m - 1) (fun j => f j && negb (f (S j))))
          (lines (m - 1) (fun j => negb (f j) && f (S j))).

Lemma u64_sub_le a b : b <= a -> a < two64 -> u64_sub a b = a - b.
Proof.
  intros H Ht. unfold u64_sub. rewrite (N.mod_small b) by lia.
  replace (a + two64 - b) with (a - b + 1 * two64) by lia. rewrite N.mod_add by (unfold two64; lia). apply N.mod_small. lia.
Qed.
Lemma u64_add_small a b : a + b < two64 -> u64_add a b = a + b.
Proof. intros. apply N.mod_small. assumption. Qed.

Lemma lines_split m f g : lines m (fun j => f j && negb (g j)) + lines m (fun j => f j && g j) = lines m f.
Proof. induction m; [reflexivity|]. rewrite !lines_snoc. destruct (f m), (g m); cbn [andb negb]; lia. Qed.

Lemma storage_counts max s bits start until : holds s bits -> bt_load s = start -> start < until -> until < two64 ->
  (length bits <= max)%nat -> N.of_nat (length bits) < two64 ->
  let m := Nat.min (N.to_nat (until - start)) (length bits) in
  bit_store_count max s start until = Value (inner m (fun j => nth j bits false)).
Proof.
  intros [Hc Hb] Hload Hlt Hu Hmax Hlen m. unfold bit_store_count. rewrite Hload, Hc, N.leb_refl. cbn [check].
  rewrite (u64_sub_le until start) by lia. rewrite (u64_sub_le start start) by lia. rewrite N.sub_diag.
  assert ((if N.of_nat (length bits) <? until - start then N.of_nat (length bits) else until - start) = N.of_nat m) as ->.
  { subst m. destruct (N.ltb_spec (N.of_nat (length bits)) (until - start)); lia. }
  assert (m <= length bits)%nat as Hm by (subst m; lia).
  rewrite u64_add_small by lia. rewrite N.add_0_r, N.shiftr_0_r, Nat2N.id.
  assert ((N.of_nat m <=? N.of_nat (length bits)) = true) as -> by (apply N.leb_le; lia). cbn [check].
  set (mask := bit_mask max m). set (val := N.land (bt_bits s) mask).
  set (f := fun j => nth j bits false).
  assert (forall j, level val j = Nat.ltb j m && f j) as Hval.
  { intros j. unfold val, mask. rewrite level_land, level_mask by lia. destruct (Nat.ltb_spec j m); [|now rewrite andb_false_r].
    rewrite Hb by lia. now rewrite andb_true_r. }
  assert (forall j, level (N.shiftr val 1) j = Nat.ltb (S j) m && f (S j)) as Hsh.
  { intros j. rewrite <- N.div2_spec, level_half. apply Hval. }
  assert (forall j, level (N.land (N.lxor val (N.shiftr val 1)) (N.shiftr mask 1)) j
                    = Nat.ltb (S j) m && xorb (f j) (f (S j))) as Htog.
  { intros j. rewrite level_land, level_lxor, Hval, Hsh. rewrite <- N.div2_spec, level_half. unfold mask.
    rewrite level_mask by lia. destruct (Nat.ltb_spec (S j) m).
    - assert (Nat.ltb j m = true) as -> by (apply Nat.ltb_lt; lia). cbn [andb]. now rewrite andb_true_r.
    - now rewrite andb_false_r. }
  assert (forall n, (forall j, (m <= j)%nat -> level n j = false) -> popcount n = lines m (level n)) as Hpc.
  { intros n Hn. apply popcount_lines. intros j Hj. apply Hn. lia. }
  assert (popcount val = lines m f) as ->.
  { rewrite Hpc; [apply lines_ext; intros j Hj; rewrite Hval; assert (Nat.ltb j m = true) as -> by (apply Nat.ltb_lt; lia); reflexivity|].
    intros j Hj. rewrite Hval. assert (Nat.ltb j m = false) as -> by (apply Nat.ltb_ge; lia). reflexivity. }
  assert (popcount (N.land (N.lxor val (N.shiftr val 1)) (N.shiftr mask 1)) = lines (m - 1) (fun j => xorb (f j) (f (S j)))) as ->.
  { rewrite Hpc.
    - destruct (Nat.eq_dec m 0) as [->|]; [reflexivity|].
      rewrite lines_pred; [|lia|].
      + apply lines_ext. intros j Hj. rewrite Htog. assert (Nat.ltb (S j) m = true) as -> by (apply Nat.ltb_lt; lia). reflexivity.
      + intros j Hj. rewrite Htog. assert (Nat.ltb (S j) m = false) as -> by (apply Nat.ltb_ge; lia). reflexivity.
    - intros j Hj. rewrite Htog. assert (Nat.ltb (S j) m = false) as -> by (apply Nat.ltb_ge; lia). reflexivity. }
  assert (popcount (N.land (N.land (N.lxor val (N.shiftr val 1)) (N.shiftr mask 1)) (N.shiftr val 1))
          = lines (m - 1) (fun j => negb (f j) && f (S j))) as ->.
  { rewrite Hpc.
    - destruct (Nat.eq_dec m 0) as [->|]; [reflexivity|].
      rewrite lines_pred; [|lia|].
      + apply lines_ext. intros j Hj. rewrite level_land, Htog, Hsh.
        assert (Nat.ltb (S j) m = true) as -> by (apply Nat.ltb_lt; lia). cbn [andb]. destruct (f j), (f (S j)); reflexivity.
      + intros j Hj. rewrite level_land, Htog. assert (Nat.ltb (S j) m = false) as -> by (apply Nat.ltb_ge; lia). reflexivity.
    - intros j Hj. rewrite level_land, Htog. assert (Nat.ltb (S j) m = false) as -> by (apply Nat.ltb_ge; lia). reflexivity. }
  unfold inner. fold f. f_equal.
  assert (lines (m - 1) (fun j => xorb (f j) (f (S j))) = lines (m - 1) (fun j => f j && negb (f (S j))) + lines (m - 1) (fun j => negb (f j) && f (S j))) as Hx.
  { generalize (m - 1)%nat as k. induction k; [reflexivity|]. rewrite !lines_snoc.
    destruct (f k), (f (S k)); cbn [xorb andb negb]; lia. }
  pose proof (lines_negb m f). pose proof (lines_le (m - 1) (fun j => xorb (f j) (f (S j)))).
  assert (lines m f <= N.of_nat m) by apply lines_le.
  rewrite (u64_sub_le (N.of_nat m)) by lia. rewrite u64_sub_le by lia.
  f_equal; lia.
Qed.

Lemma inner_snoc m f : (1 <= m)%nat ->
  inner (S m) f = add_exact (inner m f) (pin_beat (driven_level (f (m - 1)%nat)) (driven_level (f m))).
Proof.
  intros H. destruct m as [|m]; [lia|]. unfold inner, add_exact. cbn [ones zeroes changes o2z z2o].
  replace (S (S m) - 1)%nat with (S m) by lia. replace (S m - 1)%nat with m by lia.
  rewrite (lines_snoc (S m) f), (lines_snoc (S m) (fun j => negb (f j))).
  rewrite (lines_snoc m (fun j => xorb (f j) (f (S j)))), (lines_snoc m (fun j => f j && negb (f (S j)))),
    (lines_snoc m (fun j => negb (f j) && f (S j))).
  unfold driven_level. destruct (f m), (f (S m)); reflexivity.
Qed.

Lemma change_beat p b : add_exact (pin_change p (driven_level b)) (inner 1 (fun _ => b)) = pin_beat p (driven_level b).
Proof. destruct p, b; reflexivity. Qed.

(* Pending transition and storage count together are the beats of the burst. *)
Lemma burst_beats p f m g : (1 <= m)%nat ->
  g 0 = pin_beat p (driven_level (f 0%nat)) ->
  (forall i, (1 <= i < m)%nat -> g (N.of_nat i) = pin_beat (driven_level (f (i - 1)%nat)) (driven_level (f i))) ->
  add_exact (pin_change p (driven_level (f 0%nat))) (inner m f) = sum_beats g m.
Proof.
  induction m as [|m IH]; intros Hm H0 Hi; [lia|].
  destruct (Nat.eq_dec m 0) as [->|].
  - cbn [sum_beats]. cbn [N.of_nat]. rewrite H0, <- change_beat.
    rewrite add_exact_comm with (a := stats0), add_exact_0. f_equal.
  - rewrite inner_snoc by lia. cbn [sum_beats]. rewrite <- IH by (try lia; try assumption; intros; apply Hi; lia).
    rewrite Hi by lia. apply add_exact_assoc.
Qed.

(* Beats in an unchanging state. *)
Definition dwell (n : N) (q : pin_state) : bus_stats := scale n (pin_beat q q).

Lemma dwell_first p q n : add_exact (pin_change p q) (dwell (n + 1) q) = add_exact (pin_beat p q) (dwell n q).
Proof. unfold dwell. rewrite scale_succ. destruct p, q; unfold add_exact, scale; cbn [pin_change pin_eqb pin_beat stats0 ones zeroes changes o2z z2o]; f_equal; lia. Qed.

Lemma idle_beats p q n g : (1 <= n)%nat -> g 0 = pin_beat p q -> (forall i, (1 <= i < n)%nat -> g (N.of_nat i) = pin_beat q q) ->
  add_exact (pin_change p q) (dwell (N.of_nat n) q) = sum_beats g n.
Proof.
  intros Hn H0 Hi. destruct n as [|n]; [lia|].
  replace (S n) with (1 + n)%nat by lia. rewrite sum_beats_split. cbn [sum_beats]. change (N.of_nat 0) with 0.
  rewrite H0. rewrite (sum_beats_const (pin_beat q q)).
  - replace (N.of_nat (1 + n)) with (N.of_nat n + 1) by lia. rewrite dwell_first.
    rewrite (add_exact_comm stats0), add_exact_0. reflexivity.
  - intros i Hin. replace (N.of_nat 1 + i) with (N.of_nat (1 + N.to_nat i)) by lia. apply Hi. lia.
Qed.

Lemma dwell_wrap until start q s : start <= until -> until < two64 ->
  pin_dwell until start q (wrap_stats s) = wrap_stats (add_exact s (dwell (until - start) q)).
Proof.
  intros Hle Hu. unfold pin_dwell. destruct (N.ltb_spec start until) as [Hlt|Hge].
  - rewrite u64_sub_le by lia.
    destruct q; unfold wrap_stats, add_exact, dwell, scale, u64_add; cbn [pin_beat ones zeroes changes o2z z2o];
      rewrite ?N.mul_0_r, ?N.add_0_r, ?N.mul_1_r, ?N.add_mod_idemp_l by apply two64_pos; reflexivity.
  - replace (until - start) with 0 by lia.
    unfold dwell, scale, add_exact, wrap_stats. cbn [ones zeroes changes o2z z2o]. rewrite !N.mul_0_l, !N.add_0_r. reflexivity.
Qed.

(* ---- the waveform ---- *)

Lemma pin_level_app_early idle bs bs' i : (forall d, In d bs' -> i < fst d) ->
  pin_level idle (bs ++ bs') i = pin_level idle bs i.
Proof.
  intros H. unfold pin_level. induction bs as [|d r IH]; cbn [app find].
  - induction bs' as [|d r IH]; [reflexivity|]. cbn [find].
    assert (fst d <=? i = false) as -> by (apply N.leb_gt; apply H; now left). cbn [andb].
    apply IH. intros e He. apply H. now right.
  - destruct ((fst d <=? i) && (i <? fst d + N.of_nat (length (snd d)))); [reflexivity|]. exact IH.
Qed.

Lemma pin_level_late idle bs i : (forall d, In d bs -> fst d + N.of_nat (length (snd d)) <= i) ->
  pin_level idle bs i = idle.
Proof.
  intros H. unfold pin_level. induction bs as [|d r IH]; cbn [find]; [reflexivity|].
  assert (i <? fst d + N.of_nat (length (snd d)) = false) as -> by (apply N.ltb_ge; apply H; now left).
  rewrite andb_false_r. apply IH. intros e He. apply H. now right.
Qed.

Lemma pin_level_skip idle bs bs' i : (forall d, In d bs -> fst d + N.of_nat (length (snd d)) <= i) ->
  pin_level idle (bs ++ bs') i = pin_level idle bs' i.
Proof.
  intros H. unfold pin_level. induction bs as [|d r IH]; cbn [app find]; [reflexivity|].
  assert (i <? fst d + N.of_nat (length (snd d)) = false) as -> by (apply N.ltb_ge; apply H; now left).
  rewrite andb_false_r. apply IH. intros e He. apply H. now right.
Qed.

Lemma pin_level_hit idle t bits i : t <= i -> i < t + N.of_nat (length bits) ->
  pin_level idle [(t, bits)] i = driven_level (nth (N.to_nat (i - t)) bits false).
Proof.
  intros H1 H2. unfold pin_level. cbn [find fst snd].
  apply N.leb_le in H1. apply N.ltb_lt in H2. rewrite H1, H2. reflexivity.
Qed.

(* All bursts end by e. *)
Definition ended (bs : bursts) (e : N) : Prop := forall d, In d bs -> fst d + N.of_nat (length (snd d)) <= e.

Lemma wave_split init idle bs m n : m <= n ->
  pin_wave init idle bs n =
  add_exact (pin_wave init idle bs m)
            (sum_beats (fun i => pin_beat (pin_before init idle bs (m + i)) (pin_level idle bs (m + i))) (N.to_nat (n - m))).
Proof.
  intros H. unfold pin_wave. replace (N.to_nat n) with (N.to_nat m + N.to_nat (n - m))%nat by lia.
  rewrite sum_beats_split. rewrite N2Nat.id. reflexivity.
Qed.

Lemma wave_early init idle bs bs' n : (forall d, In d bs' -> n <= fst d) ->
  pin_wave init idle (bs ++ bs') n = pin_wave init idle bs n.
Proof.
  intros H. unfold pin_wave. apply sum_beats_ext. intros i Hi.
  rewrite pin_level_app_early by (intros d Hd; specialize (H d Hd); lia). f_equal.
  unfold pin_before. destruct (N.eqb_spec i 0); [reflexivity|].
  apply pin_level_app_early. intros d Hd. specialize (H d Hd). lia.
Qed.

(* ---- the pin ---- *)

(* After the complete bursts bs and the beats bits (at least one) of a burst that
   starts at t. *)
Record pin_inv (max : nat) (init idle : pin_state) (bs : bursts) (t : N) (bits : list bool) (p : pin) : Prop := {
  pi_max : pn_max p = max;
  pi_idle : pn_idle p = idle;
  pi_init : pn_init p = false;
  pi_set : pn_set_at p = t;
  pi_pend : pn_pend_set p = true;
  pi_time : pn_pend_time p = t;
  pi_from : pn_pend_from p = pin_before init idle bs t;
  pi_to : pn_pend_to p = driven_level (nth 0 bits false);
  pi_state : pn_state p = driven_level (nth (length bits - 1) bits false);
  pi_load : bt_load (pn_store p) = t;
  pi_holds : holds (pn_store p) bits;
  pi_stats : pn_stats p = wrap_stats (pin_wave init idle bs t);
  pi_ended : ended bs t;
  pi_len : (1 <= length bits <= max)%nat;
  pi_fit : t + N.of_nat (length bits) < two64
}.

(* What set_internal and get_stats_at compute from such a state. *)
Lemma advance_counts max init idle bs t bits p u : pin_inv max init idle bs t bits p -> t <= u -> u < two64 ->
  pin_advance p u 1 (pn_stats p) = Value (wrap_stats (pin_wave init idle (bs ++ [(t, bits)]) u)).
Proof.
  intros I Htu Hu. destruct I. unfold pin_advance.
  assert (u64_mul u 1 = u) as -> by (unfold u64_mul; rewrite N.mul_1_r; apply N.mod_small; assumption).
  rewrite pi_set0. assert ((t <=? u) = true) as -> by (apply N.leb_le; lia). cbn [check].
  rewrite pi_init0. cbn [andb]. unfold pin_add_pending. rewrite pi_pend0, pi_time0. cbn [andb].
  rewrite pi_stats0, pi_from0, pi_to0, pi_idle0. unfold pin_count.
  destruct (N.leb_spec u t) as [Hut|Hut].
  - assert (u = t) by lia. subst u. rewrite N.ltb_irrefl. f_equal. f_equal. symmetry. apply wave_early.
    intros d [<-|[]]. cbn [fst]. lia.
  - assert (t <? u = true) as -> by (apply N.ltb_lt; lia).
    unfold bit_store_end. destruct pi_holds0 as [Hc Hb]. rewrite pi_load0, Hc.
    rewrite (u64_add_small t) by lia.
    assert (t <? t + N.of_nat (length bits) = true) as -> by (apply N.ltb_lt; lia).
    rewrite pi_max0. rewrite (storage_counts max (pn_store p) bits t u); try (split; assumption); try assumption; try lia.
    cbn [bind]. set (m := Nat.min (N.to_nat (u - t)) (length bits)). set (f := fun j => nth j bits false).
    rewrite stats_add_wrap_l. rewrite stats_add_wrap_l.
    rewrite <- add_exact_assoc.
    assert (1 <= m)%nat as Hm by (subst m; lia).
    set (all := bs ++ [(t, bits)]).
    assert (forall i, t <= i -> i < t + N.of_nat (length bits) -> pin_level idle all i = driven_level (f (N.to_nat (i - t)))) as Hlev.
    { intros i Hi1 Hi2. unfold all. rewrite pin_level_skip by (intros d Hd; specialize (pi_ended0 d Hd); lia).
      apply pin_level_hit; assumption. }
    assert (pin_before init idle bs t = pin_before init idle all t) as Hbef.
    { unfold pin_before. destruct (N.eqb_spec t 0); [reflexivity|]. unfold all. symmetry. apply pin_level_app_early.
      intros d [<-|[]]. cbn [fst]. lia. }
    assert (add_exact (pin_change (pin_before init idle bs t) (driven_level (nth 0 bits false))) (inner m f)
            = sum_beats (fun i => pin_beat (pin_before init idle all (t + i)) (pin_level idle all (t + i))) m) as Hburst.
    { change (nth 0 bits false) with (f 0%nat). rewrite Hbef. apply burst_beats; [assumption| |].
      - rewrite N.add_0_r. rewrite Hlev by lia. rewrite N.sub_diag. reflexivity.
      - intros i Hi. rewrite (Hlev (t + N.of_nat i)) by (subst m; lia).
        unfold pin_before. destruct (N.eqb_spec (t + N.of_nat i) 0); [lia|].
        rewrite Hlev by (subst m; lia). f_equal; f_equal; f_equal; lia. }
    rewrite Hburst.
    assert (pin_wave init idle bs t = pin_wave init idle all t) as ->.
    { symmetry. apply wave_early. intros d [<-|[]]. cbn [fst]. lia. }
    destruct (N.ltb_spec (t + N.of_nat (length bits)) u) as [Hend|Hend].
    + assert (m = length bits) as Hml by (subst m; lia).
      unfold bit_store_get. rewrite Hc. assert ((0 <? length bits)%nat = true) as -> by (apply Nat.ltb_lt; lia).
      cbn [check bind]. rewrite Nat.sub_0_r. f_equal. rewrite stats_add_wrap_l.
      rewrite dwell_wrap by lia. f_equal.
      rewrite (wave_split init idle all t u) by lia. rewrite <- !add_exact_assoc. f_equal.
      replace (N.to_nat (u - t)) with (m + N.to_nat (u - (t + N.of_nat m)))%nat by (rewrite Hml; lia).
      rewrite sum_beats_split. f_equal.
      change (N.testbit (bt_bits (pn_store p)) (N.of_nat (length bits - 1))) with (level (bt_bits (pn_store p)) (length bits - 1)).
      rewrite Hb by lia. fold (driven_level (nth (length bits - 1) bits false)).
      rewrite Hml. rewrite <- (N2Nat.id (u - (t + N.of_nat (length bits)))) at 1. apply idle_beats; [lia| |].
      * rewrite N.add_0_r. unfold pin_before. destruct (N.eqb_spec (t + N.of_nat (length bits)) 0); [lia|].
        rewrite Hlev by lia. f_equal.
        { f_equal. unfold f. f_equal. lia. }
        unfold all. apply pin_level_late. intros d Hd. apply in_app_or in Hd as [Hd|[<-|[]]]; cbn [fst snd]; [|lia].
        specialize (pi_ended0 d Hd). lia.
      * intros i Hi. unfold pin_before. destruct (N.eqb_spec (t + (N.of_nat (length bits) + N.of_nat i)) 0); [lia|].
        f_equal; unfold all; apply pin_level_late; intros d Hd; apply in_app_or in Hd as [Hd|[<-|[]]]; cbn [fst snd]; try lia;
          specialize (pi_ended0 d Hd); lia.
    + f_equal. unfold pin_dwell.
      assert (t + N.of_nat (length bits) <? u = false) as -> by (apply N.ltb_ge; lia).
      f_equal. rewrite (wave_split init idle all t u) by lia. f_equal. f_equal. subst m. lia.
Qed.

Lemma before_end init idle bs t bits u : ended bs t -> (1 <= length bits)%nat -> t + N.of_nat (length bits) <= u ->
  pin_before init idle (bs ++ [(t, bits)]) u =
  if u =? t + N.of_nat (length bits) then driven_level (nth (length bits - 1) bits false) else idle.
Proof.
  intros He Hl Hu. unfold pin_before. destruct (N.eqb_spec u 0); [lia|].
  destruct (N.eqb_spec u (t + N.of_nat (length bits))) as [->|].
  - rewrite pin_level_skip by (intros d Hd; specialize (He d Hd); lia). rewrite pin_level_hit by lia. f_equal. f_equal. lia.
  - apply pin_level_late. intros d Hd. apply in_app_or in Hd as [Hd|[<-|[]]]; cbn [fst snd]; [|lia]. specialize (He d Hd). lia.
Qed.

Lemma push_same max s bits t b : holds s bits -> bt_load s = t -> (length bits < max)%nat ->
  exists s', bit_store_push max s t b = Value s' /\ holds s' (bits ++ [b]) /\ bt_load s' = t.
Proof.
  intros [Hc Hb] Hl Hm. unfold bit_store_push. rewrite Hl, N.eqb_refl, Hc.
  assert ((length bits + 1 <=? max)%nat = true) as -> by (apply Nat.leb_le; lia). cbn [check].
  destruct (set_bit_ok max (bt_bits s) (length bits) b Hm) as [n' Hn]. rewrite Hn. cbn [bind].
  eexists. split; [reflexivity|]. cbn [bt_load]. split; [|assumption].
  apply set_bit_spec in Hn. destruct Hn as [_ Hn].
  split; cbn [bt_count bt_bits]; [rewrite app_length; cbn [length]; lia|].
  intros j Hj. rewrite app_length in Hj. cbn [length] in Hj. rewrite Hn.
  destruct (Nat.eqb_spec (length bits) j) as [<-|Hne].
  - rewrite app_nth2, Nat.sub_diag by lia. reflexivity.
  - rewrite app_nth1 by lia. apply Hb. lia.
Qed.

Lemma push_new max s t b : bt_load s <> t \/ bt_count s = 0%nat -> (1 <= max)%nat ->
  exists s', bit_store_push max s t b = Value s' /\ holds s' [b] /\ bt_load s' = t.
Proof.
  intros H Hm. unfold bit_store_push.
  assert (exists bits, (if t =? bt_load s then s else mkBitStore (bt_bits s) 0 t) = mkBitStore bits 0 t) as [bits ->].
  { destruct (N.eqb_spec t (bt_load s)) as [E|E]; [|eauto]. destruct H as [H|H]; [congruence|].
    destruct s as [x c l]. cbn in *. subst. eauto. }
  cbn [bt_count bt_bits bt_load]. assert ((0 + 1 <=? max)%nat = true) as -> by (apply Nat.leb_le; lia). cbn [check].
  destruct (set_bit_ok max bits 0 b Hm) as [n' Hn]. rewrite Hn. cbn [bind].
  eexists. split; [reflexivity|]. cbn [bt_load]. split; [|reflexivity].
  apply set_bit_spec in Hn. destruct Hn as [_ Hn]. split; [reflexivity|]. cbn [length bt_bits]. intros j Hj.
  rewrite Hn. destruct j; [reflexivity|lia].
Qed.

(* One more beat of the current burst. *)
Lemma set_more max init idle bs t bits p b : pin_inv max init idle bs t bits p -> (length bits < max)%nat ->
  t + N.of_nat (S (length bits)) < two64 ->
  exists p', pin_set p t (driven_level b) 1 = Value p' /\ pin_inv max init idle bs t (bits ++ [b]) p'.
Proof.
  intros I Hl Hf. pose proof (advance_counts max init idle bs t bits p t I ltac:(lia) ltac:(lia)) as Ha. destruct I.
  unfold pin_set. assert (u64_mul t 1 = t) as -> by (unfold u64_mul; rewrite N.mul_1_r; apply N.mod_small; lia).
  rewrite Ha. cbn [bind]. rewrite pi_max0.
  destruct (push_same max (pn_store p) bits t b pi_holds0 pi_load0 Hl) as [s' [Hp [Hh Hld]]].
  assert (pin_eqb PinH (driven_level b) = b) as -> by now destruct b.
  rewrite Hp. cbn [bind]. eexists. split; [reflexivity|].
  rewrite pi_set0, pi_init0, pi_pend0, pi_time0, N.eqb_refl, N.ltb_irrefl. cbn [negb orb andb].
  constructor; cbn [pn_max pn_idle pn_init pn_set_at pn_pend_set pn_pend_time pn_pend_from pn_pend_to pn_state pn_store pn_stats];
    try assumption; try reflexivity.
  - rewrite pi_to0. rewrite app_nth1 by lia. reflexivity.
  - rewrite app_length. cbn [length]. rewrite app_nth2 by lia. replace (length bits + 1 - 1 - length bits)%nat with 0%nat by lia. reflexivity.
  - f_equal. apply wave_early. intros d [<-|[]]. cbn [fst]. lia.
  - rewrite app_length. cbn [length]. lia.
  - rewrite app_length. cbn [length]. lia.
Qed.

(* First beat of a new burst. *)
Lemma set_next max init idle bs t bits p u b : pin_inv max init idle bs t bits p -> t + N.of_nat (length bits) <= u ->
  u + 1 < two64 ->
  exists p', pin_set p u (driven_level b) 1 = Value p' /\ pin_inv max init idle (bs ++ [(t, bits)]) u [b] p'.
Proof.
  intros I Hu Hf. pose proof (advance_counts max init idle bs t bits p u I ltac:(lia) ltac:(lia)) as Ha. destruct I.
  unfold pin_set. assert (u64_mul u 1 = u) as -> by (unfold u64_mul; rewrite N.mul_1_r; apply N.mod_small; lia).
  rewrite Ha. cbn [bind]. rewrite pi_max0.
  destruct (push_new max (pn_store p) u b) as [s' [Hp [Hh Hld]]]; [left; rewrite pi_load0; lia|lia|].
  assert (pin_eqb PinH (driven_level b) = b) as -> by now destruct b.
  rewrite Hp. cbn [bind]. eexists. split; [reflexivity|].
  destruct pi_holds0 as [Hc Hb].
  rewrite pi_set0, pi_init0, pi_pend0, pi_time0, pi_state0, pi_idle0, Hc. rewrite (u64_add_small t) by lia.
  assert (t =? u = false) as -> by (apply N.eqb_neq; lia). cbn [negb orb andb]. rewrite orb_false_r.
  constructor; cbn [pn_max pn_idle pn_init pn_set_at pn_pend_set pn_pend_time pn_pend_from pn_pend_to pn_state pn_store pn_stats];
    try assumption; try reflexivity.
  - symmetry. apply before_end; [assumption|lia|lia].
  - intros d Hd. apply in_app_or in Hd as [Hd|[<-|[]]]; cbn [fst snd]; [|lia]. specialize (pi_ended0 d Hd). lia.
  - cbn [length]. lia.
Qed.

Lemma send_more max init idle bs t more : forall bits p, pin_inv max init idle bs t bits p ->
  (length (bits ++ more) <= max)%nat -> t + N.of_nat (length (bits ++ more)) < two64 ->
  exists p', pin_send t more p = Value p' /\ pin_inv max init idle bs t (bits ++ more) p'.
Proof.
  induction more as [|b r IH]; intros bits p I Hm Hf.
  - rewrite app_nil_r. exists p. split; [reflexivity|assumption].
  - rewrite app_length in Hm, Hf. cbn [length] in Hm, Hf.
    destruct (set_more max init idle bs t bits p b I) as [p1 [H1 I1]]; [lia|lia|].
    cbn [pin_send]. rewrite H1. cbn [bind].
    destruct (IH (bits ++ [b]) p1 I1) as [p2 [H2 I2]]; try (rewrite !app_length; cbn [length]; lia).
    exists p2. split; [assumption|]. rewrite <- app_assoc in I2. exact I2.
Qed.

Lemma run_from max init idle rest : forall bs t bits p, pin_inv max init idle bs t bits p ->
  bursts_ok max (t + N.of_nat (length bits)) rest ->
  exists p' bs' t' bits', pin_run rest p = Value p' /\ pin_inv max init idle bs' t' bits' p' /\
    bs' ++ [(t', bits')] = bs ++ (t, bits) :: rest /\ t' = fold_left (fun _ d => fst d) rest t.
Proof.
  induction rest as [|[u more] r IH]; intros bs t bits p I Hok.
  - exists p, bs, t, bits. split; [reflexivity|]. split; [assumption|]. split; reflexivity.
  - cbn [bursts_ok fst snd] in Hok. destruct Hok as (Hfrom & Hlen & Hfit & Hrest).
    destruct more as [|b more]; [cbn [length] in Hlen; lia|]. cbn [length] in Hlen, Hfit, Hrest.
    destruct (set_next max init idle bs t bits p u b I) as [p1 [H1 I1]]; [lia|lia|].
    destruct (send_more max init idle (bs ++ [(t, bits)]) u more [b] p1 I1) as [p2 [H2 I2]];
      [cbn [length app]; lia|cbn [length app]; lia|].
    destruct (IH _ _ _ _ I2) as (p3 & bs' & t' & bits' & H3 & I3 & He & Ht); [exact Hrest|].
    exists p3, bs', t', bits'. cbn [pin_run pin_send fst snd]. rewrite H1. cbn [bind]. rewrite H2. cbn [bind].
    split; [assumption|]. split; [assumption|]. split; [|assumption].
    rewrite He, <- app_assoc. reflexivity.
Qed.

(* A pin nobody has driven yet. *)
Lemma new_advance max init idle u : u < two64 ->
  pin_advance (pin_new max init idle) u 1 stats0 = Value (wrap_stats (pin_wave init idle [] u)).
Proof.
  intros Hu. unfold pin_advance. assert (u64_mul u 1 = u) as -> by (unfold u64_mul; rewrite N.mul_1_r; apply N.mod_small; assumption).
  cbn [pin_new pn_set_at pn_init pn_state pn_idle]. rewrite (proj2 (N.leb_le 0 u)) by lia. cbn [check andb].
  unfold pin_add_pending, pin_count, bit_store_end. cbn [pin_new pn_pend_set andb pn_store bit_store0 bt_load bt_count].
  destruct (N.leb_spec u 0) as [H|H].
  - assert (u = 0) by lia. subst u. cbn. reflexivity.
  - rewrite (proj2 (N.ltb_lt 0 u)) by lia. change (u64_add 0 (N.of_nat 0)) with 0. rewrite N.ltb_irrefl. f_equal.
    change stats0 with (wrap_stats stats0). rewrite stats_add_wrap_l. rewrite dwell_wrap by lia. f_equal.
    rewrite (add_exact_comm stats0), add_exact_0. rewrite N.sub_0_r. unfold pin_wave.
    rewrite <- (N2Nat.id u) at 1. apply idle_beats; [lia|reflexivity|].
    intros i Hi. unfold pin_before. destruct (N.eqb_spec (N.of_nat i) 0); [lia|reflexivity].
Qed.

Lemma set_first max init idle u b : (1 <= max)%nat -> u + 1 < two64 ->
  exists p', pin_set (pin_new max init idle) u (driven_level b) 1 = Value p' /\ pin_inv max init idle [] u [b] p'.
Proof.
  intros Hm Hf. pose proof (new_advance max init idle u ltac:(lia)) as Ha.
  unfold pin_set. assert (u64_mul u 1 = u) as -> by (unfold u64_mul; rewrite N.mul_1_r; apply N.mod_small; lia).
  cbn [pin_new pn_stats]. fold (pin_new max init idle). rewrite Ha. cbn [bind].
  cbn [pin_new pn_max pn_idle pn_init pn_set_at pn_pend_set pn_pend_time pn_pend_from pn_pend_to pn_state pn_store pn_stats].
  destruct (push_new max bit_store0 u b) as [s' [Hp [Hh Hld]]]; [now right|lia|].
  assert (pin_eqb PinH (driven_level b) = b) as -> by now destruct b.
  rewrite Hp. cbn [bind]. eexists. split; [reflexivity|].
  rewrite orb_true_r. cbn [bit_store0 bt_count N.of_nat]. change (u64_add 0 0) with 0. cbn [andb].
  constructor; cbn [pn_max pn_idle pn_init pn_set_at pn_pend_set pn_pend_time pn_pend_from pn_pend_to pn_state pn_store pn_stats];
    try assumption; try reflexivity.
  - unfold pin_before. destruct (u =? 0); reflexivity.
  - intros d [].
  - cbn [length]. lia.
Qed.

(* Querying is advancing. *)
Lemma stats_at_advance p t rate : pn_set_at p <= t * rate -> t * rate < two64 ->
  pn_pend_time p = pn_set_at p \/ pn_pend_set p = false -> (pn_init p = true -> pn_set_at p = 0) ->
  pin_stats_at p t rate = pin_advance p (t * rate) 1 (pn_stats p).
Proof.
  intros Hle Hlt Hp Hi. unfold pin_stats_at, pin_advance.
  assert (u64_mul t rate = t * rate) as -> by (apply N.mod_small; assumption).
  assert (u64_mul (t * rate) 1 = t * rate) as -> by (unfold u64_mul; rewrite N.mul_1_r; apply N.mod_small; assumption).
  destruct (N.eqb_spec (t * rate) (pn_set_at p)) as [E|E]; [|reflexivity].
  rewrite E. rewrite N.leb_refl. cbn [check]. unfold pin_add_pending, pin_count. rewrite N.leb_refl.
  destruct Hp as [->| ->]; rewrite ?N.ltb_irrefl, ?andb_false_r; cbn [andb];
    (destruct (pn_init p) eqn:Ei; cbn [andb]; [rewrite (Hi eq_refl), N.ltb_irrefl; reflexivity|reflexivity]).
Qed.

Theorem pin_counts max init idle bs t rate : (1 <= max)%nat -> bursts_ok max 0 bs -> last_burst bs <= t * rate -> t * rate < two64 ->
  exists p, pin_run bs (pin_new max init idle) = Value p /\
    pin_stats_at p t rate = Value (wrap_stats (pin_wave init idle bs (t * rate))).
Proof.
  intros Hm Hok Hlast Ht. destruct bs as [|[u bits] r].
  - eexists. split; [reflexivity|]. rewrite stats_at_advance; [|cbn [pin_new pn_set_at]; lia|assumption|now right|reflexivity].
    apply new_advance. assumption.
  - cbn [bursts_ok fst snd] in Hok. destruct Hok as (_ & Hlen & Hfit & Hrest).
    destruct bits as [|b more]; [cbn [length] in Hlen; lia|]. cbn [length] in Hlen, Hfit, Hrest.
    destruct (set_first max init idle u b) as [p1 [H1 I1]]; [lia|lia|].
    destruct (send_more max init idle [] u more [b] p1 I1) as [p2 [H2 I2]]; [cbn [length app]; lia|cbn [length app]; lia|].
    destruct (run_from max init idle r [] u ([b] ++ more) p2 I2 Hrest) as (p3 & bs' & t' & bits' & H3 & I3 & He & Ht').
    exists p3. cbn [pin_run pin_send fst snd]. rewrite H1. cbn [bind]. rewrite H2. cbn [bind].
    split; [assumption|]. unfold last_burst in Hlast. cbn [fold_left fst] in Hlast. rewrite <- Ht' in Hlast.
    pose proof (pi_set _ _ _ _ _ _ _ I3) as Hset. pose proof (pi_time _ _ _ _ _ _ _ I3) as Htime.
    rewrite stats_at_advance; [|lia|assumption|left; congruence|rewrite (pi_init _ _ _ _ _ _ _ I3); discriminate].
    rewrite (advance_counts max init idle bs' t' bits' p3 (t * rate) I3) by assumption.
    cbn [app] in He. rewrite He. reflexivity.
Qed.
