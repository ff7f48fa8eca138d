(* The bus statistics are those of the waveform on the wires. *)
From Coq Require Import ZArith NArith List Bool Lia ZifyBool ZifyNat ZifyN.
From Verif Require Import Base Bits ListFacts BusModel WaveSpec BitFacts StorageProofs.
Import ListNotations.
Local Open Scope N_scope.
Ltac Zify.zify_post_hook ::= idtac.

(* ---- diff ---- *)

Lemma bus_diff_beat width p q : N.of_nat width < two64 -> bounded width p -> bounded width q ->
  bus_diff width p q = wrap_stats (beat_stats width p q).
Proof.
  intros Hw Hp Hq. unfold bus_diff, beat_stats, one_to_zeroes, zero_to_ones, bit_changes, wrap_stats. cbn [ones zeroes changes o2z z2o].
  rewrite (popcount_lines width q), (popcount_lines width (N.ldiff p q)), (popcount_lines width (N.ldiff q p)),
    (popcount_lines width (N.lxor p q)) by auto using bounded_ldiff, bounded_lxor.
  unfold u64_add. rewrite !N.add_0_l.
  rewrite (lines_wrap width (level q)) by auto.
  f_equal.
  - pose proof (lines_negb width (level q)). unfold u64_sub. rewrite (N.mod_small (lines width (level q))) by (pose proof (lines_le width (level q)); lia).
    rewrite N.mod_mod by exact two64_pos.
    replace (N.of_nat width + two64 - lines width (level q)) with (lines width (fun j => negb (level q j)) + 1 * two64) by lia.
    apply N.mod_add. exact two64_pos.
  - f_equal. apply lines_ext. intros. apply level_lxor.
  - f_equal. apply lines_ext. intros. apply level_ldiff.
  - f_equal. apply lines_ext. intros. rewrite level_ldiff. apply andb_comm.
Qed.

(* ---- the wires ---- *)

Definition drive_end (d : N * list N) : N := fst d + N.of_nat (length (snd d)).

Lemma wire_none idle ds i : Forall (fun d => drive_end d <= i) ds -> wire idle ds i = idle.
Proof.
  intros H. unfold wire. destruct (find _ ds) as [d|] eqn:E; auto.
  apply find_some in E as [I E]. rewrite Forall_forall in H. specialize (H d I). unfold drive_end in H. lia.
Qed.

Lemma wire_app_after idle ds d i : Forall (fun d => drive_end d <= i) ds -> wire idle (ds ++ [d]) i = wire idle [d] i.
Proof.
  intros H. unfold wire. induction ds as [|x ds IH]; [reflexivity|]. cbn [app find].
  inversion H as [|? ? H1 H2]; subst. unfold drive_end in H1.
  destruct ((fst x <=? i) && (i <? fst x + N.of_nat (length (snd x)))) eqn:E; [lia|]. apply IH. exact H2.
Qed.

Lemma find_app_none {A} (f : A -> bool) l l' : (forall x, In x l' -> f x = false) -> find f (l ++ l') = find f l.
Proof.
  intros H. induction l as [|x l IH]; cbn.
  - induction l' as [|y l' IH']; cbn; auto. rewrite H by (left; auto). apply IH'. intros; apply H; right; auto.
  - rewrite IH. reflexivity.
Qed.

Lemma wire_app_before idle ds ds' i : Forall (fun d => i < fst d) ds' -> wire idle (ds ++ ds') i = wire idle ds i.
Proof.
  intros H. unfold wire. rewrite find_app_none; auto. intros x Hx. rewrite Forall_forall in H. specialize (H x Hx). lia.
Qed.

Lemma wire_single idle t ws i : t <= i -> wire idle [(t, ws)] i = nth (N.to_nat (i - t)) ws idle.
Proof.
  intros H. unfold wire. cbn [find fst snd].
  destruct (N.leb_spec t i); [|lia]. cbn [andb].
  destruct (N.ltb_spec i (t + N.of_nat (length ws))); [reflexivity|].
  symmetry. apply nth_overflow. lia.
Qed.

Lemma wave_stats_ext width idle ds ds' n : (forall i, i < n -> wire idle ds i = wire idle ds' i) ->
  wave_stats width idle ds n = wave_stats width idle ds' n.
Proof.
  intros H. unfold wave_stats. apply sum_beats_ext. intros i Hi. rewrite N2Nat.id in Hi.
  unfold wire_before. rewrite (H i Hi). destruct (N.eqb_spec i 0); auto. rewrite (H (i - 1)) by lia. reflexivity.
Qed.

Definition beat_at (width : nat) (idle : N) (ds : drives) (i : N) : bus_stats :=
  beat_stats width (wire_before idle ds i) (wire idle ds i).

Lemma wave_stats_split width idle ds m n : m <= n ->
  wave_stats width idle ds n =
  add_exact (wave_stats width idle ds m) (sum_beats (fun i => beat_at width idle ds (m + i)) (N.to_nat (n - m))).
Proof.
  intros H. unfold wave_stats. replace (N.to_nat n) with (N.to_nat m + N.to_nat (n - m))%nat by lia.
  rewrite sum_beats_split. f_equal. apply sum_beats_ext. intros i _. rewrite N2Nat.id. reflexivity.
Qed.

Lemma wave_stats_next width idle ds m : wave_stats width idle ds (m + 1) =
  add_exact (wave_stats width idle ds m) (beat_at width idle ds m).
Proof.
  rewrite (wave_stats_split width idle ds m (m + 1)) by lia. replace (N.to_nat (m + 1 - m)) with 1%nat by lia.
  cbn [sum_beats]. rewrite N.add_0_r. reflexivity.
Qed.

(* ---- invariant ---- *)

Definition drives_of (width : nat) (rate : N) (ls : list load_op) : drives := map (drive_of width rate) ls.

Record bus_inv (max width : nat) (rate idle : N) (ls : list load_op) (b : bus) : Prop := {
  bi_max : b_max b = max;
  bi_width : b_width b = width;
  bi_rate : b_datarate b = rate;
  bi_on : b_enabled b = true;
  bi_idle : b_idle b = idle;
  bi_idles : b_idle_stats b = bus_diff width idle idle;
  bi_clean : clean width (b_store b);
  bi_len : (bc_count (b_store b) <= length (bc_bursts (b_store b)))%nat;
  bi_ll : b_last_load b = last_start rate ls;
  bi_load : bc_load (b_store b) = b_last_load b;
  bi_end : b_last_load b + N.of_nat (bc_count (b_store b)) < two64;
  bi_last : bc_count (b_store b) = 0%nat -> b_last b = idle;
  bi_first : bc_count (b_store b) = 0%nat -> b_last_load b = 0;
  bi_ends : Forall (fun d => drive_end d <= b_last_load b + N.of_nat (bc_count (b_store b))) (drives_of width rate ls);
  bi_at : forall n, b_last_load b <= n -> bus_at b n = Value (wire idle (drives_of width rate ls) n);
  bi_words : forall n, bounded width (wire idle (drives_of width rate ls) n);
  bi_pend : b_pending b = set_pending (b_last_load b) (wrap_stats (beat_at width idle (drives_of width rate ls) (b_last_load b)));
  bi_stats : b_stats b = wrap_stats (wave_stats width idle (drives_of width rate ls) (b_last_load b))
}.

Section Inv.
Context (max width : nat) (rate idle : N) (Hw : (0 < width <= max)%nat) (Hw64 : N.of_nat width < two64)
        (Hr : 0 < rate) (Hidle : bounded width idle).

Lemma loop_app {A I} (f : I -> A -> result A) l l' a : loop f (l ++ l') a = bind (loop f l a) (loop f l').
Proof.
  revert a. induction l as [|x l IH]; intros a; [reflexivity|]. cbn. destruct (f x a); [|reflexivity]. cbn. apply IH.
Qed.

Lemma bounded_before ls b n : bus_inv max width rate idle ls b -> bounded width (wire_before idle (drives_of width rate ls) n).
Proof. intros B. unfold wire_before. destruct (n =? 0); [exact Hidle|apply (bi_words _ _ _ _ _ _ B)]. Qed.

Lemma bus_step_ok ls b x S : bus_inv max width rate idle ls b -> b_last_load b <= x ->
  bus_step b x (x + 1) (wrap_stats S) = Value (wrap_stats (add_exact S (beat_at width idle (drives_of width rate ls) (x + 1)))).
Proof.
  intros B Hx. unfold bus_step. rewrite !(bi_at _ _ _ _ _ _ B) by lia. cbn [bind].
  rewrite (bi_width _ _ _ _ _ _ B), bus_diff_beat by (auto; apply (bi_words _ _ _ _ _ _ B)).
  rewrite stats_add_wrap. unfold beat_at, wire_before. destruct (N.eqb_spec (x + 1) 0); [lia|].
  replace (x + 1 - 1) with x by lia. reflexivity.
Qed.

Lemma bus_loop_ok ls b from n S : bus_inv max width rate idle ls b -> b_last_load b <= from ->
  from + N.of_nat n < two64 ->
  loop (fun t s => bus_step b t (u64_add t 1) s) (map (fun k => from + N.of_nat k) (seq 0 n)) (wrap_stats S) =
  Value (wrap_stats (add_exact S (sum_beats (fun i => beat_at width idle (drives_of width rate ls) (from + 1 + i)) n))).
Proof.
  intros B Hf. induction n; intros Hn.
  - cbn. rewrite add_exact_0. reflexivity.
  - rewrite seq_S, map_app, loop_app, IHn by lia. cbn [bind plus map loop].
    unfold u64_add. rewrite N.mod_small by lia. rewrite (bus_step_ok ls) by (auto; lia). cbn [bind sum_beats].
    f_equal. f_equal. rewrite <- add_exact_assoc. f_equal. f_equal. f_equal. lia.
Qed.

(* Everything from beat last_load + 1 up to and excluding vt. *)
Lemma advance_ok ls b vt S : bus_inv max width rate idle ls b -> b_last_load b <= vt -> vt < two64 ->
  advance_stats b vt (wrap_stats S) =
  Value (wrap_stats (add_exact S (sum_beats (fun i => beat_at width idle (drives_of width rate ls) (b_last_load b + 1 + i))
                                            (N.to_nat (vt - b_last_load b - 1))))).
Proof.
  intros B Hvt H64. unfold advance_stats.
  set (ll := b_last_load b) in *. set (c := N.of_nat (bc_count (b_store b))).
  assert (storage_end (b_store b) = ll + c) as ->.
  { unfold storage_end. rewrite (bi_load _ _ _ _ _ _ B). fold ll. apply N.mod_small. apply (bi_end _ _ _ _ _ _ B). }
  pose proof (bi_end _ _ _ _ _ _ B) as He. fold ll c in He.
  set (lb := N.min (ll + c) vt).
  assert ((if lb =? 0 then [] else times ll (lb - 1)) = map (fun k => ll + N.of_nat k) (seq 0 (N.to_nat (lb - 1 - ll)))) as ->.
  { destruct (N.eqb_spec lb 0) as [E|]; [|reflexivity]. rewrite E. replace (0 - 1 - ll) with 0 by lia. reflexivity. }
  rewrite (bus_loop_ok ls) by (auto; unfold ll, lb in *; lia). cbn [bind]. fold ll.
  destruct (N.ltb_spec (ll + c) vt) as [L|L]; cbn [andb].
  - (* past the end of the burst *)
    assert (lb = ll + c) as E1 by lia.
    destruct (N.ltb_spec 0 (ll + c)) as [P|P].
    + assert (0 < c) as C0. { destruct (N.eq_dec c 0) as [C|]; [|lia]. pose proof (bi_first _ _ _ _ _ _ B). fold ll in H. lia. }
      pose proof (bus_step_ok ls b (ll + c - 1) (add_exact S (sum_beats (fun i => beat_at width idle (drives_of width rate ls) (ll + 1 + i)) (N.to_nat (lb - 1 - ll)))) B) as BS.
      replace (ll + c - 1 + 1) with (ll + c) in BS by lia. rewrite BS by (fold ll; lia). cbn [bind]. clear BS.
      rewrite (bi_idles _ _ _ _ _ _ B), bus_diff_beat by auto.
      rewrite stats_mul_wrap, stats_add_wrap. f_equal. f_equal.
      rewrite <- !add_exact_assoc. f_equal.
      replace (N.to_nat (vt - ll - 1)) with (N.to_nat (lb - 1 - ll) + (1 + N.to_nat (vt - (ll + c) - 1)))%nat by lia.
      rewrite !sum_beats_split. f_equal. f_equal.
      * cbn [sum_beats]. rewrite add_exact_comm, add_exact_0. f_equal. lia.
      * replace (u64_sub (u64_sub vt (ll + c)) 1) with (vt - (ll + c) - 1).
        2: { unfold u64_sub. rewrite (N.mod_small (ll + c)), (N.mod_small 1) by (auto; reflexivity).
             replace (vt + two64 - (ll + c)) with (vt - (ll + c) + 1 * two64) by lia.
             rewrite N.mod_add, (N.mod_small (vt - (ll + c))) by (lia || exact two64_pos).
             replace (vt - (ll + c) + two64 - 1) with (vt - (ll + c) - 1 + 1 * two64) by lia.
             rewrite N.mod_add, N.mod_small by (lia || exact two64_pos). reflexivity. }
        rewrite (sum_beats_const (beat_stats width idle idle)); [f_equal; lia|].
        intros i Hi. unfold beat_at, wire_before. destruct (N.eqb_spec (ll + 1 + (N.of_nat (N.to_nat (lb - 1 - ll)) + (N.of_nat 1 + i))) 0); [lia|].
        pose proof (bi_ends _ _ _ _ _ _ B) as En. fold ll c in En.
        rewrite !wire_none; auto; (eapply Forall_impl; [|exact En]); cbv beta; intros; lia.
    + (* nothing loaded yet *)
      assert (ll = 0 /\ c = 0) as [E2 E3] by lia. cbn [bind].
      rewrite (bi_idles _ _ _ _ _ _ B), bus_diff_beat by auto.
      rewrite stats_mul_wrap, stats_add_wrap. f_equal. f_equal.
      rewrite <- !add_exact_assoc. f_equal.
      replace (N.to_nat (lb - 1 - ll)) with 0%nat by lia. cbn [sum_beats]. rewrite add_exact_comm, add_exact_0.
      replace (u64_sub (u64_sub vt (ll + c)) 1) with (vt - ll - 1).
      2: { rewrite E2, E3. unfold u64_sub. rewrite N.mod_0_l by exact two64_pos. rewrite (N.mod_small 1) by reflexivity.
           replace (vt + two64 - 0) with (vt + 1 * two64) by lia. rewrite N.mod_add, (N.mod_small vt) by (lia || exact two64_pos).
           replace (vt + two64 - 1) with (vt - 1 + 1 * two64) by lia. rewrite N.mod_add, N.mod_small by (lia || exact two64_pos). lia. }
      symmetry. rewrite (sum_beats_const (beat_stats width idle idle)); [f_equal; lia|].
      intros i Hi. unfold beat_at, wire_before. destruct (N.eqb_spec (ll + 1 + i) 0); [lia|].
      pose proof (bi_ends _ _ _ _ _ _ B) as En. fold ll c in En.
      rewrite !wire_none; auto; (eapply Forall_impl; [|exact En]); cbv beta; intros; lia.
  - cbn [bind]. f_equal. f_equal. f_equal. f_equal. lia.
Qed.

(* The statistics at a time after the last load. *)
Lemma collected_ok ls b vt : bus_inv max width rate idle ls b -> b_last_load b <= vt -> vt < two64 ->
  advance_stats b vt (if pd_set (b_pending b) && (pd_time (b_pending b) <? vt)
                      then stats_add (b_stats b) (pd_stats (b_pending b)) else b_stats b) =
  Value (wrap_stats (wave_stats width idle (drives_of width rate ls) vt)).
Proof.
  intros B Hvt H64. rewrite (bi_pend _ _ _ _ _ _ B), (bi_stats _ _ _ _ _ _ B). cbn [set_pending pd_set pd_time pd_stats andb].
  destruct (N.ltb_spec (b_last_load b) vt) as [L|L].
  - rewrite stats_add_wrap, <- wave_stats_next, (advance_ok ls) by (auto; lia).
    rewrite (wave_stats_split width idle _ (b_last_load b + 1) vt) by lia.
    replace (vt - (b_last_load b + 1)) with (vt - b_last_load b - 1) by lia. reflexivity.
  - assert (vt = b_last_load b) as -> by lia.
    assert (forall S, advance_stats b (b_last_load b) (wrap_stats S) = Value (wrap_stats S)) as A; [|apply A].
    intros S. unfold advance_stats.
    assert (storage_end (b_store b) = b_last_load b + N.of_nat (bc_count (b_store b))) as ->.
    { unfold storage_end. rewrite (bi_load _ _ _ _ _ _ B). apply N.mod_small. apply (bi_end _ _ _ _ _ _ B). }
    replace (N.min (b_last_load b + N.of_nat (bc_count (b_store b))) (b_last_load b)) with (b_last_load b) by lia.
    assert ((if b_last_load b =? 0 then [] else times (b_last_load b) (b_last_load b - 1)) = []) as ->.
    { destruct (b_last_load b =? 0); auto. unfold times. replace (N.to_nat (b_last_load b - 1 - b_last_load b)) with 0%nat by lia. reflexivity. }
    cbn [loop bind]. destruct (N.ltb_spec (b_last_load b + N.of_nat (bc_count (b_store b))) (b_last_load b)); [lia|]. reflexivity.
Qed.

Theorem get_stats_ok ls b t : bus_inv max width rate idle ls b -> last_start rate ls <= t * rate -> t * rate < two64 ->
  bus_get_stats b t = Value (wrap_stats (wave_stats width idle (drives_of width rate ls) (t * rate))).
Proof.
  intros B Ht H64. rewrite <- (bi_ll _ _ _ _ _ _ B) in Ht.
  unfold bus_get_stats. rewrite (bi_rate _ _ _ _ _ _ B). unfold u64_mul. rewrite N.mod_small by auto.
  unfold check. destruct (N.leb_spec (b_last_load b) (t * rate)); [|lia].
  rewrite (bi_on _ _ _ _ _ _ B).
  destruct (N.eqb_spec (t * rate) 0) as [E|E].
  - rewrite E. assert (b_last_load b = 0) as L by lia. rewrite (bi_stats _ _ _ _ _ _ B), L. reflexivity.
  - apply (collected_ok ls); auto.
Qed.

(* ---- loading ---- *)

Lemma played_length data n_bits : length (played width data n_bits) = Nat.div n_bits width.
Proof. unfold played, payload_words. rewrite rev_length, map_length, seq_length. reflexivity. Qed.

Lemma played_nth data n_bits n : (n < Nat.div n_bits width)%nat ->
  nth n (played width data n_bits) idle = stored_word width data false (Nat.div n_bits width - 1 - n).
Proof.
  intros H. unfold played, payload_words.
  rewrite rev_nth by (rewrite map_length, seq_length; auto). rewrite map_length, seq_length.
  set (m := (Nat.div n_bits width - S n)%nat). replace (Nat.div n_bits width - 1 - n)%nat with m by lia.
  set (F := fun i => word_of width (fun j => payload_bit data (i * width + j))).
  rewrite (nth_indep (map F (seq 0 (Nat.div n_bits width))) idle (F 0%nat)) by (rewrite map_length, seq_length; unfold m; lia).
  rewrite map_nth, seq_nth by (unfold m; lia). reflexivity.
Qed.

Lemma load_ok_inv ls b l : bus_inv max width rate idle ls b -> load_ok width rate l ->
  b_last_load b + N.of_nat (bc_count (b_store b)) <= lo_time l * rate ->
  exists b', bus_load b (lo_time l) (lo_data l) (lo_bits l) = Value b' /\
    bus_inv max width rate idle (ls ++ [l]) b' /\
    b_last_load b' = lo_time l * rate /\ bc_count (b_store b') = Nat.div (lo_bits l) width.
Proof.
  intros B [L1 [L2 L3]] Hs.
  assert (0 < Nat.div (lo_bits l) width)%nat as Hc by (apply Nat.div_str_pos; lia).
  set (vt := lo_time l * rate) in *. set (cnt := Nat.div (lo_bits l) width) in *.
  assert (vt < two64) as V64 by lia.
  unfold bus_load. rewrite (bi_on _ _ _ _ _ _ B), (bi_rate _ _ _ _ _ _ B).
  destruct (N.eqb_spec rate 0) as [|_]; [lia|].
  unfold check at 1. assert (lo_time l <=? (two64 - 1) / rate = true) as ->.
  { apply N.leb_le. apply N.div_le_lower_bound; lia. }
  unfold u64_mul. fold vt. rewrite (N.mod_small vt) by auto.
  unfold u64_add. rewrite (N.mod_small (_ + _)) by (apply (bi_end _ _ _ _ _ _ B)).
  unfold check at 1. destruct (N.leb_spec (b_last_load b + N.of_nat (bc_count (b_store b))) vt); [|lia].
  unfold add_previous_stats.
  pose proof (collected_ok ls b vt B ltac:(lia) V64) as CO.
  set (due := pd_set (b_pending b) && (pd_time (b_pending b) <? vt)) in *.
  rewrite CO. clear CO. cbn [bind].
  assert (pd_time (b_pending b) <=? vt = true) as -> by (rewrite (bi_pend _ _ _ _ _ _ B); cbn; lia).
  unfold check at 1.
  set (D := drives_of width rate ls) in *.
  assert (exists lst, (if 0 <? vt then bus_at b (vt - 1) else Value (b_last b)) = Value lst /\
                      (0 < vt -> lst = wire idle D (vt - 1)) /\ (vt = 0 -> lst = b_last b)) as [lst [El [Hlst Hlst0]]].
  { destruct (N.ltb_spec 0 vt).
    - rewrite (bi_at _ _ _ _ _ _ B). { eexists. split; [reflexivity|]. split; [auto|lia]. }
      destruct (N.eq_dec (b_last_load b) 0); [lia|].
      assert (bc_count (b_store b) <> 0%nat) by (intros Z; apply (bi_first _ _ _ _ _ _ B) in Z; lia). lia.
    - eexists. split; [reflexivity|]. split; [lia|auto]. }
  rewrite El. cbn [bind].
  unfold add_data. cbn [with_store with_stats b_max b_width b_store b_last_load b_last b_idle b_pending b_stats].
  rewrite (bi_max _ _ _ _ _ _ B), (bi_width _ _ _ _ _ _ B).
  destruct (insert_data_ok max (storage_clear (b_store b)) vt width (lo_data l) (lo_bits l) false Hw L2)
    as [c' [I1 [I2 [I3 [I4 [I5 [I6 I7]]]]]]].
  { exact (bi_clean _ _ _ _ _ _ B). }
  rewrite I1. cbn [bind]. fold cnt in I4.
  set (D' := D ++ [(vt, played width (lo_data l) (lo_bits l))]).
  assert (drives_of width rate (ls ++ [l]) = D') as ED by (unfold D', D, drives_of; rewrite map_app; reflexivity).
  assert (Forall (fun d => drive_end d <= vt) D) as Ends.
  { pose proof (bi_ends _ _ _ _ _ _ B) as En. fold D in En. eapply Forall_impl; [|exact En]. cbv beta. intros; lia. }
  (* the wires from vt on *)
  assert (forall n, vt <= n -> wire idle D' n = nth (N.to_nat (n - vt)) (played width (lo_data l) (lo_bits l)) idle) as W1.
  { intros n Hn. unfold D'. rewrite wire_app_after by (eapply Forall_impl; [|exact Ends]; cbv beta; intros; lia).
    apply wire_single. auto. }
  assert (forall n, n < vt -> wire idle D' n = wire idle D n) as W2.
  { intros n Hn. apply wire_app_before. repeat constructor. exact Hn. }
  assert (forall n, vt <= n ->
    (if N.of_nat cnt <=? n - vt then Value idle else storage_get c' (N.to_nat (n - vt))) = Value (wire idle D' n)) as A1.
  { intros n Hn. rewrite W1 by auto. destruct (N.leb_spec (N.of_nat cnt) (n - vt)).
    - rewrite nth_overflow; auto. rewrite played_length. fold cnt. lia.
    - rewrite storage_get_ok by lia. rewrite I7 by lia. rewrite played_nth by (fold cnt; lia). fold cnt. rewrite I4. reflexivity. }
  assert (forall bb, b_last_load bb = vt -> b_store bb = c' -> b_idle bb = idle -> forall n, vt <= n -> bus_at bb n = Value (wire idle D' n)) as A2.
  { intros bb E1 E2 E3 n Hn. unfold bus_at. rewrite E1, E2, E3, I4. unfold check. destruct (N.leb_spec vt n); [|lia]. apply A1. auto. }
  set (b1 := with_store (with_store _ _ _) _ _).
  rewrite (A2 b1); [|reflexivity|reflexivity|apply (bi_idle _ _ _ _ _ _ B)|apply N.le_refl].
  cbn [bind].
  assert (forall n, bounded width (wire idle D' n)) as Bd.
  { intros n. destruct (N.lt_ge_cases n vt); [rewrite W2 by auto; apply (bi_words _ _ _ _ _ _ B)|].
    rewrite W1 by auto. destruct (Nat.lt_ge_cases (N.to_nat (n - vt)) cnt).
    - rewrite played_nth by (fold cnt; lia). apply word_of_bound.
    - rewrite nth_overflow; auto. rewrite played_length. fold cnt. lia. }
  destruct (bc_count c') as [|cn] eqn:Ecn; [lia|].
  rewrite storage_get_ok by lia. cbn [bind].
  eexists. split; [reflexivity|].
  split; [|split; [reflexivity|cbn; rewrite Ecn, I4; reflexivity]].
  assert (last_start rate (ls ++ [l]) = vt) as Els by (unfold last_start; rewrite fold_left_app; reflexivity).
  constructor; rewrite ?ED; cbn [b1 with_store with_stats b_max b_width b_datarate b_enabled b_idle b_idle_stats b_store b_last_load b_pending b_stats].
  - exact (bi_max _ _ _ _ _ _ B).
  - exact (bi_width _ _ _ _ _ _ B).
  - exact (bi_rate _ _ _ _ _ _ B).
  - exact (bi_on _ _ _ _ _ _ B).
  - exact (bi_idle _ _ _ _ _ _ B).
  - exact (bi_idles _ _ _ _ _ _ B).
  - exact I2.
  - lia.
  - auto.
  - exact I5.
  - rewrite Ecn, I4. exact L3.
  - lia.
  - lia.
  - unfold D'. apply Forall_app. split; [eapply Forall_impl; [|exact Ends]; cbv beta; intros; lia|].
    repeat constructor. unfold drive_end. cbn [fst snd]. rewrite played_length. fold cnt. lia.
  - apply A2; auto. exact (bi_idle _ _ _ _ _ _ B).
  - exact Bd.
  - f_equal. unfold beat_at. rewrite <- bus_diff_beat; auto.
    + f_equal. unfold wire_before. destruct (N.eqb_spec vt 0) as [Z|Z].
      * rewrite Hlst0 by auto. apply (bi_last _ _ _ _ _ _ B). lia.
      * rewrite Hlst, W2 by lia. reflexivity.
    + unfold wire_before. destruct (vt =? 0); auto.
  - f_equal. apply wave_stats_ext. intros i Hi. symmetry. apply W2. exact Hi.
Qed.

Definition run_loads (ls : list load_op) (b : bus) : result bus :=
  loop (fun l b => bus_load b (lo_time l) (lo_data l) (lo_bits l)) ls b.

Lemma run_loads_inv ls : forall pre b, bus_inv max width rate idle pre b ->
  Forall (load_ok width rate) ls -> well_timed width rate (b_last_load b + N.of_nat (bc_count (b_store b))) ls ->
  exists b', run_loads ls b = Value b' /\ bus_inv max width rate idle (pre ++ ls) b'.
Proof.
  induction ls as [|l ls IH]; intros pre b B F T.
  - exists b. rewrite app_nil_r. split; auto.
  - inversion F as [|? ? F1 F2]; subst. destruct T as [T1 T2].
    destruct (load_ok_inv pre b l B F1 T1) as [b1 [E1 [B1 [L1 C1]]]].
    destruct (IH (pre ++ [l]) b1 B1 F2) as [b2 [E2 B2]]; [rewrite L1, C1; exact T2|].
    exists b2. unfold run_loads. cbn [loop]. rewrite E1. cbn [bind]. split; [exact E2|].
    rewrite <- app_assoc in B2. exact B2.
Qed.
End Inv.

(* ---- construction ---- *)

Lemma set_ones_ok max n : forall j w, (j + n <= max)%nat ->
  exists w', loop (fun j b => set_bit max b j true) (seq j n) w = Value w' /\
    forall i, level w' i = (Nat.leb j i && Nat.ltb i (j + n)) || level w i.
Proof.
  induction n; intros j w H.
  - exists w. split; auto. intros i. destruct (Nat.leb_spec j i), (Nat.ltb_spec i (j + 0)); cbn; auto; lia.
  - cbn [seq loop]. destruct (set_bit_ok max w j true) as [w1 E1]; [lia|]. rewrite E1. cbn [bind].
    destruct (IHn (S j) w1) as [w' [E L]]; [lia|]. exists w'. split; auto. intros i. rewrite L.
    apply set_bit_spec in E1 as [_ E1]. rewrite E1.
    destruct (Nat.leb_spec (S j) i), (Nat.leb_spec j i), (Nat.ltb_spec i (S j + n)), (Nat.ltb_spec i (j + S n)), (Nat.eqb_spec j i); cbn [andb orb]; try lia; reflexivity.
Qed.

Definition spec_of (high : bool) : idle_spec := if high then IdleH else IdleL.

Lemma idle_burst_ok max width high : (width <= max)%nat -> idle_burst max width (spec_of high) = Value (idle_word width high).
Proof.
  intros H. destruct high; cbn [idle_burst spec_of].
  - destruct (set_ones_ok max width 0 0) as [w [E L]]; [lia|]. rewrite E. f_equal.
    apply (bounded_eq width); [|apply word_of_bound|].
    + intros i Hi. rewrite L. destruct (Nat.ltb_spec i (0 + width)); [lia|]. rewrite andb_false_r. apply N.bits_0.
    + intros i Hi. rewrite L. unfold idle_word. rewrite level_word_of.
      destruct (Nat.leb_spec 0 i), (Nat.ltb_spec i (0 + width)), (Nat.ltb_spec i width); try lia; reflexivity.
  - f_equal. apply (bounded_eq width); [apply bounded_0|apply word_of_bound|].
    intros i Hi. unfold idle_word. rewrite level_word_of, andb_false_r. apply N.bits_0.
Qed.

Lemma bus_new_inv max width rate high : (0 < width <= max)%nat -> N.of_nat width < two64 ->
  exists b, bus_new max width rate (spec_of high) true = Value b /\
    bus_inv max width rate (idle_word width high) [] b /\
    b_last_load b = 0 /\ bc_count (b_store b) = 0%nat.
Proof.
  intros Hw H64. unfold bus_new. rewrite idle_burst_ok by lia. cbn [bind]. eexists. split; [reflexivity|].
  split; [|split; reflexivity].
  assert (bounded width (idle_word width high)) as BI by apply word_of_bound.
  constructor; cbn; auto; try reflexivity.
  - intros m. unfold storage_read. cbn. destruct m; apply bounded_0.
  - intros n _. unfold bus_at. cbn. destruct n; reflexivity.
  - f_equal. rewrite bus_diff_beat by auto. reflexivity.
Qed.

(* ---- the theorem ---- *)

Definition bus_after (max width : nat) (rate : N) (high : bool) (ls : list load_op) : result bus :=
  b <- bus_new max width rate (spec_of high) true ;; run_loads ls b.

Definition bus_query (max width : nat) (rate : N) (high : bool) (ls : list load_op) (t : N) : result bus_stats :=
  b <- bus_after max width rate high ls ;; bus_get_stats b t.

Lemma bus_after_inv max width rate high ls :
  (0 < width <= max)%nat -> N.of_nat width < two64 -> 0 < rate ->
  Forall (load_ok width rate) ls -> well_timed width rate 0 ls ->
  exists b, bus_after max width rate high ls = Value b /\ bus_inv max width rate (idle_word width high) ls b.
Proof.
  intros Hw H64 Hr F T. destruct (bus_new_inv max width rate high Hw H64) as [b0 [E0 [B0 [L0 C0]]]].
  unfold bus_after. rewrite E0. cbn [bind].
  destruct (run_loads_inv max width rate (idle_word width high) Hw H64 Hr (word_of_bound _ _) ls [] b0 B0 F) as [b [E B]].
  - rewrite L0, C0. exact T.
  - exists b. split; auto.
Qed.

Theorem bus_is_waveform max width rate high ls t :
  (0 < width <= max)%nat -> N.of_nat width < two64 -> 0 < rate ->
  Forall (load_ok width rate) ls -> well_timed width rate 0 ls ->
  last_start rate ls <= t * rate -> t * rate < two64 ->
  bus_query max width rate high ls t =
  Value (wrap_stats (wave_stats width (idle_word width high) (map (drive_of width rate) ls) (t * rate))).
Proof.
  intros Hw H64 Hr F T Ht Ht64.
  destruct (bus_after_inv max width rate high ls Hw H64 Hr F T) as [b [E B]].
  unfold bus_query. rewrite E. cbn [bind].
  eapply (get_stats_ok max width rate (idle_word width high)); eauto. apply word_of_bound.
Qed.

(* ---- conservation and growth ---- *)

Lemma lines_xor_split k p q : lines k (fun j => xorb (p j) (q j)) =
  lines k (fun j => p j && negb (q j)) + lines k (fun j => negb (p j) && q j).
Proof. induction k; [reflexivity|]. rewrite !lines_snoc. destruct (p k), (q k); cbn [xorb negb andb]; lia. Qed.

Lemma lines_flow k p q : lines k q + lines k (fun j => p j && negb (q j)) = lines k p + lines k (fun j => negb (p j) && q j).
Proof. induction k; [reflexivity|]. rewrite !lines_snoc. destruct (p k), (q k); cbn [xorb negb andb]; lia. Qed.

Lemma wave_conserves width idle ds n :
  let s := wave_stats width idle ds n in
  ones s + zeroes s = N.of_nat width * n /\ changes s = o2z s + z2o s /\
  (* level now + falls = level before + rises *)
  lines width (level (wire_before idle ds n)) + o2z s = lines width (level idle) + z2o s.
Proof.
  cbn zeta. rewrite <- (N2Nat.id n). generalize (N.to_nat n) as k. intros k. unfold wave_stats. rewrite Nat2N.id.
  induction k as [|k [IH1 [IH2 IH3]]].
  - cbn. split; [lia|]. split; [reflexivity|]. lia.
  - cbn [sum_beats add_exact ones zeroes changes o2z z2o beat_stats].
    pose proof (lines_negb width (level (wire idle ds (N.of_nat k)))).
    pose proof (lines_xor_split width (level (wire_before idle ds (N.of_nat k))) (level (wire idle ds (N.of_nat k)))).
    pose proof (lines_flow width (level (wire_before idle ds (N.of_nat k))) (level (wire idle ds (N.of_nat k)))).
    split; [lia|]. split; [lia|].
    replace (wire_before idle ds (N.of_nat (S k))) with (wire idle ds (N.of_nat k)).
    + lia.
    + unfold wire_before. destruct (N.eqb_spec (N.of_nat (S k)) 0); [lia|]. f_equal. lia.
Qed.

Definition stats_le (a b : bus_stats) : Prop :=
  ones a <= ones b /\ zeroes a <= zeroes b /\ changes a <= changes b /\ o2z a <= o2z b /\ z2o a <= z2o b.

Lemma wave_monotone width idle ds m n : m <= n -> stats_le (wave_stats width idle ds m) (wave_stats width idle ds n).
Proof.
  intros H. rewrite (wave_stats_split width idle ds m n H). unfold stats_le. cbn. lia.
Qed.

Lemma wave_small width idle ds n : N.of_nat width * n < two64 -> wrap_stats (wave_stats width idle ds n) = wave_stats width idle ds n.
Proof.
  intros H. destruct (wave_conserves width idle ds n) as [C1 [C2 C3]].
  assert (changes (wave_stats width idle ds n) <= N.of_nat width * n) as C4.
  { rewrite <- (N2Nat.id n). generalize (N.to_nat n) as k. clear. intros k. unfold wave_stats. rewrite Nat2N.id.
    induction k; [cbn; lia|]. cbn [sum_beats add_exact changes beat_stats].
    pose proof (lines_le width (fun j => xorb (level (wire_before idle ds (N.of_nat k)) j) (level (wire idle ds (N.of_nat k)) j))). lia. }
  apply stats_eq; cbn; apply N.mod_small; lia.
Qed.
