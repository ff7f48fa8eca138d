(* The LPDDR6 data formatter produces the frame. *)
From Coq Require Import NArith List Bool Arith Lia.
From Verif Require Import Base Bits WaveSpec BitFacts DbiProofs ListFacts StorageProofs FormatModel FormatSpec.
Import ListNotations.
Ltac Zify.zify_post_hook ::= idtac.

(* ---- the loop variables do not depend on the data ---- *)

Definition next_ctl (s : nat * nat * nat) : nat * nat * nat :=
  match s with (x, b, d) =>
    let data_now := negb (is_meta b d || is_dbi b d) in
    let wrap := Nat.eqb 12 (d + 1) in
    (x + (if data_now then 1 else 0), b + (if wrap then 1 else 0), if wrap then 0 else d + 1)
  end.
Fixpoint ctl (i : nat) : nat * nat * nat := match i with O => (0, 0, 0) | S i => next_ctl (ctl i) end.

Definition source_eqb (a b : source) : bool :=
  match a, b with
  | Data i, Data j => Nat.eqb i j | Meta h i, Meta k j => Nat.eqb h k && Nat.eqb i j | Flag i, Flag j => Nat.eqb i j | _, _ => false
  end.
Lemma source_eqb_eq a b : source_eqb a b = true -> a = b.
Proof.
  destruct a, b; cbn; try discriminate; rewrite ?andb_true_iff, ?Nat.eqb_eq; intros H; [now subst|destruct H; now subst|now subst].
Qed.
Definition row_ok (i : nat) : bool :=
  match ctl i with (x, b, d) =>
    match nth_error data_bit_mapping x with
    | None => false
    | Some m => Nat.ltb m 256 && Nat.ltb (bit_offset b d) 32 &&
        source_eqb (shows 0 (i / 12) (i mod 12))
          (if is_dbi b d then Flag (bit_offset b d) else if is_meta b d then Meta 0 (bit_offset b d) else Data m) &&
        (if is_dbi b d then Nat.ltb (bit_offset b d) 16 && negb (is_meta b d) else if is_meta b d then Nat.ltb (bit_offset b d) 16 else true)
    end
  end.
Lemma rows_ok : forallb row_ok (seq 0 288) = true.
Proof. vm_compute. reflexivity. Qed.
Lemma row i : i < 288 -> row_ok i = true.
Proof. intros H. pose proof rows_ok as R. rewrite forallb_forall in R. apply R, in_seq. lia. Qed.

Definition in_half (h : nat) (s : source) : source :=
  match s with Data i => Data (256 * h + i) | Meta _ i => Meta h i | Flag i => Flag (16 * h + i) end.
Lemma shows_half h t q : shows h t q = in_half h (shows 0 t q).
Proof.
  unfold shows. destruct (t / 4) as [|[|[|[|[|[|g]]]]]], (extra_pin q); cbn [in_half]; f_equal; lia.
Qed.

(* ---- writing bits ---- *)

Lemma value_inj {A} (a b : A) : Value a = Value b -> a = b.
Proof. now intros [= ->]. Qed.
Lemma payload_or buf k v buf' : or_bit buf k v = Value buf' -> length buf' = length buf /\ forall j, payload_bit buf' j = payload_bit buf j || (Nat.eqb j k && v).
Proof.
  unfold or_bit. destruct (Nat.ltb_spec (k / 8) (length buf)) as [H|H]; [|discriminate]. intros E. apply value_inj in E. subst buf'. split; [apply length_upd|].
  intros j. unfold payload_bit. set (g := fun b => N.lor b _). rewrite nth_upd.
  assert (Nat.eqb j k = Nat.eqb (j / 8) (k / 8) && Nat.eqb (j mod 8) (k mod 8)) as Hjk.
  { pose proof (Nat.div_mod j 8 ltac:(lia)). pose proof (Nat.div_mod k 8 ltac:(lia)).
    destruct (Nat.eqb_spec j k) as [->|Hn]; [now rewrite !Nat.eqb_refl|]. symmetry. apply andb_false_iff.
    destruct (Nat.eqb_spec (j / 8) (k / 8)) as [E|E]; [right|now left]. apply Nat.eqb_neq. lia. }
  rewrite Hjk. destruct (Nat.eqb_spec (j / 8) (k / 8)) as [E|E]; [|rewrite !andb_false_l; now rewrite orb_false_r].
  rewrite !andb_true_l. rewrite E. rewrite (proj2 (Nat.ltb_lt _ _) H). unfold g. rewrite N.lor_spec. f_equal. destruct v; [|now rewrite andb_false_r].
  rewrite andb_true_r, N.shiftl_1_l, N.pow2_bits_eqb. destruct (Nat.eqb_spec (j mod 8) (k mod 8)) as [->|F]; [apply N.eqb_refl|]. apply N.eqb_neq. lia.
Qed.
Lemma or_ok buf k v : k < 8 * length buf -> exists buf', or_bit buf k v = Value buf'.
Proof. intros H. unfold or_bit. destruct (Nat.ltb_spec (k / 8) (length buf)) as [L|L]; [eauto|]. pose proof (Nat.div_lt_upper_bound k 8 (length buf)). lia. Qed.

(* ---- one burst ---- *)

Section Burst.
  Variables (wild : option (nat -> bool)) (meta : N * N) (data : list N) (inv : option (list bool)) (n h : nat).
  Hypothesis Hn : n = 1 \/ n = 2.
  Hypothesis Hh : h < n.
  Hypothesis Hdata : 256 * n <= 8 * length data.
  Hypothesis Hwild : n = 2 -> wild <> None.

  Definition meta_of (k : nat) : N := if Nat.eqb k 0 then fst meta else snd meta.
  Definition flags : list bool := match inv with Some l => l | None => [] end.

  Lemma dbi_word_bit k : k < 32 -> N.testbit (dbi_word inv) (N.of_nat k) = nth k flags false.
  Proof.
    intros Hk. unfold dbi_word, flags. destruct inv as [l|]; [|now destruct k].
    assert (forall m from w, N.testbit (fold_left (fun w i => N.lor w (if nth i l false then N.shiftl 1 (N.of_nat i) else 0%N)) (seq from m) w) (N.of_nat k) =
      N.testbit w (N.of_nat k) || (Nat.leb from k && Nat.ltb k (from + m) && nth k l false)) as F.
    { induction m as [|m IH]; intros from w; cbn [seq fold_left].
      - destruct (Nat.leb_spec from k), (Nat.ltb_spec k (from + 0)); try lia; cbn; now rewrite orb_false_r.
      - rewrite IH, N.lor_spec. rewrite <- orb_assoc. f_equal.
        assert (N.testbit (if nth from l false then N.shiftl 1 (N.of_nat from) else 0%N) (N.of_nat k) = Nat.eqb from k && nth from l false) as ->.
        { destruct (nth from l false); [|rewrite andb_false_r; apply N.bits_0]. rewrite andb_true_r.
          rewrite N.shiftl_1_l, N.pow2_bits_eqb. destruct (Nat.eqb_spec from k) as [->|]; [apply N.eqb_refl|]. apply N.eqb_neq. lia. }
        destruct (Nat.eqb_spec from k) as [->|Hne].
        + rewrite (proj2 (Nat.leb_gt (S k) k)) by lia. rewrite (proj2 (Nat.leb_le k k)) by lia. rewrite (proj2 (Nat.ltb_lt k (k + S m))) by lia. cbn [andb]. apply orb_false_r.
        + cbn [andb orb]. destruct (Nat.leb_spec (S from) k), (Nat.leb_spec from k), (Nat.ltb_spec k (S from + m)), (Nat.ltb_spec k (from + S m)); try lia; reflexivity. }
    rewrite F, N.bits_0. cbn [orb Nat.leb Nat.add]. destruct (Nat.ltb_spec k (Nat.min (length l) 32)); [reflexivity|].
    cbn [andb]. symmetry. apply nth_overflow. lia.
  Qed.

  (* Buffer bit k of half h, in the order of the loop. *)
  Definition at_step (i : nat) : nat := n * 288 - 1 - (h * 288 + i).
  Definition value_at (i : nat) : bool := source_value data meta_of flags (shows h (i / 12) (i mod 12)).

  Lemma step_value i s : i < 288 -> (f_idx s, f_burst s, f_dq s) = ctl i -> length (f_buf s) = n * 36 + (length (f_buf s) - n * 36) ->
    exists s', fmt_step wild meta data (dbi_word inv) n h i s = Value s' /\ (f_idx s', f_burst s', f_dq s') = ctl (S i) /\
    length (f_buf s') = length (f_buf s) /\ forall j, payload_bit (f_buf s') j = payload_bit (f_buf s) j || (Nat.eqb j (at_step i) && value_at i).
  Proof.
    intros Hi Hc Hlen. pose proof (row i Hi) as R. unfold row_ok in R. rewrite <- Hc in R. unfold fmt_step.
    destruct (nth_error data_bit_mapping (f_idx s)) as [m|]; [|discriminate].
    apply andb_true_iff in R as [R R4]. apply andb_true_iff in R as [R R3]. apply andb_true_iff in R as [R1 R2].
    apply Nat.ltb_lt in R1, R2. apply source_eqb_eq in R3.
    assert (nth_error data ((payload_bits * h + m) / 8) = Some (nth ((payload_bits * h + m) / 8) data 0%N)) as Ed.
    { apply nth_error_nth'. unfold payload_bits. apply Nat.div_lt_upper_bound; [lia|]. destruct Hn as [-> | ->]; lia. }
    unfold input_bit. rewrite Ed. cbn [bind].
    assert (exists db, shift_bit wild (dbi_word inv) (16 * h + bit_offset (f_burst s) (f_dq s)) = Value db /\
      (is_dbi (f_burst s) (f_dq s) = true -> db = nth (16 * h + bit_offset (f_burst s) (f_dq s)) flags false)) as (db & Es & Hdb).
    { unfold shift_bit. destruct (Nat.ltb_spec (16 * h + bit_offset (f_burst s) (f_dq s)) 32) as [L|L].
      - eexists. split; [reflexivity|]. intros _. now apply dbi_word_bit.
      - assert (n = 2) as N2 by (destruct Hn; [lia|assumption]). destruct wild as [f|] eqn:Ew; [|now contradiction (Hwild N2)].
        eexists. split; [reflexivity|]. intros D. exfalso. rewrite D in R4. apply andb_true_iff in R4 as [R4 _]. apply Nat.ltb_lt in R4. lia. }
    rewrite Es. cbn [bind].
    match goal with |- context [or_bit (f_buf s) ?k ?v] => destruct (or_ok (f_buf s) k v) as [buf' Eb] end.
    { unfold burst_bits. destruct Hn as [-> | ->]; lia. }
    rewrite Eb. cbn [bind]. eexists. split; [reflexivity|]. cbn [f_idx f_burst f_dq f_buf].
    split. { cbn [ctl]. rewrite <- Hc. reflexivity. }
    apply payload_or in Eb as [El Eb]. split; [exact El|]. intros j. rewrite Eb. f_equal. f_equal.
    unfold value_at. rewrite shows_half, R3.
    destruct (is_dbi (f_burst s) (f_dq s)) eqn:D; cbn [in_half source_value].
    - apply andb_true_iff in R4 as [_ R4]. apply negb_true_iff in R4. rewrite R4. cbn [orb negb andb]. rewrite !andb_false_r, !andb_true_r, !orb_false_r. now apply Hdb.
    - destruct (is_meta (f_burst s) (f_dq s)) eqn:M; cbn [in_half source_value orb negb andb]; rewrite !andb_false_r, ?andb_true_r, ?orb_false_r; reflexivity.
  Qed.

  Lemma burst_value buf : n * 36 <= length buf -> exists buf', fmt_burst wild meta data (dbi_word inv) n h buf = Value buf' /\ length buf' = length buf /\
    forall j, payload_bit buf' j = payload_bit buf j || (Nat.leb (at_step 287) j && Nat.leb j (at_step 0) && value_at (at_step 0 - j)).
  Proof.
    intros Hl. unfold fmt_burst.
    destruct (loop_total (fmt_step wild meta data (dbi_word inv) n h)
      (fun i s => (f_idx s, f_burst s, f_dq s) = ctl i /\ length (f_buf s) = length buf /\
         forall j, payload_bit (f_buf s) j = payload_bit buf j || (Nat.leb (at_step 0 + 1 - i) j && Nat.leb j (at_step 0) && value_at (at_step 0 - j)))
      288 0 (mkFmt 0 0 0 buf)) as (s & E & _ & L & P).
    - cbn [f_idx f_burst f_dq f_buf ctl]. split; [reflexivity|]. split; [reflexivity|]. intros j.
      destruct (Nat.leb_spec (at_step 0 + 1 - 0) j), (Nat.leb_spec j (at_step 0)); try lia; cbn; now rewrite orb_false_r.
    - intros i s Hi (C & L & P). destruct (step_value i s ltac:(lia) C ltac:(lia)) as (s' & E & C' & L' & P').
      exists s'. split; [exact E|]. split; [exact C'|]. split; [lia|]. intros j. rewrite P', P, <- orb_assoc. f_equal.
      assert (at_step i = at_step 0 - i /\ i <= at_step 0) as [A B] by (unfold at_step; destruct Hn as [-> | ->]; lia).
      destruct (Nat.eqb_spec j (at_step i)) as [->|Hne].
      + rewrite (proj2 (Nat.leb_gt (at_step 0 + 1 - i) (at_step i))) by lia. rewrite (proj2 (Nat.leb_le (at_step 0 + 1 - S i) (at_step i))) by lia.
        rewrite (proj2 (Nat.leb_le (at_step i) (at_step 0))) by lia. cbn [andb orb]. f_equal. lia.
      + cbn [andb]. rewrite orb_false_r. destruct (Nat.leb_spec (at_step 0 + 1 - i) j), (Nat.leb_spec (at_step 0 + 1 - S i) j), (Nat.leb_spec j (at_step 0)); try lia; reflexivity.
    - rewrite E. cbn [bind]. exists (f_buf s). split; [reflexivity|]. split; [exact L|]. intros j. rewrite P. f_equal. f_equal. f_equal.
      assert (at_step 0 + 1 - (0 + 288) = at_step 287) as -> by (unfold at_step; destruct Hn as [-> | ->]; lia). reflexivity.
  Qed.
End Burst.

(* ---- the whole burst ---- *)

Lemma payload_zero k j : payload_bit (repeat 0%N k) j = false.
Proof. unfold payload_bit. destruct (Nat.lt_ge_cases (j / 8) k); [rewrite nth_repeat|rewrite nth_overflow by (rewrite repeat_length; lia)]; apply N.bits_0. Qed.
Lemma payload_app a b j : j < 8 * length a -> payload_bit (a ++ b) j = payload_bit a j.
Proof. intros H. unfold payload_bit. rewrite app_nth1; [reflexivity|]. apply Nat.div_lt_upper_bound; lia. Qed.

Lemma format_bits wild meta old data inv n : n = 1 \/ n = 2 -> 256 * n <= 8 * length data -> (n = 2 -> wild <> None) ->
  exists r, format_data wild meta old (Some data) (256 * n) inv = Value (Some r, n * 288) /\ n * 36 <= length r /\
  forall h i, h < n -> i < 288 -> payload_bit r (n * 288 - 1 - (h * 288 + i)) = source_value data (meta_of meta) (flags inv) (shows h (i / 12) (i mod 12)).
Proof.
  intros Hn Hd Hw. unfold format_data.
  assert ((burst_bits - additional_bits =? 256 * n) || (2 * (burst_bits - additional_bits) =? 256 * n) = true /\ (if 2 * (burst_bits - additional_bits) =? 256 * n then 2 else 1) = n) as [-> ->]
    by (destruct Hn as [-> | ->]; split; reflexivity).
  cbn [check]. set (buf := repeat 0%N (n * burst_bytes) ++ skipn (n * burst_bytes) old).
  assert (n * 36 <= length buf) as Hl by (unfold buf, burst_bytes; rewrite app_length, repeat_length; lia).
  destruct (loop_total (fun h b => fmt_burst wild meta data (dbi_word inv) n h b)
    (fun k b => length b = length buf /\ (forall h i, h < k -> i < 288 -> payload_bit b (n * 288 - 1 - (h * 288 + i)) = source_value data (meta_of meta) (flags inv) (shows h (i / 12) (i mod 12))) /\
       (forall j, j < (n - k) * 288 -> payload_bit b j = false)) n 0 buf) as (r & E & L & P & _).
  - split; [reflexivity|]. split; [intros; lia|]. intros j Hj. unfold buf. rewrite payload_app by (rewrite repeat_length; unfold burst_bytes; lia). apply payload_zero.
  - intros k b Hk (L & P & Z). destruct (burst_value wild meta data inv n k Hn ltac:(lia) Hd Hw b ltac:(lia)) as (b' & E & L' & P').
    exists b'. split; [exact E|]. split; [lia|].
    assert (at_step n k 0 = (n - k) * 288 - 1 /\ at_step n k 287 = (n - S k) * 288) as [A0 A1] by (unfold at_step; destruct Hn as [-> | ->]; [destruct k; lia|destruct k as [|[|]]; lia]).
    split.
    + intros h i Hh Hi. rewrite P'. rewrite A0, A1. destruct (Nat.eq_dec h k) as [->|Hne].
      * rewrite (Z _) by (destruct Hn as [-> | ->]; lia). cbn [orb].
        rewrite (proj2 (Nat.leb_le _ _)) by (destruct Hn as [-> | ->]; lia). rewrite (proj2 (Nat.leb_le _ _)) by (destruct Hn as [-> | ->]; lia). cbn [andb].
        unfold value_at. replace ((n - k) * 288 - 1 - (n * 288 - 1 - (k * 288 + i))) with i by (destruct Hn as [-> | ->]; lia). reflexivity.
      * rewrite P by lia. rewrite (proj2 (Nat.leb_gt (n * 288 - 1 - (h * 288 + i)) ((n - k) * 288 - 1))) by (destruct Hn as [-> | ->]; lia). rewrite andb_false_r. apply orb_false_r.
    + intros j Hj. rewrite P', A1, Z by (destruct Hn as [-> | ->]; lia). rewrite (proj2 (Nat.leb_gt ((n - S k) * 288) j)) by lia. reflexivity.
  - rewrite E. cbn [bind]. exists r. split; [reflexivity|]. split; [lia|]. exact P.
Qed.

Theorem format_frame wild meta old data inv n : n = 1 \/ n = 2 -> 256 * n <= 8 * length data -> (n = 2 -> wild <> None) ->
  exists r, format_data wild meta old (Some data) (256 * n) inv = Value (Some r, n * 288) /\
  forall h t q, position n (h, t, q) ->
    level (nth (24 * h + t) (played 12 r (n * 288)) 0%N) (11 - q) = source_value data (fun k => if Nat.eqb k 0 then fst meta else snd meta) (flags inv) (shows h t q).
Proof.
  intros Hn Hd Hw. destruct (format_bits wild meta old data inv n Hn Hd Hw) as (r & E & Hl & P). exists r. split; [exact E|].
  intros h t q (Hh & Ht & Hq). specialize (P h (12 * t + q) Hh ltac:(lia)).
  assert ((12 * t + q) / 12 = t) as Dt by (symmetry; apply (Nat.div_unique _ 12 t q); lia).
  assert ((12 * t + q) mod 12 = q) as Mq by (symmetry; apply (Nat.mod_unique _ 12 t q); lia).
  rewrite Dt, Mq in P. unfold meta_of in P. rewrite <- P.
  unfold played, payload_words.
  assert (n * 288 / 12 = 24 * n) as -> by (destruct Hn as [-> | ->]; reflexivity).
  set (f := fun i => word_of 12 (fun j => payload_bit r (i * 12 + j))).
  rewrite rev_nth by (rewrite map_length, seq_length; lia). rewrite map_length, seq_length.
  rewrite (nth_indep _ 0%N (f 0)) by (rewrite map_length, seq_length; lia). rewrite map_nth, seq_nth by lia. unfold f.
  rewrite level_word_of. rewrite (proj2 (Nat.ltb_lt _ _)) by lia. cbn [andb]. f_equal. destruct Hn as [-> | ->]; lia.
Qed.

(* Every source has exactly one position. *)
Definition sources0 : list source := map Data (seq 0 256) ++ map (Meta 0) (seq 0 16) ++ map Flag (seq 0 16).
Definition positions0 : list (nat * nat) := list_prod (seq 0 24) (seq 0 12).
Lemma unique_check : forallb (fun s => match filter (fun p => source_eqb (shows 0 (fst p) (snd p)) s) positions0 with [_] => true | _ => false end) sources0 = true.
Proof. vm_compute. reflexivity. Qed.
Lemma source_eqb_refl s : source_eqb s s = true.
Proof. destruct s; cbn; now rewrite ?Nat.eqb_refl. Qed.
Lemma unique0 s : source_of 1 s -> exists t q, t < 24 /\ q < 12 /\ shows 0 t q = s /\ forall t' q', t' < 24 -> q' < 12 -> shows 0 t' q' = s -> t' = t /\ q' = q.
Proof.
  intros Hs. pose proof unique_check as U. rewrite forallb_forall in U.
  assert (In s sources0) as Hin.
  { unfold sources0. rewrite !in_app_iff, !in_map_iff. destruct s as [i|h i|i]; cbn in Hs.
    - left. exists i. split; [reflexivity|]. apply in_seq. lia.
    - right. left. exists i. split; [f_equal; lia|]. apply in_seq. lia.
    - right. right. exists i. split; [reflexivity|]. apply in_seq. lia. }
  specialize (U s Hin). destruct (filter _ positions0) as [|[t q] [|]] eqn:F; try discriminate.
  assert (In (t, q) [(t, q)]) as I by now left. rewrite <- F in I. apply filter_In in I as [I1 I2]. apply in_prod_iff in I1 as [I1 I3]. apply in_seq in I1, I3. apply source_eqb_eq in I2.
  exists t, q. split; [lia|]. split; [lia|]. split; [exact I2|]. intros t' q' Ht Hq H.
  assert (In (t', q') [(t, q)]) as [X|[]].
  { rewrite <- F. apply filter_In. split; [apply in_prod_iff; split; apply in_seq; lia|]. cbn [fst snd]. rewrite H. apply source_eqb_refl. }
  injection X as <- <-. split; reflexivity.
Qed.
Theorem every_source_once n s : source_of n s -> exists p, position n p /\ (let '(h, t, q) := p in shows h t q = s) /\
  forall p', position n p' -> (let '(h, t, q) := p' in shows h t q = s) -> p' = p.
Proof.
  intros Hs. set (h := match s with Data i => i / 256 | Meta h _ => h | Flag i => i / 16 end).
  set (s0 := match s with Data i => Data (i mod 256) | Meta _ i => Meta 0 i | Flag i => Flag (i mod 16) end).
  assert (source_of 1 s0 /\ in_half h s0 = s /\ h < n) as (H0 & H1 & H2).
  { unfold h, s0. destruct s as [i|k i|i]; cbn [source_of in_half] in *.
    - pose proof (Nat.div_mod i 256 ltac:(lia)). pose proof (Nat.mod_upper_bound i 256 ltac:(lia)). split; [lia|]. split; [f_equal; lia|]. apply Nat.div_lt_upper_bound; lia.
    - split; [lia|]. split; [reflexivity|lia].
    - pose proof (Nat.div_mod i 16 ltac:(lia)). pose proof (Nat.mod_upper_bound i 16 ltac:(lia)). split; [lia|]. split; [f_equal; lia|]. apply Nat.div_lt_upper_bound; lia. }
  destruct (unique0 s0 H0) as (t & q & Ht & Hq & E & U). exists (h, t, q). split; [cbn; lia|]. split; [now rewrite shows_half, E|].
  intros [[h' t'] q'] (P1 & P2 & P3) P. rewrite shows_half in P.
  assert (source_of 1 (shows 0 t' q')) as Hv.
  { pose proof (row (12 * t' + q') ltac:(lia)) as R. unfold row_ok in R. destruct (ctl (12 * t' + q')) as [[x b] d].
    assert ((12 * t' + q') / 12 = t') as Dt by (symmetry; apply (Nat.div_unique _ 12 t' q'); lia).
    assert ((12 * t' + q') mod 12 = q') as Mq by (symmetry; apply (Nat.mod_unique _ 12 t' q'); lia). rewrite Dt, Mq in R.
    destruct (nth_error data_bit_mapping x) as [m|]; [|discriminate]. apply andb_true_iff in R as [R R4]. apply andb_true_iff in R as [R R3]. apply andb_true_iff in R as [R1 R2].
    apply source_eqb_eq in R3. rewrite R3. apply Nat.ltb_lt in R1. destruct (is_dbi b d).
    - apply andb_true_iff in R4 as [R4 _]. apply Nat.ltb_lt in R4. cbn. lia.
    - destruct (is_meta b d); [apply Nat.ltb_lt in R4; cbn; lia|]. cbn. lia. }
  assert (h' = h /\ shows 0 t' q' = s0) as [-> E'].
  { destruct (shows 0 t' q') as [i|k i|i], s0 as [j|l j|j]; cbn [in_half source_of] in *; try congruence;
      [assert (256 * h' + i = 256 * h + j) by congruence; assert (h' = h) by lia; split; [assumption|f_equal; lia]
      |assert (h' = h /\ i = j) as [-> ->] by (split; congruence); split; [reflexivity|f_equal; lia]
      |assert (16 * h' + i = 16 * h + j) by congruence; assert (h' = h) by lia; split; [assumption|f_equal; lia]]. }
  destruct (U t' q' P2 P3 E') as [-> ->]. reflexivity.
Qed.
(* Conversely every position shows a source of the burst. *)
Theorem every_position_shows n h t q : position n (h, t, q) -> source_of n (shows h t q).
Proof.
  intros (H1 & H2 & H3). rewrite shows_half.
  assert (source_of 1 (shows 0 t q)) as Hv.
  { pose proof (row (12 * t + q) ltac:(lia)) as R. unfold row_ok in R. destruct (ctl (12 * t + q)) as [[x b] d].
    assert ((12 * t + q) / 12 = t) as Dt by (symmetry; apply (Nat.div_unique _ 12 t q); lia).
    assert ((12 * t + q) mod 12 = q) as Mq by (symmetry; apply (Nat.mod_unique _ 12 t q); lia). rewrite Dt, Mq in R.
    destruct (nth_error data_bit_mapping x) as [m|]; [|discriminate]. apply andb_true_iff in R as [R R4]. apply andb_true_iff in R as [R R3]. apply andb_true_iff in R as [R1 R2].
    apply source_eqb_eq in R3. rewrite R3. apply Nat.ltb_lt in R1. destruct (is_dbi b d).
    - apply andb_true_iff in R4 as [R4 _]. apply Nat.ltb_lt in R4. cbn. lia.
    - destruct (is_meta b d); [apply Nat.ltb_lt in R4; cbn; lia|]. cbn. lia. }
  destruct (shows 0 t q); cbn in *; lia.
Qed.

(* Nothing is lost. *)
Theorem format_injective wild wild' meta meta' old old' data data' inv inv' n r r' : n = 1 \/ n = 2 -> (n = 2 -> wild <> None) -> (n = 2 -> wild' <> None) ->
  256 * n <= 8 * length data -> 256 * n <= 8 * length data' ->
  format_data wild meta old (Some data) (256 * n) inv = Value (Some r, n * 288) ->
  format_data wild' meta' old' (Some data') (256 * n) inv' = Value (Some r', n * 288) ->
  (forall k, k < n * 288 -> payload_bit r k = payload_bit r' k) ->
  forall s, source_of n s -> source_value data (fun k => if Nat.eqb k 0 then fst meta else snd meta) (flags inv) s =
                             source_value data' (fun k => if Nat.eqb k 0 then fst meta' else snd meta') (flags inv') s.
Proof.
  intros Hn Hw Hw' Hd Hd' E E' Hr s Hs.
  destruct (every_source_once n s Hs) as ([[h t] q] & (P1 & P2 & P3) & Es & _).
  destruct (format_bits wild meta old data inv n Hn Hd Hw) as (b & Eb & _ & B). destruct (format_bits wild' meta' old' data' inv' n Hn Hd' Hw') as (b' & Eb' & _ & B').
  rewrite E in Eb. injection Eb as <-. rewrite E' in Eb'. injection Eb' as <-.
  specialize (B h (12 * t + q) P1 ltac:(lia)). specialize (B' h (12 * t + q) P1 ltac:(lia)).
  assert ((12 * t + q) / 12 = t) as Dt by (symmetry; apply (Nat.div_unique _ 12 t q); lia).
  assert ((12 * t + q) mod 12 = q) as Mq by (symmetry; apply (Nat.mod_unique _ 12 t q); lia).
  rewrite Dt, Mq, Es in B. rewrite Dt, Mq, Es in B'. unfold meta_of in B, B'. rewrite <- B, <- B'. apply Hr. destruct Hn as [-> | ->]; lia.
Qed.

(* Read strictly, a 512-bit burst is undefined: the second half shifts a 32-bit
   value by 32 and more. *)
Lemma loop_app {A I} (f : I -> A -> result A) l l' a : loop f (l ++ l') a = bind (loop f l a) (loop f l').
Proof. revert a. induction l as [|x l IH]; intros a; cbn [app loop bind]; [reflexivity|]. destruct (f x a); cbn [bind]; [apply IH|reflexivity]. Qed.
Lemma format_undefined meta old data inv : 512 <= 8 * length data -> format_data None meta old (Some data) 512 inv = Fails UB.
Proof.
  intros Hd. unfold format_data. change ((burst_bits - additional_bits =? 512) || (2 * (burst_bits - additional_bits) =? 512)) with true.
  change (2 * (burst_bits - additional_bits) =? 512) with true. cbn [check]. cbv zeta iota.
  set (buf := repeat 0%N (2 * burst_bytes) ++ skipn (2 * burst_bytes) old).
  assert (72 <= length buf) as Hl by (unfold buf, burst_bytes; rewrite app_length, repeat_length; lia).
  cbn [seq loop].
  assert (forall h b m k, h < 2 -> k <= 288 -> 72 <= length b -> m <= k -> (forall i, i < k -> let '(_, bu, d) := ctl i in 16 * h + bit_offset bu d < 32) ->
    exists s, loop (fmt_step None meta data (dbi_word inv) 2 h) (seq 0 m) (mkFmt 0 0 0 b) = Value s /\ (f_idx s, f_burst s, f_dq s) = ctl m /\ length (f_buf s) = length b) as Run.
  { intros h b m k Hh Hk Hb Hm Hoff.
    destruct (loop_total (fmt_step None meta data (dbi_word inv) 2 h) (fun i s => (f_idx s, f_burst s, f_dq s) = ctl i /\ length (f_buf s) = length b) m 0 (mkFmt 0 0 0 b)) as (s & E & C & L).
    - split; reflexivity.
    - intros i s Hi (C & L). pose proof (row i ltac:(lia)) as R. unfold row_ok in R. specialize (Hoff i ltac:(lia)). cbv beta in Hoff. rewrite <- C in R, Hoff. unfold fmt_step.
      destruct (nth_error data_bit_mapping (f_idx s)) as [mm|]; [|discriminate].
      apply andb_true_iff in R as [R R4]. apply andb_true_iff in R as [R R3]. apply andb_true_iff in R as [R1 R2]. apply Nat.ltb_lt in R1.
      assert (nth_error data ((payload_bits * h + mm) / 8) = Some (nth ((payload_bits * h + mm) / 8) data 0%N)) as Ed.
      { apply nth_error_nth'. unfold payload_bits. apply Nat.div_lt_upper_bound; lia. }
      unfold input_bit. rewrite Ed. cbn [bind]. unfold shift_bit. rewrite (proj2 (Nat.ltb_lt _ _) Hoff). cbn [bind].
      match goal with |- context [or_bit (f_buf s) ?k ?v] => destruct (or_ok (f_buf s) k v) as [buf' Eb] end.
      { unfold burst_bits. lia. }
      rewrite Eb. cbn [bind]. eexists. split; [reflexivity|]. cbn [f_idx f_burst f_dq f_buf]. split; [cbn [ctl]; rewrite <- C; reflexivity|].
      apply payload_or in Eb as [El _]. lia.
    - exists s. split; [exact E|]. split; assumption. }
  assert (forallb (fun i => let '(_, bu, d) := ctl i in Nat.ltb (bit_offset bu d) 32) (seq 0 288) = true) as F0 by (vm_compute; reflexivity).
  destruct (Run 0 buf 288 288 ltac:(lia) ltac:(lia) ltac:(lia) ltac:(lia)) as (s & E & _ & L).
  { intros i Hi. rewrite forallb_forall in F0. specialize (F0 i ltac:(apply in_seq; lia)). destruct (ctl i) as [[x bu] d]. apply Nat.ltb_lt in F0. lia. }
  unfold fmt_burst at 1. rewrite E. cbn [bind].
  assert (exists j, j < 288 /\ (forall i, i < j -> let '(_, bu, d) := ctl i in 16 * 1 + bit_offset bu d < 32) /\ (let '(_, bu, d) := ctl j in 32 <= 16 * 1 + bit_offset bu d)) as (j & Hj & Hbefore & Hat).
  { assert (exists j, j < 288 /\ forallb (fun i => let '(_, bu, d) := ctl i in Nat.ltb (16 * 1 + bit_offset bu d) 32) (seq 0 j) = true /\ (let '(_, bu, d) := ctl j in Nat.leb 32 (16 * 1 + bit_offset bu d)) = true) as (j & A & B & C).
    { exists 59. split; [lia|]. split; vm_compute; reflexivity. }
    exists j. split; [exact A|]. split.
    - intros i Hi. rewrite forallb_forall in B. specialize (B i ltac:(apply in_seq; lia)). destruct (ctl i) as [[x bu] d]. now apply Nat.ltb_lt.
    - destruct (ctl j) as [[x bu] d]. now apply Nat.leb_le. }
  unfold fmt_burst. replace 288 with (j + S (287 - j)) by lia. rewrite seq_app, loop_app. cbn [Nat.add].
  destruct (Run 1 (f_buf s) j j ltac:(lia) ltac:(lia) ltac:(lia) ltac:(lia) Hbefore) as (s1 & E1 & C1 & L1).
  rewrite E1. cbn [bind seq loop]. unfold fmt_step at 1. rewrite <- C1 in Hat.
  pose proof (row j ltac:(lia)) as R. unfold row_ok in R. rewrite <- C1 in R.
  destruct (nth_error data_bit_mapping (f_idx s1)) as [mm|]; [|discriminate].
  apply andb_true_iff in R as [R R4]. apply andb_true_iff in R as [R R3]. apply andb_true_iff in R as [R1 R2]. apply Nat.ltb_lt in R1.
  assert (nth_error data ((payload_bits * 1 + mm) / 8) = Some (nth ((payload_bits * 1 + mm) / 8) data 0%N)) as Ed.
  { apply nth_error_nth'. unfold payload_bits. apply Nat.div_lt_upper_bound; lia. }
  unfold input_bit. rewrite Ed. cbn [bind]. unfold shift_bit. rewrite (proj2 (Nat.ltb_ge _ _) Hat). reflexivity.
Qed.
