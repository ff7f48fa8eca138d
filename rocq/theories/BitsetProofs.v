(* Bit sets behave like lists of bits. *)
From Coq Require Import NArith List Bool Lia Arith.
From Verif Require Import Base Bits WaveSpec BitFacts ListFacts BitsetModel BitsetSpec DbiModel DbiProofs.
Import ListNotations.
Local Open Scope N_scope.
Ltac Zify.zify_post_hook ::= idtac.

(* ---- lists ---- *)

Lemma list_nth_ext {A} (d : A) (l l' : list A) : length l = length l' -> (forall i, (i < length l)%nat -> nth i l d = nth i l' d) -> l = l'.
Proof. intros H1 H2. apply (nth_ext l l' d d); assumption. Qed.
Lemma nth_map_seq {A} (f : nat -> A) d n i : (i < n)%nat -> nth i (map f (seq 0 n)) d = f i.
Proof.
  intros H. rewrite (nth_indep _ d (f 0%nat)) by now rewrite map_length, seq_length. rewrite map_nth, seq_nth by assumption. reflexivity.
Qed.
Lemma length_map_seq {A} (f : nat -> A) n : length (map f (seq 0 n)) = n.
Proof. now rewrite map_length, seq_length. Qed.

Lemma nth_map {A B} (f : A -> B) l i d d' : (i < length l)%nat -> nth i (map f l) d = f (nth i l d').
Proof. intros H. rewrite (nth_indep _ d (f d')) by now rewrite map_length. apply map_nth. Qed.

Lemma list_set_length l n v : (n < length l)%nat -> length (list_set l n v) = length l.
Proof. intros H. unfold list_set. rewrite app_length. cbn [length]. rewrite firstn_length, skipn_length. lia. Qed.
Lemma list_set_nth l n v : forall i, (n < length l)%nat -> nth i (list_set l n v) false = if Nat.eqb n i then v else nth i l false.
Proof.
  revert n. induction l as [|b r IH]; intros n i H; [cbn in H; lia|]. unfold list_set.
  destruct n; cbn [firstn skipn app].
  - destruct i; reflexivity.
  - destruct i; cbn [nth Nat.eqb]; [reflexivity|]. apply (IH n i). cbn [length] in H. lia.
Qed.
Lemma zip_length f : forall l l', length l = length l' -> length (zip f l l') = length l.
Proof. induction l as [|a l IH]; intros [|b l'] H; try discriminate; [reflexivity|]. cbn [zip length] in *. rewrite IH; lia. Qed.
Lemma zip_nth f : forall l l' i, length l = length l' -> (i < length l)%nat -> nth i (zip f l l') false = f (nth i l false) (nth i l' false).
Proof.
  induction l as [|a l IH]; intros [|b l'] i H Hi; cbn [length] in *; try lia. destruct i; cbn [zip nth]; [reflexivity|]. apply IH; lia.
Qed.

Lemma lines_app a b f : lines (a + b) f = lines a f + lines b (fun j => f (a + j)%nat).
Proof.
  induction b as [|b IH]; [rewrite Nat.add_0_r, lines_0; lia|]. rewrite Nat.add_succ_r, !lines_snoc, IH. lia.
Qed.
Lemma trues_lines n f : trues (map f (seq 0 n)) = lines n f.
Proof.
  unfold trues. induction n as [|n IH]; [reflexivity|]. rewrite seq_S, map_app, filter_app, app_length, Nat2N.inj_add, IH, lines_snoc.
  cbn [Nat.add map filter]. destruct (f n); cbn [length]; lia.
Qed.

(* ---- dynamic_bitset ---- *)

Definition dbit (bs : nat) (d : dynset) (i : nat) : bool := level (nth (Nat.div i bs) (dy_blocks d) 0) (Nat.modulo i bs).

Record dyn_ok (bs : nat) (d : dynset) : Prop := {
  do_len : length (dy_blocks d) = block_count bs (dy_bits d);
  do_bound : Forall (bounded bs) (dy_blocks d);
  do_mask : Nat.modulo (dy_bits d) bs <> 0%nat -> dy_mask d = last_mask bs (dy_bits d)
}.
(* Nothing is set beyond the size. *)
Definition clean (bs : nat) (d : dynset) : Prop :=
  forall i, (dy_bits d <= i < length (dy_blocks d) * bs)%nat -> dbit bs d i = false.

Lemma contents_length bs d : length (contents bs d) = dy_bits d.
Proof. apply length_map_seq. Qed.
Lemma contents_nth bs d i : (i < dy_bits d)%nat -> nth i (contents bs d) false = dbit bs d i.
Proof. intros H. unfold contents. rewrite nth_map_seq by assumption. reflexivity. Qed.

Lemma contents_is bs d l : length l = dy_bits d -> (forall i, (i < dy_bits d)%nat -> dbit bs d i = nth i l false) -> contents bs d = l.
Proof.
  intros Hl H. apply (list_nth_ext false); rewrite contents_length; [congruence|]. intros i Hi. rewrite contents_nth by assumption. now apply H.
Qed.

Lemma block_count_bounds bs n : (0 < bs)%nat -> (n <= block_count bs n * bs)%nat /\ (block_count bs n * bs < n + bs)%nat.
Proof.
  intros H. unfold block_count. pose proof (Nat.div_mod n bs ltac:(lia)) as E. pose proof (Nat.mod_upper_bound n bs ltac:(lia)) as B.
  destruct (Nat.eqb_spec (n mod bs) 0) as [Z|Z]; nia.
Qed.
Lemma div_lt_blocks bs i k : (0 < bs)%nat -> (i < k * bs)%nat -> (i / bs < k)%nat.
Proof. intros H Hi. apply Nat.div_lt_upper_bound; [lia|]. lia. Qed.
Lemma in_blocks bs d i : (0 < bs)%nat -> dyn_ok bs d -> (i < dy_bits d)%nat -> (i / bs < length (dy_blocks d))%nat.
Proof. intros H O Hi. rewrite (do_len _ _ O). apply div_lt_blocks; [assumption|]. pose proof (block_count_bounds bs (dy_bits d) H). lia. Qed.

Lemma block_bounded bs d k : dyn_ok bs d -> bounded bs (nth k (dy_blocks d) 0).
Proof.
  intros O. destruct (Nat.lt_ge_cases k (length (dy_blocks d))) as [H|H].
  - pose proof (do_bound _ _ O) as F. rewrite Forall_forall in F. apply F. now apply nth_In.
  - rewrite nth_overflow by assumption. apply bounded_0.
Qed.

Lemma block_at_ok d k : (k < length (dy_blocks d))%nat -> block_at d k = Value (nth k (dy_blocks d) 0).
Proof. intros H. unfold block_at. rewrite (nth_error_nth' _ 0) by assumption. reflexivity. Qed.
Lemma block_at_fail d k : (length (dy_blocks d) <= k)%nat -> block_at d k = Fails Exception.
Proof. intros H. unfold block_at. apply nth_error_None in H. now rewrite H. Qed.

Lemma nth_upd {A} (l : list A) k x j d : (k < length l)%nat -> nth j (upd k (fun _ => x) l) d = if Nat.eqb k j then x else nth j l d.
Proof.
  intros H. destruct (Nat.lt_ge_cases j (length l)) as [Hj|Hj].
  - assert (put l k x = Value (upd k (fun _ => x) l)) as E by (unfold put; apply Nat.ltb_lt in H; now rewrite H).
    apply put_spec in E as (_ & _ & E). now apply E.
  - rewrite !nth_overflow by (rewrite ?length_upd; assumption). destruct (Nat.eqb_spec k j); [lia|reflexivity].
Qed.

Lemma Forall_nth_bounded bs l : (forall k, (k < length l)%nat -> bounded bs (nth k l 0)) -> Forall (bounded bs) l.
Proof. intros H. apply Forall_forall. intros x Hx. apply (In_nth _ _ 0) in Hx as (k & Hk & <-). now apply H. Qed.

(* Equal positions are equal indices. *)
Lemma split_index bs n i : (0 < bs)%nat -> (Nat.eqb (n / bs) (i / bs) && Nat.eqb (n mod bs) (i mod bs))%nat = Nat.eqb n i.
Proof.
  intros H. destruct (Nat.eqb_spec n i) as [->|Hne]; [now rewrite !Nat.eqb_refl|].
  destruct (Nat.eqb_spec (n / bs) (i / bs)) as [E|]; [|reflexivity]. destruct (Nat.eqb_spec (n mod bs) (i mod bs)) as [E'|]; [|reflexivity].
  exfalso. apply Hne. rewrite (Nat.div_mod n bs), (Nat.div_mod i bs), E, E' by lia. reflexivity.
Qed.

(* Replacement of one bit. *)
Lemma with_bit bs d k b : (k < length (dy_blocks d))%nat -> forall i,
  dbit bs (with_block d k b) i = if Nat.eqb k (i / bs) then level b (i mod bs) else dbit bs d i.
Proof. intros H i. unfold dbit, with_block. cbn [dy_blocks]. rewrite nth_upd by assumption. now destruct (Nat.eqb k (i / bs)). Qed.
Lemma with_ok bs d k b : dyn_ok bs d -> bounded bs b -> dyn_ok bs (with_block d k b).
Proof.
  intros O Hb. unfold with_block. constructor; cbn [dy_blocks dy_bits dy_mask].
  - rewrite length_upd. apply O.
  - apply Forall_nth_bounded. intros j Hj. rewrite length_upd in Hj. destruct (Nat.lt_ge_cases k (length (dy_blocks d))).
    + rewrite nth_upd by assumption. destruct (Nat.eqb k j); [assumption|now apply block_bounded].
    + rewrite upd_out by assumption. now apply block_bounded.
  - apply O.
Qed.

Lemma bounded_set max n i v n' : bounded max n -> set_bit max n i v = Value n' -> bounded max n'.
Proof.
  intros H E. apply set_bit_spec in E as [Hi E]. intros j Hj.
  rewrite E. destruct (Nat.eqb_spec i j); [lia|]. now apply H.
Qed.

Lemma set_spec bs d n v : (0 < bs)%nat -> dyn_ok bs d -> (n < length (dy_blocks d) * bs)%nat ->
  exists d', dyn_set bs d n v = Value d' /\ dyn_ok bs d' /\ dy_bits d' = dy_bits d /\ length (dy_blocks d') = length (dy_blocks d) /\
    forall i, dbit bs d' i = if Nat.eqb n i then v else dbit bs d i.
Proof.
  intros Hb O Hn. pose proof (div_lt_blocks bs n _ Hb Hn) as Hk. unfold dyn_set. rewrite block_at_ok by assumption. cbn [bind].
  destruct (set_bit_ok bs (nth (n / bs) (dy_blocks d) 0) (n mod bs) v) as [b E]; [apply Nat.mod_upper_bound; lia|]. rewrite E. cbn [bind].
  eexists. split; [reflexivity|]. split; [apply with_ok; [assumption|]; eapply bounded_set; [|exact E]; now apply block_bounded|].
  split; [reflexivity|]. split; [apply length_upd|]. intros i. rewrite with_bit by assumption.
  apply set_bit_spec in E as [_ E]. rewrite E. rewrite <- (split_index bs n i Hb).
  destruct (Nat.eqb_spec (n / bs) (i / bs)) as [Ek|Ek]; [|reflexivity]. cbn [andb]. destruct (Nat.eqb (n mod bs) (i mod bs)); [reflexivity|].
  unfold dbit. now rewrite <- Ek.
Qed.
Lemma flip_spec bs d n : (0 < bs)%nat -> dyn_ok bs d -> (n < length (dy_blocks d) * bs)%nat ->
  exists d', dyn_flip bs d n = Value d' /\ dyn_ok bs d' /\ dy_bits d' = dy_bits d /\ length (dy_blocks d') = length (dy_blocks d) /\
    forall i, dbit bs d' i = if Nat.eqb n i then negb (dbit bs d i) else dbit bs d i.
Proof.
  intros Hb O Hn. pose proof (div_lt_blocks bs n _ Hb Hn) as Hk. unfold dyn_flip. rewrite block_at_ok by assumption. cbn [bind].
  assert (forall j, level (N.shiftl 1 (N.of_nat (n mod bs))) j = Nat.eqb (n mod bs) j) as Hsh.
  { intros j. unfold level. rewrite N.shiftl_1_l, N.pow2_bits_eqb.
    destruct (Nat.eqb_spec (n mod bs) j) as [->|]; [apply N.eqb_refl|]. apply N.eqb_neq. lia. }
  eexists. split; [reflexivity|].
  split.
  { apply with_ok; [assumption|]. apply bounded_lxor; [now apply block_bounded|]. intros j Hj.
    rewrite Hsh. apply Nat.eqb_neq. pose proof (Nat.mod_upper_bound n bs ltac:(lia)). lia. }
  split; [reflexivity|]. split; [apply length_upd|]. intros i. rewrite with_bit by assumption. rewrite level_lxor, Hsh.
  rewrite <- (split_index bs n i Hb).
  destruct (Nat.eqb_spec (n / bs) (i / bs)) as [Ek|Ek]; [|reflexivity]. cbn [andb]. unfold dbit. rewrite <- Ek.
  destruct (Nat.eqb (n mod bs) (i mod bs)); [apply xorb_true_r|apply xorb_false_r].
Qed.

Lemma dyn_range bs d i : (0 < bs)%nat -> dyn_ok bs d -> (i < dy_bits d)%nat -> (i < length (dy_blocks d) * bs)%nat.
Proof. intros H O Hi. rewrite (do_len _ _ O). pose proof (block_count_bounds bs (dy_bits d) H). lia. Qed.

Theorem dyn_set_list bs d n v : (0 < bs)%nat -> dyn_ok bs d -> (n < dy_bits d)%nat ->
  exists d', dyn_set bs d n v = Value d' /\ dyn_ok bs d' /\ (clean bs d -> clean bs d') /\ contents bs d' = list_set (contents bs d) n v.
Proof.
  intros Hb O Hn. destruct (set_spec bs d n v Hb O) as (d' & E & O' & Hbits & Hlen & Hbit); [now apply dyn_range|].
  exists d'. split; [assumption|]. split; [assumption|]. split.
  - intros C i Hi. rewrite Hbit, Hbits, Hlen in *. destruct (Nat.eqb_spec n i); [lia|]. now apply C.
  - apply contents_is; [rewrite list_set_length, contents_length; [congruence|rewrite contents_length; assumption]|].
    intros i Hi. rewrite Hbit, list_set_nth by now rewrite contents_length. rewrite Hbits in Hi. rewrite contents_nth by assumption. reflexivity.
Qed.
Theorem dyn_flip_list bs d n : (0 < bs)%nat -> dyn_ok bs d -> (n < dy_bits d)%nat ->
  exists d', dyn_flip bs d n = Value d' /\ dyn_ok bs d' /\ (clean bs d -> clean bs d') /\
    contents bs d' = list_set (contents bs d) n (negb (nth n (contents bs d) false)).
Proof.
  intros Hb O Hn. destruct (flip_spec bs d n Hb O) as (d' & E & O' & Hbits & Hlen & Hbit); [now apply dyn_range|].
  exists d'. split; [assumption|]. split; [assumption|]. split.
  - intros C i Hi. rewrite Hbit, Hbits, Hlen in *. destruct (Nat.eqb_spec n i); [lia|]. now apply C.
  - apply contents_is; [rewrite list_set_length, contents_length; [congruence|rewrite contents_length; assumption]|].
    intros i Hi. rewrite Hbit, list_set_nth by now rewrite contents_length. rewrite Hbits in Hi. rewrite !contents_nth by assumption.
    destruct (Nat.eqb_spec n i); [now subst|reflexivity].
Qed.
Theorem dyn_get_list bs d n : (0 < bs)%nat -> dyn_ok bs d -> (n < dy_bits d)%nat -> dyn_get bs d n = Value (nth n (contents bs d) false).
Proof.
  intros Hb O Hn. unfold dyn_get. rewrite block_at_ok by now apply in_blocks. cbn [bind]. rewrite contents_nth by assumption. reflexivity.
Qed.
Theorem dyn_out_of_range bs d n v : (0 < bs)%nat -> dyn_ok bs d -> (block_count bs (dy_bits d) * bs <= n)%nat ->
  dyn_set bs d n v = Fails Exception /\ dyn_flip bs d n = Fails Exception /\ dyn_get bs d n = Fails Exception.
Proof.
  intros Hb O Hn. assert (block_at d (n / bs) = Fails Exception) as E.
  { apply block_at_fail. rewrite (do_len _ _ O). apply Nat.div_le_lower_bound; lia. }
  unfold dyn_set, dyn_flip, dyn_get. rewrite E. repeat split.
Qed.

(* new, empty, reset, clear *)
Lemma nth_repeat0 n k : nth k (repeat 0 n) 0 = 0.
Proof. destruct (Nat.lt_ge_cases k n); [|apply nth_overflow; now rewrite repeat_length]. apply (repeat_spec n). apply nth_In. now rewrite repeat_length. Qed.
Lemma level_0 j : level 0 j = false.
Proof. apply N.bits_0. Qed.

Theorem dyn_new_list bs n : (0 < bs)%nat ->
  dyn_ok bs (dyn_new bs n) /\ clean bs (dyn_new bs n) /\ contents bs (dyn_new bs n) = repeat false n.
Proof.
  intros Hb. split; [|split].
  - constructor; cbn [dyn_new dy_blocks dy_bits dy_mask]; [apply repeat_length| |reflexivity].
    apply Forall_nth_bounded. intros k _. rewrite nth_repeat0. apply bounded_0.
  - intros i _. unfold dbit. cbn [dyn_new dy_blocks]. rewrite nth_repeat0. apply level_0.
  - apply contents_is; [apply repeat_length|]. intros i Hi. unfold dbit. cbn [dyn_new dy_blocks]. rewrite nth_repeat0, level_0.
    symmetry. destruct (nth_in_or_default i (repeat false n) false) as [H|H]; [|assumption]. now apply repeat_spec in H.
Qed.
Theorem dyn_empty_list bs d : (0 < bs)%nat ->
  (dyn_ok bs dyn_empty /\ clean bs dyn_empty /\ contents bs dyn_empty = []) /\
  (dyn_ok bs (dyn_clear d) /\ clean bs (dyn_clear d) /\ contents bs (dyn_clear d) = []).
Proof.
  intros Hb. assert (block_count bs 0 = 0)%nat as Hc by (unfold block_count; rewrite Nat.mod_0_l, Nat.eqb_refl, Nat.div_0_l by lia; reflexivity).
  split; (split; [constructor; cbn [dyn_empty dyn_clear dy_blocks dy_bits dy_mask length];
    [now rewrite Hc|constructor|rewrite Nat.mod_0_l by lia; congruence]|split; [intros i Hi; cbn in Hi; lia|reflexivity]]).
Qed.

Lemma each_ok bs d f : dyn_ok bs d -> (forall b, bounded bs b -> bounded bs (f b)) -> dyn_ok bs (each_block d f).
Proof.
  intros O Hf. constructor; cbn [each_block dy_blocks dy_bits dy_mask]; [rewrite map_length; apply O| |apply O].
  apply Forall_map. eapply Forall_impl; [|apply O]. intros b Hb. now apply Hf.
Qed.
Lemma each_bit bs d f i : (0 < bs)%nat -> (i < length (dy_blocks d) * bs)%nat ->
  dbit bs (each_block d f) i = level (f (nth (i / bs) (dy_blocks d) 0)) (i mod bs).
Proof.
  intros Hb Hi. unfold dbit, each_block. cbn [dy_blocks]. pose proof (div_lt_blocks bs i _ Hb Hi).
  rewrite (nth_indep _ 0 (f 0)) by now rewrite map_length. now rewrite map_nth.
Qed.
Lemma level_ones bs i : (0 < bs)%nat -> level (N.ones (N.of_nat bs)) (i mod bs) = true.
Proof. intros H. apply N.ones_spec_low. pose proof (Nat.mod_upper_bound i bs ltac:(lia)). lia. Qed.
Lemma bounded_ones bs : bounded bs (N.ones (N.of_nat bs)).
Proof. intros j Hj. apply N.ones_spec_high. lia. Qed.

Theorem dyn_fill_list bs d : (0 < bs)%nat -> dyn_ok bs d ->
  (dyn_ok bs (dyn_reset d) /\ clean bs (dyn_reset d) /\ contents bs (dyn_reset d) = map (fun _ => false) (contents bs d)) /\
  (dyn_ok bs (dyn_set_all bs d) /\ contents bs (dyn_set_all bs d) = map (fun _ => true) (contents bs d)) /\
  (dyn_ok bs (dyn_not bs d) /\ contents bs (dyn_not bs d) = map negb (contents bs d)).
Proof.
  intros Hb O. split; [|split].
  - split; [apply each_ok; [assumption|]; intros; apply bounded_0|]. split.
    + intros i Hi. cbn [dyn_reset each_block dy_blocks dy_bits] in Hi. rewrite map_length in Hi. unfold dyn_reset. rewrite each_bit by (assumption || lia). apply level_0.
    + apply contents_is; [now rewrite map_length, contents_length|]. intros i Hi. cbn [dyn_reset each_block dy_bits] in Hi. unfold dyn_reset.
      rewrite each_bit by (try assumption; now apply dyn_range). rewrite level_0.
      rewrite (nth_map _ _ i false false) by now rewrite contents_length. reflexivity.
  - split; [apply each_ok; [assumption|]; intros; apply bounded_ones|].
    apply contents_is; [now rewrite map_length, contents_length|]. intros i Hi. cbn [dyn_set_all each_block dy_bits] in Hi. unfold dyn_set_all.
    rewrite each_bit by (try assumption; now apply dyn_range). rewrite level_ones by assumption.
    rewrite (nth_map _ _ i false false) by now rewrite contents_length. reflexivity.
  - split; [apply each_ok; [assumption|]; intros; apply bounded_lxor; [assumption|apply bounded_ones]|].
    apply contents_is; [now rewrite map_length, contents_length|]. intros i Hi. cbn [dyn_not each_block dy_bits] in Hi. unfold dyn_not.
    rewrite each_bit by (try assumption; now apply dyn_range). rewrite level_lxor, level_ones by assumption. rewrite xorb_true_r.
    rewrite (nth_map _ _ i false false) by now rewrite contents_length. rewrite contents_nth by assumption. reflexivity.
Qed.

(* push_back *)
Theorem dyn_push_list bs d v : (0 < bs)%nat -> dyn_ok bs d ->
  exists d', dyn_push bs d v = Value d' /\ dyn_ok bs d' /\ (clean bs d -> clean bs d') /\ contents bs d' = contents bs d ++ [v].
Proof.
  intros Hb O. unfold dyn_push. set (n := dy_bits d) in *. pose proof (Nat.div_mod n bs ltac:(lia)) as E. pose proof (Nat.mod_upper_bound n bs ltac:(lia)) as B.
  set (blocks := if Nat.eqb (n mod bs) 0 then dy_blocks d ++ [0] else dy_blocks d).
  assert (length blocks = n / bs + 1)%nat as Hl.
  { unfold blocks. pose proof (do_len _ _ O) as L. unfold block_count in L. fold n in L.
    destruct (Nat.eqb (n mod bs) 0); rewrite ?app_length, L; cbn [length]; lia. }
  assert (block_count bs (S n) = n / bs + 1)%nat as Hc.
  { pose proof (div_mod_next bs n Hb) as D. unfold block_count. destruct (Nat.leb_spec bs (S (n mod bs))); destruct D as [D1 D2]; rewrite D1, D2; [cbn; lia|].
    destruct (Nat.eqb_spec (S (n mod bs)) 0); lia. }
  assert (forall k, nth k blocks 0 = nth k (dy_blocks d) 0) as Hnth.
  { intros k. unfold blocks. destruct (Nat.eqb (n mod bs) 0); [|reflexivity]. destruct (Nat.lt_ge_cases k (length (dy_blocks d))) as [H|H].
    - now rewrite app_nth1.
    - rewrite app_nth2 by assumption. rewrite (nth_overflow (dy_blocks d)) by assumption. destruct (k - length (dy_blocks d))%nat as [|[|]]; reflexivity. }
  replace (length blocks - 1)%nat with (n / bs)%nat by lia.
  rewrite (nth_error_nth' blocks 0) by lia. rewrite Hnth.
  destruct (set_bit_ok bs (nth (n / bs) (dy_blocks d) 0) (n mod bs) v B) as [b Eb]. rewrite Eb. cbn [bind].
  eexists. split; [reflexivity|]. set (d' := mkDyn (S n) _ _).
  assert (forall i, dbit bs d' i = if Nat.eqb n i then v else dbit bs d i) as Hbit.
  { intros i. unfold dbit, d'. cbn [dy_blocks]. rewrite nth_upd by lia. rewrite Hnth. pose proof Eb as Es. apply set_bit_spec in Es as [_ Es].
    rewrite <- (split_index bs n i Hb). destruct (Nat.eqb_spec (n / bs) (i / bs)) as [Ek|]; [|reflexivity]. cbn [andb].
    rewrite Es. destruct (Nat.eqb (n mod bs) (i mod bs)); [reflexivity|]. now rewrite Ek. }
  split; [|split].
  - constructor; cbn [d' dy_blocks dy_bits dy_mask]; [rewrite length_upd; lia| |reflexivity].
    apply Forall_nth_bounded. intros k Hk. rewrite length_upd in Hk. rewrite nth_upd by lia. rewrite Hnth.
    destruct (Nat.eqb (n / bs) k); [|now apply block_bounded]. eapply bounded_set; [|exact Eb]. now apply block_bounded.
  - intros C i Hi. cbn [d' dy_blocks dy_bits] in Hi. rewrite length_upd in Hi. rewrite Hbit. destruct (Nat.eqb_spec n i); [lia|].
    destruct (Nat.lt_ge_cases i (length (dy_blocks d) * bs)) as [H|H]; [apply C; fold n; lia|].
    unfold dbit. rewrite nth_overflow; [apply level_0|]. apply Nat.div_le_lower_bound; lia.
  - apply contents_is; [cbn [d' dy_bits]; rewrite app_length, contents_length; cbn [length]; fold n; lia|].
    intros i Hi. cbn [d' dy_bits] in Hi. rewrite Hbit. destruct (Nat.eqb_spec n i) as [<-|Hne].
    + rewrite app_nth2 by (rewrite contents_length; fold n; lia). rewrite contents_length. fold n. now rewrite Nat.sub_diag.
    + rewrite app_nth1 by (rewrite contents_length; fold n; lia). rewrite contents_nth by (fold n; lia). reflexivity.
Qed.

(* count *)
Lemma count_from bs n mask : (0 < bs)%nat -> forall l k acc,
  (n <= (k + length l) * bs)%nat -> ((k + length l) * bs < n + bs)%nat ->
  Forall (bounded bs) l -> (n mod bs <> 0 -> mask = last_mask bs n)%nat ->
  fst (fold_left (fun (s : N * nat) b =>
        (fst s + (if Nat.ltb n (snd s) then popcount (N.land b mask) else popcount b), (snd s + bs)%nat)) l (acc, ((k + 1) * bs)%nat)) =
  acc + lines (n - k * bs) (fun i => level (nth (i / bs) l 0) (i mod bs)).
Proof.
  intros Hb. induction l as [|b l IH]; intros k acc Hlo Hhi Hf Hm; cbn [fold_left fst snd length] in *.
  - replace (n - k * bs)%nat with 0%nat by lia. rewrite lines_0. lia.
  - pose proof (Forall_inv Hf) as Hbb. apply Forall_inv_tail in Hf.
    replace ((k + 1) * bs + bs)%nat with ((S k + 1) * bs)%nat by lia. rewrite IH by (assumption || lia). clear IH.
    destruct (Nat.ltb_spec n ((k + 1) * bs)) as [Hp|Hp].
    + assert (l = []) as -> by (destruct l; [reflexivity|cbn [length] in *; nia]). replace (n - S k * bs)%nat with 0%nat by lia. rewrite lines_0.
      assert (n mod bs = n - k * bs)%nat as Hmod by (symmetry; apply (Nat.mod_unique n bs k); cbn [length] in *; nia).
      rewrite N.add_0_r. f_equal. rewrite (popcount_lines bs).
      * destruct (Nat.eq_dec (n - k * bs) 0) as [Z|Z]; [exfalso; cbn [length] in *; nia|].
        assert (bs = (n - k * bs) + (bs - (n - k * bs)))%nat as Hs by (cbn [length] in *; nia).
        rewrite Hs at 1. rewrite lines_app. rewrite (lines_ext (bs - (n - k * bs)) _ (fun _ => false)).
        -- assert (forall m, lines m (fun _ => false) = 0) as Hz by (intros m; induction m; [reflexivity|]; rewrite lines_snoc, IHm; reflexivity).
           rewrite Hz, N.add_0_r. apply lines_ext. intros j Hj. rewrite level_land, Hm by lia. unfold last_mask. rewrite Hmod.
           unfold level at 2. rewrite N.ones_spec_low by lia. rewrite andb_true_r. rewrite Nat.div_small, Nat.mod_small by lia. reflexivity.
        -- intros j Hj. rewrite level_land, Hm by lia. unfold last_mask. rewrite Hmod. unfold level at 2. rewrite N.ones_spec_high by lia. apply andb_false_r.
      * intros j Hj. rewrite level_land. rewrite Hbb by assumption. reflexivity.
    + rewrite (popcount_lines bs) by assumption.
      assert (n - k * bs = bs + (n - S k * bs))%nat as -> by nia. rewrite lines_app, N.add_assoc. f_equal; [f_equal|].
      * apply lines_ext. intros j Hj. rewrite Nat.div_small, Nat.mod_small by assumption. reflexivity.
      * apply lines_ext. intros j Hj. assert ((bs + j) / bs = S (j / bs))%nat as ->.
        { replace (bs + j)%nat with (j + 1 * bs)%nat by lia. rewrite Nat.div_add by lia. lia. }
        assert ((bs + j) mod bs = j mod bs)%nat as -> by (replace (bs + j)%nat with (j + 1 * bs)%nat by lia; apply Nat.mod_add; lia). reflexivity.
Qed.
Theorem dyn_count_list bs d : (0 < bs)%nat -> dyn_ok bs d -> dyn_count bs d = trues (contents bs d).
Proof.
  intros Hb O. unfold contents. rewrite trues_lines. unfold dyn_count.
  pose proof (count_from bs (dy_bits d) (dy_mask d) Hb (dy_blocks d) 0 0) as H. cbn [Nat.add] in H. rewrite Nat.mul_1_l in H.
  pose proof (block_count_bounds bs (dy_bits d) Hb) as B. rewrite (do_len _ _ O) in H.
  rewrite H; [|apply B|apply B|apply O|apply O]. rewrite N.add_0_l. rewrite Nat.mul_0_l, Nat.sub_0_r. reflexivity.
Qed.

(* == *)
Lemma eq_loop (f : nat -> result bool) (P : nat -> Prop) n : (forall k, (k < n)%nat -> exists b, f k = Value b /\ (b = true <-> P k)) ->
  exists r, loop (fun k (r : bool) => if r then f k else Value false) (seq 0 n) true = Value r /\ (r = true <-> forall k, (k < n)%nat -> P k).
Proof.
  intros Hf. destruct (loop_total (fun k (r : bool) => if r then f k else Value false) (fun k r => r = true <-> forall j, (j < k)%nat -> P j) n 0 true) as (r & E & H).
  - split; [intros _ j Hj; lia|reflexivity].
  - intros k r Hk Hr. destruct r.
    + destruct (Hf k) as (b & Eb & Hb); [lia|]. exists b. split; [assumption|]. rewrite Hb. split.
      * intros Hp j Hj. destruct (Nat.eq_dec j k) as [->|]; [assumption|]. apply Hr; [reflexivity|lia].
      * intros Hp. apply Hp. lia.
    + exists false. split; [reflexivity|]. split; [discriminate|]. intros Hp. apply Hr. intros j Hj. apply Hp. lia.
  - exists r. split; [exact E|]. exact H.
Qed.

Theorem dyn_eq_list bs d e : (0 < bs)%nat -> dyn_ok bs d -> dyn_ok bs e ->
  exists r, dyn_eq d e = Value r /\ (r = true -> contents bs d = contents bs e) /\
    (clean bs d -> clean bs e -> contents bs d = contents bs e -> r = true).
Proof.
  intros Hb O O'. unfold dyn_eq, dyn_size. destruct (Nat.eqb_spec (dy_bits d) (dy_bits e)) as [Hs|Hs].
  2:{ exists false. split; [reflexivity|]. split; [discriminate|]. intros _ _ E. exfalso. apply Hs.
      rewrite <- (contents_length bs d), <- (contents_length bs e). now rewrite E. }
  assert (length (dy_blocks d) = length (dy_blocks e)) as Hl by (rewrite (do_len _ _ O), (do_len _ _ O'), Hs; reflexivity).
  destruct (eq_loop (fun k => x <- block_at d k ;; y <- block_at e k ;; Value (x =? y)) (fun k => nth k (dy_blocks d) 0 = nth k (dy_blocks e) 0)
              (length (dy_blocks d))) as (r & E & H).
  { intros k Hk. rewrite !block_at_ok by lia. cbn [bind]. eexists. split; [reflexivity|]. apply N.eqb_eq. }
  exists r. split; [exact E|]. split.
  - intros Hr. apply contents_is; [now rewrite contents_length|]. intros i Hi. rewrite contents_nth by congruence. unfold dbit.
    rewrite (proj1 H Hr); [reflexivity|]. now apply in_blocks.
  - intros C C' Ec. apply H. intros k Hk. apply (bounded_eq bs); [now apply block_bounded|now apply block_bounded|]. intros j Hj.
    assert ((k * bs + j) / bs = k)%nat as Hd by (rewrite Nat.add_comm, Nat.div_add, Nat.div_small by lia; lia).
    assert ((k * bs + j) mod bs = j)%nat as Hm by (rewrite Nat.add_comm, Nat.mod_add by lia; now apply Nat.mod_small).
    assert (dbit bs d (k * bs + j) = dbit bs e (k * bs + j)) as X; [|unfold dbit in X; rewrite Hd, Hm in X; exact X].
    destruct (Nat.lt_ge_cases (k * bs + j) (dy_bits d)) as [Hi|Hi].
    + rewrite <- !contents_nth by congruence. now rewrite Ec.
    + rewrite C, C'; [reflexivity|split; [congruence|nia]|split; [congruence|nia]].
Qed.
Theorem dyn_eq_other_list bs bs' d e : (0 < bs)%nat -> (0 < bs')%nat -> dyn_ok bs d -> dyn_ok bs' e ->
  exists r, dyn_eq_other bs bs' d e = Value r /\ (r = true <-> contents bs d = contents bs' e).
Proof.
  intros Hb Hb' O O'. unfold dyn_eq_other, dyn_size. destruct (Nat.eqb_spec (dy_bits d) (dy_bits e)) as [Hs|Hs].
  2:{ exists false. split; [reflexivity|]. split; [discriminate|]. intros E. exfalso. apply Hs.
      rewrite <- (contents_length bs d), <- (contents_length bs' e). now rewrite E. }
  destruct (eq_loop (fun i => x <- dyn_get bs d i ;; y <- dyn_get bs' e i ;; Value (Bool.eqb x y))
              (fun i => nth i (contents bs d) false = nth i (contents bs' e) false) (dy_bits d)) as (r & E & H).
  { intros k Hk. rewrite !dyn_get_list by (assumption || congruence). cbn [bind]. eexists. split; [reflexivity|]. apply Bool.eqb_true_iff. }
  exists r. split; [exact E|]. rewrite H. split.
  - intros X. apply (list_nth_ext false); rewrite !contents_length; [assumption|exact X].
  - intros -> k _. reflexivity.
Qed.

(* ^=, &=, |= *)
Theorem dyn_zip_list bs (f : N -> N -> N) (g : bool -> bool -> bool) d e : (0 < bs)%nat -> dyn_ok bs d -> dyn_ok bs e ->
  (forall x y j, level (f x y) j = g (level x j) (level y j)) -> g false false = false -> dy_bits d = dy_bits e ->
  exists d', dyn_zip f d e = Value d' /\ dyn_ok bs d' /\ (clean bs d -> clean bs e -> clean bs d') /\
    contents bs d' = zip g (contents bs d) (contents bs e).
Proof.
  intros Hb O O' Hf Hg Hs. unfold dyn_zip, dyn_size. rewrite Hs, Nat.eqb_refl. cbn [check].
  assert (length (dy_blocks d) = length (dy_blocks e)) as Hl by (rewrite (do_len _ _ O), (do_len _ _ O'), Hs; reflexivity).
  assert (forall x y, bounded bs x -> bounded bs y -> bounded bs (f x y)) as Hbd.
  { intros x y Hx Hy j Hj. rewrite Hf, Hx, Hy by assumption. exact Hg. }
  destruct (loop_total (fun k d => x <- block_at d k ;; y <- block_at e k ;; Value (with_block d k (f x y)))
              (fun k d' => dyn_ok bs d' /\ dy_bits d' = dy_bits d /\ length (dy_blocks d') = length (dy_blocks d) /\
                 forall j, (j < length (dy_blocks d))%nat -> nth j (dy_blocks d') 0 =
                   if Nat.ltb j k then f (nth j (dy_blocks d) 0) (nth j (dy_blocks e) 0) else nth j (dy_blocks d) 0)
              (length (dy_blocks d)) 0 d) as (d' & E & O1 & Hb1 & Hl1 & Hn1).
  - split; [assumption|]. split; [reflexivity|]. split; [reflexivity|]. intros j _. reflexivity.
  - intros k a Hk (Oa & Hba & Hla & Hna). rewrite !block_at_ok by lia. cbn [bind]. eexists. split; [reflexivity|].
    split; [apply with_ok; [assumption|]; apply Hbd; now apply block_bounded|]. split; [exact Hba|].
    split; [cbn [with_block dy_blocks]; rewrite length_upd; exact Hla|].
    intros j Hj. cbn [with_block dy_blocks]. rewrite nth_upd by lia. destruct (Nat.eqb_spec k j) as [->|Hne].
    + rewrite (proj2 (Nat.ltb_lt j (S j))) by lia. rewrite Hna by assumption. now rewrite Nat.ltb_irrefl.
    + rewrite Hna by assumption. destruct (Nat.ltb_spec j k), (Nat.ltb_spec j (S k)); try reflexivity; lia.
  - cbn [Nat.add] in Hn1. exists d'. split; [exact E|].
    assert (forall i, (i < length (dy_blocks d) * bs)%nat -> dbit bs d' i = g (dbit bs d i) (dbit bs e i)) as Hbit.
    { intros i Hi. pose proof (div_lt_blocks bs i _ Hb Hi) as Hd. unfold dbit. rewrite Hn1 by assumption. rewrite (proj2 (Nat.ltb_lt _ _) Hd). apply Hf. }
    split; [assumption|]. split.
    + intros C C' i Hi. rewrite Hb1, Hl1 in Hi. rewrite Hbit, C, C' by lia. exact Hg.
    + apply contents_is; [rewrite zip_length, contents_length; [congruence|rewrite !contents_length; assumption]|].
      intros i Hi. rewrite Hb1 in Hi. rewrite Hbit by now apply dyn_range. rewrite zip_nth by (rewrite !contents_length; lia). rewrite !contents_nth by lia. reflexivity.
Qed.
Theorem dyn_zip_sizes f d e : dy_bits d <> dy_bits e -> dyn_zip f d e = Fails Assertion.
Proof. intros H. unfold dyn_zip, dyn_size. apply Nat.eqb_neq in H. now rewrite H. Qed.

(* the value constructor *)
Lemma value_bit v i : negb (N.land v (N.shiftl 1 (N.of_nat i) mod two64) =? 0) = Nat.ltb i 64 && N.testbit v (N.of_nat i).
Proof.
  rewrite N.shiftl_1_l. destruct (Nat.ltb_spec i 64) as [H|H]; cbn [andb].
  - rewrite N.mod_small by (change two64 with (2 ^ 64); apply N.pow_lt_mono_r; lia).
    destruct (N.testbit v (N.of_nat i)) eqn:E.
    + apply negb_true_iff, N.eqb_neq. intros Z. assert (N.testbit (N.land v (2 ^ N.of_nat i)) (N.of_nat i) = true) as X.
      { rewrite N.land_spec, E, N.pow2_bits_true. reflexivity. } rewrite Z, N.bits_0 in X. discriminate.
    + apply negb_false_iff, N.eqb_eq. apply N.bits_inj. intros k. rewrite N.land_spec, N.bits_0, N.pow2_bits_eqb.
      destruct (N.eqb_spec (N.of_nat i) k) as [<-|]; [rewrite E; reflexivity|apply andb_false_r].
  - assert (2 ^ N.of_nat i mod two64 = 0) as ->.
    { replace (N.of_nat i) with (64 + (N.of_nat i - 64)) by lia. rewrite N.pow_add_r. change (2 ^ 64) with two64. rewrite N.mul_comm. apply N.mod_mul. unfold two64. lia. }
    now rewrite N.land_0_r.
Qed.
Theorem dyn_of_value_list bs n v : (0 < bs)%nat ->
  exists d, dyn_of_value bs n v = Value d /\ dyn_ok bs d /\ clean bs d /\ contents bs d = value_bits n v.
Proof.
  intros Hb. unfold dyn_of_value.
  set (f := fun i d => dyn_set bs d i (negb (N.land v (N.shiftl 1 (N.of_nat i) mod two64) =? 0))).
  assert (dyn_ok bs (dyn_new bs n)) as O0 by now apply dyn_new_list.
  assert (forall d, dy_bits d = n -> length (dy_blocks d) = block_count bs n -> Forall (bounded bs) (dy_blocks d) ->
            dyn_ok bs (mkDyn n (last_mask bs n) (dy_blocks d))) as Hok by (intros; constructor; cbn [dy_blocks dy_bits dy_mask]; auto).
  assert (forall m l i b, dyn_set bs (mkDyn n m l) i b =
     match dyn_set bs (mkDyn n (last_mask bs n) l) i b with Value d' => Value (mkDyn n m (dy_blocks d')) | Fails e => Fails e end) as Hmask.
  { intros m l i b. unfold dyn_set, block_at. cbn [dy_blocks]. destruct (nth_error l (i / bs)); [|reflexivity]. cbn [bind].
    destruct (set_bit bs n0 (i mod bs) b); [|reflexivity]. reflexivity. }
  destruct (loop_total f (fun k d => d = mkDyn n 0 (dy_blocks d) /\ dyn_ok bs (mkDyn n (last_mask bs n) (dy_blocks d)) /\
      forall i, dbit bs d i = (Nat.ltb i k && (Nat.ltb i 64 && N.testbit v (N.of_nat i)))) n 0 (mkDyn n 0 (repeat 0 (block_count bs n)))) as (d & E & Ed & Od & Hbit).
  - split; [reflexivity|]. split; [exact O0|]. intros i. unfold dbit. cbn [dy_blocks]. rewrite nth_repeat0, level_0. reflexivity.
  - intros k d Hk (Ed & Od & Hbit). unfold f. rewrite Ed, Hmask, value_bit.
    destruct (set_spec bs _ k (Nat.ltb k 64 && N.testbit v (N.of_nat k)) Hb Od) as (d' & Es & Os & Hbs & Hls & Hbits).
    { pose proof (do_len _ _ Od) as L. cbn [dy_blocks dy_bits] in *. rewrite L. pose proof (block_count_bounds bs n Hb). lia. }
    rewrite Es. eexists. split; [reflexivity|]. cbn [dy_blocks]. split; [reflexivity|]. split.
    + cbn [dy_bits] in Hbs. destruct d' as [b' m' l']. cbn [dy_blocks dy_bits] in *. subst b'. constructor; cbn [dy_blocks dy_bits dy_mask]; [apply Os|apply Os|reflexivity].
    + intros i. unfold dbit at 1. cbn [dy_blocks]. fold (dbit bs d' i). rewrite Hbits.
      assert (dbit bs (mkDyn n (last_mask bs n) (dy_blocks d)) i = dbit bs d i) as -> by reflexivity. rewrite Hbit.
      destruct (Nat.eqb_spec k i) as [<-|Hne]; [now rewrite (proj2 (Nat.ltb_lt k (S k))) by lia|].
      destruct (Nat.ltb_spec i k), (Nat.ltb_spec i (S k)); try reflexivity; lia.
  - fold f. rewrite E. cbn [bind]. eexists. split; [reflexivity|]. split; [assumption|]. cbn [Nat.add] in Hbit. split.
    + intros i Hi. cbn [dy_bits dy_blocks] in Hi. unfold dbit. cbn [dy_blocks]. fold (dbit bs d i). rewrite Hbit. rewrite (proj2 (Nat.ltb_ge i n)) by lia. reflexivity.
    + unfold value_bits. apply contents_is; [apply length_map_seq|]. intros i Hi. cbn [dy_bits] in Hi. unfold dbit. cbn [dy_blocks]. fold (dbit bs d i).
      rewrite Hbit, nth_map_seq by assumption. now rewrite (proj2 (Nat.ltb_lt i n)) by assumption.
Qed.
Theorem dyn_eq_value_list bs d v : (0 < bs)%nat -> dyn_ok bs d ->
  exists r, dyn_eq_value bs d v = Value r /\ (r = true -> contents bs d = value_bits (dy_bits d) v) /\
    (clean bs d -> contents bs d = value_bits (dy_bits d) v -> r = true).
Proof.
  intros Hb O. unfold dyn_eq_value. destruct (dyn_of_value_list bs (dyn_size d) v Hb) as (e & -> & Oe & Ce & He). cbn [bind].
  destruct (dyn_eq_list bs d e Hb O Oe) as (r & Er & H1 & H2). exists r. split; [assumption|]. unfold dyn_size in He. rewrite He in *. split; [assumption|].
  intros C E. now apply H2.
Qed.

(* ---- sub_bitset ---- *)

Record sub_ok (max : nat) (s : subset) : Prop := {
  so_width : (sb_width s <= max)%nat;
  so_mask : sb_mask s = N.ones (N.of_nat (sb_width s));
  so_bound : bounded (sb_width s) (sb_buffer s)
}.
Lemma sub_length s : length (sub_contents s) = sb_width s.
Proof. apply length_map_seq. Qed.
Lemma sub_nth s i : (i < sb_width s)%nat -> nth i (sub_contents s) false = level (sb_buffer s) i.
Proof. intros H. unfold sub_contents. now rewrite nth_map_seq. Qed.
Lemma sub_is s l : length l = sb_width s -> (forall i, (i < sb_width s)%nat -> level (sb_buffer s) i = nth i l false) -> sub_contents s = l.
Proof.
  intros Hl H. apply (list_nth_ext false); rewrite sub_length; [congruence|]. intros i Hi. rewrite sub_nth by assumption. now apply H.
Qed.
Lemma level_mask_low k j : (j < k)%nat -> level (N.ones (N.of_nat k)) j = true.
Proof. intros. apply N.ones_spec_low. lia. Qed.
Lemma with_sub_ok max s b : sub_ok max s -> bounded (sb_width s) b -> sub_ok max (with_buffer s b).
Proof. intros O H. constructor; cbn [with_buffer sb_width sb_buffer sb_mask]; [apply O|apply O|assumption]. Qed.
Lemma bounded_land_r k p q : bounded k q -> bounded k (N.land p q).
Proof. intros H j Hj. rewrite level_land, (H j Hj). apply andb_false_r. Qed.

Theorem sub_new_list max width : (width <= max)%nat ->
  exists s, sub_new max width = Value s /\ sub_ok max s /\ sub_contents s = repeat false width.
Proof.
  intros H. unfold sub_new. rewrite (proj2 (Nat.leb_le _ _) H). eexists. split; [reflexivity|]. split.
  - constructor; cbn [sb_width sb_mask sb_buffer]; [assumption|reflexivity|apply bounded_0].
  - apply sub_is; [apply repeat_length|]. intros i Hi. cbn [sb_buffer]. rewrite level_0. symmetry.
    destruct (nth_in_or_default i (repeat false width) false) as [X|X]; [|assumption]. now apply repeat_spec in X.
Qed.
Theorem sub_of_value_list max width v : (width <= max)%nat ->
  exists s, sub_of_value max width v = Value s /\ sub_ok max s /\ sub_contents s = value_bits width v.
Proof.
  intros H. unfold sub_of_value. rewrite (proj2 (Nat.leb_le _ _) H). cbn [check].
  destruct (loop_total (fun i b => set_bit max b i (negb (N.land v (N.shiftl 1 (N.of_nat i) mod two64) =? 0)))
     (fun k b => forall j, level b j = (Nat.ltb j k && (Nat.ltb j 64 && N.testbit v (N.of_nat j)))) width 0 0) as (b & E & Hb).
  - intros j. apply level_0.
  - intros k b Hk Hb. destruct (set_bit_ok max b k (negb (N.land v (N.shiftl 1 (N.of_nat k) mod two64) =? 0))) as [b' Eb]; [lia|].
    exists b'. split; [assumption|]. intros j. apply set_bit_spec in Eb as [_ Eb]. rewrite Eb, value_bit, Hb.
    destruct (Nat.eqb_spec k j) as [<-|]; [now rewrite (proj2 (Nat.ltb_lt k (S k))) by lia|]. destruct (Nat.ltb_spec j k), (Nat.ltb_spec j (S k)); try reflexivity; lia.
  - rewrite E. cbn [bind]. eexists. split; [reflexivity|]. cbn [Nat.add] in Hb. split.
    + constructor; cbn [sb_width sb_mask sb_buffer]; [assumption|reflexivity|]. intros j Hj. rewrite Hb.
      rewrite (proj2 (Nat.ltb_ge j width)) by lia. reflexivity.
    + unfold value_bits. apply sub_is; [apply length_map_seq|]. cbn [sb_width sb_buffer]. intros i Hi. rewrite Hb, nth_map_seq by assumption.
      now rewrite (proj2 (Nat.ltb_lt i width)).
Qed.
Theorem sub_element_list max s n v : sub_ok max s -> (n < sb_width s)%nat ->
  (exists s', sub_set max s n v = Value s' /\ sub_ok max s' /\ sub_contents s' = list_set (sub_contents s) n v) /\
  (exists s', sub_flip s n = Value s' /\ sub_ok max s' /\ sub_contents s' = list_set (sub_contents s) n (negb (nth n (sub_contents s) false))) /\
  sub_get s n = Value (nth n (sub_contents s) false).
Proof.
  intros O Hn. unfold sub_set, sub_flip, sub_get. rewrite (proj2 (Nat.ltb_lt _ _) Hn). cbn [check]. pose proof (so_width _ _ O) as Hw. split; [|split].
  - destruct (set_bit_ok max (sb_buffer s) n v) as [b E]; [lia|]. rewrite E. cbn [bind]. eexists. split; [reflexivity|]. apply set_bit_spec in E as [_ E]. split.
    + apply with_sub_ok; [assumption|]. intros j Hj. rewrite E. destruct (Nat.eqb_spec n j); [lia|]. now apply (so_bound _ _ O).
    + apply sub_is; [cbn [with_buffer sb_width]; rewrite list_set_length; now rewrite sub_length|]. cbn [with_buffer sb_width sb_buffer]. intros i Hi.
      rewrite E, list_set_nth, sub_nth by (try assumption; now rewrite sub_length). reflexivity.
  - assert (forall j, level (N.lxor (sb_buffer s) (N.shiftl 1 (N.of_nat n))) j = if Nat.eqb n j then negb (level (sb_buffer s) j) else level (sb_buffer s) j) as E.
    { intros j. rewrite level_lxor. unfold level at 2. rewrite N.shiftl_1_l, N.pow2_bits_eqb.
      destruct (Nat.eqb_spec n j) as [->|]; [rewrite N.eqb_refl; apply xorb_true_r|]. rewrite (proj2 (N.eqb_neq _ _)) by lia. apply xorb_false_r. }
    eexists. split; [reflexivity|]. split.
    + apply with_sub_ok; [assumption|]. intros j Hj. rewrite E. destruct (Nat.eqb_spec n j); [lia|]. now apply (so_bound _ _ O).
    + apply sub_is; [cbn [with_buffer sb_width]; rewrite list_set_length; now rewrite sub_length|]. cbn [with_buffer sb_width sb_buffer]. intros i Hi.
      rewrite E, list_set_nth, !sub_nth by (try assumption; now rewrite sub_length). destruct (Nat.eqb_spec n i); [now subst|reflexivity].
  - rewrite sub_nth by assumption. reflexivity.
Qed.
Theorem sub_out_of_range max s n v : (sb_width s <= n)%nat ->
  sub_set max s n v = Fails Assertion /\ sub_flip s n = Fails Assertion /\ sub_get s n = Fails Assertion.
Proof. intros H. unfold sub_set, sub_flip, sub_get. rewrite (proj2 (Nat.ltb_ge _ _) H). repeat split. Qed.
Theorem sub_fill_list max s : sub_ok max s ->
  (sub_ok max (sub_reset s) /\ sub_contents (sub_reset s) = map (fun _ => false) (sub_contents s)) /\
  (sub_ok max (sub_set_all max s) /\ sub_contents (sub_set_all max s) = map (fun _ => true) (sub_contents s)) /\
  (sub_ok max (sub_not max s) /\ sub_contents (sub_not max s) = map negb (sub_contents s)).
Proof.
  intros O. pose proof (so_width _ _ O) as Hw. split; [|split]; (split; [apply with_sub_ok; [assumption|]|]).
  - apply bounded_0.
  - apply sub_is; [now rewrite map_length, sub_length|]. intros i Hi. cbn [sub_reset with_buffer sb_buffer sb_width] in *. rewrite level_0.
    rewrite (nth_map _ _ i false false) by now rewrite sub_length. reflexivity.
  - apply bounded_land_r. rewrite (so_mask _ _ O). apply bounded_ones.
  - apply sub_is; [now rewrite map_length, sub_length|]. intros i Hi. cbn [sub_set_all with_buffer sb_buffer sb_width] in *.
    rewrite level_land, (so_mask _ _ O), !level_mask_low by lia.
    rewrite (nth_map _ _ i false false) by now rewrite sub_length. reflexivity.
  - apply bounded_land_r. rewrite (so_mask _ _ O). apply bounded_ones.
  - apply sub_is; [now rewrite map_length, sub_length|]. intros i Hi. cbn [sub_not with_buffer sb_buffer sb_width] in *.
    rewrite level_land, level_lxor, (so_mask _ _ O), !level_mask_low by lia. rewrite andb_true_r, xorb_true_r.
    rewrite (nth_map _ _ i false false) by now rewrite sub_length. rewrite sub_nth by assumption. reflexivity.
Qed.
Theorem sub_count_list max s : sub_ok max s -> sub_count s = trues (sub_contents s).
Proof. intros O. unfold sub_contents, sub_count. rewrite trues_lines. apply popcount_lines. apply O. Qed.
Theorem sub_eq_list max max' s t : sub_ok max s -> sub_ok max' t -> (sub_eq s t = true <-> sub_contents s = sub_contents t).
Proof.
  intros O O'. unfold sub_eq. split.
  - intros H. apply andb_true_iff in H as [H1 H2]. apply Nat.eqb_eq in H1. apply N.eqb_eq in H2. unfold sub_contents. now rewrite H1, H2.
  - intros H. assert (sb_width s = sb_width t) as Hw by (rewrite <- (sub_length s), <- (sub_length t); now rewrite H).
    rewrite Hw, Nat.eqb_refl. cbn [andb]. apply N.eqb_eq. apply (bounded_eq (sb_width s)); [apply O|rewrite Hw; apply O'|].
    intros j Hj. rewrite <- !sub_nth by congruence. now rewrite H.
Qed.
Theorem sub_eq_value_list max s v : sub_ok max s ->
  exists r, sub_eq_value max s v = Value r /\ (r = true <-> sub_contents s = value_bits (sb_width s) v).
Proof.
  intros O. unfold sub_eq_value. destruct (sub_of_value_list max (sb_width s) v) as (t & -> & Ot & Ht); [apply O|]. cbn [bind].
  eexists. split; [reflexivity|]. rewrite <- Ht. eapply sub_eq_list; eassumption.
Qed.
Theorem sub_zip_list max max' (f : N -> N -> N) (g : bool -> bool -> bool) s t : sub_ok max s -> sub_ok max' t -> sb_width s = sb_width t ->
  (forall x y j, level (f x y) j = g (level x j) (level y j)) ->
  (exists s', sub_zip f s t = Value s' /\ sub_ok max s' /\ sub_contents s' = zip g (sub_contents s) (sub_contents t)) /\
  (exists s', sub_and s t = Value s' /\ sub_ok max s' /\ sub_contents s' = zip andb (sub_contents s) (sub_contents t)).
Proof.
  intros O O' Hw Hf. unfold sub_zip, sub_and. rewrite Hw, Nat.eqb_refl. cbn [check].
  assert (length (sub_contents s) = length (sub_contents t)) as Hl by now rewrite !sub_length.
  split; eexists; (split; [reflexivity|]); (split; [apply with_sub_ok; [assumption|]|]).
  - apply bounded_land_r. rewrite (so_mask _ _ O). apply bounded_ones.
  - apply sub_is; [rewrite zip_length by assumption; exact (sub_length s)|]. intros i Hi. cbn [with_buffer sb_buffer sb_width] in *.
    rewrite level_land, Hf, (so_mask _ _ O), level_mask_low by lia. rewrite andb_true_r.
    rewrite zip_nth by (try assumption; now rewrite sub_length). rewrite !sub_nth by lia. reflexivity.
  - apply bounded_land_r. rewrite Hw. apply O'.
  - apply sub_is; [rewrite zip_length by assumption; exact (sub_length s)|]. intros i Hi. cbn [with_buffer sb_buffer sb_width] in *.
    rewrite level_land. rewrite zip_nth by (try assumption; now rewrite sub_length). rewrite !sub_nth by lia. reflexivity.
Qed.

(* ---- histories ---- *)

Lemma gate_bit g x y j : level (word_gate g x y) j = bit_gate g (level x j) (level y j).
Proof. destruct g; [apply level_lxor|apply level_land|apply level_lor]. Qed.
Lemma gate_zero g : bit_gate g false false = false.
Proof. now destruct g. Qed.

Lemma made_sound bs tidy d l : (0 < bs)%nat -> made bs tidy d l -> dyn_ok bs d /\ (tidy = true -> clean bs d) /\ contents bs d = l.
Proof.
  intros Hb M. induction M.
  - destruct (dyn_empty_list bs dyn_empty Hb) as [(O & C & E) _]. auto.
  - destruct (dyn_new_list bs n Hb) as (O & C & E). auto.
  - destruct (dyn_of_value_list bs n v Hb) as (d' & E & O & C & El). rewrite H in E. injection E as <-. auto.
  - destruct IHM as (O & C & E). destruct (dyn_push_list bs d v Hb O) as (x & Ex & Ox & Cx & Lx). rewrite H in Ex. injection Ex as <-. rewrite E in Lx. auto.
  - destruct IHM as (O & C & E). assert (n < dy_bits d)%nat as Hn by now rewrite <- (contents_length bs), E.
    destruct (dyn_set_list bs d n v Hb O Hn) as (x & Ex & Ox & Cx & Lx). rewrite H0 in Ex. injection Ex as <-. rewrite E in Lx. auto.
  - destruct IHM as (O & C & E). assert (n < dy_bits d)%nat as Hn by now rewrite <- (contents_length bs), E.
    destruct (dyn_flip_list bs d n Hb O Hn) as (x & Ex & Ox & Cx & Lx). rewrite H0 in Ex. injection Ex as <-. rewrite E in Lx. auto.
  - destruct IHM as (O & C & E). destruct (dyn_fill_list bs d Hb O) as (_ & (Os & Ls) & _). rewrite E in Ls. split; [assumption|]. split; [discriminate|assumption].
  - destruct IHM as (O & C & E). destruct (dyn_fill_list bs d Hb O) as (_ & _ & (Os & Ls)). rewrite E in Ls. split; [assumption|]. split; [discriminate|assumption].
  - destruct IHM as (O & C & E). destruct (dyn_fill_list bs d Hb O) as ((Os & Cs & Ls) & _ & _). rewrite E in Ls. auto.
  - destruct (dyn_empty_list bs d Hb) as [_ (O & C & E)]. auto.
  - destruct IHM1 as (O & C & E). destruct IHM2 as (O' & C' & E').
    destruct (dyn_zip_list bs (word_gate g) (bit_gate g) d e Hb O O' (gate_bit g) (gate_zero g)) as (x & Ex & Ox & Cx & Lx).
    { rewrite <- (contents_length bs d), <- (contents_length bs e). congruence. }
    rewrite H0 in Ex. injection Ex as <-. rewrite E, E' in Lx. split; [assumption|]. split; [|assumption].
    intros T. apply andb_true_iff in T as [T T']. auto.
Qed.

Theorem made_observed bs tidy d l : (0 < bs)%nat -> made bs tidy d l ->
  dyn_size d = length l /\ dyn_count bs d = trues l /\ forall i, (i < length l)%nat -> dyn_get bs d i = Value (nth i l false).
Proof.
  intros Hb M. destruct (made_sound _ _ _ _ Hb M) as (O & C & <-). rewrite contents_length. split; [reflexivity|]. split; [now apply dyn_count_list|].
  intros i Hi. now apply dyn_get_list.
Qed.
Theorem made_goes_on bs tidy d l : (0 < bs)%nat -> made bs tidy d l ->
  (forall v, exists d', dyn_push bs d v = Value d') /\
  (forall n, (n < length l)%nat -> (forall v, exists d', dyn_set bs d n v = Value d') /\ (exists d', dyn_flip bs d n = Value d')) /\
  (forall g tidy' e l', made bs tidy' e l' -> if Nat.eqb (length l) (length l') then exists d', dyn_zip (word_gate g) d e = Value d'
                                             else dyn_zip (word_gate g) d e = Fails Assertion).
Proof.
  intros Hb M. destruct (made_sound _ _ _ _ Hb M) as (O & C & <-). split; [|split].
  - intros v. destruct (dyn_push_list bs d v Hb O) as (x & Ex & _). eauto.
  - intros n Hn. rewrite contents_length in Hn. split; [intros v; destruct (dyn_set_list bs d n v Hb O Hn) as (x & Ex & _); eauto|].
    destruct (dyn_flip_list bs d n Hb O Hn) as (x & Ex & _). eauto.
  - intros g tidy' e l' M'. destruct (made_sound _ _ _ _ Hb M') as (O' & C' & <-). rewrite !contents_length.
    destruct (Nat.eqb_spec (dy_bits d) (dy_bits e)) as [H|H].
    + destruct (dyn_zip_list bs (word_gate g) (bit_gate g) d e Hb O O' (gate_bit g) (gate_zero g) H) as (x & Ex & _). eauto.
    + now apply dyn_zip_sizes.
Qed.
Theorem made_far bs tidy d l n v : (0 < bs)%nat -> made bs tidy d l -> (length l + bs <= n)%nat ->
  dyn_set bs d n v = Fails Exception /\ dyn_flip bs d n = Fails Exception /\ dyn_get bs d n = Fails Exception.
Proof.
  intros Hb M Hn. destruct (made_sound _ _ _ _ Hb M) as (O & C & <-). rewrite contents_length in Hn. apply dyn_out_of_range; [assumption|assumption|].
  pose proof (block_count_bounds bs (dy_bits d) Hb). lia.
Qed.
Theorem made_equal bs bs' tidy tidy' d e l l' : (0 < bs)%nat -> (0 < bs')%nat -> made bs tidy d l -> 
  (made bs tidy' e l' -> exists r, dyn_eq d e = Value r /\ (r = true -> l = l') /\ (tidy = true -> tidy' = true -> l = l' -> r = true)) /\
  (made bs' tidy' e l' -> exists r, dyn_eq_other bs bs' d e = Value r /\ (r = true <-> l = l')) /\
  (forall v, exists r, dyn_eq_value bs d v = Value r /\ (r = true -> l = value_bits (length l) v) /\
                       (tidy = true -> l = value_bits (length l) v -> r = true)).
Proof.
  intros Hb Hb' M. destruct (made_sound _ _ _ _ Hb M) as (O & C & <-). split; [|split].
  - intros M'. destruct (made_sound _ _ _ _ Hb M') as (O' & C' & <-). destruct (dyn_eq_list bs d e Hb O O') as (r & Er & H1 & H2). exists r. auto.
  - intros M'. destruct (made_sound _ _ _ _ Hb' M') as (O' & C' & <-). now apply dyn_eq_other_list.
  - intros v. rewrite contents_length. destruct (dyn_eq_value_list bs d v Hb O) as (r & Er & H1 & H2). exists r. auto.
Qed.

Lemma sub_made_sound max s l : sub_made max s l -> sub_ok max s /\ sub_contents s = l.
Proof.
  intros M. induction M.
  - destruct (sub_new_list max width) as (x & Ex & O & E); [|rewrite H in Ex; injection Ex as <-; auto].
    unfold sub_new in H. destruct (Nat.leb_spec width max); [assumption|discriminate].
  - destruct (sub_of_value_list max width v) as (x & Ex & O & E); [|rewrite H in Ex; injection Ex as <-; auto].
    unfold sub_of_value in H. destruct (Nat.leb_spec width max); [assumption|discriminate].
  - destruct IHM as (O & E). assert (n < sb_width s)%nat as Hn.
    { unfold sub_set in H. destruct (Nat.ltb_spec n (sb_width s)); [assumption|discriminate]. }
    destruct (sub_element_list max s n v O Hn) as ((x & Ex & Ox & Lx) & _ & _). rewrite H in Ex. injection Ex as <-. rewrite E in Lx. auto.
  - destruct IHM as (O & E). assert (n < sb_width s)%nat as Hn.
    { unfold sub_flip in H. destruct (Nat.ltb_spec n (sb_width s)); [assumption|discriminate]. }
    destruct (sub_element_list max s n true O Hn) as (_ & (x & Ex & Ox & Lx) & _). rewrite H in Ex. injection Ex as <-. rewrite E in Lx. auto.
  - destruct IHM as (O & E). destruct (sub_fill_list max s O) as (_ & (Os & Ls) & _). rewrite E in Ls. auto.
  - destruct IHM as (O & E). destruct (sub_fill_list max s O) as (_ & _ & (Os & Ls)). rewrite E in Ls. auto.
  - destruct IHM as (O & E). destruct (sub_fill_list max s O) as ((Os & Ls) & _ & _). rewrite E in Ls. auto.
  - destruct IHM1 as (O & E). destruct IHM2 as (O' & E').
    assert (sb_width s = sb_width t) as Hw.
    { destruct g; unfold sub_gate, sub_zip, sub_and in H; destruct (Nat.eqb_spec (sb_width s) (sb_width t)); try assumption; discriminate. }
    destruct (sub_zip_list max max (word_gate g) (bit_gate g) s t O O' Hw (gate_bit g)) as ((x & Ex & Ox & Lx) & (y & Ey & Oy & Ly)).
    rewrite E, E' in *. destruct g; unfold sub_gate in H; [rewrite H in Ex; injection Ex as <-; auto|rewrite H in Ey; injection Ey as <-; auto|rewrite H in Ex; injection Ex as <-; auto].
Qed.
Theorem sub_made_observed max s l : sub_made max s l ->
  sb_width s = length l /\ sub_count s = trues l /\
  forall i, sub_get s i = if Nat.ltb i (length l) then Value (nth i l false) else Fails Assertion.
Proof.
  intros M. destruct (sub_made_sound _ _ _ M) as (O & <-). rewrite sub_length. split; [reflexivity|]. split; [eapply sub_count_list; eassumption|].
  intros i. destruct (Nat.ltb_spec i (sb_width s)) as [H|H]; [now apply (sub_element_list max s i true O H)|now apply (sub_out_of_range max s i true)].
Qed.
Theorem sub_made_goes_on max s l : sub_made max s l ->
  (forall n, if Nat.ltb n (length l) then (forall v, exists s', sub_set max s n v = Value s') /\ (exists s', sub_flip s n = Value s')
             else (forall v, sub_set max s n v = Fails Assertion) /\ sub_flip s n = Fails Assertion) /\
  (forall g t l', sub_made max t l' -> if Nat.eqb (length l) (length l') then exists s', sub_gate g s t = Value s' else sub_gate g s t = Fails Assertion).
Proof.
  intros M. destruct (sub_made_sound _ _ _ M) as (O & <-). rewrite sub_length. split.
  - intros n. destruct (Nat.ltb_spec n (sb_width s)) as [H|H].
    + split; [intros v; destruct (sub_element_list max s n v O H) as ((x & Ex & _) & _); eauto|].
      destruct (sub_element_list max s n true O H) as (_ & (x & Ex & _) & _). eauto.
    + split; [intros v; now apply (sub_out_of_range max s n v)|now apply (sub_out_of_range max s n true)].
  - intros g t l' M'. destruct (sub_made_sound _ _ _ M') as (O' & <-). rewrite sub_length.
    destruct g; unfold sub_gate, sub_zip, sub_and; destruct (Nat.eqb (sb_width s) (sb_width t)); cbn [check]; eauto.
Qed.
Theorem sub_made_equal max max' s t l l' : sub_made max s l ->
  (sub_made max' t l' -> (sub_eq s t = true <-> l = l')) /\
  (forall v, exists r, sub_eq_value max s v = Value r /\ (r = true <-> l = value_bits (length l) v)).
Proof.
  intros M. destruct (sub_made_sound _ _ _ M) as (O & <-). rewrite sub_length. split.
  - intros M'. destruct (sub_made_sound _ _ _ M') as (O' & <-). eapply sub_eq_list; eassumption.
  - intros v. now apply sub_eq_value_list.
Qed.
