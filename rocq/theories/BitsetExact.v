(* Bit sets of run-time size, spare bits included. *)
From Coq Require Import NArith List Bool Lia Arith.
From Verif Require Import Base Bits WaveSpec BitFacts ListFacts BitsetModel BitsetSpec DbiModel DbiProofs BitsetProofs BitsetExactSpec.
Import ListNotations.
Local Open Scope N_scope.
Ltac Zify.zify_post_hook ::= idtac.

Lemma room_blocks bs n : (0 < bs)%nat -> room bs n = (block_count bs n * bs)%nat.
Proof.
  intros Hb. unfold room, block_count. pose proof (Nat.div_mod n bs ltac:(lia)) as E. pose proof (Nat.mod_upper_bound n bs ltac:(lia)) as B.
  f_equal. destruct (Nat.eqb_spec (n mod bs) 0) as [Z|Z].
  - symmetry. apply (Nat.div_unique _ _ _ (bs - 1)); lia.
  - symmetry. apply (Nat.div_unique _ _ _ (n mod bs - 1)); lia.
Qed.

(* The same set, with all the bits there is room for. *)
Definition widen (bs : nat) (d : dynset) : dynset := mkDyn (length (dy_blocks d) * bs) (dy_mask d) (dy_blocks d).
Definition full (bs : nat) (d : dynset) : list bool := contents bs (widen bs d).
Definition lift (bs : nat) (r : result dynset) : result dynset := match r with Value d => Value (widen bs d) | Fails e => Fails e end.

Lemma widen_ok bs d : (0 < bs)%nat -> dyn_ok bs d -> dyn_ok bs (widen bs d).
Proof.
  intros Hb O. constructor; cbn [widen dy_blocks dy_bits dy_mask].
  - unfold block_count. rewrite Nat.mod_mul, Nat.eqb_refl, Nat.div_mul by lia. reflexivity.
  - apply O.
  - rewrite Nat.mod_mul by lia. congruence.
Qed.
Lemma full_length bs d : length (full bs d) = (length (dy_blocks d) * bs)%nat.
Proof. apply contents_length. Qed.
Lemma full_nth bs d i : (i < length (dy_blocks d) * bs)%nat -> nth i (full bs d) false = dbit bs d i.
Proof. intros H. unfold full. rewrite contents_nth by exact H. reflexivity. Qed.
Lemma full_room bs d : (0 < bs)%nat -> dyn_ok bs d -> length (full bs d) = room bs (dy_bits d).
Proof. intros Hb O. now rewrite full_length, (do_len _ _ O), room_blocks. Qed.
Lemma contents_full bs d : (0 < bs)%nat -> dyn_ok bs d -> contents bs d = firstn (dy_bits d) (full bs d).
Proof.
  intros Hb O. pose proof (block_count_bounds bs (dy_bits d) Hb) as B. apply contents_is.
  - rewrite firstn_length, full_length, (do_len _ _ O). lia.
  - intros i Hi. rewrite nth_firstn by assumption. rewrite full_nth; [reflexivity|]. rewrite (do_len _ _ O). lia.
Qed.

Lemma widen_with bs d k b : widen bs (with_block d k b) = with_block (widen bs d) k b.
Proof. unfold widen, with_block. cbn [dy_blocks dy_mask dy_bits]. now rewrite length_upd. Qed.
Lemma widen_set bs d i v : dyn_set bs (widen bs d) i v = lift bs (dyn_set bs d i v).
Proof.
  unfold dyn_set. change (block_at (widen bs d) (i / bs)) with (block_at d (i / bs)). destruct (block_at d (i / bs)); [|reflexivity]. cbn [bind].
  destruct (set_bit bs a (i mod bs) v); [|reflexivity]. cbn [bind lift]. now rewrite widen_with.
Qed.
Lemma widen_flip bs d i : dyn_flip bs (widen bs d) i = lift bs (dyn_flip bs d i).
Proof.
  unfold dyn_flip. change (block_at (widen bs d) (i / bs)) with (block_at d (i / bs)). destruct (block_at d (i / bs)); [|reflexivity].
  cbn [bind lift]. now rewrite widen_with.
Qed.
Lemma widen_each bs d f : widen bs (each_block d f) = each_block (widen bs d) f.
Proof. unfold widen, each_block. cbn [dy_blocks dy_mask dy_bits]. now rewrite map_length. Qed.
Lemma widen_loop bs (f : nat -> dynset -> result dynset) : (forall k a, f k (widen bs a) = lift bs (f k a)) ->
  forall l d, loop f l (widen bs d) = lift bs (loop f l d).
Proof.
  intros Hf. induction l as [|k l IH]; intros d; cbn [loop]; [reflexivity|]. rewrite Hf. destruct (f k d); cbn [bind lift]; [apply IH|reflexivity].
Qed.
Lemma zip_block_bits f l e : forall d d', loop (fun k d => x <- block_at d k ;; y <- block_at e k ;; Value (with_block d k (f x y))) l d = Value d' ->
  dy_bits d' = dy_bits d.
Proof.
  induction l as [|k l IH]; intros d d' H; cbn [loop] in H; [now injection H as <-|].
  apply bind_value in H as (a & Ha & H). rewrite (IH _ _ H). apply bind_value in Ha as (x & _ & Ha). apply bind_value in Ha as (y & _ & Ha).
  injection Ha as <-. reflexivity.
Qed.
Lemma widen_zip bs f d e d' : dyn_ok bs d -> dyn_ok bs e -> dyn_zip f d e = Value d' ->
  dy_bits d = dy_bits e /\ dy_bits d' = dy_bits d /\ dyn_zip f (widen bs d) (widen bs e) = Value (widen bs d').
Proof.
  intros O O' H. unfold dyn_zip in H. apply check_value in H as (E & H). unfold dyn_size in E. apply Nat.eqb_eq in E.
  split; [exact E|]. split; [now apply zip_block_bits in H|]. unfold dyn_zip, dyn_size. cbn [widen dy_bits].
  assert (length (dy_blocks d) = length (dy_blocks e)) as Hl by (rewrite (do_len _ _ O), (do_len _ _ O'), E; reflexivity).
  rewrite Hl at 1. rewrite Nat.eqb_refl. cbn [check]. fold (widen bs d). fold (widen bs e).
  change (dy_blocks (widen bs d)) with (dy_blocks d).
  change (fun k d0 => x <- block_at d0 k;; y <- block_at (widen bs e) k;; Value (with_block d0 k (f x y)))
    with (fun k d0 => x <- block_at d0 k;; y <- block_at e k;; Value (with_block d0 k (f x y))).
  rewrite widen_loop, H; [reflexivity|]. intros k a. change (block_at (widen bs a) k) with (block_at a k).
  destruct (block_at a k); [|reflexivity]. cbn [bind]. destruct (block_at e k); [|reflexivity]. cbn [bind lift]. now rewrite widen_with.
Qed.

Lemma set_full bs d i v d' : (0 < bs)%nat -> dyn_ok bs d -> dyn_set bs d i v = Value d' ->
  (i < length (full bs d))%nat /\ dyn_ok bs d' /\ dy_bits d' = dy_bits d /\ full bs d' = list_set (full bs d) i v.
Proof.
  intros Hb O H. rewrite full_length. destruct (Nat.lt_ge_cases i (length (dy_blocks d) * bs)) as [Hi|Hi].
  - split; [assumption|]. destruct (set_spec bs d i v Hb O Hi) as (x & Ex & Ox & Bx & _). rewrite H in Ex. injection Ex as <-.
    split; [assumption|]. split; [assumption|].
    destruct (dyn_set_list bs (widen bs d) i v Hb (widen_ok bs d Hb O) Hi) as (x & Ex & _ & _ & Lx).
    rewrite widen_set, H in Ex. injection Ex as <-. exact Lx.
  - exfalso. destruct (dyn_out_of_range bs d i v Hb O) as (E & _); [|congruence]. now rewrite <- (do_len _ _ O).
Qed.
Lemma flip_full bs d i d' : (0 < bs)%nat -> dyn_ok bs d -> dyn_flip bs d i = Value d' ->
  (i < length (full bs d))%nat /\ dyn_ok bs d' /\ dy_bits d' = dy_bits d /\ full bs d' = list_set (full bs d) i (negb (nth i (full bs d) false)).
Proof.
  intros Hb O H. rewrite full_length. destruct (Nat.lt_ge_cases i (length (dy_blocks d) * bs)) as [Hi|Hi].
  - split; [assumption|]. destruct (flip_spec bs d i Hb O Hi) as (x & Ex & Ox & Bx & _). rewrite H in Ex. injection Ex as <-.
    split; [assumption|]. split; [assumption|].
    destruct (dyn_flip_list bs (widen bs d) i Hb (widen_ok bs d Hb O) Hi) as (x & Ex & _ & _ & Lx).
    rewrite widen_flip, H in Ex. injection Ex as <-. exact Lx.
  - exfalso. destruct (dyn_out_of_range bs d i true Hb O) as (_ & E & _); [|congruence]. now rewrite <- (do_len _ _ O).
Qed.
Lemma get_full bs d i : (0 < bs)%nat -> dyn_ok bs d ->
  dyn_get bs d i = if Nat.ltb i (length (full bs d)) then Value (nth i (full bs d) false) else Fails Exception.
Proof.
  intros Hb O. destruct (Nat.ltb_spec i (length (full bs d))) as [Hi|Hi]; rewrite full_length in Hi.
  - exact (dyn_get_list bs (widen bs d) i Hb (widen_ok bs d Hb O) Hi).
  - destruct (dyn_out_of_range bs d i true Hb O) as (_ & _ & E); [|assumption]. now rewrite <- (do_len _ _ O).
Qed.
Lemma clean_full bs d : (0 < bs)%nat -> dyn_ok bs d -> clean bs d -> full bs d = filled (room bs (dy_bits d)) (contents bs d).
Proof.
  intros Hb O C. pose proof (block_count_bounds bs (dy_bits d) Hb) as B. pose proof (full_room bs d Hb O) as R.
  rewrite room_blocks in * by assumption. unfold filled. apply (list_nth_ext false).
  - rewrite app_length, repeat_length, contents_length. lia.
  - intros i Hi. rewrite full_length in Hi. rewrite full_nth by assumption. destruct (Nat.lt_ge_cases i (dy_bits d)) as [L|L].
    + rewrite app_nth1 by now rewrite contents_length. now rewrite contents_nth.
    + rewrite app_nth2 by (rewrite contents_length; lia). rewrite C by lia. symmetry.
      match goal with |- nth ?a ?b _ = _ => destruct (nth_in_or_default a b false) as [X|X]; [now apply repeat_spec in X|exact X] end.
Qed.

Lemma push_full bs d v d' : (0 < bs)%nat -> dyn_ok bs d -> dyn_push bs d v = Value d' ->
  dyn_ok bs d' /\ dy_bits d' = S (dy_bits d) /\ full bs d' = list_set (filled (room bs (S (dy_bits d))) (full bs d)) (dy_bits d) v.
Proof.
  intros Hb O H. destruct (dyn_push_list bs d v Hb O) as (x & Ex & Ox & _ & Lx). rewrite H in Ex. injection Ex as <-.
  assert (dy_bits d' = S (dy_bits d)) as Hn.
  { rewrite <- (contents_length bs d'), Lx, app_length, contents_length. cbn [length]. lia. }
  split; [assumption|]. split; [assumption|].
  set (n := dy_bits d) in *. pose proof (Nat.div_mod n bs ltac:(lia)) as E. pose proof (Nat.mod_upper_bound n bs ltac:(lia)) as B.
  pose proof (do_len _ _ O) as L. fold n in L. pose proof (do_len _ _ Ox) as L'. rewrite Hn in L'.
  pose proof (block_count_bounds bs n Hb) as Bn. pose proof (block_count_bounds bs (S n) Hb) as Bs.
  assert (length (filled (room bs (S n)) (full bs d)) = (block_count bs (S n) * bs)%nat) as Hfl.
  { unfold filled. rewrite app_length, repeat_length, full_length, L, room_blocks by assumption.
    assert (block_count bs n * bs <= block_count bs (S n) * bs)%nat; [|lia]. apply Nat.mul_le_mono_r.
    destruct (Nat.le_gt_cases (block_count bs n) (block_count bs (S n))); [assumption|nia]. }
  apply (list_nth_ext false); [rewrite full_length, L', list_set_length by (rewrite Hfl; lia); now rewrite Hfl|].
  intros i Hi. rewrite full_length, L' in Hi. rewrite full_nth by (rewrite L'; assumption).
  rewrite list_set_nth by (rewrite Hfl; lia).
  unfold dyn_push in H. fold n in H. set (blocks := if Nat.eqb (n mod bs) 0 then dy_blocks d ++ [0] else dy_blocks d) in *.
  assert (length blocks = n / bs + 1)%nat as Hl.
  { unfold blocks. unfold block_count in L. destruct (Nat.eqb (n mod bs) 0); rewrite ?app_length, L; cbn [length]; lia. }
  assert (forall k, nth k blocks 0 = nth k (dy_blocks d) 0) as Hnth.
  { intros k. unfold blocks. destruct (Nat.eqb (n mod bs) 0); [|reflexivity]. destruct (Nat.lt_ge_cases k (length (dy_blocks d))) as [X|X].
    - now rewrite app_nth1.
    - rewrite app_nth2 by assumption. rewrite (nth_overflow (dy_blocks d)) by assumption. destruct (k - length (dy_blocks d))%nat as [|[|]]; reflexivity. }
  replace (length blocks - 1)%nat with (n / bs)%nat in H by lia. rewrite (nth_error_nth' blocks 0) in H by lia. rewrite Hnth in H.
  destruct (set_bit_ok bs (nth (n / bs) (dy_blocks d) 0) (n mod bs) v B) as [b Eb]. rewrite Eb in H. cbn [bind] in H. injection H as <-.
  assert (nth i (filled (room bs (S n)) (full bs d)) false = dbit bs d i) as ->.
  { unfold filled. destruct (Nat.lt_ge_cases i (length (dy_blocks d) * bs)) as [X|X].
    - rewrite app_nth1 by now rewrite full_length. now apply full_nth.
    - rewrite app_nth2 by (now rewrite full_length).
      unfold dbit. rewrite (nth_overflow (dy_blocks d)) by (apply Nat.div_le_lower_bound; lia). rewrite level_0.
      match goal with |- nth ?a ?b _ = _ => destruct (nth_in_or_default a b false) as [Y|Y]; [now apply repeat_spec in Y|exact Y] end. }
  unfold dbit at 1. cbn [dy_blocks]. rewrite nth_upd by lia. rewrite Hnth. apply set_bit_spec in Eb as [_ Es].
  rewrite <- (split_index bs n i Hb). destruct (Nat.eqb_spec (n / bs) (i / bs)) as [Ek|]; [|reflexivity]. cbn [andb].
  rewrite Es. destruct (Nat.eqb (n mod bs) (i mod bs)); [reflexivity|]. unfold dbit. now rewrite Ek.
Qed.

Theorem kept_sound bs d n l : (0 < bs)%nat -> kept bs d n l -> dyn_ok bs d /\ dy_bits d = n /\ full bs d = l.
Proof.
  intros Hb K. induction K.
  - destruct (dyn_empty_list bs dyn_empty Hb) as [(O & C & E) _]. auto.
  - destruct (dyn_new_list bs n Hb) as (O & C & E). split; [assumption|]. split; [reflexivity|].
    rewrite clean_full, E by assumption. cbn [dyn_new dy_bits]. unfold filled. rewrite repeat_length, <- repeat_app. f_equal.
    rewrite room_blocks by assumption. pose proof (block_count_bounds bs n Hb). lia.
  - destruct (dyn_of_value_list bs n v Hb) as (d' & E & O & C & El). rewrite H in E. injection E as <-.
    assert (dy_bits d = n) as Hn by (rewrite <- (contents_length bs d), El; apply length_map_seq).
    split; [assumption|]. split; [assumption|]. now rewrite clean_full, El, Hn.
  - destruct IHK as (O & Hn & Hl). destruct (push_full bs d v d' Hb O H) as (O' & Hn' & Hl'). rewrite Hn, Hl in *. auto.
  - destruct IHK as (O & Hn & Hl). destruct (set_full bs d i v d' Hb O H) as (_ & O' & Hn' & Hl'). rewrite Hl in Hl'. split; [assumption|]. split; [congruence|assumption].
  - destruct IHK as (O & Hn & Hl). destruct (flip_full bs d i d' Hb O H) as (_ & O' & Hn' & Hl'). rewrite Hl in Hl'. split; [assumption|]. split; [congruence|assumption].
  - destruct IHK as (O & Hn & Hl). destruct (dyn_fill_list bs d Hb O) as (_ & (Os & _) & _).
    destruct (dyn_fill_list bs _ Hb (widen_ok bs d Hb O)) as (_ & (_ & Ls) & _). split; [assumption|]. split; [assumption|].
    unfold full, dyn_set_all. rewrite widen_each. unfold full in Hl. rewrite <- Hl. exact Ls.
  - destruct IHK as (O & Hn & Hl). destruct (dyn_fill_list bs d Hb O) as (_ & _ & (Os & _)).
    destruct (dyn_fill_list bs _ Hb (widen_ok bs d Hb O)) as (_ & _ & (_ & Ls)). split; [assumption|]. split; [assumption|].
    unfold full, dyn_not. rewrite widen_each. unfold full in Hl. rewrite <- Hl. exact Ls.
  - destruct IHK as (O & Hn & Hl). destruct (dyn_fill_list bs d Hb O) as ((Os & _) & _ & _).
    destruct (dyn_fill_list bs _ Hb (widen_ok bs d Hb O)) as ((_ & _ & Ls) & _ & _). split; [assumption|]. split; [assumption|].
    unfold full, dyn_reset. rewrite widen_each. unfold full in Hl. rewrite <- Hl. exact Ls.
  - destruct (dyn_empty_list bs d Hb) as [_ (O & C & E)]. auto.
  - destruct IHK1 as (O & Hn & Hl). destruct IHK2 as (O' & Hn' & Hl').
    destruct (widen_zip bs _ _ _ _ O O' H) as (Hs & Hd & Z).
    destruct (dyn_zip_list bs (word_gate g) (bit_gate g) d e Hb O O' (gate_bit g) (gate_zero g) Hs) as (x & Ex & Ox & _ & _).
    rewrite H in Ex. injection Ex as <-.
    destruct (dyn_zip_list bs (word_gate g) (bit_gate g) (widen bs d) (widen bs e) Hb (widen_ok _ _ Hb O) (widen_ok _ _ Hb O') (gate_bit g) (gate_zero g)) as (x & Ex & _ & _ & Lx).
    { cbn [widen dy_bits]. now rewrite (do_len _ _ O), (do_len _ _ O'), Hs. }
    rewrite Z in Ex. injection Ex as <-. split; [assumption|]. split; [congruence|]. unfold full in *. now rewrite Lx, Hl, Hl'.
Qed.

Theorem kept_exactly bs d n l : (0 < bs)%nat -> kept bs d n l ->
  length l = room bs n /\ (n <= room bs n < n + bs)%nat /\
  dyn_size d = n /\ dyn_count bs d = trues (firstn n l) /\
  (forall i, dyn_get bs d i = if Nat.ltb i (room bs n) then Value (nth i l false) else Fails Exception) /\
  (forall v, exists d', dyn_push bs d v = Value d') /\
  (forall i v, if Nat.ltb i (room bs n) then exists d', dyn_set bs d i v = Value d' else dyn_set bs d i v = Fails Exception) /\
  (forall i, if Nat.ltb i (room bs n) then exists d', dyn_flip bs d i = Value d' else dyn_flip bs d i = Fails Exception) /\
  (forall g e n' l', kept bs e n' l' -> if Nat.eqb n n' then exists d', dyn_zip (word_gate g) d e = Value d'
                                        else dyn_zip (word_gate g) d e = Fails Assertion).
Proof.
  intros Hb K. destruct (kept_sound bs d n l Hb K) as (O & Hn & Hl). pose proof (full_room bs d Hb O) as R. rewrite Hl, Hn in R.
  pose proof (block_count_bounds bs n Hb) as B. rewrite <- room_blocks in B by assumption.
  assert (length (dy_blocks d) * bs = room bs n)%nat as Hr by (rewrite (do_len _ _ O), Hn; symmetry; now apply room_blocks).
  split; [assumption|]. split; [exact B|]. split; [assumption|].
  split; [rewrite dyn_count_list, contents_full, Hl, Hn by assumption; reflexivity|].
  split; [intros i; rewrite get_full, Hl, R by assumption; reflexivity|].
  split; [intros v; destruct (dyn_push_list bs d v Hb O) as (x & Ex & _); eauto|].
  split; [|split].
  - intros i v. destruct (Nat.ltb_spec i (room bs n)) as [Hi|Hi].
    + destruct (set_spec bs d i v Hb O ltac:(lia)) as (x & Ex & _). eauto.
    + destruct (dyn_out_of_range bs d i v Hb O) as (E & _); [|assumption]. rewrite <- (do_len _ _ O). lia.
  - intros i. destruct (Nat.ltb_spec i (room bs n)) as [Hi|Hi].
    + destruct (flip_spec bs d i Hb O ltac:(lia)) as (x & Ex & _). eauto.
    + destruct (dyn_out_of_range bs d i true Hb O) as (_ & E & _); [|assumption]. rewrite <- (do_len _ _ O). lia.
  - intros g e n' l' K'. destruct (kept_sound bs e n' l' Hb K') as (O' & Hn' & _). destruct (Nat.eqb_spec n n') as [E|E].
    + destruct (dyn_zip_list bs (word_gate g) (bit_gate g) d e Hb O O' (gate_bit g) (gate_zero g)) as (x & Ex & _); [congruence|eauto].
    + apply dyn_zip_sizes. congruence.
Qed.

Lemma eq_full bs d e : (0 < bs)%nat -> dyn_ok bs d -> dyn_ok bs e ->
  exists r, dyn_eq d e = Value r /\ (r = true <-> dy_bits d = dy_bits e /\ full bs d = full bs e).
Proof.
  intros Hb O O'. unfold dyn_eq, dyn_size. destruct (Nat.eqb_spec (dy_bits d) (dy_bits e)) as [Hs|Hs].
  2:{ exists false. split; [reflexivity|]. split; [discriminate|]. intros [E _]. congruence. }
  assert (length (dy_blocks d) = length (dy_blocks e)) as Hl by (rewrite (do_len _ _ O), (do_len _ _ O'), Hs; reflexivity).
  assert (forall a, dyn_ok bs a -> dyn_ok bs (widen bs a) /\ clean bs (widen bs a)) as W.
  { intros a Oa. split; [now apply widen_ok|]. intros i Hi. cbn [widen dy_bits dy_blocks] in Hi. lia. }
  destruct (W d O) as [Wd Cd]. destruct (W e O') as [We Ce].
  destruct (dyn_eq_list bs (widen bs d) (widen bs e) Hb Wd We) as (r & Er & H1 & H2).
  unfold dyn_eq, dyn_size in Er. cbn [widen dy_bits] in Er. rewrite Hl in Er at 1. rewrite Nat.eqb_refl in Er.
  exists r. split; [exact Er|]. split; [intros E; split; [exact Hs|now apply H1]|]. intros [_ E]. now apply H2.
Qed.

Theorem kept_equal bs d n l : (0 < bs)%nat -> kept bs d n l ->
  (forall e n' l', kept bs e n' l' -> exists r, dyn_eq d e = Value r /\ (r = true <-> n = n' /\ l = l')) /\
  (forall bs' e n' l', (0 < bs')%nat -> kept bs' e n' l' ->
     exists r, dyn_eq_other bs bs' d e = Value r /\ (r = true <-> firstn n l = firstn n' l')) /\
  (forall v, exists r, dyn_eq_value bs d v = Value r /\ (r = true <-> l = filled (room bs n) (value_bits n v))).
Proof.
  intros Hb K. destruct (kept_sound bs d n l Hb K) as (O & <- & <-). split; [|split].
  - intros e n' l' K'. destruct (kept_sound bs e n' l' Hb K') as (O' & <- & <-). now apply eq_full.
  - intros bs' e n' l' Hb' K'. destruct (kept_sound bs' e n' l' Hb' K') as (O' & <- & <-).
    rewrite <- !contents_full by assumption. now apply dyn_eq_other_list.
  - intros v. unfold dyn_eq_value. destruct (dyn_of_value_list bs (dyn_size d) v Hb) as (e & E & Oe & Ce & He). rewrite E. cbn [bind].
    destruct (eq_full bs d e Hb O Oe) as (r & Er & H). exists r. split; [assumption|]. rewrite H. unfold dyn_size in *.
    assert (dy_bits e = dy_bits d) as Hn by (rewrite <- (contents_length bs e), He; apply length_map_seq).
    rewrite (clean_full bs e), He, Hn by assumption. tauto.
Qed.
