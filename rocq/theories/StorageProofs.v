(* Burst storage keeps the payload: insert_data against payload_words. *)
From Coq Require Import ZArith NArith List Bool Lia ZifyBool ZifyNat ZifyN.
From Verif Require Import Base Bits ListFacts BusModel WaveSpec BitFacts.
Import ListNotations.
Local Open Scope N_scope.
Ltac Zify.zify_post_hook ::= Z.to_euclidean_division_equations.

Lemma nth_upd {A} (d : A) l : forall i m f, nth m (upd i f l) d = if (Nat.eqb m i && Nat.ltb m (length l))%bool then f (nth m l d) else nth m l d.
Proof.
  induction l as [|x l IH]; intros i m f.
  - destruct i, m; cbn; try reflexivity. rewrite andb_false_r. reflexivity.
  - destruct i, m; cbn [upd nth length Nat.eqb andb]; try reflexivity.
    rewrite IH. destruct (Nat.ltb_spec m (length l)), (Nat.ltb_spec (S m) (S (length l))); try lia; reflexivity.
Qed.

Lemma nth_zeros (l : list N) n m : nth m (l ++ repeat 0 n) 0 = nth m l 0.
Proof.
  destruct (Nat.lt_ge_cases m (length l)).
  - apply app_nth1. auto.
  - rewrite app_nth2, (nth_overflow l) by lia.
    revert n. generalize (m - length l)%nat as k. induction k; intros [|n]; cbn; auto.
Qed.

(* Bit written to line j of burst i. *)
Definition put (invert : bool) (data : list N) (k : nat) : bool := if invert then negb (payload_bit data k) else payload_bit data k.

Lemma insert_bits_ok max width data n_bits i invert :
  (width <= max)%nat -> (i * width + width <= n_bits)%nat -> (n_bits <= 8 * length data)%nat ->
  forall n j c, (j + n = width)%nat -> (i < length (bc_bursts (cu_store c)))%nat ->
    cu_bit c = (i * width + j)%nat -> cu_byte c = Nat.div (i * width + j) 8 ->
  exists w, loop (insert_bit max data n_bits i (i * width) invert) (seq j n) c =
      Value (mkCursor (storage_write (cu_store c) i w) (Nat.div (i * width + width) 8) (i * width + width)) /\
    forall l, level w l = if (Nat.leb j l && Nat.ltb l width)%bool then put invert data (i * width + l)
                          else level (storage_read (cu_store c) i) l.
Proof.
  intros Hw Hb Hd. induction n; intros j c Ej Hi Ebit Ebyte.
  - cbn [seq loop]. exists (storage_read (cu_store c) i). split.
    + assert (j = width) as -> by lia. destruct c as [[bs w0 cnt ld] by0 bi]. cbn in *. subst. f_equal. f_equal.
      unfold storage_write, storage_read. cbn. f_equal. clear -Hi. revert i Hi.
      induction bs; intros [|i] Hi; cbn in *; try lia; try reflexivity. f_equal. apply IHbs. lia.
    + intros l. destruct (Nat.leb_spec j l), (Nat.ltb_spec l width); cbn [andb]; try lia; reflexivity.
  - cbn [seq loop]. unfold insert_bit at 1. destruct (Nat.ltb_spec (i * width + j) n_bits) as [_|]; [|lia].
    rewrite Ebyte, Ebit.
    destruct (nth_error data (Nat.div (i * width + j) 8)) as [byte|] eqn:E.
    2: { apply nth_error_None in E. lia. }
    assert (N.testbit byte (N.of_nat (Nat.modulo (i * width + j) 8)) = payload_bit data (i * width + j)) as ->.
    { unfold payload_bit. rewrite (nth_error_nth _ _ _ E). reflexivity. }
    set (v := if invert then _ else _).
    assert (v = put invert data (i * width + j)) as Ev by (unfold v, put; destruct invert, payload_bit; reflexivity).
    destruct (set_bit_ok max (storage_read (cu_store c) i) j v) as [b Eb]; [lia|]. rewrite Eb. cbn [bind].
    apply set_bit_spec in Eb as [_ Lb].
    edestruct (IHn (S j)) as [w [W1 W2]]; [lia| | | |].
    4: { rewrite W1. exists w. split.
         - f_equal. f_equal. unfold storage_write. cbn. f_equal. clear. generalize (bc_bursts (cu_store c)) as bs.
           revert i. intros i bs. revert i. induction bs; intros [|i]; cbn; auto. f_equal. auto.
         - intros l. rewrite W2. cbn [cu_store]. unfold storage_read at 1, storage_write at 1. cbn [bc_bursts].
           rewrite nth_upd, Nat.eqb_refl. destruct (Nat.ltb_spec i (length (bc_bursts (cu_store c)))); [|lia]. cbn [andb].
           rewrite Lb. destruct (Nat.leb_spec (S j) l), (Nat.leb_spec j l), (Nat.ltb_spec l width), (Nat.eqb_spec j l); cbn [andb]; try lia; try reflexivity.
           subst l. exact Ev. }
    + cbn. rewrite length_upd. exact Hi.
    + cbn. lia.
    + cbn [cu_byte]. destruct (Nat.eqb_spec (Nat.modulo (S (i * width + j)) 8) 0); lia.
Qed.

(* The words that insert_data stores (inverted when asked to). *)
Definition stored_word (width : nat) (data : list N) (invert : bool) (i : nat) : N :=
  word_of width (fun j => put invert data (i * width + j)).

Definition clean (width : nat) (c : container) : Prop := forall m, bounded width (storage_read c m).

Lemma insert_bursts_ok max width data n_bits invert :
  (width <= max)%nat -> (n_bits <= 8 * length data)%nat ->
  forall n i c, ((i + n) * width <= n_bits)%nat -> clean width (cu_store c) ->
    cu_bit c = (i * width)%nat -> cu_byte c = Nat.div (i * width) 8 ->
  exists c', loop (insert_burst max width data n_bits invert) (seq i n) c = Value c' /\
    clean width (cu_store c') /\
    (length (bc_bursts (cu_store c')) >= i + n \/ n = 0)%nat /\
    (length (bc_bursts (cu_store c)) <= length (bc_bursts (cu_store c')))%nat /\
    (forall m, (i <= m < i + n)%nat -> storage_read (cu_store c') m = stored_word width data invert m) /\
    (forall m, (m < i)%nat -> storage_read (cu_store c') m = storage_read (cu_store c) m) /\
    bc_width (cu_store c') = bc_width (cu_store c).
Proof.
  intros Hw Hd. induction n; intros i c Hb Hc Ebit Ebyte.
  - exists c. cbn. split; auto. split; auto. split; auto. split; auto. split; [intros; lia|]. auto.
  - cbn [seq loop]. unfold insert_burst at 1. set (c1 := mkCursor _ _ _).
    assert (forall m, storage_read (cu_store c1) m = storage_read (cu_store c) m) as R1.
    { intros m. unfold c1, storage_read, storage_resize. cbn. apply nth_zeros. }
    assert (S i <= length (bc_bursts (cu_store c1)))%nat as L1.
    { unfold c1, storage_resize. cbn [bc_bursts cu_store]. rewrite app_length, repeat_length. lia. }
    assert (length (bc_bursts (cu_store c)) <= length (bc_bursts (cu_store c1)))%nat as L1'.
    { unfold c1, storage_resize. cbn [bc_bursts cu_store]. rewrite app_length. lia. }
    assert (i * width + width <= n_bits)%nat as Hb' by (rewrite Nat.mul_add_distr_r, Nat.mul_succ_l in Hb; lia).
    destruct (insert_bits_ok max width data n_bits i invert Hw Hb' Hd width 0 c1) as [w [E W]];
      [lia|lia|cbn; lia|cbn; rewrite Nat.add_0_r; auto|].
    rewrite E. cbn [bind].
    assert (w = stored_word width data invert i) as ->.
    { apply (bounded_eq width).
      - intros l Hl. rewrite W. destruct (Nat.ltb_spec l width); [lia|]. rewrite andb_false_r, R1. apply Hc. auto.
      - apply word_of_bound.
      - intros l Hl. rewrite W. unfold stored_word. rewrite level_word_of. destruct (Nat.ltb_spec l width); [reflexivity|lia]. }
    set (c2 := mkCursor _ _ _).
    assert (forall m, storage_read (cu_store c2) m = if Nat.eqb m i then stored_word width data invert i else storage_read (cu_store c) m) as R2.
    { intros m. unfold c2. cbn [cu_store]. unfold storage_read at 1, storage_write. cbn [bc_bursts]. rewrite nth_upd.
      destruct (Nat.eqb_spec m i) as [->|]; cbn [andb]; [|apply R1].
      destruct (Nat.ltb_spec i (length (bc_bursts (cu_store c1)))); [reflexivity|lia]. }
    destruct (IHn (S i) c2) as [c' [F1 [F2 [F3 [F4 [F5 [F6 F7]]]]]]].
    + lia.
    + intros m. rewrite R2. destruct (Nat.eqb m i); [apply word_of_bound|apply Hc].
    + cbn. lia.
    + unfold c2. cbn [cu_byte]. f_equal. lia.
    + assert (length (bc_bursts (cu_store c2)) = length (bc_bursts (cu_store c1))) as L2 by (cbn; apply length_upd).
      rewrite F1. exists c'. split; auto. split; auto. split; [lia|]. split; [lia|]. split; [|split].
      * intros m Hm. destruct (Nat.eq_dec m i) as [->|]; [|apply F5; lia].
        rewrite F6 by lia. rewrite R2, Nat.eqb_refl. reflexivity.
      * intros m Hm. rewrite F6, R2 by lia. destruct (Nat.eqb_spec m i); [lia|reflexivity].
      * rewrite F7. reflexivity.
Qed.

Theorem insert_data_ok max c t width data n_bits invert :
  (0 < width <= max)%nat -> (n_bits <= 8 * length data)%nat -> clean width c ->
  exists c', insert_data max c t width data n_bits invert = Value c' /\
    clean width c' /\ bc_width c' = bc_width c /\
    bc_count c' = Nat.div n_bits width /\ bc_load c' = t /\
    (bc_count c' <= length (bc_bursts c'))%nat /\
    (forall m, (m < bc_count c')%nat -> storage_read c' m = stored_word width data invert m).
Proof.
  intros [H0 Hw] Hd Hc. unfold insert_data. destruct width as [|k] eqn:Ek; [lia|]. rewrite <- Ek in *. clear k Ek.
  destruct (insert_bursts_ok max width data n_bits invert Hw Hd (Nat.div n_bits width) 0 (mkCursor c 0 0))
    as [c' [F1 [F2 [F3 [F4 [F5 [F6 F7]]]]]]]; cbn [cu_bit cu_byte cu_store]; auto.
  - pose proof (Nat.mul_div_le n_bits width). lia.
  - rewrite F1. cbn [bind]. eexists. split; [reflexivity|]. cbn.
    split; auto. split; auto. split; auto. split; auto. split; [lia|]. intros m Hm. apply F5. lia.
Qed.

Lemma storage_get_ok c n : (bc_count c <= length (bc_bursts c))%nat -> (n < bc_count c)%nat ->
  storage_get c n = Value (storage_read c (bc_count c - 1 - n)).
Proof.
  intros H Hn. unfold storage_get, check. destruct (Nat.ltb_spec n (bc_count c)); [|lia].
  destruct (nth_error (bc_bursts c) (bc_count c - 1 - n)) eqn:E.
  - unfold storage_read. rewrite (nth_error_nth _ _ _ E). reflexivity.
  - apply nth_error_None in E. lia.
Qed.

Theorem storage_keeps_bits max c t width data n_bits invert :
  (0 < width <= max)%nat -> (n_bits <= 8 * length data)%nat -> clean width c ->
  exists c', insert_data max c t width data n_bits invert = Value c' /\ bc_load c' = t /\
    bc_count c' = Nat.div n_bits width /\
    forall m j, (m < Nat.div n_bits width)%nat -> (j < width)%nat ->
      exists w, storage_get c' (Nat.div n_bits width - 1 - m) = Value w /\ bounded width w /\
        level w j = (if invert then negb (payload_bit data (m * width + j)) else payload_bit data (m * width + j)).
Proof.
  intros Hw Hd Hc. destruct (insert_data_ok max c t width data n_bits invert Hw Hd Hc) as [c' [I1 [I2 [I3 [I4 [I5 [I6 I7]]]]]]].
  exists c'. split; [exact I1|]. split; [exact I5|]. split; [exact I4|]. intros m j Hm Hj.
  exists (storage_read c' m). rewrite storage_get_ok by lia. rewrite I4. split; [do 2 f_equal; lia|]. split; [apply I2|].
  rewrite I7 by lia. unfold stored_word. rewrite level_word_of. destruct (Nat.ltb_spec j width); [|lia]. reflexivity.
Qed.
