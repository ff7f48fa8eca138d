(* Rounding to 53 bits meets the standard model. *)
From Coq Require Import QArith Qpower Qabs Qfield Lqa ZArith NArith List Bool Arith Lia.
From Verif Require Import Base EnergyModel EnergyProofs RoundModel RoundSpec RoundBasics RoundProofs.
Local Open Scope Q_scope.

Local Notation two := (inject_Z 2).
Lemma two_pos z : 0 < two ^ z. Proof. apply Qpower_0_lt. reflexivity. Qed.
Lemma two_nz : ~ two == 0. Proof. discriminate. Qed.
Lemma two_add a b : two ^ (a + b) == two ^ a * two ^ b. Proof. apply Qpower_plus, two_nz. Qed.
Lemma two_inv a : two ^ (- a) * two ^ a == 1.
Proof. rewrite <- two_add. replace (- a + a)%Z with 0%Z by lia. reflexivity. Qed.

Lemma q_split q : q * inject_Z (Zpos (Qden q)) == inject_Z (Qnum q).
Proof. destruct q as [n d]. unfold Qeq; cbn. lia. Qed.
Lemma log_low n : (0 < n)%Z -> two ^ Z.log2 n <= inject_Z n.
Proof.
  intros H. rewrite <- Zpower_Qpower by apply Z.log2_nonneg. rewrite <- Zle_Qle. apply Z.log2_spec. exact H.
Qed.
Lemma log_high n : (0 < n)%Z -> inject_Z n < two ^ (Z.log2 n + 1).
Proof.
  intros H. pose proof (Z.log2_nonneg n). rewrite <- Zpower_Qpower by lia. rewrite <- Zlt_Qlt. apply Z.log2_spec. exact H.
Qed.
Lemma exponent_ok q : 0 < q -> two ^ exponent q <= q /\ q < two ^ (exponent q + 1).
Proof.
  intros H. assert (Hn : (0 < Qnum q)%Z) by (unfold Qlt in H; cbn in H; lia).
  pose proof (log_low _ Hn) as L1. pose proof (log_high _ Hn) as H1.
  assert (Hd : (0 < Zpos (Qden q))%Z) by lia.
  pose proof (log_low _ Hd) as L2. pose proof (log_high _ Hd) as H2.
  pose proof (q_split q) as S. rewrite <- S in L1, H1.
  set (a := Z.log2 (Qnum q)) in *. set (b := Z.log2 (Zpos (Qden q))) in *. set (D := inject_Z (Zpos (Qden q))) in *.
  assert (D0 : 0 < D) by (unfold D; change 0 with (inject_Z 0); rewrite <- Zlt_Qlt; lia).
  unfold exponent. fold a b. destruct (Qle_bool (two ^ (a - b)) q) eqn:E.
  - apply Qle_bool_iff in E. split; [exact E|].
    apply (Qmult_lt_r _ _ D D0). eapply Qlt_le_trans; [exact H1|].
    setoid_replace (two ^ (a + 1)) with (two ^ (a - b + 1) * two ^ b) by (rewrite <- two_add; replace (a - b + 1 + b)%Z with (a + 1)%Z by lia; reflexivity).
    apply mul_mono; try apply Qle_refl; try exact L2; apply Qlt_le_weak, two_pos.
  - assert (E' : q < two ^ (a - b)).
    { destruct (Qlt_le_dec q (two ^ (a - b))) as [L|L]; [exact L|]. apply Qle_bool_iff in L. rewrite L in E. discriminate. }
    split; [|replace (a - b - 1 + 1)%Z with (a - b)%Z by lia; exact E'].
    apply (Qmult_le_r _ _ D D0). eapply Qle_trans; [|exact L1].
    setoid_replace (two ^ a) with (two ^ (a - b - 1) * two ^ (b + 1)) by (rewrite <- two_add; replace (a - b - 1 + (b + 1))%Z with a by lia; reflexivity).
    apply mul_mono; try apply Qle_refl; try (apply Qlt_le_weak; exact H2); try (apply Qlt_le_weak, two_pos). apply Qlt_le_weak; exact D0.
Qed.
Lemma nearest_ok q : Qabs (inject_Z (nearest q) - q) <= 1 # 2.
Proof.
  assert (D0 : (0 < Zpos (Qden q))%Z) by lia.
  pose proof (Z.div_mod (Qnum q) (Zpos (Qden q)) ltac:(lia)) as E. pose proof (Z.mod_pos_bound (Qnum q) (Zpos (Qden q)) D0) as B.
  assert (K : forall m, (Z.abs (2 * (m * Zpos (Qden q) - Qnum q)) <= Zpos (Qden q))%Z -> Qabs (inject_Z m - q) <= 1 # 2).
  { clear. intros m H. destruct q as [n d]. cbn [Qnum Qden] in H. apply Qabs_le; unfold Qle, Qminus, Qplus, Qopp, inject_Z; cbn [Qnum Qden]; rewrite ?Pos2Z.inj_mul; lia. }
  apply K. unfold nearest. set (d := (Qnum q / Zpos (Qden q))%Z) in *. set (r := (Qnum q mod Zpos (Qden q))%Z) in *. set (D := Zpos (Qden q)) in *.
  destruct (2 * r <? D)%Z eqn:E1; [apply Z.ltb_lt in E1; lia|]. apply Z.ltb_ge in E1.
  destruct (D <? 2 * r)%Z eqn:E2; [apply Z.ltb_lt in E2; lia|]. apply Z.ltb_ge in E2.
  destruct (Z.even d); lia.
Qed.
Lemma round_pos_ok q : 0 < q -> Qabs (round_pos q - q) <= (1 # 2) * two ^ (-52) * q.
Proof.
  intros H. destruct (exponent_ok q H) as [L _]. unfold round_pos. set (k := (52 - exponent q)%Z).
  pose proof (two_pos k) as K. pose proof (two_pos (- k)) as K'. pose proof (two_inv k) as I.
  setoid_replace (inject_Z (nearest (q * two ^ k)) * two ^ (- k) - q) with ((inject_Z (nearest (q * two ^ k)) - q * two ^ k) * two ^ (- k)).
  2: { setoid_replace ((inject_Z (nearest (q * two ^ k)) - q * two ^ k) * two ^ (- k)) with (inject_Z (nearest (q * two ^ k)) * two ^ (- k) - q * (two ^ (- k) * two ^ k)) by ring. rewrite I. ring. }
  rewrite Qabs_Qmult, (Qabs_pos (two ^ (- k))) by lra.
  assert (S : two ^ (- k) == two ^ (-52) * two ^ exponent q) by (rewrite <- two_add; replace (-52 + exponent q)%Z with (- k)%Z by (unfold k; lia); reflexivity).
  assert (S' : two ^ (- k) <= two ^ (-52) * q).
  { rewrite S. apply mul_mono; try exact L; try apply Qle_refl; apply Qlt_le_weak, two_pos. }
  setoid_replace ((1 # 2) * two ^ (-52) * q) with ((1 # 2) * (two ^ (-52) * q)) by ring.
  apply mul_mono; [apply Qabs_nonneg|lra|apply nearest_ok|exact S'].
Qed.
Lemma u53_eq : (1 # 2) * two ^ (-52) == u53. Proof. reflexivity. Qed.
Lemma round53_ok q : Qabs (round53 q - q) <= u53 * Qabs q.
Proof.
  unfold round53. destruct (Qnum q) eqn:E.
  - assert (Z : q == 0) by (unfold Qeq; cbn; lia). rewrite Z. discriminate.
  - assert (P : 0 < q) by (unfold Qlt; cbn; lia). rewrite (Qabs_pos q) by lra. rewrite <- u53_eq. apply round_pos_ok. exact P.
  - assert (P : 0 < - q) by (unfold Qlt; cbn; lia).
    setoid_replace (- round_pos (- q) - q) with (- (round_pos (- q) - - q)) by ring. rewrite Qabs_opp.
    rewrite (Qabs_neg q) by lra. rewrite <- u53_eq. apply round_pos_ok. exact P.
Qed.
Theorem double_standard : standard_model double_arithmetic u53.
Proof.
  constructor; intros; cbn [double_arithmetic r_add r_sub r_mul r_div r_of]; try apply round53_ok.
  pose proof (round53_ok (qn n)) as H. rewrite (Qabs_pos (qn n)) in H by apply qn_pos. exact H.
Qed.
Theorem exact_standard : standard_model exact_arithmetic 0.
Proof.
  assert (K : forall x, Qabs (x - x) <= 0) by (intros x; setoid_replace (x - x) with 0 by ring; discriminate).
  constructor; intros; cbn [exact_arithmetic r_add r_sub r_mul r_div r_of]; rewrite Qmult_0_l; apply K.
Qed.
(* and its results have 53 significant bits *)
Lemma nearest_range q : 0 <= q -> q <= inject_Z (2 ^ 53) -> (0 <= nearest q <= 2 ^ 53)%Z.
Proof.
  intros L H. assert (D0 : (0 < Zpos (Qden q))%Z) by lia.
  unfold Qle in L, H. cbn [Qnum Qden inject_Z] in L, H. rewrite ?Z.mul_1_r in *. rewrite Z.mul_0_l in L.
  pose proof (Z.div_mod (Qnum q) (Zpos (Qden q)) ltac:(lia)) as E. pose proof (Z.mod_pos_bound (Qnum q) (Zpos (Qden q)) D0) as B.
  unfold nearest. set (d := (Qnum q / Zpos (Qden q))%Z) in *. set (r := (Qnum q mod Zpos (Qden q))%Z) in *. set (D := Zpos (Qden q)) in *.
  set (M := (2 ^ 53)%Z) in *. clearbody M. fold D in H. rewrite E in L, H. clearbody d r D. clear E.
  assert (d0 : (0 <= d)%Z) by nia. assert (d1 : (d <= M)%Z) by nia.
  assert (d2 : (0 < r -> d < M)%Z) by nia.
  destruct (2 * r <? D)%Z eqn:E1; [lia|]. apply Z.ltb_ge in E1.
  destruct (D <? 2 * r)%Z; [lia|]. destruct (Z.even d); lia.
Qed.
Theorem double_format q : has_53_bits (round53 q).
Proof.
  assert (K : forall x, 0 < x -> exists m k : Z, (Z.abs m <= 2 ^ 53)%Z /\ round_pos x == inject_Z m * two ^ k).
  { intros x P. unfold round_pos. eexists; eexists. split; [|reflexivity].
    destruct (exponent_ok x P) as [_ H].
    assert (0 <= nearest (x * two ^ (52 - exponent x)) <= 2 ^ 53)%Z; [|lia].
    apply nearest_range; [apply mul_pos; [lra|apply Qlt_le_weak, two_pos]|].
    rewrite (Zpower_Qpower 2 53) by lia.
    setoid_replace (two ^ 53) with (two ^ (exponent x + 1) * two ^ (52 - exponent x)) by (rewrite <- two_add; replace (exponent x + 1 + (52 - exponent x))%Z with 53%Z by lia; reflexivity).
    apply mul_mono; try apply Qle_refl; try (apply Qlt_le_weak; exact H); try lra; apply Qlt_le_weak, two_pos. }
  unfold round53, has_53_bits. destruct (Qnum q) eqn:E.
  - exists 0%Z, 0%Z. split; [cbn; lia|reflexivity].
  - apply K. unfold Qlt. cbn. lia.
  - destruct (K (- q)) as (m & k & B & V); [unfold Qlt; cbn; lia|]. exists (- m)%Z, k. split; [lia|]. rewrite V, inject_Z_opp. ring.
Qed.
(* and no number with 53 significant bits is nearer *)
Lemma nearest_best q m : Qabs (inject_Z (nearest q) - q) <= Qabs (inject_Z m - q).
Proof.
  pose proof (nearest_ok q) as N. destruct (Z.eq_dec m (nearest q)) as [->|D]; [apply Qle_refl|].
  apply Qabs_bounds in N. set (k := nearest q) in *. clearbody k.
  destruct (Z_lt_le_dec m k) as [L|L].
  - assert (inject_Z m <= inject_Z k - 1) by (change 1 with (inject_Z 1); unfold Qminus; rewrite <- inject_Z_opp, <- inject_Z_plus, <- Zle_Qle; lia).
    rewrite (Qabs_neg (inject_Z m - q)) by lra. apply Qabs_le; lra.
  - assert (inject_Z k + 1 <= inject_Z m) by (change 1 with (inject_Z 1); rewrite <- inject_Z_plus, <- Zle_Qle; lia).
    rewrite (Qabs_pos (inject_Z m - q)) by lra. apply Qabs_le; lra.
Qed.
Lemma round_pos_best q x : 0 < q -> has_53_bits x -> Qabs (round_pos q - q) <= Qabs (x - q).
Proof.
  intros P (m & j & B & V). destruct (exponent_ok q P) as [L _]. unfold round_pos. set (k := (52 - exponent q)%Z).
  pose proof (two_pos k) as K. pose proof (two_pos (- k)) as K'. pose proof (two_inv k) as I.
  assert (G : forall n, Qabs (inject_Z (nearest (q * two ^ k)) * two ^ (- k) - q) <= Qabs (inject_Z n * two ^ (- k) - q)).
  { assert (E : forall n, Qabs (inject_Z n * two ^ (- k) - q) == Qabs (inject_Z n - q * two ^ k) * two ^ (- k)).
    { intros n. setoid_replace (inject_Z n * two ^ (- k) - q) with ((inject_Z n - q * two ^ k) * two ^ (- k)).
      - rewrite Qabs_Qmult, (Qabs_pos (two ^ (- k))) by lra. reflexivity.
      - setoid_replace ((inject_Z n - q * two ^ k) * two ^ (- k)) with (inject_Z n * two ^ (- k) - q * (two ^ (- k) * two ^ k)) by ring. rewrite I. ring. }
    intros n. rewrite !E. apply mul_mono; [apply Qabs_nonneg|lra|apply nearest_best|apply Qle_refl]. }
  destruct (Z_lt_le_dec j (- k)) as [S|S].
  - (* x is no larger than the power of two below q *)
    assert (X : x <= two ^ exponent q).
    { rewrite V. setoid_replace (two ^ exponent q) with (inject_Z (2 ^ 53) * two ^ (- k - 1)).
      2: { rewrite (Zpower_Qpower 2 53) by lia. rewrite <- two_add. replace (53 + (- k - 1))%Z with (exponent q) by (unfold k; lia). reflexivity. }
      eapply Qle_trans with (inject_Z (2 ^ 53) * two ^ j).
      - apply Qmult_le_compat_r; [rewrite <- Zle_Qle; lia|apply Qlt_le_weak, two_pos].
      - apply mul_mono; [rewrite <- (Zle_Qle 0); lia|apply Qlt_le_weak, two_pos|apply Qle_refl|].
        replace (- k - 1)%Z with (j + (- k - 1 - j))%Z by lia. rewrite two_add.
        assert (1 <= two ^ (- k - 1 - j)).
        { rewrite <- Zpower_Qpower by lia. change 1 with (inject_Z 1). rewrite <- Zle_Qle. assert (0 < 2 ^ (- k - 1 - j))%Z by (apply Z.pow_pos_nonneg; lia). lia. }
        pose proof (two_pos j). setoid_replace (two ^ j) with (two ^ j * 1) at 1 by ring. apply mul_mono; lra. }
    eapply Qle_trans; [apply (G (2 ^ 52)%Z)|].
    assert (E : inject_Z (2 ^ 52) * two ^ (- k) == two ^ exponent q).
    { rewrite (Zpower_Qpower 2 52) by lia. rewrite <- two_add. replace (52 + - k)%Z with (exponent q) by (unfold k; lia). reflexivity. }
    rewrite E, (Qabs_neg (two ^ exponent q - q)), (Qabs_neg (x - q)) by lra. lra.
  - (* x is a multiple of the spacing of the numbers around q *)
    assert (E : x == inject_Z (m * 2 ^ (j + k)) * two ^ (- k)).
    { rewrite inject_Z_mult, (Zpower_Qpower 2 (j + k)) by lia. rewrite <- Qmult_assoc, <- two_add. replace (j + k + - k)%Z with j by lia. exact V. }
    rewrite E. apply G.
Qed.
Theorem double_nearest q x : has_53_bits x -> Qabs (round53 q - q) <= Qabs (x - q).
Proof.
  intros B. unfold round53. destruct (Qnum q) eqn:E.
  - assert (Z : q == 0) by (unfold Qeq; cbn; lia). rewrite Z. setoid_replace (0 - 0) with 0 by ring. apply Qabs_nonneg.
  - apply round_pos_best; [unfold Qlt; cbn; lia|exact B].
  - setoid_replace (- round_pos (- q) - q) with (- (round_pos (- q) - - q)) by ring. setoid_replace (x - q) with (- (- x - - q)) by ring. rewrite !Qabs_opp.
    apply round_pos_best; [unfold Qlt; cbn; lia|]. destruct B as (m & j & B & V). exists (- m)%Z, j. split; [lia|]. rewrite V, inject_Z_opp. ring.
Qed.
