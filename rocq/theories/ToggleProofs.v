(* The toggling-rate estimator: what it should count, and that it does. *)
From Coq Require Import NArith ZArith QArith Qround Lia List Bool.
From Verif Require Import Base Bits BusModel WaveSpec BitFacts ClockProofs ToggleModel.
Import ListNotations.
Local Open Scope N_scope.
Ltac Zify.zify_post_hook ::= idtac.

(* ---- specification ---- *)

(* Requests to an estimator: a load of n_bits bits, disabling, enabling. *)
Inductive toggle_op := TLoad (t n_bits : N) | TDisable (t : N) | TEnable (t : N).
Definition toggle_time (o : toggle_op) : N := match o with TLoad t _ => t | TDisable t => t | TEnable t => t end.

(* Whether estimation is on, and the burst last issued: first beat and length. *)
Record est := mkEst { e_on : bool; e_burst : option (N * N) }.
Definition est_step (width rate : N) (o : toggle_op) (s : est) : est :=
  match o with
  | TLoad t n => if e_on s then mkEst true (Some (t * rate, n / width)) else s
  | TDisable _ => mkEst false None
  | TEnable _ => mkEst true (e_burst s)
  end.
(* The situation in beat i: all requests up to beat i have taken effect. *)
Definition est_at (width rate : N) (s : est) (ops : list toggle_op) (i : N) : est :=
  fold_left (fun s o => if toggle_time o * rate <=? i then est_step width rate o s else s) ops s.
(* Beat i is driven: it belongs to the last burst. *)
Definition driven (s : est) (i : N) : bool :=
  match e_burst s with Some (b, l) => i <? b + l | None => false end.

(* Number of beats below n with property f. *)
Definition beats (n : N) (f : N -> bool) : N := lines (N.to_nat n) (fun i => f (N.of_nat i)).
Definition beats_on (width rate : N) (on : bool) (ops : list toggle_op) (n : N) : N :=
  beats n (fun i => e_on (est_at width rate (mkEst on None) ops i)).
Definition beats_driven (width rate : N) (on : bool) (ops : list toggle_op) (n : N) : N :=
  beats n (fun i => driven (est_at width rate (mkEst on None) ops i) i).

(* Requests in order of time, none before [from], none after [until]; bursts end
   before 2^64. *)
Fixpoint toggles_in_order (width rate from until : N) (ops : list toggle_op) : Prop :=
  match ops with
  | [] => from <= until
  | o :: r => from <= toggle_time o /\
              (match o with TLoad t n => t * rate + n / width < two64 | _ => True end) /\
              toggles_in_order width rate (toggle_time o) until r
  end.

(* The estimate for d driven beats and i idle beats: a share of the driven beats
   is high, half of the toggling rate of them falls, as many rise. *)
Definition share (d : N) (q : Q) : N := Z.to_N (Qfloor (of_u64 d * q)).
Definition estimate (width d i : N) (rate duty : Q) (idle_high : bool) : bus_stats :=
  mkStats (width * (share d duty + (if idle_high then i else 0)))
          (width * (share d (1 - duty) + (if idle_high then 0 else i)))
          (2 * (width * share d (rate / 2)))
          (width * share d (rate / 2)) (width * share d (rate / 2)).

(* ---- running the model ---- *)
Definition toggle_do (o : toggle_op) (h : toggling) : result toggling :=
  match o with
  | TLoad t n => toggling_bits h t n
  | TDisable t => Value (toggling_disable h t)
  | TEnable t => Value (toggling_enable h t)
  end.
Definition toggle_run (ops : list toggle_op) (h : toggling) : result toggling := loop toggle_do ops h.

(* ---- proofs ---- *)
Lemma sub64 a b : b <= a -> a < two64 -> u64_sub a b = a - b.
Proof.
  intros H Ht. unfold u64_sub. rewrite (N.mod_small b) by lia.
  replace (a + two64 - b) with (a - b + 1 * two64) by lia. rewrite N.mod_add by (unfold two64; lia). apply N.mod_small. lia.
Qed.
Lemma add64 a b : a + b < two64 -> u64_add a b = a + b.
Proof. intros H. apply N.mod_small. exact H. Qed.

Definition burst_part (s : est) (F : N) : N :=
  match e_burst s with Some (b, l) => N.min F (b + l) - b | None => 0 end.

Record tog_inv (width rate : N) (r duty : Q) (idle : toggle_idle) (h : toggling) (s : est) (F E D : N) : Prop := {
  ti_width : tg_width h = width;
  ti_rate : tg_datarate h = rate;
  ti_tr : tg_rate h = r;
  ti_duty : tg_duty h = duty;
  ti_idle : tg_idle h = idle;
  ti_on : tg_enabled h = e_on s;
  ti_burst : match e_burst s with
             | Some (b, l) => lb_handled h = false /\ lb_load h = b /\ lb_length h = l /\ b <= F /\ b + l < two64 /\ e_on s = true
             | None => lb_handled h = true
             end;
  ti_count : D = tg_count h + burst_part s F;
  ti_time : if e_on s then tg_disable_time h + E = F else tg_disable_time h + E = tg_disabled_at h /\ tg_disabled_at h <= F;
  ti_le : D <= E
}.

Lemma toggles_le width rate ops : forall from until, toggles_in_order width rate from until ops -> from <= until.
Proof. induction ops as [|o l IH]; intros a u H; cbn in H; [exact H|]. destruct H as [H1 [_ H2]]. apply IH in H2. lia. Qed.

Section Tog.
Context (width rate : N) (r duty : Q) (idle : toggle_idle) (Hw : 0 < width) (Hr : 0 < rate).

Definition on_part (s : est) (F F' : N) : N := if e_on s then F' - F else 0.
Definition driven_part (s : est) (F F' : N) : N := burst_part s F' - burst_part s F.

Lemma tog_advance h s F E D F' : tog_inv width rate r duty idle h s F E D -> F <= F' ->
  tog_inv width rate r duty idle h s F' (E + on_part s F F') (D + driven_part s F F').
Proof.
  intros B HF. destruct B as [W R TR DU ID O BU C T L]. constructor; auto.
  - destruct (e_burst s) as [[b l]|]; [|exact BU]. destruct BU as [B1 [B2 [B3 [B4 [B5 B6]]]]]. repeat split; auto. lia.
  - unfold driven_part, burst_part in *. destruct (e_burst s) as [[b l]|]; [|lia]. destruct BU as [B1 [B2 [B3 [B4 [B5 B6]]]]]. lia.
  - unfold on_part. destruct (e_on s); [lia|]. destruct T as [T1 T2]. split; lia.
  - unfold driven_part, on_part, burst_part in *. destruct (e_burst s) as [[b l]|].
    + destruct BU as [B1 [B2 [B3 [B4 [B5 B6]]]]]. rewrite B6. lia.
    + destruct (e_on s); lia.
Qed.

Lemma tog_op h s F E D o h' : tog_inv width rate r duty idle h s F E D -> F = toggle_time o * rate -> F < two64 ->
  (match o with TLoad t n => t * rate + n / width < two64 | _ => True end) ->
  toggle_do o h = Value h' ->
  tog_inv width rate r duty idle h' (est_step width rate o s) F E D.
Proof.
  intros B HF F64 Fit Do. destruct B as [W R TR DU ID O BU C T L].
  assert (D < two64) as D64 by (destruct (e_on s); [|destruct T]; lia).
  destruct o as [t n|t|t]; cbn [toggle_do toggle_time est_step] in *.
  - unfold toggling_bits in Do. rewrite W in Do. destruct (N.eqb_spec width 0); [discriminate|].
    unfold check at 1 in Do. destruct (n mod width =? 0); [|discriminate].
    unfold toggling_burst in Do. rewrite R in Do. destruct (N.eqb_spec rate 0); [discriminate|].
    unfold u64_mul in Do. rewrite <- HF in Do. rewrite (N.mod_small F) in Do by auto.
    unfold check at 1 in Do. destruct (F / rate =? t); [|discriminate].
    unfold check in Do. destruct (lb_handled h || (u64_add (lb_length h) (lb_load h) <=? F)) eqn:OK; [|discriminate].
    injection Do as <-. rewrite O.
    unfold burst_part in C.
    destruct (e_burst s) as [[b l]|] eqn:EB.
    + destruct BU as [B1 [B2 [B3 [B4 [B5 B6]]]]]. rewrite B6, B1 in *. rewrite B2, B3 in OK. cbn [orb] in OK.
      rewrite add64 in OK by lia. apply N.leb_le in OK.
      assert (u64_add (tg_count h) (lb_length h) = D) as CD by (rewrite B3, add64 by lia; lia).
      rewrite CD. rewrite <- HF. constructor; cbn [tg_set tg_width tg_datarate tg_rate tg_duty tg_idle tg_enabled lb_handled lb_load lb_length tg_count tg_disable_time tg_disabled_at e_on e_burst]; auto.
      * repeat split; try lia.
      * unfold burst_part. cbn [e_burst]. lia.
    + rewrite BU. destruct (e_on s) eqn:EO.
      * rewrite <- HF. constructor; cbn [tg_set tg_width tg_datarate tg_rate tg_duty tg_idle tg_enabled lb_handled lb_load lb_length tg_count tg_disable_time tg_disabled_at e_on e_burst]; auto.
        -- repeat split; try lia.
        -- unfold burst_part. cbn [e_burst]. lia.
      * constructor; cbn [tg_set tg_width tg_datarate tg_rate tg_duty tg_idle tg_enabled lb_handled lb_load lb_length tg_count tg_disable_time tg_disabled_at]; auto.
        -- rewrite EB. reflexivity.
        -- unfold burst_part. rewrite EB. exact C.
        -- rewrite EO. exact T.
  - injection Do as <-. unfold toggling_disable. rewrite O, R. unfold u64_mul. rewrite <- HF, (N.mod_small F) by auto.
    unfold burst_part in C.
    destruct (e_on s) eqn:EO.
    + constructor; cbn [tg_set tg_width tg_datarate tg_rate tg_duty tg_idle tg_enabled lb_handled lb_load lb_length tg_count tg_disable_time tg_disabled_at e_on e_burst]; auto.
      * unfold burst_part. cbn [e_burst]. rewrite N.add_0_r. destruct (e_burst s) as [[b l]|].
        -- destruct BU as [B1 [B2 [B3 [B4 [B5 B6]]]]]. rewrite B1, B2, B3. rewrite (add64 l b) by lia.
           destruct (N.leb_spec (l + b) F).
           ++ rewrite add64 by lia. lia.
           ++ rewrite sub64, add64 by lia. lia.
        -- rewrite BU. lia.
      * split; [lia|]. apply N.le_refl.
    + assert (e_burst s = None) as EB. { destruct (e_burst s) as [[b l]|]; auto. destruct BU as [B1 [B2 [B3 [B4 [B5 B6]]]]]. congruence. }
      rewrite EB in *. constructor; auto; cbn [e_on]; unfold burst_part; cbn [e_burst]; auto.
  - injection Do as <-. unfold toggling_enable. rewrite O, R. unfold u64_mul. rewrite <- HF, (N.mod_small F) by auto.
    destruct (e_on s) eqn:EO.
    + constructor; cbn [e_on e_burst]; auto.
    + assert (e_burst s = None) as EB. { destruct (e_burst s) as [[b l]|]; auto. destruct BU as [B1 [B2 [B3 [B4 [B5 B6]]]]]. congruence. }
      destruct T as [T1 T2]. unfold burst_part in C. rewrite EB in *.
      constructor; cbn [tg_set tg_width tg_datarate tg_rate tg_duty tg_idle tg_enabled lb_handled lb_load lb_length tg_count tg_disable_time tg_disabled_at e_on e_burst]; auto.
      rewrite sub64, add64 by lia. lia.
Qed.

Lemma est_before ops : forall s a u i, toggles_in_order width rate a u ops -> i < a * rate -> est_at width rate s ops i = s.
Proof.
  induction ops as [|o l IH]; intros s a u i H Hi; [reflexivity|]. destruct H as [H1 [_ H2]].
  unfold est_at. cbn [fold_left]. assert (a * rate <= toggle_time o * rate) by (apply N.mul_le_mono_r; exact H1).
  destruct (N.leb_spec (toggle_time o * rate) i); [lia|]. eapply IH; [exact H2|lia].
Qed.

Lemma span_driven s F F' : (match e_burst s with Some (b, l) => b <= F | None => True end) -> F <= F' ->
  span (fun i => driven s i) F F' = driven_part s F F'.
Proof.
  intros Hb HF. unfold driven_part, burst_part, driven. destruct (e_burst s) as [[b l]|].
  - destruct (N.le_gt_cases (b + l) F).
    + rewrite (span_ext _ (fun _ => false)) by (intros i Hi1 Hi2; apply N.ltb_ge; lia). rewrite span_const. lia.
    + destruct (N.le_gt_cases F' (b + l)).
      * rewrite (span_ext _ (fun _ => true)) by (intros i Hi1 Hi2; apply N.ltb_lt; lia). rewrite span_const. lia.
      * rewrite (span_split _ F (b + l) F') by lia.
        rewrite (span_ext _ (fun _ => true) F (b + l)) by (intros i Hi1 Hi2; apply N.ltb_lt; lia).
        rewrite (span_ext _ (fun _ => false) (b + l) F') by (intros i Hi1 Hi2; apply N.ltb_ge; lia).
        rewrite !span_const. lia.
  - apply (span_const false).
Qed.

Lemma tog_run_inv ops : forall from s h E D t, tog_inv width rate r duty idle h s (from * rate) E D ->
  toggles_in_order width rate from t ops -> t * rate < two64 ->
  forall h', toggle_run ops h = Value h' ->
  exists s', tog_inv width rate r duty idle h' s' (t * rate)
    (E + span (fun i => e_on (est_at width rate s ops i)) (from * rate) (t * rate))
    (D + span (fun i => driven (est_at width rate s ops i) i) (from * rate) (t * rate)).
Proof.
  induction ops as [|o l IH]; intros from s h E D t B Or T64 h' Run.
  - cbn in Run. injection Run as <-. cbn [toggles_in_order] in Or.
    assert (from * rate <= t * rate) as Hm by (apply N.mul_le_mono_r; exact Or).
    exists s. cbn [est_at fold_left]. rewrite span_const.
    rewrite span_driven; [|pose proof (ti_burst _ _ _ _ _ _ _ _ _ _ B) as X; destruct (e_burst s) as [[b l]|]; [apply X|exact I]|exact Hm].
    apply (tog_advance h s (from * rate) E D (t * rate)); auto.
  - destruct Or as [O1 [O2 O3]]. pose proof (toggles_le _ _ _ _ _ O3) as O4.
    set (u := toggle_time o) in *.
    assert (from * rate <= u * rate) as M1 by (apply N.mul_le_mono_r; exact O1).
    assert (u * rate <= t * rate) as M2 by (apply N.mul_le_mono_r; exact O4).
    unfold toggle_run in Run. cbn [loop] in Run. destruct (toggle_do o h) as [h1|] eqn:Do; [|discriminate]. cbn [bind] in Run.
    pose proof (tog_advance h s _ E D (u * rate) B M1) as B1.
    pose proof (tog_op h s (u * rate) _ _ o h1 B1 eq_refl ltac:(lia) O2 Do) as B2.
    destruct (IH u _ h1 _ _ t B2 O3 T64 h' Run) as [s' B3]. exists s'.
    assert (forall i, u * rate <= i -> est_at width rate s (o :: l) i = est_at width rate (est_step width rate o s) l i) as A1.
    { intros i Hi. unfold est_at. cbn [fold_left]. fold u. destruct (N.leb_spec (u * rate) i); [reflexivity|lia]. }
    assert (forall i, i < u * rate -> est_at width rate s (o :: l) i = s) as A2.
    { intros i Hi. apply (est_before (o :: l) s u t i); [|exact Hi]. split; [apply N.le_refl|]. split; [exact O2|exact O3]. }
    rewrite (span_split _ (from * rate) (u * rate) (t * rate)) by lia.
    rewrite (span_split (fun i => driven _ i) (from * rate) (u * rate) (t * rate)) by lia.
    rewrite (span_ext (fun i => e_on (est_at width rate s (o :: l) i)) (fun _ => e_on s) (from * rate)) by (intros i _ Hi; rewrite A2 by exact Hi; reflexivity).
    rewrite (span_ext (fun i => driven (est_at width rate s (o :: l) i) i) (fun i => driven s i) (from * rate)) by (intros i _ Hi; rewrite A2 by exact Hi; reflexivity).
    rewrite (span_ext (fun i => e_on (est_at width rate s (o :: l) i)) (fun i => e_on (est_at width rate (est_step width rate o s) l i)) (u * rate)) by (intros i Hi _; rewrite A1 by exact Hi; reflexivity).
    rewrite (span_ext (fun i => driven (est_at width rate s (o :: l) i) i) (fun i => driven (est_at width rate (est_step width rate o s) l i) i) (u * rate)) by (intros i Hi _; rewrite A1 by exact Hi; reflexivity).
    rewrite span_const, (span_driven s); [|pose proof (ti_burst _ _ _ _ _ _ _ _ _ _ B) as X; destruct (e_burst s) as [[b l0]|]; [apply X|exact I]|exact M1].
    rewrite !N.add_assoc. exact B3.
Qed.
End Tog.

(* ---- rational part ---- *)
Lemma to_u64_share d q : in_unit q = true -> d < two64 -> to_u64 (of_u64 d * q) = Value (share d q).
Proof.
  intros U D. apply andb_prop in U as [U1 U2]. apply Qle_bool_iff in U1, U2.
  assert (0 <= of_u64 d * q)%Q as P.
  { apply Qmult_le_0_compat; auto. unfold of_u64. change 0%Q with (inject_Z 0). rewrite <- Zle_Qle. lia. }
  assert (of_u64 d * q <= of_u64 d)%Q as P2.
  { setoid_replace (of_u64 d) with (of_u64 d * 1)%Q at 2 by ring. rewrite (Qmult_comm _ q), (Qmult_comm _ 1).
    apply Qmult_le_compat_r; auto. unfold of_u64. change 0%Q with (inject_Z 0). rewrite <- Zle_Qle. lia. }
  unfold to_u64. destruct (Qle_bool (of_u64 d * q) (-1)) eqn:E1.
  - apply Qle_bool_iff in E1. exfalso. pose proof (Qle_trans _ _ _ P E1) as X. vm_compute in X. apply X. reflexivity.
  - destruct (Qle_bool (inject_Z (Z.of_N two64)) (of_u64 d * q)) eqn:E2; [|reflexivity].
    apply Qle_bool_iff in E2. exfalso. pose proof (Qle_trans _ _ _ E2 P2) as X. unfold of_u64 in X. rewrite <- Zle_Qle in X. lia.
Qed.

Lemma in_unit_sub q : in_unit q = true -> in_unit (1 - q) = true.
Proof.
  intros U. apply andb_prop in U as [U1 U2]. apply Qle_bool_iff in U1, U2. apply andb_true_intro. split; apply Qle_bool_iff.
  - apply -> Qle_minus_iff in U2. exact U2.
  - apply Qle_minus_iff. setoid_replace (1 + - (1 - q))%Q with q by ring. exact U1.
Qed.

Lemma in_unit_half q : in_unit q = true -> in_unit (q / 2) = true.
Proof.
  intros U. apply andb_prop in U as [U1 U2]. apply Qle_bool_iff in U1, U2. apply andb_true_intro. split; apply Qle_bool_iff.
  - apply Qle_shift_div_l; [reflexivity|]. rewrite Qmult_0_l. exact U1.
  - apply Qle_shift_div_r; [reflexivity|]. eapply Qle_trans; [exact U2|]. discriminate.
Qed.

Lemma to_u64_proper p q : (p == q)%Q -> to_u64 p = to_u64 q.
Proof.
  intros H. unfold to_u64. assert (Qle_bool p (-1) = Qle_bool q (-1)) as -> by (apply eq_true_iff_eq; rewrite !Qle_bool_iff, H; reflexivity).
  assert (Qle_bool (inject_Z (Z.of_N two64)) p = Qle_bool (inject_Z (Z.of_N two64)) q) as -> by (apply eq_true_iff_eq; rewrite !Qle_bool_iff, H; reflexivity).
  rewrite H. reflexivity.
Qed.

Lemma share_bounds d q : in_unit q = true -> share d q <= d.
Proof.
  intros U. apply andb_prop in U as [U1 U2]. apply Qle_bool_iff in U1, U2. unfold share.
  assert (of_u64 d * q <= of_u64 d)%Q as P2.
  { setoid_replace (of_u64 d) with (of_u64 d * 1)%Q at 2 by ring. rewrite (Qmult_comm _ q), (Qmult_comm _ 1).
    apply Qmult_le_compat_r; auto. unfold of_u64. change 0%Q with (inject_Z 0). rewrite <- Zle_Qle. lia. }
  apply Qfloor_resp_le in P2. unfold of_u64 in P2 at 2. rewrite Qfloor_Z in P2. lia.
Qed.

(* The two shares of the driven beats add up to all or all but one of them. *)
Lemma share_split d q : in_unit q = true -> share d q + share d (1 - q) <= d /\ d <= share d q + share d (1 - q) + 1.
Proof.
  intros U. pose proof (in_unit_sub q U) as U'. apply andb_prop in U as [U1 U2]. apply Qle_bool_iff in U1, U2.
  apply andb_prop in U' as [V1 V2]. apply Qle_bool_iff in V1, V2.
  set (x := (of_u64 d * q)%Q). set (y := (of_u64 d * (1 - q))%Q).
  assert (0 <= of_u64 d)%Q as D0 by (unfold of_u64; change 0%Q with (inject_Z 0); rewrite <- Zle_Qle; lia).
  assert (x + y == inject_Z (Z.of_N d))%Q as S by (unfold x, y, of_u64; ring).
  assert (0 <= Qfloor x)%Z as X0 by (change 0%Z with (Qfloor 0); apply Qfloor_resp_le; apply Qmult_le_0_compat; auto).
  assert (0 <= Qfloor y)%Z as Y0 by (change 0%Z with (Qfloor 0); apply Qfloor_resp_le; apply Qmult_le_0_compat; auto).
  pose proof (Qfloor_le x) as X1. pose proof (Qfloor_le y) as Y1.
  pose proof (Qlt_floor x) as X2. pose proof (Qlt_floor y) as Y2.
  assert (Qfloor x + Qfloor y <= Z.of_N d)%Z as L1.
  { rewrite Zle_Qle, inject_Z_plus, <- S. apply Qplus_le_compat; auto. }
  assert (Z.of_N d < Qfloor x + 1 + (Qfloor y + 1))%Z as L2.
  { rewrite Zlt_Qlt, inject_Z_plus, <- S. apply Qplus_lt_le_compat; [exact X2|]. apply Qlt_le_weak. exact Y2. }
  unfold share. fold x y. lia.
Qed.

(* Falls are at most half of the driven beats. *)
Lemma share_half d q : in_unit q = true -> 2 * share d (q / 2) <= d.
Proof.
  intros U. apply andb_prop in U as [U1 U2]. apply Qle_bool_iff in U1, U2. unfold share.
  assert (0 <= of_u64 d)%Q as D0 by (unfold of_u64; change 0%Q with (inject_Z 0); rewrite <- Zle_Qle; lia).
  set (x := (of_u64 d * (q / 2))%Q). pose proof (Qfloor_le x) as X1.
  assert (x * 2 <= of_u64 d)%Q as P.
  { unfold x. setoid_replace (of_u64 d * (q / 2) * 2)%Q with (q * of_u64 d)%Q by field.
    setoid_replace (of_u64 d) with (1 * of_u64 d)%Q at 2 by ring. apply Qmult_le_compat_r; auto. }
  assert (inject_Z (Qfloor x) * 2 <= of_u64 d)%Q as P2.
  { eapply Qle_trans; [|exact P]. apply Qmult_le_compat_r; auto. discriminate. }
  change 2%Q with (inject_Z 2) in P2. unfold of_u64 in P2. rewrite <- inject_Z_mult, <- Zle_Qle in P2. lia.
Qed.

(* ---- the theorem ---- *)
Definition high_idle (i : toggle_idle) : option bool :=
  match i with TogL => Some false | TogH => Some true | TogInvalid => None end.

Theorem toggling_is_estimate width datarate rate duty idle high on ops t h0 h :
  toggling_new width datarate rate duty idle on = Value h0 -> high_idle idle = Some high ->
  toggles_in_order width datarate 0 t ops -> t * datarate < two64 ->
  toggle_run ops h0 = Value h ->
  beats_driven width datarate on ops (t * datarate) <= beats_on width datarate on ops (t * datarate) /\
  toggling_get h t = Value (wrap_stats (estimate width (beats_driven width datarate on ops (t * datarate))
    (beats_on width datarate on ops (t * datarate) - beats_driven width datarate on ops (t * datarate)) rate duty high)).
Proof.
  intros New Hi Or T64 Run. unfold toggling_new, check in New.
  destruct (N.ltb_spec 0 width) as [Hw|]; [|discriminate]. destruct (N.ltb_spec 0 datarate) as [Hd|]; [|discriminate].
  destruct (in_unit duty) eqn:Ud; [|discriminate]. destruct (in_unit rate) eqn:Ur; [|discriminate]. injection New as <-.
  match type of Run with toggle_run _ ?h0 = _ =>
    assert (tog_inv width datarate rate duty idle h0 (mkEst on None) (0 * datarate) 0 0) as B0 end.
  { constructor; try reflexivity. destruct on; cbn; lia. }
  destruct (tog_run_inv width datarate rate duty idle Hw Hd ops 0 (mkEst on None) _ 0 0 t B0 Or T64 h Run) as [s B].
  rewrite N.mul_0_l, !N.add_0_l in B.
  assert (forall f n, span f 0 n = beats n f) as SB.
  { intros f n. unfold span, beats. rewrite N.sub_0_r. reflexivity. }
  rewrite !SB in B. fold (beats_on width datarate on ops (t * datarate)) in B.
  fold (beats_driven width datarate on ops (t * datarate)) in B.
  set (E := beats_on width datarate on ops (t * datarate)) in *. set (D := beats_driven width datarate on ops (t * datarate)) in *.
  destruct B as [W R TR DU ID O BU C T L]. split; [exact L|].
  assert (E <= t * datarate) as EF by (destruct (e_on s); [|destruct T]; lia).
  unfold toggling_get. rewrite W, R, TR, DU, ID, O. destruct (N.eqb_spec datarate 0); [lia|].
  assert (u64_mul t datarate = t * datarate) as -> by (apply N.mod_small; exact T64). rewrite N.div_mul by auto.
  unfold check. rewrite N.eqb_refl.
  assert ((if e_on s then
             if negb (lb_handled h) && (t * datarate <? u64_add (lb_length h) (lb_load h)) then u64_add (tg_count h) (u64_sub (t * datarate) (lb_load h))
             else if negb (lb_handled h) then u64_add (tg_count h) (lb_length h) else tg_count h
           else tg_count h) = D) as ->.
  { unfold burst_part in C. destruct (e_burst s) as [[b l]|].
    - destruct BU as [B1 [B2 [B3 [B4 [B5 B6]]]]]. rewrite B6, B1, B2, B3. cbn [negb andb]. rewrite (add64 l b) by lia.
      destruct (N.ltb_spec (t * datarate) (l + b)).
      + rewrite sub64, add64 by lia. lia.
      + rewrite add64 by lia. lia.
    - rewrite BU. cbn [negb andb]. destruct (e_on s); lia. }
  assert (u64_sub (u64_sub (t * datarate) (if e_on s then tg_disable_time h else u64_add (tg_disable_time h) (u64_sub (t * datarate) (tg_disabled_at h)))) D = E - D) as ->.
  { destruct (e_on s).
    - rewrite (sub64 (t * datarate)) by lia. rewrite sub64 by lia. lia.
    - destruct T as [T1 T2]. rewrite (sub64 (t * datarate) (tg_disabled_at h)) by lia. rewrite add64 by lia.
      rewrite (sub64 (t * datarate)) by lia. rewrite sub64 by lia. lia. }
  assert (D < two64) as D64 by lia.
  rewrite (to_u64_share D duty Ud D64). rewrite (to_u64_share D (1 - duty) (in_unit_sub _ Ud) D64). cbn [bind].
  rewrite (to_u64_proper (of_u64 D * rate / 2) (of_u64 D * (rate / 2))) by (field).
  rewrite (to_u64_share D (rate / 2) (in_unit_half _ Ur) D64). cbn [bind].
  pose proof (share_bounds D duty Ud) as S1. pose proof (share_bounds D (1 - duty) (in_unit_sub _ Ud)) as S2.
  assert (forall x, u64_mul x width = (width * x) mod two64) as M by (intros; unfold u64_mul; rewrite N.mul_comm; reflexivity).
  destruct idle; cbn [high_idle] in Hi; try discriminate; injection Hi as <-; cbn [bind fst snd]; f_equal; unfold wrap_stats, estimate;
    cbn [ones zeroes changes o2z z2o]; rewrite ?N.add_0_r, !M.
  1: rewrite (add64 (share D (1 - duty))) by lia.
  2: rewrite (add64 (share D duty)) by lia.
  all: f_equal; unfold u64_add; rewrite <- N.add_mod by (unfold two64; lia); f_equal; lia.
Qed.

Theorem estimate_conserves width d i rate duty high : in_unit duty = true -> in_unit rate = true ->
  let s := estimate width d i rate duty high in
  ones s + zeroes s <= width * (d + i) /\ width * (d + i) <= ones s + zeroes s + width /\
  o2z s = z2o s /\ changes s = o2z s + z2o s /\ 2 * o2z s <= width * d.
Proof.
  intros Ud Ur. cbn zeta. unfold estimate. cbn [ones zeroes changes o2z z2o].
  pose proof (share_split d duty Ud) as [S1 S2]. pose proof (share_half d rate Ur) as S3.
  assert (forall a b, width * a + width * b = width * (a + b)) as DM by (intros; lia).
  repeat split.
  - rewrite DM. apply N.mul_le_mono_l. destruct high; lia.
  - rewrite DM. replace (width * (d + i)) with (width * (d + i)) by lia.
    transitivity (width * (share d duty + (if high then i else 0) + (share d (1 - duty) + (if high then 0 else i)) + 1)).
    + apply N.mul_le_mono_l. destruct high; lia.
    + lia.
  - lia.
  - replace (2 * (width * share d (rate / 2))) with (width * (2 * share d (rate / 2))) by lia. apply N.mul_le_mono_l. exact S3.
Qed.
