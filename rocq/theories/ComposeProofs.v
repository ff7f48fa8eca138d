(* A trace run after another one that has come to rest. *)
From Coq Require Import ZArith NArith List Bool Lia ZifyBool ZifyNat ZifyN Arith.
From Verif Require Import Base Command CoreModel ListFacts HistorySpec DeviceSpec RefineBase RefineMain DeviceFacts DeviceTop ComposeSpec.
Import ListNotations.
Local Open Scope N_scope.

Section Sim.
Variable p : memspec.
Variable T : N.

Definition shift_state (s : bstate) : bstate :=
  match s with Closed => Closed | Open => Open | Closing c => Closing (c + T) | Refreshing e => Refreshing (e + T) end.
(* b1 in the run of both traces, b2 in the run of the second alone, at time now of
   the second. *)
Record bsim (now : N) (b1 b2 : sbank) : Prop := {
  bs_state : sb_state b1 = shift_state (sb_state b2);
  bs_since : match sb_since b2, sb_since b1 with
             | Some s, x => x = Some (s + T)
             | None, None => True
             | None, Some s => refresh_covers p /\
                 match sb_state b2 with Closed => s + act_delay p <= now + T | Refreshing e => s + act_delay p <= e + T | _ => False end
             end;
  bs_pre : match sb_pre b2, sb_pre b1 with Some x, y => y = Some (x + T) | None, None => True | None, Some y => y + ms_tRP p <= T end;
  bs_off : match sb_off b2, sb_off b1 with Some x, y => y = Some (x + T) | None, None => True | None, Some y => y < T end
}.
Record dsim (now : N) (d1 d2 : device) : Prop := {
  ds_banks : Forall2 (bsim now) (dv_banks d1) (dv_banks d2);
  ds_mode : dv_mode d1 = dv_mode d2;
  ds_pend : dv_pend d1 = match dv_pend d2 with Some (x, m) => Some (x + T, m) | None => None end
}.

Lemma bsim_mono a b b1 b2 : a <= b -> bsim a b1 b2 -> bsim b b1 b2.
Proof.
  intros H [S1 S2 S3 S4]. constructor; auto.
  destruct (sb_since b2), (sb_since b1); auto. destruct S2 as [K S2]. split; [exact K|]. destruct (sb_state b2); auto. lia.
Qed.
Lemma settle_bank_sim now n b1 b2 : now <= n -> bsim now b1 b2 -> bsim n (settle_bank (n + T) b1) (settle_bank n b2).
Proof.
  intros H B. apply (bsim_mono now n) in B; [|exact H]. pose proof B as [S1 S2 S3 S4]. unfold settle_bank. rewrite S1.
  destruct (sb_state b2) as [| |c|e] eqn:E; cbn [shift_state]; auto.
  - destruct (N.leb_spec c n), (N.leb_spec (c + T) (n + T)); try lia; auto.
    constructor; cbn [sb_state sb_since sb_pre sb_off shift_state]; auto.
    destruct (sb_since b2), (sb_since b1); auto. tauto.
  - destruct (N.leb_spec e n), (N.leb_spec (e + T) (n + T)); try lia; auto.
    constructor; cbn [sb_state sb_since sb_pre sb_off shift_state]; auto.
    destruct (sb_since b2), (sb_since b1); auto. destruct S2 as [K S2]. split; [exact K|lia].
Qed.
Lemma wake_bank_sim now x b1 b2 : bsim now b1 b2 -> bsim now (wake_bank (x + T) b1) (wake_bank x b2).
Proof.
  intros B. pose proof B as [S1 S2 S3 S4]. unfold wake_bank. rewrite S1.
  destruct (sb_state b2) eqn:E; cbn [shift_state]; auto.
  constructor; cbn [sb_state sb_since sb_pre sb_off shift_state]; auto.
Qed.
Lemma Forall2_map2 {A B C D} (P : A -> B -> Prop) (Q : C -> D -> Prop) (f : A -> C) (g : B -> D) l1 l2 :
  (forall a b, P a b -> Q (f a) (g b)) -> Forall2 P l1 l2 -> Forall2 Q (map f l1) (map g l2).
Proof. intros H F. induction F; cbn; constructor; auto. Qed.
Lemma settle_sim now n d1 d2 : now <= n -> dsim now d1 d2 -> dsim n (settle (n + T) d1) (settle n d2).
Proof.
  intros H [B M P]. assert (B' : Forall2 (bsim n) (map (settle_bank (n + T)) (dv_banks d1)) (map (settle_bank n) (dv_banks d2))).
  { eapply Forall2_map2; [|exact B]. intros. eapply settle_bank_sim; eauto. }
  unfold settle. rewrite P, M. destruct (dv_pend d2) as [[x m]|] eqn:E.
  - destruct (N.leb_spec x n), (N.leb_spec (x + T) (n + T)); try lia.
    + constructor; cbn [dv_banks dv_mode dv_pend]; auto. destruct (dv_mode d2); auto.
      eapply Forall2_map2; [|exact B']. intros. apply wake_bank_sim; auto.
    + constructor; cbn [dv_banks dv_mode dv_pend]; auto.
  - constructor; cbn [dv_banks dv_mode dv_pend]; auto.
Qed.
Lemma Forall2_mapi {A B C D} (P : A -> B -> Prop) (Q : C -> D -> Prop) (f : nat -> A -> C) (g : nat -> B -> D) l1 l2 :
  (forall i a b, P a b -> Q (f i a) (g i b)) -> Forall2 P l1 l2 -> forall i, Forall2 Q (mapi i f l1) (mapi i g l2).
Proof. intros H F. induction F; intros i; cbn; constructor; auto. Qed.
Lemma touch_sim now c g1 g2 l1 l2 : (forall b1 b2, bsim now b1 b2 -> bsim now (g1 b1) (g2 b2)) ->
  Forall2 (bsim now) l1 l2 -> Forall2 (bsim now) (touch p (delay T c) g1 l1) (touch p c g2 l2).
Proof.
  intros H F. unfold touch. eapply Forall2_mapi; [|exact F]. intros i a b R.
  change (footprint p (delay T c) i) with (footprint p c i). destruct (footprint p c i); auto.
Qed.
Lemma addressed_sim now c P1 P2 l1 l2 : (forall b1 b2, bsim now b1 b2 -> P1 b1 = P2 b2) ->
  Forall2 (bsim now) l1 l2 -> addressed p (delay T c) P1 l1 = addressed p c P2 l2.
Proof.
  intros H F. unfold addressed. generalize 0%nat. induction F as [|a b l1 l2 R F IH]; intros i; [reflexivity|]. cbn.
  change (footprint p (delay T c) i) with (footprint p c i). rewrite IH. destruct (footprint p c i); auto. rewrite (H _ _ R). reflexivity.
Qed.
Lemma forallb_sim {A} (R : A -> A -> Prop) P1 P2 l1 l2 : (forall b1 b2, R b1 b2 -> P1 b1 = P2 b2) -> Forall2 R l1 l2 -> forallb P1 l1 = forallb P2 l2.
Proof. intros H F. induction F; cbn; [reflexivity|]. rewrite IHF. f_equal. auto. Qed.
Lemma existsb_sim {A} (R : A -> A -> Prop) P1 P2 l1 l2 : (forall b1 b2, R b1 b2 -> P1 b1 = P2 b2) -> Forall2 R l1 l2 -> existsb P1 l1 = existsb P2 l2.
Proof. intros H F. induction F; cbn; [reflexivity|]. rewrite IHF. f_equal. auto. Qed.

Lemma closed_sim now b1 b2 : bsim now b1 b2 -> is_closed b1 = is_closed b2.
Proof. intros [S _ _ _]. unfold is_closed. rewrite S. now destruct (sb_state b2). Qed.
Lemma open_sim now b1 b2 : bsim now b1 b2 -> is_open b1 = is_open b2.
Proof. intros [S _ _ _]. unfold is_open. rewrite S. now destruct (sb_state b2). Qed.
Lemma busy_sim now b1 b2 : bsim now b1 b2 -> busy b1 = busy b2.
Proof. intros [S _ _ _]. unfold busy. rewrite S. now destruct (sb_state b2). Qed.
Lemma stable_sim now b1 b2 : bsim now b1 b2 -> is_stable b1 = is_stable b2.
Proof. intros H. unfold is_stable. now rewrite (closed_sim _ _ _ H), (open_sim _ _ _ H). Qed.
Lemma closed_before_sim now e b1 b2 : bsim now b1 b2 -> closed_before (e + T) b1 = closed_before e b2.
Proof.
  intros [S _ _ F]. unfold closed_before. rewrite S. destruct (sb_state b2); cbn [shift_state]; auto; try lia.
  destruct (sb_off b2); [rewrite F; lia|]. destruct (sb_off b1); auto. lia.
Qed.
Lemma closed_by_sim now e b1 b2 : bsim now b1 b2 -> closed_by (e + T) b1 = closed_by e b2.
Proof. intros [S _ _ _]. unfold closed_by. rewrite S. destruct (sb_state b2); cbn [shift_state]; auto; lia. Qed.
Lemma bank_ready_sim now t b1 b2 : bsim now b1 b2 -> now <= t -> N.max (t + T) (bank_ready p b1) = N.max t (bank_ready p b2) + T.
Proof.
  intros [S1 S2 S3 S4] H. unfold bank_ready. rewrite S1.
  destruct (sb_since b2) as [s2|].
  - rewrite S2. destruct (sb_pre b2) as [x2|]; [rewrite S3|destruct (sb_pre b1)]; destruct (sb_state b2); cbn [shift_state]; lia.
  - destruct (sb_since b1) as [s1|]; [destruct S2 as [_ S2]|]; (destruct (sb_pre b2) as [x2|]; [rewrite S3|destruct (sb_pre b1)]); destruct (sb_state b2); cbn [shift_state]; try lia.
Qed.
Lemma ready_sim now t l1 l2 : Forall2 (bsim now) l1 l2 -> now <= t -> N.max (t + T) (ready p l1) = N.max t (ready p l2) + T.
Proof.
  intros F H. unfold ready. induction F as [|a b l1 l2 R F IH]; cbn; [lia|]. pose proof (bank_ready_sim now t a b R H). lia.
Qed.
Lemma refresh_sim now c tm d1 d2 : dsim now d1 d2 -> now = cmd_ts c -> (refresh_covers p -> act_delay p <= tm) ->
  match guard (addressed p c is_closed (dv_banks d2)) (with_banks (touch p c (refresh_bank (cmd_ts c) (cmd_ts c + tm)) (dv_banks d2)) d2) with
  | Some d2' => exists d1', guard (addressed p (delay T c) is_closed (dv_banks d1)) (with_banks (touch p (delay T c) (refresh_bank (cmd_ts (delay T c)) (cmd_ts (delay T c) + tm)) (dv_banks d1)) d1) = Some d1' /\ dsim now d1' d2'
  | None => guard (addressed p (delay T c) is_closed (dv_banks d1)) (with_banks (touch p (delay T c) (refresh_bank (cmd_ts (delay T c)) (cmd_ts (delay T c) + tm)) (dv_banks d1)) d1) = None
  end.
Proof.
  intros [B M P] E K. rewrite (addressed_sim now c is_closed is_closed _ _ (closed_sim now) B). unfold guard.
  destruct (addressed p c is_closed (dv_banks d2)); [|reflexivity]. eexists. split; [reflexivity|].
  constructor; cbn [with_banks dv_banks dv_mode dv_pend]; auto. apply touch_sim; [|exact B].
  intros b1 b2 [S1 S2 S3 S4]. constructor; cbn [refresh_bank delay cmd_ts sb_state sb_since sb_pre sb_off shift_state]; auto.
  - f_equal. lia.
  - destruct (sb_since b2); [rewrite S2; f_equal; lia|]. destruct (sb_since b1); auto. destruct S2 as [R _]. split; [exact R|]. specialize (K R). lia.
Qed.
Definition osim (now : N) (o1 o2 : option device) : Prop :=
  match o2 with Some d2 => exists d1, o1 = Some d1 /\ dsim now d1 d2 | None => o1 = None end.
Lemma in_std_covers c : in_standard p (cmd_type c) = true -> refresh_covers p ->
  match cmd_type c with
  | REFA | SREFEN => act_delay p <= ms_tRFC p
  | REFSB => act_delay p <= ms_tRFCsb p
  | REFB | REFP2B => act_delay p <= ms_tRFCPB p
  | REFDB => act_delay p <= ms_tRFCDB p
  | _ => True
  end.
Proof.
  unfold in_standard, refresh_covers. intros I [R1 R2]. destruct (cmd_type c); auto; destruct (ms_std p); try discriminate; exact R2.
Qed.
Lemma up_command_sim c d1 d2 : dsim (cmd_ts c) d1 d2 -> in_standard p (cmd_type c) = true ->
  osim (cmd_ts c) (up_command p (delay T c) d1) (up_command p c d2).
Proof.
  intros D I. pose proof (in_std_covers c I) as K. pose proof D as [B M P].
  pose proof (ready_sim _ (cmd_ts c) _ _ B (N.le_refl _)) as RD.
  assert (G : forall x d1' d2', dsim (cmd_ts c) d1' d2' -> osim (cmd_ts c) (guard x d1') (guard x d2')) by (intros [] ? ? H; cbn; eauto).
  assert (GT : forall g1 g2, (forall b1 b2, bsim (cmd_ts c) b1 b2 -> bsim (cmd_ts c) (g1 b1) (g2 b2)) ->
    dsim (cmd_ts c) (with_banks (touch p (delay T c) g1 (dv_banks d1)) d1) (with_banks (touch p c g2 (dv_banks d2)) d2)).
  { intros g1 g2 H. constructor; cbn [with_banks dv_banks dv_mode dv_pend]; auto. now apply touch_sim. }
  assert (AC : forall off b1 b2, bsim (cmd_ts c) b1 b2 -> bsim (cmd_ts c) (autoclose_bank p (cmd_ts c + T) off b1) (autoclose_bank p (cmd_ts c) off b2) \/ sb_since b2 = None).
  { intros off b1 b2 [S1 S2 S3 S4]. destruct (sb_since b2) as [s|] eqn:E; [left|right; reflexivity].
    constructor; unfold autoclose_bank; cbn [sb_state sb_since sb_pre sb_off shift_state]; rewrite ?E, ?S2; auto. f_equal. lia. }
  assert (GA : forall P1 P2, (forall b1 b2, bsim (cmd_ts c) b1 b2 -> P1 b1 = P2 b2) -> addressed p (delay T c) P1 (dv_banks d1) = addressed p c P2 (dv_banks d2))
    by (intros; eapply addressed_sim; eauto).
  assert (RF : forall tm, (refresh_covers p -> act_delay p <= tm) ->
     osim (cmd_ts c) (guard (addressed p (delay T c) is_closed (dv_banks d1)) (with_banks (touch p (delay T c) (refresh_bank (cmd_ts (delay T c)) (cmd_ts (delay T c) + tm)) (dv_banks d1)) d1))
       (guard (addressed p c is_closed (dv_banks d2)) (with_banks (touch p c (refresh_bank (cmd_ts c) (cmd_ts c + tm)) (dv_banks d2)) d2)))
    by (intros tm Htm; apply refresh_sim; auto).
  assert (AUTO : forall off, osim (cmd_ts c) (guard (addressed p (delay T c) is_open (dv_banks d1)) (with_banks (touch p (delay T c) (autoclose_bank p (cmd_ts (delay T c)) off) (dv_banks d1)) d1))
       (guard (addressed p c is_open (dv_banks d2)) (with_banks (touch p c (autoclose_bank p (cmd_ts c) off) (dv_banks d2)) d2))).
  { intros off. rewrite (GA is_open is_open) by apply open_sim.
    destruct (addressed p c is_open (dv_banks d2)) eqn:EA; [|reflexivity]. cbn [guard]. eexists. split; [reflexivity|].
    constructor; cbn [with_banks dv_banks dv_mode dv_pend]; auto.
    assert (A2 : forall i b, nth_error (dv_banks d2) i = Some b -> footprint p c i = true -> is_open b = true) by (intros; eapply addressed_spec; eauto).
    clear - B A2. unfold touch. assert (A3 : forall i b, nth_error (dv_banks d2) i = Some b -> footprint p c (0 + i) = true -> is_open b = true) by (cbn; exact A2).
    clear A2. revert A3. generalize 0%nat. induction B as [|b1 b2 l1 l2 S B IH]; intros k A; cbn [mapi]; constructor.
    - change (footprint p (delay T c) k) with (footprint p c k). destruct (footprint p c k) eqn:E; [|exact S].
      assert (O : is_open b2 = true) by (apply (A 0%nat); [reflexivity|rewrite Nat.add_0_r; exact E]).
      destruct S as [S1 S2 S3 S4]. unfold is_open in O. destruct (sb_state b2) eqn:E2; try discriminate.
      constructor; unfold autoclose_bank; cbn [sb_state sb_since sb_pre sb_off shift_state delay cmd_ts]; auto.
      destruct (sb_since b2); [rewrite S2; f_equal; lia|]. destruct (sb_since b1); [tauto|]. f_equal. lia.
    - apply IH. intros i b Hi Hf. apply (A (Datatypes.S i)); [exact Hi|]. rewrite Nat.add_succ_r. exact Hf. }
  unfold up_command. change (cmd_type (delay T c)) with (cmd_type c).
  destruct (cmd_type c) eqn:E; try reflexivity; try (apply RF; exact K); try apply AUTO.
  all: try (rewrite (GA is_closed is_closed) by apply closed_sim); try (rewrite (GA is_stable is_stable) by apply stable_sim); try (rewrite (GA is_open is_open) by apply open_sim).
  all: try (apply G; exact D).
  all: try (apply G, GT; intros b1 b2 S; pose proof (open_sim _ _ _ S) as OS; destruct S as [S1 S2 S3 S4]; unfold close_bank, open_bank; rewrite ?OS; try destruct (is_open b2) eqn:EO;
    constructor; cbn [delay cmd_ts sb_state sb_since sb_pre sb_off shift_state]; auto;
    unfold is_open in EO; destruct (sb_state b2) eqn:E2; try discriminate; destruct (sb_since b2), (sb_since b1); auto; tauto).
  - (* PDEA *)
    cbn [delay cmd_ts] in *. rewrite RD.
    rewrite (existsb_sim (bsim (cmd_ts c)) is_open is_open _ _ (open_sim _) B).
    rewrite (forallb_sim (bsim (cmd_ts c)) _ (fun b => is_open b || closed_before (N.max (cmd_ts c) (ready p (dv_banks d2))) b) _ _ (fun b1 b2 S => f_equal2 orb (open_sim _ _ _ S) (closed_before_sim _ _ _ _ S)) B).
    apply G. constructor; cbn [with_pend dv_banks dv_mode dv_pend]; auto.
  - (* PDEP *)
    cbn [delay cmd_ts] in *. rewrite RD.
    rewrite (forallb_sim (bsim (cmd_ts c)) (closed_by (N.max (cmd_ts c) (ready p (dv_banks d2)) + T)) (closed_by (N.max (cmd_ts c) (ready p (dv_banks d2)))) _ _ (fun b1 b2 S => closed_by_sim _ _ _ _ S) B).
    apply G. constructor; cbn [with_pend dv_banks dv_mode dv_pend]; auto.
  - (* SREFEN *)
    pose proof (RF (ms_tRFC p) K) as Z. rewrite (GA is_closed is_closed) in Z by apply closed_sim. unfold osim in *.
    destruct (guard (addressed p c is_closed (dv_banks d2)) _) as [d2'|]; cbn [option_map].
    + destruct Z as (d1' & Z1 & [Z2 Z3 Z4]). rewrite Z1. cbn [option_map]. eexists. split; [reflexivity|].
      constructor; cbn [with_pend dv_banks dv_mode dv_pend delay cmd_ts]; auto. do 2 f_equal. lia.
    + rewrite Z. reflexivity.
Qed.
Lemma command_sim c d1 d2 : dsim (cmd_ts c) d1 d2 -> osim (cmd_ts c) (command p (delay T c) d1) (command p c d2).
Proof.
  intros D. pose proof D as [B M P]. pose proof (ready_sim _ (cmd_ts c) _ _ B (N.le_refl _)) as RD.
  unfold command. change (cmd_type (delay T c)) with (cmd_type c). change (well_addressed p (delay T c)) with (well_addressed p c).
  destruct (in_standard p (cmd_type c)) eqn:I; [|reflexivity]. cbn [andb]. destruct (well_addressed p c); [|reflexivity].
  rewrite P, M. cbn [delay cmd_ts]. rewrite RD.
  assert (U : osim (cmd_ts c) (up_command p (delay T c) d1) (up_command p c d2)) by (apply up_command_sim; auto).
  destruct (dv_pend d2) as [[x m]|] eqn:E; destruct (cmd_type c); destruct (dv_mode d2) eqn:EM; try reflexivity; try exact U;
    cbn [osim]; eexists; (split; [reflexivity|]); try exact D; constructor; cbn [with_pend with_mode dv_banks dv_mode dv_pend]; rewrite ?E; auto; congruence.
Qed.
Lemma run_sim cs : forall now d1 d2, nondecreasing now (map cmd_ts cs) -> dsim now d1 d2 ->
  match run_device p cs d2 with
  | Some d2' => exists d1' now', run_device p (later T cs) d1 = Some d1' /\ dsim now' d1' d2' /\ now <= now' /\ (now' = now \/ exists c, In c cs /\ now' = cmd_ts c)
  | None => run_device p (later T cs) d1 = None
  end.
Proof.
  induction cs as [|c cs IH]; intros now d1 d2 N D; cbn [later map run_device].
  - exists d1, now. repeat split; auto; try apply D. lia.
  - destruct N as [N1 N2]. pose proof (settle_sim now (cmd_ts c) d1 d2 N1 D) as D1. pose proof (command_sim c _ _ D1) as C. unfold osim in C.
    change (cmd_ts (delay T c)) with (cmd_ts c + T).
    destruct (command p c (settle (cmd_ts c) d2)) as [d2'|]; [|rewrite C; reflexivity].
    destruct C as (d1' & C1 & C2). rewrite C1. specialize (IH (cmd_ts c) d1' d2' N2 C2).
    destruct (run_device p cs d2') as [d2''|]; [|exact IH].
    destruct IH as (d1'' & now' & I1 & I2 & I3 & I4). exists d1'', now'. split; [exact I1|]. split; [exact I2|]. split; [lia|].
    right. destruct I4 as [->|(x & X1 & X2)]; [exists c; cbn; auto|exists x; cbn; auto].
Qed.
Lemma rest_sim d : at_rest p T d -> length (dv_banks d) = ms_banks p -> dsim 0 d (device_new p).
Proof.
  intros (M & P & B) L. constructor; cbn [device_new dv_banks dv_mode dv_pend]; auto. rewrite <- L. clear - B.
  induction B as [|b l (B1 & B2 & B3 & B4) B IH]; cbn; constructor; auto.
  constructor; cbn [sb_state sb_since sb_pre sb_off shift_state]; auto.
  - destruct (sb_since b) as [s|]; auto. destruct (B2 s eq_refl). split; [assumption|lia].
  - destruct (sb_pre b) as [s|]; auto.
  - destruct (sb_off b) as [s|]; auto.
Qed.
End Sim.
