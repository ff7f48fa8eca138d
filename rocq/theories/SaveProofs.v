(* A trace with power-down against the same trace without. *)
From Coq Require Import ZArith QArith NArith List Bool Lia ZifyBool ZifyNat ZifyN Arith.
From Verif Require Import Base Command CoreModel ListFacts HistorySpec CoreHistory DeviceSpec RefineBase RefineMain DeviceFacts DeviceTop.
From Verif Require Import EnergyModel EnergySpec EnergyProofs ChargeSpec ChargeBase ChargeProofs ComposeProofs ComposeMain LocalProofs SaveSpec.
Import ListNotations.
Local Open Scope N_scope.

Section Sim.
Variable p : memspec.
(* The trace has no active power-down, so that rows keep their clocks. *)
Variable keep : bool.

Record wbank (b b' : sbank) : Prop := {
  wb_state : sb_state b' = sb_state b;
  wb_pre : sb_pre b' = sb_pre b;
  wb_off : sb_off b' = sb_off b;
  wb_since : if keep then sb_since b' = sb_since b
             else match sb_since b, sb_since b' with Some s, Some s' => s' <= s | None, None => True | _, _ => False end;
  wb_open : sb_state b = Open -> sb_since b <> None
}.
(* The rank is in power-down, on its way there or on its way back. *)
Definition dozing (d : device) : bool :=
  match dv_mode d, dv_pend d with
  | Up, None => false
  | Up, Some (_, (ActPd | PrePd)) => true
  | Up, Some _ => false
  | (ActPd | PrePd), _ => true
  | _, _ => false
  end.
Definition no_act_pd (d : device) : Prop := dv_mode d <> ActPd /\ forall x, dv_pend d <> Some (x, ActPd).
Record wdev (d d' : device) : Prop := {
  wd_banks : Forall2 wbank (dv_banks d) (dv_banks d');
  wd_mode : dv_mode d' = if dozing d then Up else dv_mode d;
  wd_pend : dv_pend d' = if dozing d then None else dv_pend d;
  wd_keep : keep = true -> no_act_pd d;
  wd_back : dozing d = true -> forall x m, dv_mode d <> Up -> dv_pend d = Some (x, m) ->
            m = Up /\ Forall (fun b => forall s, sb_since b = Some s -> s <= x) (dv_banks d);
  wd_deep : dv_mode d = SelfRef \/ dv_mode d = DeepSleep -> dv_pend d = None
}.

Lemma w_settle_bank n b b' : wbank b b' -> wbank (settle_bank n b) (settle_bank n b').
Proof.
  intros W. pose proof W as [S1 S2 S3 S4 S5]. unfold settle_bank. rewrite S1. destruct (sb_state b) as [| |c|e] eqn:E; auto.
  - destruct (c <=? n); auto. constructor; cbn [sb_state sb_since sb_pre sb_off]; auto. discriminate.
  - destruct (e <=? n); auto. constructor; cbn [sb_state sb_since sb_pre sb_off]; auto. discriminate.
Qed.
Lemma settle_since n b : sb_since (settle_bank n b) = sb_since b.
Proof. unfold settle_bank. destruct (sb_state b); try reflexivity; destruct (_ <=? n); reflexivity. Qed.
Lemma w_wake_bank x b b' : keep = false -> wbank b b' -> (forall s, sb_since b = Some s -> s <= x) -> wbank (wake_bank x b) b'.
Proof.
  intros K W H. pose proof W as [S1 S2 S3 S4 S5]. unfold wake_bank. destruct (sb_state b) eqn:E; auto.
  constructor; cbn [sb_state sb_since sb_pre sb_off]; auto; [|discriminate]. rewrite K in *.
  specialize (S5 eq_refl). destruct (sb_since b) as [s|]; [|now elim S5]. specialize (H s eq_refl). destruct (sb_since b'); [lia|auto].
Qed.
Lemma w_settle n d d' : wdev d d' -> wdev (settle n d) (settle n d').
Proof.
  intros [B M P K R Z].
  assert (B' : Forall2 wbank (map (settle_bank n) (dv_banks d)) (map (settle_bank n) (dv_banks d'))).
  { eapply Forall2_map2; [|exact B]. apply w_settle_bank. }
  assert (S' : forall x, Forall (fun b => forall s, sb_since b = Some s -> s <= x) (dv_banks d) -> Forall (fun b => forall s, sb_since b = Some s -> s <= x) (map (settle_bank n) (dv_banks d))).
  { intros x H. apply Forall_map. eapply Forall_impl; [|exact H]. intros b Hb. now rewrite settle_since. }
  assert (WK : forall x, keep = false -> Forall (fun b => forall s, sb_since b = Some s -> s <= x) (map (settle_bank n) (dv_banks d)) ->
    Forall2 wbank (map (wake_bank x) (map (settle_bank n) (dv_banks d))) (map (settle_bank n) (dv_banks d'))).
  { intros x Hk. clear - B' Hk. induction B' as [|b b' l l' S B IH]; intros F; cbn; constructor; inversion F; subst; auto using w_wake_bank. }
  unfold settle. rewrite M, P. unfold dozing in *. unfold no_act_pd in *. destruct (dv_pend d) as [[x m]|] eqn:EP.
  - destruct (dv_mode d) eqn:EM.
    + destruct m; destruct (N.leb_spec x n); constructor; cbn [dozing dv_banks dv_mode dv_pend]; unfold dozing, no_act_pd; cbn [dv_banks dv_mode dv_pend]; auto; try discriminate;
        try (intros Hk; destruct (K Hk) as [K1 K2]; split; intros; try discriminate; try apply K2; exfalso; eapply K2; reflexivity); try (intros; congruence); try (intros [|]; discriminate).
    + destruct (R eq_refl x m ltac:(discriminate) eq_refl) as [-> F].
      destruct (N.leb_spec x n); constructor; cbn [dozing dv_banks dv_mode dv_pend]; unfold dozing, no_act_pd; cbn [dv_banks dv_mode dv_pend]; auto; try discriminate.
      * apply WK; auto. destruct keep; [|reflexivity]. destruct (K eq_refl) as [K1 _]. now elim K1.
      * intros _; split; discriminate.
      * intros _ x0 m0 _ E0. injection E0 as <- <-. auto.
    + destruct (R eq_refl x m ltac:(discriminate) eq_refl) as [-> F].
      destruct (N.leb_spec x n); constructor; cbn [dozing dv_banks dv_mode dv_pend]; unfold dozing, no_act_pd; cbn [dv_banks dv_mode dv_pend]; auto; try discriminate.
      * intros _; split; discriminate.
      * intros _ x0 m0 _ E0. injection E0 as <- <-. auto.
    + discriminate Z. auto.
    + discriminate Z. auto.
  - destruct (dv_mode d) eqn:EM; constructor; cbn [dozing dv_banks dv_mode dv_pend]; unfold dozing, no_act_pd; cbn [dv_banks dv_mode dv_pend]; auto; try discriminate.
Qed.

Lemma w_open b b' : wbank b b' -> is_open b' = is_open b. Proof. intros [S _ _ _ _]. unfold is_open. now rewrite S. Qed.
Lemma w_closed b b' : wbank b b' -> is_closed b' = is_closed b. Proof. intros [S _ _ _ _]. unfold is_closed. now rewrite S. Qed.
Lemma w_stable b b' : wbank b b' -> is_stable b' = is_stable b. Proof. intros H. unfold is_stable. now rewrite (w_open _ _ H), (w_closed _ _ H). Qed.
Lemma w_busy b b' : wbank b b' -> busy b' = busy b. Proof. intros [S _ _ _ _]. unfold busy. now rewrite S. Qed.
Lemma w_row b b' : wbank b b' -> row_open b' = row_open b. Proof. intros [S _ _ _ _]. unfold row_open. now rewrite S. Qed.
Lemma w_addressed c (P : sbank -> bool) l l' : (forall b b', wbank b b' -> P b' = P b) -> Forall2 wbank l l' -> addressed p c P l' = addressed p c P l.
Proof.
  intros H F. unfold addressed. generalize 0%nat. induction F as [|a b l1 l2 R F IH]; intros i; [reflexivity|]. cbn. rewrite IH, (H _ _ R). reflexivity.
Qed.
Lemma w_touch c (g : sbank -> sbank) l l' : (forall b b', wbank b b' -> wbank (g b) (g b')) -> Forall2 wbank l l' -> Forall2 wbank (touch p c g l) (touch p c g l').
Proof. intros H F. unfold touch. eapply Forall2_mapi; [|exact F]. intros i a b R. destruct (footprint p c i); auto. Qed.
(* An access with auto-precharge does not have to wait. *)
Definition calm (c : Command) (d : device) : Prop :=
  keep = false -> cmd_type c = RDA \/ cmd_type c = WRA ->
  forall b s, nth_error (dv_banks d) (N.to_nat (cmd_bank c)) = Some b -> sb_since b = Some s -> s + ms_tRAS p <= cmd_ts c + closes_after p c.
Lemma w_auto c l l' : (cmd_type c = RDA \/ cmd_type c = WRA) ->
  (keep = false -> forall b s, nth_error l (N.to_nat (cmd_bank c)) = Some b -> sb_since b = Some s -> s + ms_tRAS p <= cmd_ts c + closes_after p c) ->
  Forall2 wbank l l' ->
  Forall2 wbank (touch p c (autoclose_bank p (cmd_ts c) (closes_after p c)) l) (touch p c (autoclose_bank p (cmd_ts c) (closes_after p c)) l').
Proof.
  intros A H F. assert (FP : forall i, footprint p c i = Nat.eqb (N.to_nat (cmd_bank c)) i) by (intros i; unfold footprint, addr; destruct A as [-> | ->]; reflexivity).
  unfold touch. assert (H' : keep = false -> forall i b s, nth_error l i = Some b -> (N.to_nat (cmd_bank c) = 0 + i)%nat -> sb_since b = Some s -> s + ms_tRAS p <= cmd_ts c + closes_after p c).
  { intros K i b s N E. cbn in E. subst i. now apply H. }
  clear H. revert H'. generalize 0%nat. induction F as [|b b' l l' S F IH]; intros k H; cbn [mapi]; constructor.
  - rewrite FP. destruct (Nat.eqb_spec (N.to_nat (cmd_bank c)) k) as [E|E]; [|exact S]. destruct S as [S1 S2 S3 S4 S5].
    constructor; unfold autoclose_bank; cbn [sb_state sb_since sb_pre sb_off]; auto; [|discriminate]. f_equal.
    destruct keep eqn:K; [now rewrite S4|]. destruct (sb_since b) as [s|] eqn:Es, (sb_since b') as [s'|]; try contradiction; [|reflexivity].
    specialize (H eq_refl 0%nat b s eq_refl ltac:(lia) Es). lia.
  - apply IH. intros K i x s N E. apply (H K (Datatypes.S i) x s N). lia.
Qed.
Lemma w_with d d' l l' : wdev d d' -> dv_mode d = Up -> dv_pend d = None -> Forall2 wbank l l' -> wdev (with_banks l d) (with_banks l' d').
Proof.
  intros [B M P K R Z] EM EP F. constructor; unfold with_banks, dozing, no_act_pd in *; cbn [dv_banks dv_mode dv_pend]; rewrite EM, EP in *; auto; try discriminate; try (intros [|]; discriminate).
Qed.
Lemma w_refresh t e b b' : wbank b b' -> wbank (refresh_bank t e b) (refresh_bank t e b').
Proof.
  intros [S1 S2 S3 S4 S5]. constructor; cbn [refresh_bank sb_state sb_since sb_pre sb_off]; auto; [|discriminate].
  destruct keep; [now rewrite S4|]. destruct (sb_since b), (sb_since b'); auto. lia.
Qed.
Lemma w_up c d d' e : power_down c = false -> calm c d -> wdev d d' -> dv_mode d = Up -> dv_pend d = None ->
  up_command p c d = Some e -> exists e', up_command p c d' = Some e' /\ wdev e e'.
Proof.
  intros PD CA D EM EP. pose proof (wd_banks _ _ D) as B. unfold up_command.
  rewrite !(w_addressed c is_closed _ _ w_closed B), !(w_addressed c is_open _ _ w_open B), !(w_addressed c is_stable _ _ w_stable B).
  assert (GT : forall x g, (forall b b', wbank b b' -> wbank (g b) (g b')) -> guard x (with_banks (touch p c g (dv_banks d)) d) = Some e ->
    exists e', guard x (with_banks (touch p c g (dv_banks d')) d') = Some e' /\ wdev e e').
  { intros [] g H; cbn [guard]; [|discriminate]. intros E. injection E as <-. eexists. split; [reflexivity|]. apply w_with; auto. now apply w_touch. }
  assert (OP : forall t b b', wbank b b' -> wbank (open_bank t b) (open_bank t b')).
  { intros t b b' [S1 S2 S3 S4 S5]. constructor; cbn [open_bank sb_state sb_since sb_pre sb_off]; auto; [|discriminate]. destruct keep; [reflexivity|lia]. }
  assert (CL : forall t b b', wbank b b' -> wbank (close_bank t b) (close_bank t b')).
  { intros t b b' S. unfold close_bank. rewrite (w_open _ _ S). destruct (is_open b); [|exact S]. destruct S as [S1 S2 S3 S4 S5]. constructor; cbn [sb_state sb_since sb_pre sb_off]; auto. discriminate. }
  unfold power_down in PD. unfold calm, closes_after in CA.
  pose proof (w_auto c (dv_banks d) (dv_banks d')) as AU. unfold closes_after in AU.
  destruct (cmd_type c) eqn:E; try discriminate PD; try discriminate; try (apply GT; auto using w_refresh; fail).
  - (* RD *) destruct (addressed p c is_open (dv_banks d)); [|discriminate]. cbn [guard]. intros X. injection X as <-. eauto.
  - (* WR *) destruct (addressed p c is_open (dv_banks d)); [|discriminate]. cbn [guard]. intros X. injection X as <-. eauto.
  - destruct (addressed p c is_open (dv_banks d)); [|discriminate]. cbn [guard]. intros X. injection X as <-. eexists. split; [reflexivity|]. apply w_with; auto. apply AU; [auto| |exact B]. intros Hk. apply CA; auto.
  - destruct (addressed p c is_open (dv_banks d)); [|discriminate]. cbn [guard]. intros X. injection X as <-. eexists. split; [reflexivity|]. apply w_with; auto. apply AU; [auto| |exact B]. intros Hk. apply CA; auto.
  - (* SREFEN *) destruct (addressed p c is_closed (dv_banks d)); [|discriminate]. cbn [guard option_map]. intros X. injection X as <-. eexists. split; [reflexivity|].
    pose proof (w_touch c (refresh_bank (cmd_ts c) (cmd_ts c + ms_tRFC p)) _ _ (w_refresh _ _) B) as F. destruct D as [_ M P K R Z].
    constructor; unfold with_banks, with_pend, dozing, no_act_pd in *; cbn [dv_banks dv_mode dv_pend]; rewrite EM, EP in *; auto; try discriminate.
    + intros _. split; discriminate.
    + intros [|]; discriminate.
Qed.
Lemma w_command c d d' e : power_down c = false -> calm c d -> wdev d d' -> command p c d = Some e -> exists e', command p c d' = Some e' /\ wdev e e'.
Proof.
  intros PD CA D. unfold command. destruct (in_standard p (cmd_type c) && well_addressed p c); [|discriminate].
  assert (Q : cmd_type c = NOP \/ cmd_type c = END_OF_SIMULATION \/ (cmd_type c <> NOP /\ cmd_type c <> END_OF_SIMULATION)) by (destruct (cmd_type c); auto; right; right; split; discriminate).
  destruct Q as [Q|[Q|[Q1 Q2]]]; [rewrite Q; intros X; injection X as <-; eauto ..|].
  pose proof (wd_mode _ _ D) as M. pose proof (wd_pend _ _ D) as P.
  assert (U : dv_mode d = Up -> dv_pend d = None -> up_command p c d = Some e -> exists e', up_command p c d' = Some e' /\ wdev e e') by (intros; now apply (w_up c d)).
  destruct D as [B _ _ K R Z]. unfold power_down in PD. unfold dozing in *.
  destruct (dv_mode d) eqn:EM, (dv_pend d) as [[x [| | | |]]|] eqn:EP; rewrite M, P; destruct (cmd_type c); try discriminate PD; try congruence; try discriminate; auto;
    intros X; injection X as <-; eexists; (split; [reflexivity|]); constructor; unfold with_mode, dozing, no_act_pd; cbn [dv_banks dv_mode dv_pend]; auto; try discriminate; try (intros [|]; discriminate); try (intros _; split; try discriminate; rewrite EP; discriminate);
    rewrite ?EP, ?P; auto; try discriminate.
Qed.
(* Entries and exits. *)
Lemma w_doze c d d' e : power_down c = true -> (keep = true -> cmd_type c <> PDEA) -> wdev d d' -> command p c d = Some e -> wdev e d'.
Proof.
  intros PD NK [B M P K R Z]. unfold command. destruct (in_standard p (cmd_type c) && well_addressed p c); [|discriminate].
  assert (RD : Forall (fun b => forall s, sb_since b = Some s -> s <= N.max (cmd_ts c) (ready p (dv_banks d))) (dv_banks d)).
  { apply Forall_forall. intros b Hb s E. enough (bank_ready p b <= ready p (dv_banks d)) as H by (unfold bank_ready in H; rewrite E in H; lia).
    clear - Hb. unfold ready. induction (dv_banks d) as [|x l IH]; [contradiction|]. cbn. destruct Hb as [->|Hb]; [lia|]. specialize (IH Hb). lia. }
  unfold power_down in PD. unfold dozing in *. unfold no_act_pd in *.
  destruct (cmd_type c) eqn:E; try discriminate PD; destruct (dv_pend d) as [[x m]|] eqn:EP; destruct (dv_mode d) eqn:EM; try discriminate; unfold up_command; rewrite ?E; unfold guard; try discriminate.
  - destruct (_ && _); [|discriminate]. intros X. injection X as <-. constructor; unfold with_pend, dozing, no_act_pd; cbn [dv_banks dv_mode dv_pend]; rewrite ?EM; auto; try discriminate.
    + intros Hk. now elim (NK Hk).
    + intros _ x m H. now elim H.
    + intros [|]; discriminate.
  - destruct (forallb _ _); [|discriminate]. intros X. injection X as <-. constructor; unfold with_pend, dozing, no_act_pd; cbn [dv_banks dv_mode dv_pend]; rewrite ?EM; auto; try discriminate.
    + intros _. split; discriminate.
    + intros _ x m H. now elim H.
    + intros [|]; discriminate.
  - intros X. injection X as <-. constructor; unfold with_pend, dozing, no_act_pd; cbn [dv_banks dv_mode dv_pend]; rewrite ?EM; auto; try discriminate.
    + intros Hk. destruct (K Hk) as [K1 _]. now elim K1.
    + intros _ x m _ X. injection X as <- <-. auto.
    + intros [|]; discriminate.
  - intros X. injection X as <-. constructor; unfold with_pend, dozing, no_act_pd; cbn [dv_banks dv_mode dv_pend]; rewrite ?EM; auto; try discriminate.
    + intros _. split; discriminate.
    + intros _ x m _ X. injection X as <- <-. auto.
    + intros [|]; discriminate.
Qed.
Lemma w_new : wdev (device_new p) (device_new p).
Proof.
  constructor; unfold dozing, no_act_pd; cbn [device_new dv_banks dv_mode dv_pend]; auto; try discriminate.
  - induction (ms_banks p); cbn; constructor; auto. constructor; cbn; auto; [destruct keep; auto|discriminate].
  - intros _. split; discriminate.
Qed.
End Sim.
