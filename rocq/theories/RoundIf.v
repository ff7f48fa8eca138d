(* The rounding error of the interface energy and of the total. *)
From Coq Require Import QArith Qabs Qfield Lqa NArith List Bool Arith Lia.
From Verif Require Import Base Command CoreModel Bits StatsModel ListFacts EnergyModel EnergySpec EnergyProofs IfEnergyModel IfEnergySpec RoundModel RoundSpec RoundBasics RoundProofs.
Import ListNotations.
Local Open Scope Q_scope.

Section Iface.
Variable R : arithmetic.
Variables u rho : Q.
Hypothesis SM : standard_model R u.
Hypothesis Hu : 0 <= u.
Hypothesis Hup : 1 + u <= rho.
Hypothesis Hdown : 1 <= rho * (1 - u).
Variable p : ispec.
Hypothesis SL : sane_lines p.

Local Notation close := (close rho).

Definition iclose (n : nat) (a b : ienergy) : Prop :=
  close n (ie_cdyn a) (ie_cdyn b) /\ close n (ie_cstat a) (ie_cstat b) /\ close n (ie_ddyn a) (ie_ddyn b) /\ close n (ie_dstat a) (ie_dstat b).
Definition ieq (a b : ienergy) : Prop := ie_cdyn a == ie_cdyn b /\ ie_cstat a == ie_cstat b /\ ie_ddyn a == ie_ddyn b /\ ie_dstat a == ie_dstat b.
(* the rounded computation gives a value whenever the exact one does *)
Definition follows (n : nat) (x y : calc ienergy) : Prop := forall e, y = Exactly e -> exists e', x = Exactly e' /\ iclose n e' e.
Definition same (y z : calc ienergy) : Prop := forall e, y = Exactly e -> exists e', z = Exactly e' /\ ieq e' e.

Lemma close_more n x y n' y' : close n x y -> (n <= n')%nat -> y == y' -> close n' x y'.
Proof using Hu Hup. intros. eapply (close_weaken u); eassumption. Qed.
Lemma iclose_more n a b n' b' : iclose n a b -> (n <= n')%nat -> ieq b b' -> iclose n' a b'.
Proof using Hu Hup.
  intros (H1 & H2 & H3 & H4) L (E1 & E2 & E3 & E4).
  split; [|split; [|split]]; eapply close_more; eassumption.
Qed.
Lemma ieq_refl a : ieq a a. Proof using. repeat split; reflexivity. Qed.
Lemma follows_more n x y n' : follows n x y -> (n <= n')%nat -> follows n' x y.
Proof using Hu Hup.
  intros H L e E. destruct (H e E) as (e' & E' & C). exists e'. split; [exact E'|]. eapply iclose_more; [exact C|exact L|apply ieq_refl].
Qed.
Lemma follows_same n x y z : follows n x z -> same y z -> follows n x y.
Proof using Hu Hup.
  intros H S e E. destruct (S e E) as (e1 & E1 & Q). destruct (H e1 E1) as (e' & E' & C).
  exists e'. split; [exact E'|]. eapply iclose_more; [exact C|lia|exact Q].
Qed.
Lemma zero_close n : close n 0 0.
Proof using Hu Hup. eapply close_more; [apply (close_const rho 0); lra|lia|reflexivity]. Qed.
Lemma fresh_follows n : follows n fresh (Exactly ie_zero).
Proof using Hu Hup.
  intros e E. injection E as <-. exists ie_zero. split; [reflexivity|]. unfold iclose. cbn [ie_zero ie_cdyn ie_cstat ie_ddyn ie_dstat].
  pose proof (zero_close n) as Z. repeat (split; [exact Z|]). exact Z.
Qed.
Lemma cbind_value {A B} (m : calc A) (k : A -> calc B) e : cbind m k = Exactly e -> exists a, m = Exactly a /\ k a = Exactly e.
Proof using. destruct m; cbn; intros H; try discriminate. exists a. split; [reflexivity|exact H]. Qed.
Lemma iclose_add a b c d n m : iclose n a b -> iclose m c d -> iclose (max n m + 1) (rie_add R a c) (ie_add b d).
Proof using SM Hu Hup Hdown.
  intros (H1 & H2 & H3 & H4) (G1 & G2 & G3 & G4). cbn. unfold iclose. cbn [rie_add ie_add ie_cdyn ie_cstat ie_ddyn ie_dstat].
  split; [|split; [|split]]; apply (close_add R u); assumption.
Qed.
Lemma plus_follows n m a b c d : follows n a b -> follows m c d -> follows (max n m + 1) (rplus R a c) (plus b d).
Proof using SM Hu Hup Hdown.
  intros H1 H2 e E. unfold plus in E. apply cbind_value in E. destruct E as (x & Ex & E). apply cbind_value in E. destruct E as (y & Ey & E). injection E as <-.
  destruct (H1 x Ex) as (x' & Ex' & Cx). destruct (H2 y Ey) as (y' & Ey' & Cy).
  exists (rie_add R x' y'). split; [unfold rplus; rewrite Ex', Ey'; reflexivity|]. apply iclose_add; assumption.
Qed.

Lemma of_closed n : close 1 (r_of R n) (qn n). Proof using SM Hu Hup Hdown. apply (close_of R u); assumption. Qed.
Lemma square_closed v : close 1 (r_mul R v v) (v * v).
Proof using SM Hu Hup Hdown.
  apply (close_round u rho Hu Hup Hdown 0 (v * v)); [apply close_const|apply (sm_mul _ _ SM)].
  destruct (Qlt_le_dec v 0); [|apply mul_pos; assumption].
  setoid_replace (v * v) with ((- v) * (- v)) by ring. apply mul_pos; lra.
Qed.
(* a static energy *)
Lemma static_closed std a m m' t t' Req v e : close a m m' -> close 2 t t' -> 0 <= Req -> calc_static_energy std m' Req t' v = Exactly e ->
  exists e', rcalc_static_energy R std m Req t v = Exactly e' /\ close (a + 6) e' e.
Proof using SM Hu Hup Hdown.
  intros Hm Ht HR H. unfold calc_static_energy, rcalc_static_energy in *.
  destruct (Qeq_bool Req 0) eqn:E; [discriminate|].
  assert (P : 0 < Req).
  { apply pos_nz; [exact HR|]. intros Z. apply Qeq_bool_iff in Z. rewrite Z in E. discriminate. }
  pose proof (square_closed v) as Hv. pose proof (close_const rho Req HR) as HRc.
  destruct std; injection H as <-; (eexists; split; [reflexivity|]).
  1,3: eapply close_more; [apply (close_mul R u rho SM Hu Hup Hdown); [apply (close_mul R u rho SM Hu Hup Hdown); [exact Hm|apply (close_div R u rho SM Hu Hup Hdown); [exact Hv|exact HRc|exact P]]|exact Ht]|lia|reflexivity].
  all: eapply close_more; [apply (close_div R u rho SM Hu Hup Hdown); [apply (close_mul R u rho SM Hu Hup Hdown); [apply (close_mul R u rho SM Hu Hup Hdown); [exact Hm|exact Hv]|exact Ht]|exact HRc|exact P]|lia|reflexivity].
Qed.
Lemma dynamic_closed n E : 0 <= E -> close 2 (rcalc_dynamic_energy R n E) (calc_dynamic_energy n E).
Proof using SM Hu Hup Hdown.
  intros H. unfold rcalc_dynamic_energy, calc_dynamic_energy. apply (close_mul R u rho SM Hu Hup Hdown 1 _ _ 0); [apply of_closed|apply close_const; exact H].
Qed.
Lemma beat_closed t r e : 0 <= t -> per_beat t r = Exactly e -> exists e', rper_beat R t r = Exactly e' /\ close 2 e' e.
Proof using SM Hu Hup Hdown.
  unfold per_beat, rper_beat. intros Ht H. destruct (r =? 0)%N eqn:E; [discriminate|]. injection H as <-. apply N.eqb_neq in E.
  assert (P : 0 < qn r) by (apply pos_nz; [apply qn_pos|apply qn_nz; exact E]).
  pose proof (close_pos u rho Hu Hup _ _ _ (of_closed r) P) as P'.
  assert (Z : Qeq_bool (r_of R r) 0 = false).
  { destruct (Qeq_bool (r_of R r) 0) eqn:Z; [|reflexivity]. apply Qeq_bool_iff in Z. rewrite Z in P'. discriminate. }
  rewrite Z. eexists. split; [reflexivity|]. apply (close_div R u rho SM Hu Hup Hdown 0 _ _ 1); [apply close_const; exact Ht|apply of_closed|exact P].
Qed.
Lemma termination_closed term s Req t r e : 0 <= t -> 0 <= Req -> calcStaticTermination p term s Req t r = Exactly e ->
  exists e', rcalcStaticTermination R p term s Req t r = Exactly e' /\ close 8 e' e.
Proof using SM Hu Hup Hdown.
  unfold calcStaticTermination, rcalcStaticTermination. intros Ht HR H. destruct term.
  - apply cbind_value in H. destruct H as (b & Hb & H). destruct (beat_closed t r b Ht Hb) as (b' & Eb & Cb). rewrite Eb. cbn [cbind].
    destruct (static_closed _ 1 _ _ b' b Req (is_vddq p) e (of_closed _) Cb HR H) as (e' & E' & C). exists e'. split; [exact E'|].
    eapply close_more; [exact C|lia|reflexivity].
  - injection H as <-. exists 0. split; [reflexivity|apply zero_close].
Qed.

Definition good (l : line) : Prop := 0 <= ln_R l /\ 0 <= ln_E l.
Lemma add_controller_follows n l s t r x y : (8 <= n)%nat -> good l -> 0 <= t -> follows n x y -> follows (n + 1) (radd_controller R p l s t r x) (plus y (by_controller p l s t r)).
Proof using SM Hu Hup Hdown.
  intros Hn [GR GE] Ht F e E. unfold plus in E. apply cbind_value in E. destruct E as (a & Ea & E). apply cbind_value in E. destruct E as (b & Eb & E). injection E as <-.
  unfold by_controller in Eb. apply cbind_value in Eb. destruct Eb as (v & Ev & Eb). injection Eb as <-.
  destruct (F a Ea) as (a' & Ea' & (C1 & C2 & C3 & C4)). destruct (termination_closed _ _ _ _ _ _ Ht GR Ev) as (v' & Ev' & Cv).
  eexists. split; [unfold radd_controller; rewrite Ea'; cbn [cbind]; rewrite Ev'; reflexivity|].
  unfold iclose. cbn [ie_cdyn ie_cstat ie_ddyn ie_dstat ie_add].
  split; [|split; [|split]].
  - eapply close_more; [apply (close_add R u rho SM Hu Hup Hdown); [exact C1|apply dynamic_closed; exact GE]|lia|reflexivity].
  - eapply close_more; [apply (close_add R u rho SM Hu Hup Hdown); [exact C2|exact Cv]|lia|reflexivity].
  - eapply close_more; [exact C3|lia|ring].
  - eapply close_more; [exact C4|lia|ring].
Qed.
Lemma add_dram_follows n l s t r x y : (8 <= n)%nat -> good l -> 0 <= t -> follows n x y -> follows (n + 1) (radd_dram R p l s t r x) (plus y (by_dram p l s t r)).
Proof using SM Hu Hup Hdown.
  intros Hn [GR GE] Ht F e E. unfold plus in E. apply cbind_value in E. destruct E as (a & Ea & E). apply cbind_value in E. destruct E as (b & Eb & E). injection E as <-.
  unfold by_dram in Eb. apply cbind_value in Eb. destruct Eb as (v & Ev & Eb). injection Eb as <-.
  destruct (F a Ea) as (a' & Ea' & (C1 & C2 & C3 & C4)). destruct (termination_closed _ _ _ _ _ _ Ht GR Ev) as (v' & Ev' & Cv).
  eexists. split; [unfold radd_dram; rewrite Ea'; cbn [cbind]; rewrite Ev'; reflexivity|].
  unfold iclose. cbn [ie_cdyn ie_cstat ie_ddyn ie_dstat ie_add].
  split; [|split; [|split]].
  - eapply close_more; [exact C1|lia|ring].
  - eapply close_more; [exact C2|lia|ring].
  - eapply close_more; [apply (close_add R u rho SM Hu Hup Hdown); [exact C3|apply dynamic_closed; exact GE]|lia|reflexivity].
  - eapply close_more; [apply (close_add R u rho SM Hu Hup Hdown); [exact C4|exact Cv]|lia|reflexivity].
Qed.

(* rearranging exact sums *)
Ltac open_same :=
  intros e E; unfold plus in *;
  repeat match goal with H : cbind _ _ = Exactly _ |- _ => apply cbind_value in H; destruct H as (? & ? & H) end;
  repeat match goal with H : Exactly _ = Exactly _ |- _ => injection H as <- end.
Ltac close_same :=
  repeat match goal with H : ?m = Exactly _ |- context [cbind ?m _] => rewrite H; cbn [cbind] end;
  eexists; split; [reflexivity|]; unfold ieq; cbn [ie_add ie_zero ie_cdyn ie_cstat ie_ddyn ie_dstat]; repeat split; ring.
Lemma same_unit a : same a (plus (Exactly ie_zero) a).
Proof using. intros e E. unfold plus. rewrite E. cbn [cbind]. eexists. split; [reflexivity|]. unfold ieq. cbn [ie_add ie_zero ie_cdyn ie_cstat ie_ddyn ie_dstat]. repeat split; ring. Qed.
Lemma same_pair a b : same (plus a b) (plus (plus (Exactly ie_zero) a) b).
Proof using. open_same. close_same. Qed.
Lemma same_swap a b : same (plus b a) (plus (plus (Exactly ie_zero) a) b).
Proof using. open_same. close_same. Qed.
Lemma same_four a b c d : same (plus (plus a b) (plus c d)) (plus (plus (plus (plus (Exactly ie_zero) a) b) c) d).
Proof using. open_same. close_same. Qed.

Lemma good_group g : In g (groups (is_std p)) -> good (impedance p g).
Proof using SL. intros H. destruct SL as (_ & _ & _ & _ & G). apply G. exact H. Qed.
Lemma good_flag l : good l -> good (as_flag l). Proof using. intros H. exact H. Qed.
Lemma t_good : 0 <= is_tCK p. Proof using SL. apply SL. Qed.
Lemma tw_good : 0 <= is_tWCK p. Proof using SL. apply SL. Qed.

Section Parts.
Variable st : sim_stats.
Definition amble_half (l : line) (zero : Q) (rise n : N) (mk : Q -> Q -> ienergy) : calc ienergy :=
  if ln_term l then
    s <~ calc_static_energy DDR4 (qn (dqs_pairs p) * zero * qn n) (ln_R l) (is_tCK p) (is_vddq p) ;;
    Exactly (mk (calc_dynamic_energy (u64_mul (u64_mul (dqs_pairs p) rise) n) (ln_E l)) s)
  else Exactly ie_zero.
Definition amble_w : calc ienergy :=
  amble_half (im_wdqs (is_imp p)) (am_wz (is_ambles p)) (am_wz2o (is_ambles p)) (u64_sub (writecount st) (rank_sum (fun r => pp_ws (cs_prepos r)) st)) (fun d s => mkIE d s 0 0).
Definition amble_r : calc ienergy :=
  amble_half (im_rdqs (is_imp p)) (am_rz (is_ambles p)) (am_rz2o (is_ambles p)) (u64_sub (readcount st) (rank_sum (fun r => pp_rs (cs_prepos r)) st)) (fun d s => mkIE 0 0 d s).

Lemma amble_static zero n Req e : 0 <= zero -> 0 <= Req -> calc_static_energy DDR4 (qn (dqs_pairs p) * zero * qn n) Req (is_tCK p) (is_vddq p) = Exactly e ->
  exists e', rcalc_static_energy R DDR4 (r_mul R (r_mul R (r_of R (dqs_pairs p)) zero) (r_of R n)) Req (is_tCK p) (is_vddq p) = Exactly e' /\ close 10 e' e.
Proof using SM Hu Hup Hdown SL.
  intros Hz HR H.
  assert (C : close 4 (r_mul R (r_mul R (r_of R (dqs_pairs p)) zero) (r_of R n)) (qn (dqs_pairs p) * zero * qn n)).
  { apply (close_mul R u rho SM Hu Hup Hdown 2 _ _ 1); [apply (close_mul R u rho SM Hu Hup Hdown 1 _ _ 0); [apply of_closed|apply close_const; exact Hz]|apply of_closed]. }
  assert (T : close 2 (is_tCK p) (is_tCK p)) by (eapply close_more; [apply close_const, t_good|lia|reflexivity]).
  destruct (static_closed DDR4 4 _ _ _ _ Req (is_vddq p) e C T HR H) as (e' & E & C'). exists e'. split; [exact E|exact C'].
Qed.
Lemma amble_w_follows n x y : (10 <= n)%nat -> good (im_wdqs (is_imp p)) -> follows n x y -> follows (n + 1) (ramble_write R p st x) (plus y amble_w).
Proof using SM Hu Hup Hdown SL.
  intros Hn [GR GE] F e E. unfold plus in E. apply cbind_value in E. destruct E as (a & Ea & E). apply cbind_value in E. destruct E as (b & Eb & E). injection E as <-.
  destruct (F a Ea) as (a' & Ea' & (C1 & C2 & C3 & C4)). unfold amble_w, amble_half in Eb. unfold ramble_write.
  destruct (ln_term (im_wdqs (is_imp p))).
  - apply cbind_value in Eb. destruct Eb as (v & Ev & Eb). injection Eb as <-.
    destruct (amble_static _ _ _ _ (proj1 (proj2 (proj2 (proj2 SL)))) GR Ev) as (v' & Ev' & Cv).
    eexists. split; [rewrite Ea'; cbn [cbind]; rewrite Ev'; reflexivity|].
    unfold iclose. cbn [ie_cdyn ie_cstat ie_ddyn ie_dstat ie_add].
    split; [|split; [|split]].
    + eapply close_more; [apply (close_add R u rho SM Hu Hup Hdown); [exact C1|apply dynamic_closed; exact GE]|lia|reflexivity].
    + eapply close_more; [apply (close_add R u rho SM Hu Hup Hdown); [exact C2|exact Cv]|lia|reflexivity].
    + eapply close_more; [exact C3|lia|ring].
    + eapply close_more; [exact C4|lia|ring].
  - injection Eb as <-. exists a'. split; [exact Ea'|]. eapply iclose_more; [split; [exact C1|split; [exact C2|split; [exact C3|exact C4]]]|lia|].
    unfold ieq. cbn [ie_add ie_zero ie_cdyn ie_cstat ie_ddyn ie_dstat]. repeat split; ring.
Qed.
Lemma amble_r_follows n x y : (10 <= n)%nat -> good (im_rdqs (is_imp p)) -> follows n x y -> follows (n + 1) (ramble_read R p st x) (plus y amble_r).
Proof using SM Hu Hup Hdown SL.
  intros Hn [GR GE] F e E. unfold plus in E. apply cbind_value in E. destruct E as (a & Ea & E). apply cbind_value in E. destruct E as (b & Eb & E). injection E as <-.
  destruct (F a Ea) as (a' & Ea' & (C1 & C2 & C3 & C4)). unfold amble_r, amble_half in Eb. unfold ramble_read.
  destruct (ln_term (im_rdqs (is_imp p))).
  - apply cbind_value in Eb. destruct Eb as (v & Ev & Eb). injection Eb as <-.
    destruct (amble_static _ _ _ _ (proj1 (proj2 (proj2 SL))) GR Ev) as (v' & Ev' & Cv).
    eexists. split; [rewrite Ea'; cbn [cbind]; rewrite Ev'; reflexivity|].
    unfold iclose. cbn [ie_cdyn ie_cstat ie_ddyn ie_dstat ie_add].
    split; [|split; [|split]].
    + eapply close_more; [exact C1|lia|ring].
    + eapply close_more; [exact C2|lia|ring].
    + eapply close_more; [apply (close_add R u rho SM Hu Hup Hdown); [exact C3|apply dynamic_closed; exact GE]|lia|reflexivity].
    + eapply close_more; [apply (close_add R u rho SM Hu Hup Hdown); [exact C4|exact Cv]|lia|reflexivity].
  - injection Eb as <-. exists a'. split; [exact Ea'|]. eapply iclose_more; [split; [exact C1|split; [exact C2|split; [exact C3|exact C4]]]|lia|].
    unfold ieq. cbn [ie_add ie_zero ie_cdyn ie_cstat ie_ddyn ie_dstat]. repeat split; ring.
Qed.

(* every part, with at most 14 roundings in each of its four numbers *)
Ltac grp E g := apply (good_group g); rewrite E; cbn; tauto.
Lemma clock_follows : follows 14 (rcalcClockEnergy R p st) (calcClockEnergy p st).
Proof using SM Hu Hup Hdown SL.
  unfold rcalcClockEnergy, calcClockEnergy.
  destruct (is_std p) eqn:E.
  1,2,3: eapply follows_more; [eapply follows_same; [|apply same_unit]; apply (add_controller_follows 10); [lia|grp E CK|exact t_good|apply fresh_follows]|lia].
  all: eapply follows_more; [eapply follows_same; [|apply same_pair]; apply (add_controller_follows 11); [lia|grp E WCK|exact tw_good|]; apply (add_controller_follows 10); [lia|grp E CK|exact t_good|apply fresh_follows]|lia].
Qed.
Lemma dqs_follows : follows 14 (rcalcDQSEnergy R p st) (calcDQSEnergy p st).
Proof using SM Hu Hup Hdown SL.
  unfold rcalcDQSEnergy, calcDQSEnergy.
  destruct (is_std p) eqn:E.
  - change (ambleEnergy p st) with (plus amble_w amble_r).
    eapply follows_more; [eapply follows_same; [|apply same_four]; apply (add_dram_follows 13); [lia|grp E RDQS|exact t_good|]; apply (add_controller_follows 12); [lia|grp E WDQS|exact t_good|];
      apply (amble_r_follows 11); [lia|grp E RDQS|]; apply (amble_w_follows 10); [lia|grp E WDQS|apply fresh_follows]|lia].
  - eapply follows_more; [eapply follows_same; [|apply same_pair]; apply (add_controller_follows 11); [lia|grp E WDQS|exact t_good|]; apply (add_dram_follows 10); [lia|grp E RDQS|exact t_good|apply fresh_follows]|lia].
  - eapply follows_more; [eapply follows_same; [|apply same_pair]; apply (add_dram_follows 11); [lia|grp E RDQS|exact t_good|]; apply (add_controller_follows 10); [lia|grp E WDQS|exact t_good|apply fresh_follows]|lia].
  - eapply follows_more; [eapply follows_same; [|apply same_unit]; apply (add_dram_follows 10); [lia|grp E RDQS|exact t_good|apply fresh_follows]|lia].
  - eapply follows_more; [eapply follows_same; [|apply same_unit]; apply (add_dram_follows 10); [lia|grp E RDQS|exact t_good|apply fresh_follows]|lia].
Qed.
Lemma toggling_follows : follows 14 (rcalcDQEnergyTogglingRate R p st) (calcDQEnergyTogglingRate p st).
Proof using SM Hu Hup Hdown SL.
  unfold rcalcDQEnergyTogglingRate, calcDQEnergyTogglingRate.
  destruct (is_std p) eqn:E.
  1,3,4,5: eapply follows_more; [eapply follows_same; [|apply same_pair]; apply (add_dram_follows 11); [lia|grp E RDQ|exact t_good|]; apply (add_controller_follows 10); [lia|grp E WDQ|exact t_good|apply fresh_follows]|lia].
  eapply follows_more; [eapply follows_same; [|apply same_pair]; apply (add_controller_follows 11); [lia|apply good_flag; grp E WDQ|exact t_good|]; apply (add_dram_follows 10); [lia|apply good_flag; grp E RDQ|exact t_good|apply fresh_follows]|lia].
Qed.
Lemma dq_follows : follows 14 (rcalcDQEnergy R p st) (calcDQEnergy p st).
Proof using SM Hu Hup Hdown SL.
  unfold rcalcDQEnergy, calcDQEnergy.
  eapply follows_more; [eapply follows_same; [|apply same_pair]; apply (add_controller_follows 11); [lia| |exact t_good|]; [|apply (add_dram_follows 10); [lia| |exact t_good|apply fresh_follows]]|lia].
  - apply (good_group WDQ). destruct (is_std p); cbn; tauto.
  - apply (good_group RDQ). destruct (is_std p); cbn; tauto.
Qed.
Lemma ca_follows : follows 14 (rcalcCAEnergy R p st) (calcCAEnergy p st).
Proof using SM Hu Hup Hdown SL.
  unfold rcalcCAEnergy, calcCAEnergy.
  eapply follows_more; [eapply follows_same; [|apply same_unit]; apply (add_controller_follows 10); [lia| |exact t_good|apply fresh_follows]|lia].
  apply (good_group CA). destruct (is_std p); cbn; tauto.
Qed.
Lemma dbi_follows : is_std p = DDR4 \/ is_std p = LPDDR4 \/ is_std p = LPDDR5 -> follows 14 (rcalcDBIEnergy R p st) (calcDBIEnergy p st).
Proof using SM Hu Hup Hdown SL.
  intros S. unfold rcalcDBIEnergy, calcDBIEnergy.
  eapply follows_more; [eapply follows_same; [|apply same_pair]; apply (add_controller_follows 11); [lia| |exact t_good|]; [|apply (add_dram_follows 10); [lia| |exact t_good|apply fresh_follows]]|lia].
  - apply (good_group WDBI). destruct S as [E|[E|E]]; rewrite E; cbn; tauto.
  - apply (good_group RDBI). destruct S as [E|[E|E]]; rewrite E; cbn; tauto.
Qed.

Theorem interface_follows : follows 21 (rcalculateEnergy R p st) (calculateEnergy p st).
Proof using SM Hu Hup Hdown SL.
  pose proof clock_follows as H1. pose proof dqs_follows as H2. pose proof toggling_follows as H3. pose proof dq_follows as H4. pose proof ca_follows as H5. pose proof dbi_follows as H6.
  unfold rcalculateEnergy, calculateEnergy. destruct (is_std p) eqn:E; cbn [fold_left].
  1,3,4: assert (H7 : follows 14 (rcalcDBIEnergy R p st) (calcDBIEnergy p st)) by (apply H6; tauto).
  1,2: eapply follows_more; [repeat (eapply plus_follows; [|first [exact H1|exact H2|exact H3|exact H4|exact H5|exact H7]]); apply (fresh_follows 0)|cbn; lia].
  all: assert (H8 : follows 15 (rplus R (rcalcDQEnergy R p st) (rcalcDQEnergyTogglingRate R p st)) (plus (calcDQEnergy p st) (calcDQEnergyTogglingRate p st))) by (apply (plus_follows 14 14); assumption).
  all: eapply follows_more; [repeat (eapply plus_follows; [|first [exact H1|exact H2|exact H5|exact H8|exact H7]]); apply (fresh_follows 0)|cbn; lia].
Qed.
Lemma total_close n a b : iclose n a b -> close (n + 3) (rie_total R a) (ie_total b).
Proof using SM Hu Hup Hdown.
  intros (H1 & H2 & H3 & H4). unfold rie_total, ie_total.
  eapply close_more; [apply (close_add R u rho SM Hu Hup Hdown); [apply (close_add R u rho SM Hu Hup Hdown); [apply (close_add R u rho SM Hu Hup Hdown); [exact H1|exact H2]|exact H3]|exact H4]|lia|reflexivity].
Qed.
End Parts.
End Iface.
