(* The bounds on rounding errors, with a number of roundings times the relative
   error of one operation. *)
From Coq Require Import QArith Qabs Qfield Lqa NArith List Bool Arith Lia.
From Verif Require Import Base Command CoreModel Bits StatsModel EnergyModel EnergySpec EnergyProofs IfEnergyModel IfEnergySpec RoundModel RoundSpec RoundBasics RoundProofs RoundIf RoundDouble.
Import ListNotations.
Local Open Scope Q_scope.

Lemma calc_usable p st e : calc_energy p st = Exactly e -> EnergyProofs.usable p.
Proof.
  unfold calc_energy, EnergyProofs.usable. destruct (N.eqb_spec (es_dr p) 0); [discriminate|]. destruct (finite_domain p); [tauto|discriminate].
Qed.
Section Top.
Variable R : arithmetic.
Variable u : Q.
Hypothesis SM : standard_model R u.
Hypothesis Hu : 0 <= u.

Lemma qnat_pos n : 0 <= qnat n.
Proof using. unfold qnat. change 0 with (inject_Z 0). rewrite <- Zle_Qle. lia. Qed.
Lemma qnat_le a b : (a <= b)%nat -> qnat a <= qnat b.
Proof using. intros H. unfold qnat. rewrite <- Zle_Qle. lia. Qed.
Lemma small_1 n : (0 < n)%nat -> 2 * qnat n * u <= 1 -> u < 1.
Proof using Hu.
  intros Hn H. pose proof (qnat_le 1 n Hn) as Q. change (qnat 1) with 1 in Q.
  assert (1 * u <= qnat n * u) by (apply Qmult_le_compat_r; assumption). lra.
Qed.
Lemma small_le a b : (a <= b)%nat -> 2 * qnat b * u <= 1 -> 2 * qnat a * u <= 1.
Proof using Hu.
  intros Hn H. pose proof (qnat_le a b Hn) as Q.
  assert (qnat a * u <= qnat b * u) by (apply Qmult_le_compat_r; assumption). lra.
Qed.
Lemma near_bound n m x y : (0 < n)%nat -> 2 * qnat n * u <= 1 -> near (rho_of u) n m x y -> Qabs (x - y) <= 2 * qnat n * u * m.
Proof using Hu.
  intros Hn H [H1 H2]. pose proof (Qabs_nonneg y). eapply Qle_trans; [exact H1|].
  apply Qmult_le_compat_r; [|lra]. apply power_linear; try assumption. now apply (small_1 n).
Qed.
Lemma close_bound n x y : (0 < n)%nat -> 2 * qnat n * u <= 1 -> close (rho_of u) n x y -> Qabs (x - y) <= 2 * qnat n * u * y.
Proof using Hu.
  intros Hn H C. pose proof (small_1 n Hn H) as H1. destruct (rho_ok u Hu H1) as [Up Dn].
  apply near_bound; try assumption. exact (close_near u (rho_of u) Hu Up n x y C).
Qed.

Theorem core_rounding p st e : nonnegative p -> 2 * qnat (roundings p) * u <= 1 -> calc_energy p st = Exactly e ->
  exists e', rcalc_energy R p st = Exactly e' /\ Qabs (ren_total R e' - en_total e) <= 2 * qnat (roundings p) * u * size_of_energy p st.
Proof using SM Hu.
  intros NG S E. assert (Hn : (0 < roundings p)%nat) by (unfold roundings; lia). pose proof (small_1 _ Hn S) as H1. destruct (rho_ok u Hu H1) as [Up Dn].
  destruct (core_near R u (rho_of u) SM Hu Up Dn p NG (calc_usable _ _ _ E) st e E) as (e' & E' & N). exists e'. split; [exact E'|].
  apply near_bound; assumption.
Qed.
Theorem interface_rounding p st e : sane_lines p -> 48 * u <= 1 -> calculateEnergy p st = Exactly e ->
  exists e', rcalculateEnergy R p st = Exactly e' /\
    Qabs (ie_cdyn e' - ie_cdyn e) <= 42 * u * ie_cdyn e /\ Qabs (ie_cstat e' - ie_cstat e) <= 42 * u * ie_cstat e /\
    Qabs (ie_ddyn e' - ie_ddyn e) <= 42 * u * ie_ddyn e /\ Qabs (ie_dstat e' - ie_dstat e) <= 42 * u * ie_dstat e /\
    Qabs (rie_total R e' - ie_total e) <= 48 * u * ie_total e.
Proof using SM Hu.
  intros SL S E. assert (H1 : u < 1) by lra. destruct (rho_ok u Hu H1) as [Up Dn].
  destruct (interface_follows R u (rho_of u) SM Hu Up Dn p SL st e E) as (e' & E' & C). exists e'. split; [exact E'|].
  pose proof (total_close R u (rho_of u) SM Hu Up Dn 21 e' e C) as T. destruct C as (C1 & C2 & C3 & C4).
  assert (S' : 2 * qnat 21 * u <= 1) by (change (2 * qnat 21) with 42; lra).
  change 42 with (2 * qnat 21). change 48 with (2 * qnat (21 + 3)).
  repeat (split; [apply close_bound; [lia|exact S'|assumption]|]). apply close_bound; [lia|exact S|exact T].
Qed.
Theorem total_rounding p q st c e i t : nonnegative p -> sane_lines q -> 2 * qnat (roundings p + 1) * u <= 1 ->
  calc_energy p st = Exactly c -> calculateEnergy q e = Exactly i -> getTotalEnergy (calc_energy p st) (calculateEnergy q e) = Exactly t ->
  exists t', rgetTotalEnergy R (rcalc_energy R p st) (rcalculateEnergy R q e) = Exactly t' /\
    Qabs (t' - t) <= 2 * qnat (roundings p + 1) * u * (size_of_energy p st + ie_total i).
Proof using SM Hu.
  intros NG SL S E I T. assert (Hn : (0 < roundings p + 1)%nat) by (unfold roundings; lia). pose proof (small_1 _ Hn S) as H1. destruct (rho_ok u Hu H1) as [Up Dn].
  destruct (core_near R u (rho_of u) SM Hu Up Dn p NG (calc_usable _ _ _ E) st c E) as (c' & E' & N).
  destruct (interface_follows R u (rho_of u) SM Hu Up Dn q SL e i I) as (i' & I' & C).
  pose proof (total_close R u (rho_of u) SM Hu Up Dn 21 i' i C) as K.
  unfold getTotalEnergy in T. rewrite E, I in T. cbn [cbind] in T. injection T as <-.
  unfold rgetTotalEnergy. rewrite E', I'. cbn [cbind]. eexists. split; [reflexivity|].
  apply near_bound; try assumption.
  pose proof (near_add R u (rho_of u) SM Hu Up _ _ _ _ _ _ _ _ N (close_near u (rho_of u) Hu Up _ _ _ K)) as Z.
  replace (max (roundings p) (21 + 3)) with (roundings p) in Z by (unfold roundings; lia). exact Z.
Qed.
End Top.
(* Calculating with rational numbers instead of doubles is the case u = 0. *)
Corollary core_exactly p st e : nonnegative p -> calc_energy p st = Exactly e -> exists e', rcalc_energy exact_arithmetic p st = Exactly e' /\ ren_total exact_arithmetic e' == en_total e.
Proof.
  intros NG E. destruct (core_rounding exact_arithmetic 0 exact_standard ltac:(lra) p st e NG ltac:(lra) E) as (e' & E' & B). exists e'. split; [exact E'|].
  apply Qabs_bounds in B. lra.
Qed.
Corollary interface_exactly p st e : sane_lines p -> calculateEnergy p st = Exactly e -> exists e', rcalculateEnergy exact_arithmetic p st = Exactly e' /\
  ie_cdyn e' == ie_cdyn e /\ ie_cstat e' == ie_cstat e /\ ie_ddyn e' == ie_ddyn e /\ ie_dstat e' == ie_dstat e.
Proof.
  intros SL E. destruct (interface_rounding exact_arithmetic 0 exact_standard ltac:(lra) p st e SL ltac:(lra) E) as (e' & E' & B1 & B2 & B3 & B4 & _). exists e'. split; [exact E'|].
  apply Qabs_bounds in B1. apply Qabs_bounds in B2. apply Qabs_bounds in B3. apply Qabs_bounds in B4. split; [lra|split; [lra|split; lra]].
Qed.
(* In doubles: u = 2^-53. *)
Lemma doubles_small n : (N.of_nat n <= 2 ^ 52)%N -> 2 * qnat n * u53 <= 1.
Proof.
  intros H. assert (Q : qnat n <= inject_Z (2 ^ 52)) by (unfold qnat; rewrite <- Zle_Qle; lia).
  setoid_replace 1 with (2 * inject_Z (2 ^ 52) * u53) by reflexivity.
  apply Qmult_le_compat_r; [lra|discriminate].
Qed.
Corollary core_in_doubles p st e : nonnegative p -> (N.of_nat (roundings p) <= 2 ^ 52)%N -> calc_energy p st = Exactly e ->
  exists e', rcalc_energy double_arithmetic p st = Exactly e' /\
    Qabs (ren_total double_arithmetic e' - en_total e) <= qnat (roundings p) / inject_Z (2 ^ 52) * size_of_energy p st.
Proof.
  intros NG S E. destruct (core_rounding double_arithmetic u53 double_standard ltac:(discriminate) p st e NG (doubles_small _ S) E) as (e' & E' & B).
  exists e'. split; [exact E'|]. eapply Qle_trans; [exact B|]. apply Qle_lteq. right.
  assert (K : 2 * u53 == / inject_Z (2 ^ 52)) by reflexivity. unfold Qdiv. rewrite <- K. ring.
Qed.
Corollary total_in_doubles p q st c e i t : nonnegative p -> sane_lines q -> (N.of_nat (roundings p) < 2 ^ 52)%N ->
  calc_energy p st = Exactly c -> calculateEnergy q e = Exactly i -> getTotalEnergy (calc_energy p st) (calculateEnergy q e) = Exactly t ->
  exists t', rgetTotalEnergy double_arithmetic (rcalc_energy double_arithmetic p st) (rcalculateEnergy double_arithmetic q e) = Exactly t' /\
    Qabs (t' - t) <= (qnat (roundings p) + 1) / inject_Z (2 ^ 52) * (size_of_energy p st + ie_total i).
Proof.
  intros NG SL S E I T. destruct (total_rounding double_arithmetic u53 double_standard ltac:(discriminate) p q st c e i t NG SL (doubles_small (roundings p + 1) ltac:(lia)) E I T) as (t' & E' & B).
  exists t'. split; [exact E'|]. eapply Qle_trans; [exact B|]. apply Qle_lteq. right.
  assert (K : 2 * u53 == / inject_Z (2 ^ 52)) by reflexivity. unfold Qdiv. rewrite <- K.
  replace (roundings p + 1)%nat with (Datatypes.S (roundings p)) by lia. rewrite qnat_S. ring.
Qed.

(* ---- concrete cases ---- *)
From Verif Require Import EnergyMore EnergyExamples IfEnergyProofs IfEnergyMore.
Lemma ex_nonnegative : nonnegative EnergyExamples.ex_ddr4 /\ nonnegative EnergyExamples.ex_lpddr5.
Proof.
  split; (constructor; [decide_q|decide_q|split; decide_q|]); [intros w [<-|[<-|[]]]|intros w [<-|[]]]; repeat (split; [decide_q|]); decide_q.
Qed.
Lemma ex_core_value s : exists e, calc_energy EnergyExamples.ex_ddr4 (ex_stats s) = Exactly e.
Proof. destruct (calc_ok EnergyExamples.ex_ddr4 (ex_stats s) (well_formed_usable _ ex_ddr4_wf) (ex_covers s)) as (e & E & _). exists e. exact E. Qed.
Lemma ex_iface_value s : exists i, calculateEnergy (ex_ispec s true) (ex_istats 6) = Exactly i.
Proof. destruct (energy_closed _ _ (ex_usable s true) (ex_amble s true 6) (ex_toggling s 6)) as (i & E & _). exists i. exact E. Qed.
