From Coq Require Import ZArith QArith NArith List Bool Lia ZifyBool ZifyNat ZifyN Arith Permutation.
From Verif Require Import Base Command CoreModel ListFacts HistorySpec CoreHistory DeviceSpec RefineBase RefineMain DeviceFacts DeviceSleep DeviceTop ComposeMain RenameSpec.
From Verif Require Import Bits StatsModel EnergyModel EnergySpec EnergyProofs DramModel ChargeSpec ChargeBase ChargeProofs ChargeTop.
Import ListNotations.
Local Open Scope N_scope.

Lemma renumbers_perm n f : renumbers n f -> Permutation (map f (seq 0 n)) (seq 0 n).
Proof.
  intros [A B]. apply NoDup_Permutation_bis.
  - assert (forall l, NoDup l -> (forall x, In x l -> (x < n)%nat) -> NoDup (map f l)) as K.
    { induction 1 as [|x l N1 N2 IH]; intros L; cbn; constructor; [|apply IH; intros; apply L; now right].
      intros H. apply in_map_iff in H as (y & E & Hy). apply B in E; [subst; auto| |]; apply L; cbn; auto. }
    apply K; [apply seq_NoDup|]. intros x Hx. apply in_seq in Hx. lia.
  - rewrite map_length. lia.
  - intros x Hx. apply in_map_iff in Hx as (y & <- & Hy). apply in_seq in Hy. apply in_seq. specialize (A y). lia.
Qed.
Lemma renumbers_onto n f j : renumbers n f -> (j < n)%nat -> exists i, (i < n)%nat /\ f i = j.
Proof.
  intros R H. pose proof (renumbers_perm n f R) as P. assert (I : In j (map f (seq 0 n))) by (eapply Permutation_in; [symmetry; exact P|apply in_seq; lia]).
  apply in_map_iff in I as (i & E & Hi). apply in_seq in Hi. exists i. split; [lia|exact E].
Qed.

(* ---- banks in another order ---- *)
Section Banks.
Variable p : memspec.
Variable pi : nat -> nat.
Let B := ms_banks p.
Hypothesis R : renumbers B pi.

Definition moved {A} (l l' : list A) : Prop := length l = B /\ length l' = B /\ forall i, (i < B)%nat -> nth_error l' (pi i) = nth_error l i.
Lemma moved_permutation {A} (l l' : list A) : moved l l' -> Permutation l l'.
Proof using R.
  intros (L1 & L2 & H). destruct l as [|x0 l0] eqn:E; [destruct l'; [constructor|cbn in L1, L2; lia]|].
  assert (S : forall m : list A, length m = B -> m = map (fun i => nth i m x0) (seq 0 B)).
  { intros m Hm. apply (nth_ext _ _ x0 x0); [rewrite map_length, seq_length; exact Hm|]. intros i Hi. rewrite (nth_indep (map (fun i => nth i m x0) (seq 0 B)) x0 ((fun i => nth i m x0) 0%nat)) by (rewrite map_length, seq_length; lia).
    rewrite (map_nth (fun i => nth i m x0)), seq_nth by lia. reflexivity. }
  rewrite <- E in L1, H |- *. rewrite (S l L1), (S l' L2). transitivity (map (fun i => nth i l' x0) (map pi (seq 0 B))).
  - rewrite map_map. apply Permutation_refl'. apply map_ext_in. intros i Hi. apply in_seq in Hi.
    specialize (H i ltac:(lia)). rewrite (nth_error_nth' l x0) in H by lia. symmetry. now apply nth_error_nth.
  - apply Permutation_map, renumbers_perm, R.
Qed.
Lemma moved_map {A C} (f : A -> C) l l' : moved l l' -> moved (map f l) (map f l').
Proof. intros (L1 & L2 & H). split; [now rewrite map_length|]. split; [now rewrite map_length|]. intros i Hi. rewrite !nth_error_map, H; auto. Qed.
Lemma nth_mapi {A C} (f : nat -> A -> C) l : forall i k, nth_error (mapi i f l) k = option_map (f (i + k)%nat) (nth_error l k).
Proof. induction l as [|x l IH]; intros i [|k]; cbn; auto; [now rewrite Nat.add_0_r|]. rewrite IH. now rewrite Nat.add_succ_comm. Qed.
Lemma mapi_len {A C} (f : nat -> A -> C) l : forall i, length (mapi i f l) = length l. Proof. induction l; intros; cbn; auto. Qed.
Lemma moved_mapi {A C} (f g : nat -> A -> C) l l' : moved l l' -> (forall i x, (i < B)%nat -> g (pi i) x = f i x) -> moved (mapi 0 f l) (mapi 0 g l').
Proof.
  intros (L1 & L2 & H) E. split; [now rewrite mapi_len|]. split; [now rewrite mapi_len|]. intros i Hi. rewrite !nth_mapi, H by exact Hi. cbn [Nat.add].
  destruct (nth_error l i); cbn; [|reflexivity]. f_equal. now apply E.
Qed.
Lemma forallb_perm {A} (f : A -> bool) l l' : Permutation l l' -> forallb f l = forallb f l'.
Proof. induction 1; cbn; try congruence. now rewrite !andb_assoc, (andb_comm (f y)). Qed.
Lemma existsb_perm {A} (f : A -> bool) l l' : Permutation l l' -> existsb f l = existsb f l'.
Proof. induction 1; cbn; try congruence. now rewrite !orb_assoc, (orb_comm (f y)). Qed.
Lemma maximum_perm l l' : Permutation l l' -> fold_right N.max 0 l = fold_right N.max 0 l'.
Proof. induction 1; cbn; try congruence. lia. Qed.
Lemma filter_perm {A} (f : A -> bool) l l' : Permutation l l' -> length (filter f l) = length (filter f l').
Proof. induction 1; cbn; try congruence; [destruct (f x); cbn; congruence|]. destruct (f x), (f y); reflexivity. Qed.

Record msim (d d' : device) : Prop := { ms_b : moved (dv_banks d) (dv_banks d'); ms_m : dv_mode d' = dv_mode d; ms_p : dv_pend d' = dv_pend d }.
Lemma msim_new : msim (device_new p) (device_new p).
Proof using R.
  split; try reflexivity. cbn. split; [apply repeat_length|]. split; [apply repeat_length|]. intros i Hi. pose proof (proj1 R i Hi).
  rewrite !(nth_error_nth' _ (mkSb Closed None None None)) by (rewrite repeat_length; fold B; lia). now rewrite !nth_repeat.
Qed.
Lemma msim_settle n d d' : msim d d' -> msim (settle n d) (settle n d').
Proof.
  intros [M1 M2 M3]. unfold settle. rewrite M2, M3. destruct (dv_pend d) as [[x m]|]; [destruct (x <=? n)|]; (split; [|reflexivity|reflexivity]); cbn [dv_banks].
  - destruct (dv_mode d); repeat apply moved_map; exact M1.
  - now apply moved_map.
  - now apply moved_map.
Qed.
Lemma msim_ready d d' : msim d d' -> ready p (dv_banks d') = ready p (dv_banks d).
Proof using R. intros M. unfold ready. apply maximum_perm, Permutation_map. symmetry. apply moved_permutation, M. Qed.
Lemma msim_with_banks d d' l l' : msim d d' -> moved l l' -> msim (with_banks l d) (with_banks l' d').
Proof. intros [M1 M2 M3] H. split; cbn; auto. Qed.
Lemma msim_pend d d' x m : msim d d' -> msim (with_pend x m d) (with_pend x m d'). Proof. intros [M1 M2 M3]. split; cbn; auto. Qed.
Lemma msim_mode d d' m : msim d d' -> msim (with_mode m d) (with_mode m d'). Proof. intros [M1 M2 M3]. split; cbn; auto. Qed.

Variable sg : nat -> nat.
Variable c : Command.
Let c' := rename sg pi c.
Hypothesis C : compatible p sg pi c.
Lemma addressed_moved P l l' : moved l l' -> addressed p c' P l' = addressed p c P l.
Proof using R C.
  intros M. unfold addressed. symmetry. apply forallb_perm, moved_permutation. apply moved_mapi; [exact M|]. intros i x Hi. unfold c'. now rewrite C.
Qed.
Lemma touch_moved g l l' : moved l l' -> moved (touch p c g l) (touch p c' g l').
Proof using C. intros M. apply moved_mapi; [exact M|]. intros i x Hi. unfold c'. now rewrite C. Qed.
Lemma in_standard_same : in_standard p (cmd_type c') = in_standard p (cmd_type c). Proof. reflexivity. Qed.
Lemma renamed_addr : addr c' = pi (addr c). Proof. unfold c', addr, rename. cbn. now rewrite Nat2N.id. Qed.
Lemma renamed_dbank : N.to_nat (cmd_dbank c') = pi (N.to_nat (cmd_dbank c)). Proof. unfold c', rename. cbn. now rewrite Nat2N.id. Qed.
Lemma one_lt a : (a < B)%nat -> (pi a <? ms_banks p)%nat = (a <? ms_banks p)%nat.
Proof using R. intros H. pose proof (proj1 R a H). unfold B in *. lia. Qed.
Lemma neq_pi a b : (a < B)%nat -> (b < B)%nat -> (pi a =? pi b)%nat = (a =? b)%nat.
Proof using R. intros A Bb. destruct (Nat.eqb_spec a b) as [->|N]; [apply Nat.eqb_refl|]. apply Nat.eqb_neq. intros E. apply N, (proj2 R); auto. Qed.
(* The second bank of a refresh of two banks. *)
Lemma second_bank : cmd_type c = REFP2B -> well_addressed p c = true -> Nat.modulo (addr c' + ms_p2bOffset p) 16 = pi (Nat.modulo (addr c + ms_p2bOffset p) 16).
Proof using R C.
  intros E H. unfold well_addressed in H. rewrite E in H. cbn zeta in H. set (b2 := ((addr c + ms_p2bOffset p) mod 16)%nat) in *.
  assert (L1 : (addr c < B)%nat) by (unfold B; lia). assert (L2 : (b2 < B)%nat) by (unfold B; lia). assert (N : addr c <> b2) by lia.
  pose proof (C b2 L2) as F. unfold footprint in F. fold c' in F. change (cmd_type c') with (cmd_type c) in F. rewrite E in F. fold b2 in F.
  rewrite renamed_addr, neq_pi in F by auto. rewrite renamed_addr. rewrite Nat.eqb_refl, orb_true_r in F. destruct (Nat.eqb_spec (addr c) b2); [lia|]. cbn [orb] in F. lia.
Qed.
Lemma well_renamed : well_addressed p c = true -> well_addressed p c' = true.
Proof using R C.
  intros H. pose proof H as H0. unfold well_addressed in *. change (cmd_type c') with (cmd_type c). destruct (cmd_type c) eqn:E; try reflexivity; cbn zeta in *;
    rewrite ?renamed_addr, ?renamed_dbank; try (rewrite one_lt; [exact H|unfold B; lia]).
  - pose proof second_bank as S2. rewrite renamed_addr in S2. rewrite (S2 E) by (unfold well_addressed; rewrite E; exact H0). rewrite !one_lt, neq_pi by (unfold B; lia). exact H.
  - rewrite !one_lt, neq_pi by (unfold B; lia). exact H.
Qed.
Lemma command_moved d d' e : msim d d' -> command p c d = Some e -> exists e', command p c' d' = Some e' /\ msim e e'.
Proof using R C.
  intros M H. pose proof M as [M1 M2 M3]. unfold command in *. rewrite in_standard_same. destruct (in_standard p (cmd_type c)); [|discriminate]. cbn [andb] in *.
  destruct (well_addressed p c) eqn:W; [|discriminate]. rewrite (well_renamed W). rewrite M2, M3, (msim_ready _ _ M). change (cmd_type c') with (cmd_type c). change (cmd_ts c') with (cmd_ts c).
  assert (U : forall e, up_command p c d = Some e -> exists e', up_command p c' d' = Some e' /\ msim e e').
  { clear H e. intros e H. unfold up_command in *. change (cmd_type c') with (cmd_type c). change (cmd_ts c') with (cmd_ts c). rewrite (msim_ready _ _ M).
    assert (RF : forall tm e, guard (addressed p c is_closed (dv_banks d)) (with_banks (touch p c (refresh_bank (cmd_ts c) (cmd_ts c + tm)) (dv_banks d)) d) = Some e ->
      exists e', guard (addressed p c' is_closed (dv_banks d')) (with_banks (touch p c' (refresh_bank (cmd_ts c) (cmd_ts c + tm)) (dv_banks d')) d') = Some e' /\ msim e e').
    { intros tm x Hx. rewrite (addressed_moved _ _ _ M1). unfold guard in *. destruct (addressed p c is_closed (dv_banks d)); [|discriminate]. injection Hx as <-. eexists. split; [reflexivity|].
      apply msim_with_banks; [exact M|]. now apply touch_moved. }
    destruct (cmd_type c); try discriminate; cbn zeta in H |- *; try (now apply RF);
      try (rewrite (addressed_moved _ _ _ M1); unfold guard in *; destruct (addressed p c _ (dv_banks d)); [|discriminate]; injection H as <-; eexists; split; [reflexivity|];
           first [exact M|apply msim_with_banks; [exact M|]; now apply touch_moved]).
    - (* PDEA *) rewrite <- (existsb_perm _ _ _ (moved_permutation _ _ M1)), <- (forallb_perm _ _ _ (moved_permutation _ _ M1)). unfold guard in *. destruct (_ && _); [|discriminate].
      injection H as <-. eexists. split; [reflexivity|]. now apply msim_pend.
    - rewrite <- (forallb_perm _ _ _ (moved_permutation _ _ M1)). unfold guard in *. destruct (forallb _ _); [|discriminate]. injection H as <-. eexists. split; [reflexivity|]. now apply msim_pend.
    - destruct (guard _ _) as [x|] eqn:G in H; [|discriminate]. cbn [option_map] in H. injection H as <-. destruct (RF _ _ G) as (x' & G' & S). rewrite G'. cbn [option_map]. eexists. split; [reflexivity|]. now apply msim_pend. }
  destruct (cmd_type c); destruct (dv_pend d); try discriminate; destruct (dv_mode d); try discriminate; try (now apply U);
    injection H as <-; eexists; (split; [reflexivity|]); first [exact M|apply msim_pend; exact M|apply msim_mode; exact M].
Qed.
End Banks.
