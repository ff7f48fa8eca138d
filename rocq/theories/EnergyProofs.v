(* Closed form of calcEnergy and its consequences. *)
From Coq Require Import QArith NArith List Bool Arith Lia Lqa.
From Verif Require Import Base Command CoreModel Bits ListFacts StatsModel StatsSpec StatsProofs StorageProofs EnergyModel EnergySpec.
Import ListNotations.
Local Open Scope Q_scope.

(* ---------------- sums ---------------- *)
Lemma qsum_cons {A} (f : A -> Q) x l : qsum f (x :: l) = f x + qsum f l. Proof. reflexivity. Qed.
Lemma qsum_nil {A} (f : A -> Q) : qsum f [] = 0. Proof. reflexivity. Qed.
Lemma qsum_ext {A} (f g : A -> Q) l : (forall x, In x l -> f x == g x) -> qsum f l == qsum g l.
Proof.
  induction l as [|x l IH]; intros H; rewrite ?qsum_cons, ?qsum_nil; [reflexivity|].
  rewrite (H x (or_introl eq_refl)), IH; [reflexivity|]. intros y Hy. apply H. now right.
Qed.
Lemma qsum_plus {A} (f g : A -> Q) l : qsum (fun x => f x + g x) l == qsum f l + qsum g l.
Proof. induction l as [|x l IH]; rewrite ?qsum_cons, ?qsum_nil; [ring|]. rewrite IH. ring. Qed.
Lemma qsum_scale {A} (f : A -> Q) k l : qsum (fun x => k * f x) l == k * qsum f l.
Proof. induction l as [|x l IH]; rewrite ?qsum_cons, ?qsum_nil; [ring|]. rewrite IH. ring. Qed.
Lemma qsum_app {A} (f : A -> Q) l m : qsum f (l ++ m) == qsum f l + qsum f m.
Proof. induction l as [|x l IH]; cbn [app]; rewrite ?qsum_cons, ?qsum_nil; [ring|]. rewrite IH. ring. Qed.
Lemma qsum_le {A} (f g : A -> Q) l : (forall x, In x l -> f x <= g x) -> qsum f l <= qsum g l.
Proof.
  induction l as [|x l IH]; intros H; rewrite ?qsum_cons, ?qsum_nil; [apply Qle_refl|].
  apply Qplus_le_compat; [apply H; now left|]. apply IH. intros y Hy. apply H. now right.
Qed.
Lemma qsum_nonneg {A} (f : A -> Q) l : (forall x, In x l -> 0 <= f x) -> 0 <= qsum f l.
Proof.
  induction l as [|x l IH]; intros H; rewrite ?qsum_cons, ?qsum_nil; [apply Qle_refl|].
  rewrite <- (Qplus_0_l 0). apply Qplus_le_compat; [apply H; now left|]. apply IH. intros y Hy. apply H. now right.
Qed.
Lemma qsum_zero {A} (f : A -> Q) l : (forall x, In x l -> f x == 0) -> qsum f l == 0.
Proof.
  induction l as [|x l IH]; intros H; rewrite ?qsum_cons, ?qsum_nil; [reflexivity|].
  rewrite (H x (or_introl eq_refl)), IH; [reflexivity|]. intros y Hy. apply H. now right.
Qed.
Lemma qnat_S n : qnat (S n) == qnat n + 1.
Proof. unfold qnat. rewrite Nat2Z.inj_succ. unfold Z.succ. rewrite inject_Z_plus. reflexivity. Qed.
Lemma qsum_const {A} (k : Q) (l : list A) : qsum (fun _ => k) l == qnat (length l) * k.
Proof. induction l as [|x l IH]; cbn [length]; rewrite ?qsum_cons, ?qsum_nil; [change (qnat 0) with 0; ring|]. rewrite IH, qnat_S. ring. Qed.
Lemma qsum_map {A B} (f : B -> Q) (g : A -> B) l : qsum f (map g l) = qsum (fun x => f (g x)) l.
Proof. induction l as [|x l IH]; [reflexivity|]. cbn [map]. rewrite !qsum_cons. now rewrite IH. Qed.
Lemma qsum_shift (f : nat -> Q) a n : qsum f (seq a n) = qsum (fun i => f (a + i)%nat) (seq 0 n).
Proof.
  replace (seq a n) with (map (fun i => (a + i)%nat) (seq 0 n)).
  - apply qsum_map.
  - revert a. induction n as [|n IH]; intros a; [reflexivity|]. cbn. f_equal; [lia|].
    rewrite <- seq_shift, map_map. rewrite <- (IH (S a)). apply map_ext. intros. lia.
Qed.
Lemma qsum_swap {A B} (f : A -> B -> Q) l m : qsum (fun x => qsum (f x) m) l == qsum (fun y => qsum (fun x => f x y) l) m.
Proof.
  induction l as [|x l IH].
  - symmetry. apply qsum_zero. reflexivity.
  - rewrite qsum_cons, IH, <- qsum_plus. apply qsum_ext. intros y _. now rewrite qsum_cons.
Qed.
(* A sum over m blocks of n. *)
Lemma qsum_blocks (f : nat -> Q) m n : qsum f (seq 0 (m * n)) == qsum (fun i => qsum (fun j => f (i * n + j)%nat) (seq 0 n)) (seq 0 m).
Proof.
  induction m as [|m IH]; [reflexivity|].
  replace (S m * n)%nat with (m * n + n)%nat by lia.
  rewrite seq_app, qsum_app, IH, seq_S, qsum_app, (qsum_shift f (0 + m * n)). rewrite qsum_cons, qsum_nil, Qplus_0_r. reflexivity.
Qed.

(* ---------------- the loops ---------------- *)
Lemma nth_error_upd {A} (f : A -> A) l : forall i j, nth_error (upd i f l) j = if (j =? i)%nat then option_map f (nth_error l j) else nth_error l j.
Proof.
  induction l as [|x l IH]; intros i j.
  - assert (upd i f [] = []) as -> by now destruct i. destruct j; now destruct (_ =? i)%nat.
  - destruct i as [|i], j as [|j]; cbn; try reflexivity. apply IH.
Qed.

Definition the_bank (st : sim_stats) (i : nat) : cycle_stats := nth i (ss_bank st) cycle_stats0.
Definition the_rank (st : sim_stats) (i : nat) : cycle_stats := nth i (ss_rank st) cycle_stats0.

(* What domain w adds to slot j. *)
Definition contrib (p : espec) (w : power) (st : sim_stats) (j : nat) : energy_info :=
  bank_energy p w (the_bank st (j / (es_devices p * es_banks p) * es_banks p + j mod es_banks p)) (the_rank st (j / (es_devices p * es_banks p))).

Definition scalars_eq (a b : energy) : Prop :=
  en_shared a = en_shared b /\ en_pdna a = en_pdna b /\ en_pdnp a = en_pdnp b /\ en_sref a = en_sref b /\ en_dsm a = en_dsm b /\ en_refab a = en_refab b.
Definition adds (p : espec) (w : power) (st : sim_stats) (lo hi : nat) (a b : energy) : Prop :=
  length (en_bank b) = length (en_bank a) /\
  forall j, nth_error (en_bank b) j =
    if (lo <=? j)%nat && (j <? hi)%nat then option_map (fun x => ei_add x (contrib p w st j)) (nth_error (en_bank a) j) else nth_error (en_bank a) j.

Lemma in_block r d b D B : (d < D)%nat -> (b < B)%nat ->
  ((r * D * B + d * B + b) / (D * B) = r)%nat /\ ((r * D * B + d * B + b) mod B = b)%nat.
Proof.
  intros Hd Hb. split.
  - symmetry. apply (Nat.div_unique _ _ _ (d * B + b)); nia.
  - replace (r * D * B + d * B + b)%nat with (b + (r * D + d) * B)%nat by ring. rewrite Nat.mod_add by lia. now apply Nat.mod_small.
Qed.

Lemma adds_refl p w st lo e : adds p w st lo lo e e.
Proof.
  split; [reflexivity|]. intros j. destruct (Nat.leb_spec lo j), (Nat.ltb_spec j lo); cbn; try reflexivity; lia.
Qed.
Lemma adds_trans p w st a b c x y z : (a <= b)%nat -> (b <= c)%nat -> adds p w st a b x y -> adds p w st b c y z -> adds p w st a c x z.
Proof.
  intros Hab Hbc [L1 H1] [L2 H2]. split; [lia|]. intros j. rewrite H2, H1.
  destruct (Nat.leb_spec a j), (Nat.ltb_spec j b), (Nat.leb_spec b j), (Nat.ltb_spec j c); cbn; try reflexivity; lia.
Qed.
Lemma scalars_trans a b c : scalars_eq a b -> scalars_eq b c -> scalars_eq a c.
Proof. unfold scalars_eq. intuition congruence. Qed.

Lemma bank_loop_ok p w st i d e :
  (i < es_ranks p)%nat -> (d < es_devices p)%nat -> covers p st ->
  exists e', bank_loop p w st i d e = Exactly e' /\ scalars_eq e e' /\ adds p w st (slot p i d 0) (slot p i (S d) 0) e e'.
Proof.
  intros Hi Hd [Hb Hr]. unfold bank_loop.
  assert (G : forall n, (n <= es_banks p)%nat ->
    exists e', fold_left (fun acc b =>
    match acc with
    | Exactly e =>
        match nth_error (ss_bank st) (i * es_banks p + b)%nat, nth_error (ss_rank st) i with
        | Some k, Some r =>
            Exactly (mkE (upd (i * es_devices p * es_banks p + d * es_banks p + b) (fun x => ei_add x (bank_energy p w k r)) (en_bank e))
              (en_shared e) (en_pdna e) (en_pdnp e) (en_sref e) (en_dsm e) (en_refab e))
        | _, _ => Undefined_calc
        end
    | x => x
    end) (seq 0 n) (Exactly e) = Exactly e' /\ scalars_eq e e' /\ adds p w st (slot p i d 0) (slot p i d n) e e').
  { induction n as [|n IH]; intros Hn.
    - exists e. split; [reflexivity|]. split; [unfold scalars_eq; tauto|]. apply adds_refl.
    - destruct IH as (e1 & E1 & S1 & A1); [lia|]. rewrite seq_S, fold_left_app, E1. cbn [fold_left Nat.add].
      assert (R : nth_error (ss_rank st) i = Some (the_rank st i)) by (apply nth_error_nth'; lia).
      assert (K : nth_error (ss_bank st) (i * es_banks p + n) = Some (the_bank st (i * es_banks p + n))) by (apply nth_error_nth'; nia).
      rewrite K, R. eexists. split; [reflexivity|]. split.
      + unfold scalars_eq in *. cbn. tauto.
      + eapply adds_trans with (b := slot p i d n); [unfold slot; lia|unfold slot; lia|exact A1|].
        split; cbn [en_bank].
        * apply length_upd.
        * intros j. rewrite nth_error_upd. fold (slot p i d n).
          destruct (Nat.eqb_spec j (slot p i d n)) as [->|N].
          -- rewrite Nat.leb_refl. replace (slot p i d n <? slot p i d (S n))%nat with true by (symmetry; apply Nat.ltb_lt; unfold slot; lia).
             cbn [andb]. unfold contrib.
             destruct (in_block i d n (es_devices p) (es_banks p)) as [Q1 Q2]; [lia|lia|].
             fold (slot p i d n) in Q1, Q2. rewrite Q1, Q2. reflexivity.
          -- replace ((slot p i d n <=? j) && (j <? slot p i d (S n)))%nat with false; [reflexivity|].
             symmetry. apply andb_false_iff. unfold slot in *.
             destruct (Nat.leb_spec (i * es_devices p * es_banks p + d * es_banks p + n) j); [|now left].
             right. apply Nat.ltb_ge. lia. }
  destruct (G (es_banks p) (Nat.le_refl _)) as (e' & E & S & A). exists e'. split; [exact E|]. split; [exact S|].
  replace (slot p i (Datatypes.S d) 0) with (slot p i d (es_banks p)) by (unfold slot; lia). exact A.
Qed.

Lemma device_loop_ok p w st i e :
  (i < es_ranks p)%nat -> covers p st ->
  exists e', device_loop p w st i e = Exactly e' /\ scalars_eq e e' /\ adds p w st (slot p i 0 0) (slot p (S i) 0 0) e e'.
Proof.
  intros Hi Hc. unfold device_loop.
  assert (G : forall n, (n <= es_devices p)%nat ->
    exists e', fold_left (fun acc d => match acc with Exactly e => bank_loop p w st i d e | x => x end) (seq 0 n) (Exactly e) = Exactly e' /\
      scalars_eq e e' /\ adds p w st (slot p i 0 0) (slot p i n 0) e e').
  { induction n as [|n IH]; intros Hn.
    - exists e. split; [reflexivity|]. split; [unfold scalars_eq; tauto|]. apply adds_refl.
    - destruct IH as (e1 & E1 & S1 & A1); [lia|]. rewrite seq_S, fold_left_app, E1. cbn [fold_left Nat.add].
      destruct (bank_loop_ok p w st i n e1) as (e2 & E2 & S2 & A2); [lia|lia|exact Hc|].
      exists e2. split; [exact E2|]. split; [eapply scalars_trans; eassumption|].
      eapply adds_trans; [| |exact A1|exact A2]; unfold slot; nia. }
  destruct (G (es_devices p) (Nat.le_refl _)) as (e' & E & S & A). exists e'. split; [exact E|]. split; [exact S|].
  replace (slot p (Datatypes.S i) 0 0) with (slot p i (es_devices p) 0) by (unfold slot; lia). exact A.
Qed.

(* What a domain and a rank add to the rank-wide numbers. *)
Definition d_shared (p : espec) (w : power) (r : cycle_stats) : Q := E_BG_act_shared (pw_v w) (I_rho p w) (qn (cy_act (cs_cycles r)) * es_tCK p) * qD p.
Definition d_pdna (p : espec) (w : power) (r : cycle_stats) : Q := pw_v w * pw_i3p w * qn (cy_pda (cs_cycles r)) * es_tCK p * qD p.
Definition d_pdnp (p : espec) (w : power) (r : cycle_stats) : Q := pw_v w * pw_i2p w * qn (cy_pdp (cs_cycles r)) * es_tCK p * qD p.
Definition d_sref (p : espec) (w : power) (r : cycle_stats) : Q := pw_v w * pw_i6 w * qn (cy_sref (cs_cycles r)) * es_tCK p * qD p.
Definition d_dsm (p : espec) (w : power) (r : cycle_stats) : Q :=
  match es_std p with LPDDR5 | LPDDR6 => pw_v w * pw_i6ds w * qn (cy_dsm (cs_cycles r)) * es_tCK p * qD p | _ => 0 end.

Definition ranks_sum (p : espec) (st : sim_stats) (f : cycle_stats -> Q) (n : nat) : Q := qsum (fun i => f (the_rank st i)) (seq 0 n).
Definition scalars_add (a b : energy) (s1 s2 s3 s4 s5 : Q) : Prop :=
  en_shared b == en_shared a + s1 /\ en_pdna b == en_pdna a + s2 /\ en_pdnp b == en_pdnp a + s3 /\ en_sref b == en_sref a + s4 /\ en_dsm b == en_dsm a + s5 /\ en_refab b == en_refab a.

Lemma qsum_seq_S (f : nat -> Q) n : qsum f (seq 0 (S n)) == qsum f (seq 0 n) + f n.
Proof. rewrite seq_S, qsum_app. rewrite qsum_cons, qsum_nil. cbn [Nat.add]. ring. Qed.

Lemma rank_loop_ok p w st e :
  covers p st ->
  exists e', rank_loop p w st e = Exactly e' /\ adds p w st 0 (slot p (es_ranks p) 0 0) e e' /\
    scalars_add e e' (ranks_sum p st (d_shared p w) (es_ranks p)) (ranks_sum p st (d_pdna p w) (es_ranks p)) (ranks_sum p st (d_pdnp p w) (es_ranks p))
      (ranks_sum p st (d_sref p w) (es_ranks p)) (ranks_sum p st (d_dsm p w) (es_ranks p)).
Proof.
  intros Hc. unfold rank_loop.
  assert (G : forall n, (n <= es_ranks p)%nat ->
    exists e', fold_left (fun acc i =>
    match acc with
    | Exactly e =>
        match device_loop p w st i e with
        | Exactly e => match nth_error (ss_rank st) i with Some r => Exactly (rank_energy p w r e) | None => Undefined_calc end
        | x => x
        end
    | x => x
    end) (seq 0 n) (Exactly e) = Exactly e' /\ adds p w st 0 (slot p n 0 0) e e' /\
    scalars_add e e' (ranks_sum p st (d_shared p w) n) (ranks_sum p st (d_pdna p w) n) (ranks_sum p st (d_pdnp p w) n)
      (ranks_sum p st (d_sref p w) n) (ranks_sum p st (d_dsm p w) n)).
  { induction n as [|n IH]; intros Hn.
    - exists e. split; [reflexivity|]. split; [apply adds_refl|]. unfold scalars_add, ranks_sum. cbn [seq]. rewrite ?qsum_nil.
      split; [ring|]. split; [ring|]. split; [ring|]. split; [ring|]. split; [ring|]. ring.
    - destruct IH as (e1 & E1 & A1 & S1); [lia|]. rewrite seq_S, fold_left_app, E1. cbn [fold_left Nat.add].
      destruct (device_loop_ok p w st n e1) as (e2 & E2 & S2 & A2); [lia|exact Hc|]. rewrite E2.
      assert (R : nth_error (ss_rank st) n = Some (the_rank st n)) by (apply nth_error_nth'; destruct Hc; lia).
      rewrite R. eexists. split; [reflexivity|]. split.
      + assert (A : adds p w st 0 (slot p (S n) 0 0) e e2) by (eapply adds_trans; [| |exact A1|exact A2]; unfold slot; nia).
        exact A.
      + destruct S1 as (a1 & a2 & a3 & a4 & a5 & a6), S2 as (b1 & b2 & b3 & b4 & b5 & b6).
        unfold scalars_add, ranks_sum in *. cbn [rank_energy en_shared en_pdna en_pdnp en_sref en_dsm en_refab].
        rewrite <- b1, <- b2, <- b3, <- b4, <- b5, <- b6.
        split; [rewrite qsum_seq_S, a1; unfold d_shared; ring|].
        split; [rewrite qsum_seq_S, a2; unfold d_pdna; ring|].
        split; [rewrite qsum_seq_S, a3; unfold d_pdnp; ring|].
        split; [rewrite qsum_seq_S, a4; unfold d_sref; ring|].
        split; [rewrite qsum_seq_S; unfold d_dsm in *; destruct (es_std p); rewrite a5; ring|].
        exact a6. }
  exact (G (es_ranks p) (Nat.le_refl _)).
Qed.

(* ---------------- closed form ---------------- *)
Definition accum (p : espec) (st : sim_stats) (j : nat) (l : list power) (x : energy_info) : energy_info :=
  fold_left (fun x w => ei_add x (contrib p w st j)) l x.
Definition domain_sum (p : espec) (st : sim_stats) (f : power -> cycle_stats -> Q) : Q :=
  qsum (fun w => ranks_sum p st (f w) (es_ranks p)) (es_domains p).

Definition closed (p : espec) (st : sim_stats) (e : energy) : Prop :=
  length (en_bank e) = (es_ranks p * es_devices p * es_banks p)%nat /\
  (forall j, (j < es_ranks p * es_devices p * es_banks p)%nat -> nth_error (en_bank e) j = Some (accum p st j (es_domains p) ei_zero)) /\
  en_shared e == domain_sum p st (d_shared p) /\ en_pdna e == domain_sum p st (d_pdna p) /\ en_pdnp e == domain_sum p st (d_pdnp p) /\
  en_sref e == domain_sum p st (d_sref p) /\ en_dsm e == domain_sum p st (d_dsm p) /\ en_refab e == 0.

Lemma domains_ok p st (Hc : covers p st) l : forall e,
  length (en_bank e) = (es_ranks p * es_devices p * es_banks p)%nat ->
  exists e', fold_left (fun acc w => match acc with Exactly e => rank_loop p w st e | x => x end) l (Exactly e) = Exactly e' /\
    length (en_bank e') = (es_ranks p * es_devices p * es_banks p)%nat /\
    (forall j x, (j < es_ranks p * es_devices p * es_banks p)%nat -> nth_error (en_bank e) j = Some x -> nth_error (en_bank e') j = Some (accum p st j l x)) /\
    scalars_add e e' (qsum (fun w => ranks_sum p st (d_shared p w) (es_ranks p)) l) (qsum (fun w => ranks_sum p st (d_pdna p w) (es_ranks p)) l)
      (qsum (fun w => ranks_sum p st (d_pdnp p w) (es_ranks p)) l) (qsum (fun w => ranks_sum p st (d_sref p w) (es_ranks p)) l)
      (qsum (fun w => ranks_sum p st (d_dsm p w) (es_ranks p)) l).
Proof.
  induction l as [|w l IH]; intros e L.
  - exists e. split; [reflexivity|]. split; [exact L|]. split; [intros j x _ H; exact H|]. unfold scalars_add. rewrite ?qsum_nil.
    split; [ring|]. split; [ring|]. split; [ring|]. split; [ring|]. split; [ring|]. ring.
  - cbn [fold_left]. destruct (rank_loop_ok p w st e Hc) as (e1 & E1 & [A0 A1] & S1). rewrite E1.
    destruct (IH e1) as (e2 & E2 & L2 & A2 & S2); [congruence|].
    exists e2. split; [exact E2|]. split; [exact L2|]. split.
    + intros j x Hj Hx. apply A2; [exact Hj|]. rewrite A1, Hx. cbn [Nat.leb andb].
      replace (j <? slot p (es_ranks p) 0 0)%nat with true by (symmetry; apply Nat.ltb_lt; unfold slot; lia). reflexivity.
    + destruct S1 as (a1 & a2 & a3 & a4 & a5 & a6), S2 as (b1 & b2 & b3 & b4 & b5 & b6).
      unfold scalars_add. rewrite ?qsum_cons. rewrite b1, b2, b3, b4, b5, b6, a1, a2, a3, a4, a5, a6.
      split; [ring|]. split; [ring|]. split; [ring|]. split; [ring|]. split; [ring|]. ring.
Qed.

Definition usable (p : espec) : Prop := es_dr p <> 0%N /\ finite_domain p = true.
Lemma inject_nat_nz n : n <> 0%nat -> ~ inject_Z (Z.of_nat n) == 0.
Proof. intros H E. unfold Qeq in E. cbn in E. lia. Qed.
Lemma qn_nz n : n <> 0%N -> ~ qn n == 0.
Proof. intros H E. unfold qn, Qeq in E. cbn in E. lia. Qed.
Lemma Qeq_bool_nz a : ~ a == 0 -> negb (Qeq_bool a 0) = true.
Proof. intros H. destruct (Qeq_bool a 0) eqn:E; [|reflexivity]. apply Qeq_bool_eq in E. contradiction. Qed.
Lemma mult_nz a b : ~ a == 0 -> ~ b == 0 -> ~ a * b == 0.
Proof. intros A B E. destruct (Qmult_integral _ _ E); contradiction. Qed.
Lemma well_formed_usable p : well_formed p -> usable p.
Proof.
  intros [Hdr Hb Hck Hras Hx]. split; [exact Hdr|]. unfold finite_domain.
  rewrite (Qeq_bool_nz (qB p)) by now apply inject_nat_nz.
  rewrite (Qeq_bool_nz (t_ras p)) by (apply mult_nz; [now apply qn_nz|exact Hck]).
  cbn [andb]. destruct (es_std p); try reflexivity.
  - apply Qeq_bool_nz. now apply inject_nat_nz.
  - destruct Hx as [H1 H2]. rewrite Qeq_bool_nz by exact H2. apply Qeq_bool_nz. apply mult_nz; [now apply qn_nz|exact Hck].
  - destruct Hx as [H1 H2]. rewrite Qeq_bool_nz by exact H2. apply Qeq_bool_nz. apply mult_nz; [now apply qn_nz|exact Hck].
  - destruct Hx as [H1 H2]. rewrite Qeq_bool_nz by exact H2. apply Qeq_bool_nz. apply mult_nz; [now apply qn_nz|exact Hck].
Qed.

Lemma calc_ok p st : usable p -> covers p st -> exists e, calc_energy p st = Exactly e /\ closed p st e.
Proof.
  intros [Hd Hf] Hc. unfold calc_energy. rewrite Hf. destruct (N.eqb_spec (es_dr p) 0) as [E|_]; [contradiction|].
  destruct (domains_ok p st Hc (es_domains p) (energy0 (es_banks p * es_ranks p * es_devices p))) as (e & E & L & A & S).
  { cbn. rewrite repeat_length. ring. }
  exists e. split; [exact E|]. split; [exact L|]. split.
  - intros j Hj. apply A; [exact Hj|]. cbn [energy0 en_bank]. rewrite nth_error_repeat. destruct (Nat.ltb_spec j (es_banks p * es_ranks p * es_devices p)); [reflexivity|nia].
  - destruct S as (a1 & a2 & a3 & a4 & a5 & a6). cbn [energy0 en_shared en_pdna en_pdnp en_sref en_dsm en_refab] in *. unfold domain_sum. rewrite a1, a2, a3, a4, a5, a6.
    split; [ring|]. split; [ring|]. split; [ring|]. split; [ring|]. split; [ring|]. reflexivity.
Qed.

(* ---------------- every number is a coefficient times a counter ---------------- *)
Definition i_burst (p : espec) (w : power) : Q :=
  match es_std p with
  | DDR4 | DDR5 => I_B p w
  | LPDDR4 => I_1 p w
  | LPDDR5 => if es_mbg p then I_2 p w else I_1 p w
  | LPDDR6 => I_2 p w
  end.
Definition t_burst (p : espec) : Q := match es_std p with LPDDR5 | LPDDR6 => es_tWCK p | _ => es_tCK p end.
Definition coef (p : espec) (w : power) (c : component) : Q :=
  let V := pw_v w in
  match c with
  | CAct => V * (I_theta p w - I_1 p w) * t_ras p
  | CPre | CPreRda | CPreWra => V * (pw_ibeta w - pw_i2n w) * t_rp p
  | CBgAct => V * (I_1 p w - I_rho p w) * es_tCK p
  | CBgPre => (1 / qB p) * V * pw_i2n w * es_tCK p
  | CRd | CRda => V * (pw_i4r w - i_burst p w) * (match es_std p with DDR4 | DDR5 => qn (es_bl p) / qn (es_dr p) | _ => qn (es_bl p / es_dr p) end) * t_burst p
  | CWr | CWra => V * (pw_i4w w - i_burst p w) * qn (es_bl p / es_dr p) * t_burst p
  | CRefAB => (1 / qB p) * V * (pw_i5 w - I_B p w) * t_rfc p
  | CRefPB => match es_std p with LPDDR4 | LPDDR5 => V * (IDD5_B p w - I_1 p w) * t_rfcs p | _ => 0 end
  | CRefSB => match es_std p with DDR5 => V * (pw_i5s w - I_BG p w) * t_rfcs p * (1 / qBG p) | _ => 0 end
  | CRef2B => match es_std p with LPDDR5 => (1 # 2) * V * (IDD5_B p w - I_2 p w) * t_rfcs p | _ => 0 end
  | CRefDB => match es_std p with LPDDR6 => (1 # 2) * V * (IDD5_B p w - I_2 p w) * t_rfcs p | _ => 0 end
  end.
Definition source (c : component) (k r : cycle_stats) : N :=
  match c with
  | CAct => part_at k (Counter K_act) | CPre => part_at k (Counter K_pre) | CBgAct => part_at k (Cycles Act) | CBgPre => part_at r (Cycles Pre)
  | CRd => part_at k (Counter K_reads) | CWr => part_at k (Counter K_writes) | CRda | CPreRda => part_at k (Counter K_readAuto)
  | CWra | CPreWra => part_at k (Counter K_writeAuto) | CRefAB => part_at k (Counter K_refAllBank) | CRefPB => part_at k (Counter K_refPerBank)
  | CRefSB => part_at k (Counter K_refSameBank) | CRef2B => part_at k (Counter K_refPerTwoBanks) | CRefDB => part_at k (Counter K_refDualBanks)
  end.
Lemma comp_linear p w k r c : comp_at (bank_energy p w k r) c == coef p w c * qn (source c k r).
Proof.
  unfold bank_energy, coef, source, i_burst, t_burst.
  destruct c; cbn [comp_at e_act e_pre e_bg_act e_bg_pre e_rd e_wr e_rda e_wra e_pre_rda e_pre_wra e_ref_ab e_ref_pb e_ref_sb e_ref_2b e_ref_db part_at cs_get];
  unfold E_act, E_pre, E_BG_act_star, E_BG_pre, E_RD_double, E_RW_int, E_ref_ab, E_ref_pb, E_ref_sb, E_ref_half;
  destruct (es_std p); try destruct (es_mbg p); unfold Qdiv; ring.
Qed.

Definition source_place (p : espec) (j : nat) (c : component) : place :=
  let r := (j / (es_devices p * es_banks p))%nat in
  let b := (r * es_banks p + j mod es_banks p)%nat in
  match c with
  | CAct => OfBank b (Counter K_act) | CPre => OfBank b (Counter K_pre) | CBgAct => OfBank b (Cycles Act) | CBgPre => OfRank r (Cycles Pre)
  | CRd => OfBank b (Counter K_reads) | CWr => OfBank b (Counter K_writes) | CRda | CPreRda => OfBank b (Counter K_readAuto)
  | CWra | CPreWra => OfBank b (Counter K_writeAuto) | CRefAB => OfBank b (Counter K_refAllBank) | CRefPB => OfBank b (Counter K_refPerBank)
  | CRefSB => OfBank b (Counter K_refSameBank) | CRef2B => OfBank b (Counter K_refPerTwoBanks) | CRefDB => OfBank b (Counter K_refDualBanks)
  end.
Lemma part0 x : part_at cycle_stats0 x = 0%N.
Proof. destruct x as [[]|[]|[]]; reflexivity. Qed.
Lemma bank_part st i x : part_at (the_bank st i) x = count_at st (OfBank i x).
Proof.
  unfold the_bank. cbn [count_at]. destruct (nth_error (ss_bank st) i) eqn:E.
  - now rewrite (nth_error_nth _ _ _ E).
  - rewrite nth_overflow; [apply part0|now apply nth_error_None].
Qed.
Lemma rank_part st i x : part_at (the_rank st i) x = count_at st (OfRank i x).
Proof.
  unfold the_rank. cbn [count_at]. destruct (nth_error (ss_rank st) i) eqn:E.
  - now rewrite (nth_error_nth _ _ _ E).
  - rewrite nth_overflow; [apply part0|now apply nth_error_None].
Qed.
Lemma comp_add a b c : comp_at (ei_add a b) c = comp_at a c + comp_at b c.
Proof. now destruct c. Qed.
Lemma comp_zero c : comp_at ei_zero c = 0.
Proof. now destruct c. Qed.
Lemma contrib_linear p w st j c : comp_at (contrib p w st j) c == coef p w c * qn (count_at st (source_place p j c)).
Proof.
  unfold contrib. rewrite comp_linear. unfold source, source_place.
  destruct c; rewrite ?bank_part, ?rank_part; reflexivity.
Qed.
Lemma accum_sum p st j c l : forall x, comp_at (accum p st j l x) c == comp_at x c + qsum (fun w => comp_at (contrib p w st j) c) l.
Proof.
  induction l as [|w l IH]; intros x.
  - rewrite qsum_nil. cbn [accum fold_left]. ring.
  - change (accum p st j (w :: l) x) with (accum p st j l (ei_add x (contrib p w st j))). rewrite IH, qsum_cons, comp_add. ring.
Qed.

(* Slot components. *)
Definition kslot (p : espec) (c : component) : Q := qsum (fun w => coef p w c) (es_domains p).
Lemma slot_value p st e j c : closed p st e -> (j < es_ranks p * es_devices p * es_banks p)%nat ->
  exists q, energy_at e (Slot j c) = Some q /\ q == kslot p c * qn (count_at st (source_place p j c)).
Proof.
  intros (L & H & _) Hj. cbn [energy_at]. rewrite (H j Hj). eexists. split; [reflexivity|].
  rewrite accum_sum, comp_zero, Qplus_0_l. rewrite (qsum_ext _ (fun w => qn (count_at st (source_place p j c)) * coef p w c)).
  - rewrite qsum_scale. unfold kslot. ring.
  - intros w _. rewrite contrib_linear. ring.
Qed.
Lemma slot_none p st e j c : closed p st e -> ~ (j < es_ranks p * es_devices p * es_banks p)%nat -> energy_at e (Slot j c) = None.
Proof. intros (L & _) Hj. cbn [energy_at]. destruct (nth_error (en_bank e) j) eqn:E; [|reflexivity]. exfalso. apply Hj. rewrite <- L. apply nth_error_Some. congruence. Qed.

(* Rank-wide numbers. *)
Definition is_slot (x : eplace) : bool := match x with Slot _ _ => true | _ => false end.
Definition scoef (p : espec) (w : power) (x : eplace) : Q :=
  match x with
  | Shared => pw_v w * I_rho p w * es_tCK p * qD p
  | PDNA => pw_v w * pw_i3p w * es_tCK p * qD p
  | PDNP => pw_v w * pw_i2p w * es_tCK p * qD p
  | SRef => pw_v w * pw_i6 w * es_tCK p * qD p
  | DSM => match es_std p with LPDDR5 | LPDDR6 => pw_v w * pw_i6ds w * es_tCK p * qD p | _ => 0 end
  | _ => 0
  end.
Definition splace (x : eplace) (i : nat) : place :=
  match x with
  | Shared => OfRank i (Cycles Act) | PDNA => OfRank i (Cycles PowerDownAct) | PDNP => OfRank i (Cycles PowerDownPre) | SRef => OfRank i (Cycles SelfRefresh)
  | _ => OfRank i (Cycles DeepSleep)
  end.
Definition kscalar (p : espec) (x : eplace) : Q := qsum (fun w => scoef p w x) (es_domains p).
Lemma domain_sum_linear p st f k x : (forall w i, f w (the_rank st i) == k w * qn (count_at st (splace x i))) ->
  domain_sum p st f == qsum k (es_domains p) * qsum (fun i => qn (count_at st (splace x i))) (seq 0 (es_ranks p)).
Proof.
  intros H. unfold domain_sum, ranks_sum.
  rewrite (qsum_ext _ (fun w => qsum (fun i => qn (count_at st (splace x i))) (seq 0 (es_ranks p)) * k w)).
  - rewrite qsum_scale. ring.
  - intros w _. rewrite (qsum_ext _ (fun i => k w * qn (count_at st (splace x i)))) by (intros; apply H). rewrite qsum_scale. ring.
Qed.
Lemma scalar_value p st e x : closed p st e -> is_slot x = false ->
  exists q, energy_at e x = Some q /\ q == kscalar p x * qsum (fun i => qn (count_at st (splace x i))) (seq 0 (es_ranks p)).
Proof.
  intros (_ & _ & H1 & H2 & H3 & H4 & H5 & H6) S. destruct x as [j c| | | | | |]; [discriminate| | | | | |]; cbn [energy_at]; eexists; (split; [reflexivity|]).
  - rewrite H1. apply domain_sum_linear with (x := Shared). intros w i. unfold d_shared, E_BG_act_shared, scoef, splace.
    rewrite <- rank_part. cbn [part_at]. ring.
  - rewrite H2. apply domain_sum_linear with (x := PDNA). intros w i. unfold d_pdna, scoef, splace. rewrite <- rank_part. cbn [part_at]. ring.
  - rewrite H3. apply domain_sum_linear with (x := PDNP). intros w i. unfold d_pdnp, scoef, splace. rewrite <- rank_part. cbn [part_at]. ring.
  - rewrite H4. apply domain_sum_linear with (x := SRef). intros w i. unfold d_sref, scoef, splace. rewrite <- rank_part. cbn [part_at]. ring.
  - rewrite H5. apply domain_sum_linear with (x := DSM). intros w i. unfold d_dsm, scoef, splace. rewrite <- rank_part. cbn [part_at].
    destruct (es_std p); ring.
  - rewrite H6. unfold kscalar, scoef. rewrite (qsum_zero (fun _ : power => 0)) by reflexivity. ring.
Qed.

(* ---------------- totals ---------------- *)
Lemma fold_ei_sum c l : forall x, comp_at (fold_left ei_add l x) c == comp_at x c + qsum (fun i => comp_at i c) l.
Proof.
  induction l as [|i l IH]; intros x.
  - rewrite qsum_nil. cbn [fold_left]. ring.
  - cbn [fold_left]. rewrite IH, comp_add, qsum_cons. ring.
Qed.
Lemma ei_total_sum e : ei_total e == qsum (comp_at e) counted.
Proof. unfold ei_total, counted. rewrite !qsum_cons, qsum_nil. cbn [comp_at]. ring. Qed.
Theorem total_is_sum e :
  en_total e == qsum (fun i => qsum (comp_at i) counted) (en_bank e) + en_shared e + en_pdna e + en_pdnp e + en_sref e + en_dsm e + en_refab e.
Proof.
  unfold en_total. rewrite ei_total_sum.
  rewrite (qsum_ext (comp_at (fold_left ei_add (en_bank e) ei_zero)) (fun c => qsum (fun i => comp_at i c) (en_bank e))).
  - rewrite (qsum_swap (fun c i => comp_at i c)), Qplus_0_l. reflexivity.
  - intros c _. rewrite fold_ei_sum, comp_zero. ring.
Qed.

(* ---------------- energy orders and sums carry over to the total ---------------- *)
Lemma bank_slots_sum e f : qsum f (en_bank e) = qsum (fun j => f (nth j (en_bank e) ei_zero)) (seq 0 (length (en_bank e))).
Proof.
  rewrite <- (qsum_map f (fun j => nth j (en_bank e) ei_zero)). f_equal.
  induction (en_bank e) as [|x l IH]; [reflexivity|]. cbn [length seq map nth]. f_equal. rewrite <- seq_shift, map_map. exact IH.
Qed.
Lemma slot_nth e j c q : energy_at e (Slot j c) = Some q -> q = comp_at (nth j (en_bank e) ei_zero) c.
Proof. cbn [energy_at]. destruct (nth_error (en_bank e) j) as [i|] eqn:E; [|discriminate]. intros H. injection H as <-. now rewrite (nth_error_nth _ _ _ E). Qed.
Lemma slot_in e j c : (j < length (en_bank e))%nat -> energy_at e (Slot j c) = Some (comp_at (nth j (en_bank e) ei_zero) c).
Proof. intros H. cbn [energy_at]. now rewrite (nth_error_nth' _ ei_zero H). Qed.
Lemma slot_out e j c : (length (en_bank e) <= j)%nat -> energy_at e (Slot j c) = None.
Proof. intros H. cbn [energy_at]. now rewrite (proj2 (nth_error_None _ _) H). Qed.

Lemma same_slots a b (P : option Q -> option Q -> Prop) : (forall q, ~ P (Some q) None) -> (forall q, ~ P None (Some q)) ->
  (forall x, P (energy_at a x) (energy_at b x)) -> length (en_bank a) = length (en_bank b).
Proof.
  intros P1 P2 H. destruct (Nat.lt_trichotomy (length (en_bank a)) (length (en_bank b))) as [L|[L|L]]; [|exact L|]; exfalso.
  - specialize (H (Slot (length (en_bank a)) CAct)). rewrite slot_out, slot_in in H by lia. now apply P2 in H.
  - specialize (H (Slot (length (en_bank b)) CAct)). rewrite slot_in, slot_out in H by lia. now apply P1 in H.
Qed.
Theorem at_most_total a b : at_most a b -> en_total a <= en_total b.
Proof.
  intros H. rewrite !total_is_sum.
  assert (L : length (en_bank a) = length (en_bank b)).
  { apply same_slots with (P := fun u v => match u, v with Some p, Some q => p <= q | None, None => True | _, _ => False end); [tauto|tauto|exact H]. }
  repeat apply Qplus_le_compat; [|apply (H Shared)|apply (H PDNA)|apply (H PDNP)|apply (H SRef)|apply (H DSM)|apply (H RefAB)].
  rewrite !bank_slots_sum, L. apply qsum_le. intros j Hj. apply in_seq in Hj. apply qsum_le. intros c _.
  specialize (H (Slot j c)). rewrite !slot_in in H by lia. exact H.
Qed.
Theorem is_sum_total a b c : is_sum a b c -> en_total c == en_total a + en_total b.
Proof.
  intros H. rewrite !total_is_sum.
  assert (L : length (en_bank a) = length (en_bank c)).
  { apply same_slots with (P := fun u v => match u, v with Some p, Some q => True | None, None => True | _, _ => False end); [tauto|tauto|].
    intros x. specialize (H x). destruct (energy_at a x), (energy_at b x), (energy_at c x); tauto. }
  assert (M : length (en_bank b) = length (en_bank c)).
  { apply same_slots with (P := fun u v => match u, v with Some p, Some q => True | None, None => True | _, _ => False end); [tauto|tauto|].
    intros x. specialize (H x). destruct (energy_at a x), (energy_at b x), (energy_at c x); tauto. }
  pose proof (H Shared) as H1. pose proof (H PDNA) as H2. pose proof (H PDNP) as H3. pose proof (H SRef) as H4. pose proof (H DSM) as H5. pose proof (H RefAB) as H6.
  cbn [energy_at] in H1, H2, H3, H4, H5, H6. rewrite H1, H2, H3, H4, H5, H6.
  rewrite !bank_slots_sum, L, M.
  rewrite (qsum_ext (fun j => qsum (comp_at (nth j (en_bank c) ei_zero)) counted)
    (fun j => qsum (comp_at (nth j (en_bank a) ei_zero)) counted + qsum (comp_at (nth j (en_bank b) ei_zero)) counted)).
  - rewrite qsum_plus. ring.
  - intros j Hj. apply in_seq in Hj. rewrite <- qsum_plus. apply qsum_ext. intros k _. specialize (H (Slot j k)). rewrite !slot_in in H by lia. exact H.
Qed.

(* ---------------- additivity and zero ---------------- *)
Lemma qn_add a b : qn (a + b) == qn a + qn b.
Proof. unfold qn. rewrite N2Z.inj_add, inject_Z_plus. reflexivity. Qed.
Lemma qn_le a b : (a <= b)%N -> qn a <= qn b.
Proof. intros H. unfold qn. rewrite <- Zle_Qle. lia. Qed.
Lemma qn_0 : qn 0 = 0. Proof. reflexivity. Qed.
Lemma qn_pos a : 0 <= qn a. Proof. rewrite <- qn_0. apply qn_le. lia. Qed.

Lemma no_wrap_count a b x : no_wrap a b -> count_at (sim_add a b) x = (count_at a x + count_at b x)%N.
Proof.
  intros H. rewrite add_counts.
  - apply N.mod_small. apply H.
  - intros y. specialize (H y). lia.
  - intros y. specialize (H y). lia.
Qed.
Lemma covers_add p a b : covers p a -> covers p (sim_add a b).
Proof. intros [H1 H2]. destruct (add_sizes a b) as [E1 E2]. unfold covers. rewrite E1, E2. lia. Qed.

Theorem energy_additive p a b : well_formed p -> covers p a -> covers p b -> no_wrap a b ->
  exists ea eb e, calc_energy p a = Exactly ea /\ calc_energy p b = Exactly eb /\ calc_energy p (sim_add a b) = Exactly e /\ is_sum ea eb e.
Proof.
  intros W Ca Cb Nw. apply well_formed_usable in W.
  destruct (calc_ok p a W Ca) as (ea & Ea & Ka). destruct (calc_ok p b W Cb) as (eb & Eb & Kb).
  destruct (calc_ok p (sim_add a b) W (covers_add _ _ _ Ca)) as (e & E & K).
  exists ea, eb, e. split; [exact Ea|]. split; [exact Eb|]. split; [exact E|]. intros x.
  destruct (is_slot x) eqn:S.
  - destruct x as [j c| | | | | |]; try discriminate. clear S.
    destruct (lt_dec j (es_ranks p * es_devices p * es_banks p)) as [Hj|Hj].
    + destruct (slot_value p a ea j c Ka Hj) as (qa & -> & A). destruct (slot_value p b eb j c Kb Hj) as (qb & -> & B).
      destruct (slot_value p _ e j c K Hj) as (q & -> & C). rewrite A, B, C, no_wrap_count, qn_add by exact Nw. ring.
    + now rewrite (slot_none p a ea j c Ka Hj), (slot_none p b eb j c Kb Hj), (slot_none p _ e j c K Hj).
  - destruct (scalar_value p a ea x Ka S) as (qa & -> & A). destruct (scalar_value p b eb x Kb S) as (qb & -> & B).
    destruct (scalar_value p _ e x K S) as (q & -> & C). rewrite A, B, C.
    rewrite (qsum_ext _ (fun i => qn (count_at a (splace x i)) + qn (count_at b (splace x i)))).
    + rewrite qsum_plus. ring.
    + intros i _. rewrite no_wrap_count, qn_add by exact Nw. reflexivity.
Qed.
Theorem energy_zero p a : well_formed p -> covers p a -> all_zero a ->
  exists e, calc_energy p a = Exactly e /\ all_numbers (fun q => q == 0) e /\ en_total e == 0.
Proof.
  intros W Ca Z. apply well_formed_usable in W. destruct (calc_ok p a W Ca) as (e & E & K). exists e. split; [exact E|].
  assert (A : all_numbers (fun q => q == 0) e).
  { intros x q Hq. destruct (is_slot x) eqn:S.
    - destruct x as [j c| | | | | |]; try discriminate.
      destruct (lt_dec j (es_ranks p * es_devices p * es_banks p)) as [Hj|Hj].
      + destruct (slot_value p a e j c K Hj) as (q' & E' & V). assert (q' = q) as <- by congruence. rewrite V, Z, qn_0. ring.
      + rewrite (slot_none p a e j c K Hj) in Hq. discriminate.
    - destruct (scalar_value p a e x K S) as (q' & E' & V). assert (q' = q) as <- by congruence. rewrite V, qsum_zero; [ring|].
      intros i _. now rewrite Z. }
  split; [exact A|]. rewrite total_is_sum. rewrite qsum_zero.
  - assert (A' : forall x q, energy_at e x = Some q -> q == 0) by exact A.
    rewrite (A' Shared _ eq_refl), (A' PDNA _ eq_refl), (A' PDNP _ eq_refl), (A' SRef _ eq_refl), (A' DSM _ eq_refl), (A' RefAB _ eq_refl). reflexivity.
  - intros i Hi. apply qsum_zero. intros c _. apply In_nth_error in Hi. destruct Hi as [j Hj]. apply (A (Slot j c)). cbn [energy_at]. now rewrite Hj.
Qed.
