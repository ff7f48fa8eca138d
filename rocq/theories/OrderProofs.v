(* Commands whose order does not matter. *)
From Coq Require Import ZArith QArith NArith List Bool Lia ZifyBool ZifyNat ZifyN Arith Permutation.
From Verif Require Import Base Command CoreModel ListFacts HistorySpec CoreHistory DeviceSpec RefineBase RefineMain DeviceFacts DeviceSleep DeviceTop ComposeMain LocalSpec LocalProofs OrderSpec.
From Verif Require Import Bits StatsModel EnergyModel EnergySpec EnergyProofs DramModel ChargeSpec ChargeBase ChargeProofs ChargeTop RenameTop.
Import ListNotations.
Local Open Scope N_scope.

Lemma settle_bank_twice t b : settle_bank t (settle_bank t b) = settle_bank t b.
Proof.
  unfold settle_bank. destruct (sb_state b) eqn:E; rewrite ?E; try reflexivity; destruct (_ <=? t) eqn:F; cbn [sb_state]; rewrite ?E, ?F; reflexivity.
Qed.

(* What a command that changes no mode does: nothing, or something to each bank it
   addresses. *)
Lemma bank_command p c d d' : mode_command (cmd_type c) = false -> command p c d = Some d' ->
  (d' = d /\ forall e, command p c e = Some e) \/
  exists P g, dv_pend d = None /\ dv_mode d = Up /\ addressed p c P (dv_banks d) = true /\ d' = with_banks (touch p c g (dv_banks d)) d /\
    forall e, dv_pend e = None -> dv_mode e = Up -> addressed p c P (dv_banks e) = true -> command p c e = Some (with_banks (touch p c g (dv_banks e)) e).
Proof.
  intros M H. unfold command in *. destruct (in_standard p (cmd_type c) && well_addressed p c) eqn:A; [|discriminate].
  assert (forall e, with_banks (dv_banks e) e = e) as WB by (intros []; reflexivity).
  assert (forall bs, touch p c (fun b => b) bs = bs) as TI.
  { intros bs. unfold touch. apply mapi_same. intros j x _. destruct (footprint p c (0 + j)); reflexivity. }
  destruct (cmd_type c) eqn:T; try discriminate M;
    try (destruct (dv_pend d) eqn:Pd; [discriminate H|]; destruct (dv_mode d) eqn:Md; try discriminate H; unfold up_command in *; rewrite T in H; try discriminate H;
         match type of H with context[guard (addressed p c ?P _)] => right; exists P; destruct (addressed p c P (dv_banks d)) eqn:AD; [|discriminate H] end;
         cbn [guard] in H; injection H as <-);
    try (left; injection H as <-; split; [reflexivity|intros e; reflexivity]).
  all: match goal with
       | |- exists g, _ /\ _ /\ _ /\ with_banks (touch _ _ ?f _) _ = _ /\ _ => exists f
       | |- _ => exists (fun b : sbank => b)
       end.
  all: split; [reflexivity|]; split; [reflexivity|]; split; [reflexivity|]; split; [rewrite ?TI, ?WB; reflexivity|];
    intros e E1 E2 E3; rewrite E1, E2; rewrite ?T; rewrite E3; cbn [guard]; rewrite ?TI, ?WB; reflexivity.
Qed.

Lemma addressed_pt p c P bs : addressed p c P bs = true <-> (forall i b, nth_error bs i = Some b -> footprint p c i = true -> P b = true).
Proof.
  unfold addressed. assert (forall l k, forallb (fun x => x) (mapi k (fun i b => if footprint p c i then P b else true) l) = true <->
    (forall i b, nth_error l i = Some b -> footprint p c (k + i) = true -> P b = true)) as K.
  { induction l as [|x l IH]; intros k; cbn [mapi forallb]; [split; [intros _ [|i] b Hb; discriminate Hb|reflexivity]|].
    rewrite andb_true_iff, (IH (S k)). split.
    - intros [H1 H2] [|i] b Hb F; cbn in Hb.
      + injection Hb as <-. rewrite Nat.add_0_r in F. now rewrite F in H1.
      + apply (H2 i b Hb). now rewrite Nat.add_succ_comm.
    - intros H. split; [destruct (footprint p c k) eqn:F; [apply (H 0%nat x eq_refl); now rewrite Nat.add_0_r|reflexivity]|].
      intros i b Hb F. apply (H (S i) b Hb). now rewrite <- Nat.add_succ_comm. }
  apply (K bs 0%nat).
Qed.

Section Pair.
Context (p : memspec) (c c' : Command).
Hypothesis TS : cmd_ts c = cmd_ts c'.
Hypothesis M : mode_command (cmd_type c) = false.
Hypothesis M' : mode_command (cmd_type c') = false.
Hypothesis FP : forall b, footprint p c b = true -> footprint p c' b = true -> False.
Let t := cmd_ts c.

Lemma at_rest d : dv_pend (settle t d) = None -> settle t (settle t d) = settle t d /\ map (settle_bank t) (dv_banks (settle t d)) = dv_banks (settle t d).
Proof using.
  intros H. pose proof (settle_settle t t d (N.le_refl t)) as E. split; [exact E|]. unfold settle at 1 in E. rewrite H in E. apply (f_equal dv_banks) in E. exact E.
Qed.
Lemma settle_with bs d : dv_pend d = None -> settle t (with_banks bs d) = with_banks (map (settle_bank t) bs) d.
Proof using. intros H. unfold settle, with_banks. cbn [dv_pend dv_banks dv_mode]. rewrite H. reflexivity. Qed.
Lemma pair_swap d d1 d2 : command p c (settle t d) = Some d1 -> command p c' (settle t d1) = Some d2 ->
  exists d1' d2', command p c' (settle t d) = Some d1' /\ command p c (settle t d1') = Some d2' /\ settle t d2 = settle t d2'.
Proof using TS M M' FP.
  intros H1 H2. destruct (bank_command p c _ _ M H1) as [[-> S1]|(P & g & PN & MU & AD & -> & S1)].
  { rewrite settle_settle in H2 by lia. exists d2, (settle t d2). split; [exact H2|]. split; [apply S1|]. now rewrite settle_settle by lia. }
  destruct (at_rest d PN) as [R1 R2]. set (d0 := settle t d) in *. rewrite settle_with in H2 by exact PN.
  destruct (bank_command p c' _ _ M' H2) as [[-> S2]|(P' & g' & PN' & MU' & AD' & -> & S2)].
  { exists d0, (with_banks (touch p c g (dv_banks d0)) d0). split; [apply S2|]. rewrite R1. split; [exact H1|].
    rewrite !settle_with by (try exact PN; reflexivity). f_equal. rewrite map_map. apply map_ext. intros b. apply settle_bank_twice. }
  clear H1 H2 PN' MU'. cbn [with_banks dv_banks] in AD'. change (with_banks ?x (with_banks ?y d0)) with (with_banks x d0).
  pose proof (proj1 (addressed_pt p c P _) AD) as Q. pose proof (proj1 (addressed_pt p c' P' _) AD') as Q'.
  assert (forall i b, nth_error (dv_banks d0) i = Some b -> settle_bank t b = b) as RB.
  { intros i b Hb. pose proof (map_nth_error (settle_bank t) i (dv_banks d0) Hb) as K. rewrite R2, Hb in K. now injection K as <-. }
  exists (with_banks (touch p c' g' (dv_banks d0)) d0).
  exists (with_banks (touch p c g (map (settle_bank t) (touch p c' g' (dv_banks d0)))) d0). split; [|split].
  - apply S2; [exact PN|exact MU|]. apply addressed_pt. intros i b Hb F. apply (Q' i b); [|exact F].
    rewrite nth_error_map. unfold touch. rewrite nth_error_mapi, Hb. cbn [option_map Nat.add].
    destruct (footprint p c i) eqn:F2; [destruct (FP i F2 F)|]. f_equal. exact (RB i b Hb).
  - rewrite settle_with by exact PN. rewrite S1; [reflexivity|exact PN|exact MU|]. apply addressed_pt. cbn [with_banks dv_banks]. intros i b Hb F. apply (Q i b); [|exact F].
    rewrite nth_error_map in Hb. unfold touch in Hb. rewrite nth_error_mapi in Hb. destruct (nth_error (dv_banks d0) i) as [b0|] eqn:E; [|discriminate Hb]. cbn [option_map Nat.add] in Hb.
    destruct (footprint p c' i) eqn:F2; [destruct (FP i F F2)|]. rewrite (RB i b0 E) in Hb. exact Hb.
  - rewrite !settle_with by exact PN. cbn [with_banks dv_banks]. f_equal. apply nth_error_ext. intros i. unfold touch. rewrite !nth_error_map, !nth_error_mapi, !nth_error_map, !nth_error_mapi.
    destruct (nth_error (dv_banks d0) i) as [b|] eqn:E; [|reflexivity]. cbn [option_map Nat.add]. f_equal. pose proof (RB i b E) as RBi.
    destruct (footprint p c i) eqn:F1, (footprint p c' i) eqn:F2; [destruct (FP i F1 F2)| | |]; rewrite ?RBi, ?settle_bank_twice, ?RBi; reflexivity.
Qed.
Lemma run_swap z d e : nondecreasing t (map cmd_ts z) -> run_device p (c :: c' :: z) d = Some e ->
  exists e', run_device p (c' :: c :: z) d = Some e' /\ forall n, t <= n -> final_time t (map cmd_ts z) <= n -> settle n e = settle n e'.
Proof using TS M M' FP.
  intros ND H. cbn [run_device] in *. rewrite <- TS in *. fold t in H |- *. destruct (command p c (settle t d)) as [d1|] eqn:E1; [|discriminate]. destruct (command p c' (settle t d1)) as [d2|] eqn:E2; [|discriminate].
  destruct (pair_swap d d1 d2 E1 E2) as (d1' & d2' & E1' & E2' & SS). rewrite E1', E2'. destruct z as [|x z].
  - cbn in H |- *. injection H as <-. exists d2'. split; [reflexivity|]. intros n Hn _. rewrite <- (settle_settle t n d2 Hn), SS. apply settle_settle. exact Hn.
  - cbn [map nondecreasing] in ND. destruct ND as [ND _]. cbn [run_device] in *.
    assert (settle (cmd_ts x) d2 = settle (cmd_ts x) d2') as Z by (rewrite <- (settle_settle t (cmd_ts x) d2 ND), SS; apply settle_settle; exact ND).
    rewrite Z in H. exists e. split; [exact H|reflexivity].
Qed.
End Pair.

(* One exchange. *)
Section Swap.
Context (p : memspec) (a : list Command) (c c' : Command) (z : list Command).
Hypothesis AP : apart p c c'.
Hypothesis ND : nondecreasing 0 (map cmd_ts (a ++ c :: c' :: z)).

Lemma filter_split (f : Command -> bool) x y : filter f (a ++ x :: y :: z) = filter f a ++ (if f x then [x] else []) ++ (if f y then [y] else []) ++ filter f z.
Proof using. rewrite filter_app. cbn [filter]. destruct (f x), (f y); reflexivity. Qed.
Lemma after_pair f : nondecreasing (cmd_ts c) (map cmd_ts (filter f z)).
Proof using AP ND.
  apply filter_nondecreasing. apply nondecreasing_cat in ND. destruct ND as [_ H]. cbn [map nondecreasing] in H. destruct H as (_ & _ & H). destruct AP as [E _]. now rewrite E.
Qed.
Lemma swap_run r n : forall e, run_device p (filter (fun x => to_rank r x && (cmd_ts x <=? n)) (a ++ c :: c' :: z)) (device_new p) = Some e ->
  exists e', run_device p (filter (fun x => to_rank r x && (cmd_ts x <=? n)) (a ++ c' :: c :: z)) (device_new p) = Some e' /\ settle n e = settle n e'.
Proof using AP ND.
  intros e. destruct AP as [TS K]. set (f := fun x => to_rank r x && (cmd_ts x <=? n)). rewrite !filter_split.
  destruct (f c) eqn:F1, (f c') eqn:F2; cbn [app]; try (intros H; exists e; split; [exact H|reflexivity]).
  unfold f in F1, F2. apply andb_true_iff in F1, F2. destruct F1 as [F1 G1], F2 as [F2 G2]. unfold to_rank in F1, F2.
  destruct K as [K|(M & M' & FP)]; [exfalso; apply K; apply Nat.eqb_eq in F1, F2; lia|].
  rewrite !run_device_cat. destruct (run_device p (filter f a) (device_new p)) as [d|]; [|discriminate]. intros H.
  destruct (run_swap p c c' TS M M' FP (filter f z) d e (after_pair f) H) as (e' & H' & S). exists e'. split; [exact H'|]. apply S; [lia|].
  assert (forall l x, x <= n -> Forall (fun y => cmd_ts y <= n) l -> final_time x (map cmd_ts l) <= n) as FT.
  { induction l as [|y l IH]; intros x Hx A; [exact Hx|]. inversion A; subst. apply (IH (cmd_ts y)); assumption. }
  apply FT; [lia|]. apply Forall_forall. intros y Hy. apply filter_In in Hy. destruct Hy as [_ Hy]. unfold f in Hy. lia.
Qed.
Lemma apart_sym : apart p c' c.
Proof using AP. destruct AP as [A [B|(B & C & D)]]; (split; [auto|]); [left; auto|right; split; [auto|split; [auto|]]]. intros b F1 F2. exact (D b F2 F1). Qed.
Lemma swapped_order : nondecreasing 0 (map cmd_ts (a ++ c' :: c :: z)).
Proof using AP ND. destruct AP as [E _]. rewrite map_app in *. cbn [map] in *. rewrite E in *. exact ND. Qed.
End Swap.
Lemma swap_device p a c c' z r n : apart p c c' -> nondecreasing 0 (map cmd_ts (a ++ c :: c' :: z)) -> device_at p r (a ++ c :: c' :: z) n = device_at p r (a ++ c' :: c :: z) n.
Proof.
  intros A ND. unfold device_at. destruct (run_device p (filter _ (a ++ c :: c' :: z)) _) as [e|] eqn:E.
  - destruct (swap_run p a c c' z A ND r n e E) as (e' & -> & S). cbn. now rewrite S.
  - destruct (run_device p (filter _ (a ++ c' :: c :: z)) _) as [e|] eqn:E'; [|reflexivity].
    destruct (swap_run p a c' c z (apart_sym p c c' A) (swapped_order p a c c' z A ND) r n e E') as (e' & X & _). rewrite E in X. discriminate X.
Qed.
Lemma legal_device p r cs : legal p r cs <-> exists n d, Forall (fun c => cmd_ts c <= n) cs /\ device_at p r cs n = Some d.
Proof.
  assert (forall n, Forall (fun c => cmd_ts c <= n) cs -> filter (fun c => to_rank r c && (cmd_ts c <=? n)) cs = filter (to_rank r) cs) as E.
  { intros n H. apply filter_ext_in. intros x Hx. rewrite Forall_forall in H. specialize (H x Hx). destruct (to_rank r x); cbn [andb]; lia. }
  unfold legal, device_at. split.
  - intros H. destruct (run_device p (filter (to_rank r) cs) (device_new p)) as [d|] eqn:R; [|contradiction].
    assert (exists n, Forall (fun c => cmd_ts c <= n) cs) as [n Hn].
    { clear. induction cs as [|x l [n IH]]; [exists 0; constructor|]. exists (N.max n (cmd_ts x)). constructor; [lia|]. eapply Forall_impl; [|exact IH]. cbn. intros; lia. }
    exists n, (settle n d). split; [exact Hn|]. now rewrite (E n Hn), R.
  - intros (n & d & Hn & H). rewrite (E n Hn) in H. destruct (run_device p _ _); [discriminate|discriminate H].
Qed.

Lemma filter_perm {A} (f : A -> bool) l l' : Permutation l l' -> Permutation (filter f l) (filter f l').
Proof.
  induction 1 as [|x l l' P IH|x y l|l l' l'' P IH P' IH']; cbn [filter]; [constructor|destruct (f x); [now constructor|exact IH]|destruct (f x), (f y); try reflexivity; apply perm_swap|etransitivity; eassumption].
Qed.

Record same_devices (p : memspec) (cs cs' : list Command) : Prop := {
  sd_perm : Permutation cs cs';
  sd_times : map cmd_ts cs = map cmd_ts cs';
  sd_at : forall r n, device_at p r cs n = device_at p r cs' n
}.
Lemma reordered_same p cs cs' : reordered p cs cs' -> nondecreasing 0 (map cmd_ts cs) -> same_devices p cs cs'.
Proof.
  induction 1 as [cs|a c c' z cs A R IH]; intros ND; [split; auto|]. pose proof (swapped_order p a c c' z A ND) as ND'. destruct (IH ND') as [P T D]. split.
  - etransitivity; [|exact P]. apply Permutation_app_head, perm_swap.
  - rewrite <- T, !map_app. destruct A as [E _]. cbn [map]. now rewrite E.
  - intros r n. rewrite <- D. now apply swap_device.
Qed.

Section Same.
Context (p : memspec) (cs cs' : list Command) (t : N).
Hypothesis R : reordered p cs cs'.
Hypothesis W : DeviceSpec.well_formed p.
Hypothesis T : timely p cs t.
Hypothesis L : legal_history p cs.
Let SD := reordered_same p cs cs' R (proj1 T).

Theorem reordered_legal : timely p cs' t /\ legal_history p cs'.
Proof using R T L.
  pose proof (sd_perm _ _ _ SD) as P. pose proof (sd_times _ _ _ SD) as TT. pose proof (sd_at _ _ _ SD) as D. split.
  - destruct T as (T1 & T2 & T3 & T4 & T5). unfold timely. rewrite <- TT, <- (Permutation_length P). auto.
  - destruct L as [L1 L2]. split; [eapply Permutation_Forall; eassumption|]. intros r Hr. apply legal_device. destruct (proj1 (legal_device p r cs) (L2 r Hr)) as (n & d & A & B).
    exists n, d. split; [eapply Permutation_Forall; eassumption|]. now rewrite <- D.
Qed.
Lemma cycles_re r P : cycles_where p r cs t P = cycles_where p r cs' t P.
Proof using R T. unfold cycles_where. apply count_below_ext. intros m _. now rewrite (sd_at _ _ _ SD). Qed.
Lemma counted_perm k r b l l' : Permutation l l' -> counted_in p k r b l = counted_in p k r b l'.
Proof using. unfold counted_in. induction 1; cbn [fold_right]; [reflexivity|now rewrite IHPermutation| |congruence]. destruct (Nat.eqb _ r), (Nat.eqb _ r); lia. Qed.
Theorem reordered_views r : (r < ms_ranks p)%nat -> (exists v, rank_view p cs t r = Some v /\ rank_view p cs' t r = Some v) /\
  forall b, (b < ms_banks p)%nat -> (exists v, bank_view p cs t r b = Some v /\ bank_view p cs' t r b = Some v) /\
    forall k, exists n, bank_counter p cs t r b k = Some n /\ bank_counter p cs' t r b k = Some n.
Proof using R W T L.
  intros Hr. destruct reordered_legal as [T2 L2]. split.
  - exists (spec_rank p r cs t). rewrite !rank_view_spec by auto. split; [reflexivity|]. unfold spec_rank. now rewrite !cycles_re.
  - intros b Hb. split.
    + exists (spec_bank p r b cs t). rewrite !bank_view_spec by auto. split; [reflexivity|]. unfold spec_bank. now rewrite !cycles_re.
    + intros k. destruct (counter_tally p cs t r b k W T L Hr Hb) as (d1 & D1 & C1 & _). destruct (counter_tally p cs' t r b k W T2 L2 Hr Hb) as (d2 & D2 & C2 & _).
      eexists. split; [exact C1|]. rewrite C2. rewrite (sd_at _ _ _ SD r t) in D1. rewrite D1 in D2. injection D2 as <-. f_equal.
      unfold tally. destruct k; rewrite (counted_perm _ r b _ _ (sd_perm _ _ _ SD)); reflexivity.
Qed.
Theorem reordered_energy e : EnergySpec.well_formed e -> same_memory p e ->
  exists s s' en en', run_core p cs (core_new p) = Ok s /\ run_core p cs' (core_new p) = Ok s' /\
    calc_energy e (fill_core (snd (window_stats p t s))) = Exactly en /\ calc_energy e (fill_core (snd (window_stats p t s'))) = Exactly en' /\ (en_total en == en_total en')%Q.
Proof using R W T L.
  intros WE SM. destruct (backgrounds_exist e WE) as [I B]. destruct reordered_legal as [T2 L2].
  destruct (legal_history_accepted p cs t W T L) as [s S]. destruct (legal_history_accepted p cs' t W T2 L2) as [s' S'].
  destruct (core_energy_charge p e I _ t s W WE SM B T L S) as (en & E & C). destruct (core_energy_charge p e I _ t s' W WE SM B T2 L2 S') as (en' & E' & C').
  exists s, s', en, en'. repeat (split; [assumption|]). rewrite C, C'. apply qsum_ext. intros w _. apply qsum_ext. intros r _.
  unfold charge. rewrite (sd_at _ _ _ SD r t), (qsum_perm _ _ _ (filter_perm (to_rank r) _ _ (sd_perm _ _ _ SD))).
  assert (over_cycles p r cs t (standby w (I w)) == over_cycles p r cs' t (standby w (I w)))%Q as ->; [|reflexivity].
  unfold over_cycles. apply qsum_ext. intros i _. rewrite (sd_at _ _ _ SD). reflexivity.
Qed.
End Same.
