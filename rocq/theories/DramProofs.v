(* The DRAM object does what its core and its interface do on their own. *)
From Coq Require Import NArith QArith List Bool Lia ZifyBool ZifyNat ZifyN.
From Verif Require Import Base Command CoreModel Bits DbiModel ListFacts CoreBasics HistorySpec CoreHistory BusModel StatsModel StatsSpec ToggleModel DataProofs EnergyModel IfEnergyModel InterfaceModel InterfaceSpec InterfaceCa FormatProofs AmbleProofs DramModel DramSpec.
Import ListNotations.
Local Open Scope N_scope.
Ltac Zify.zify_post_hook ::= idtac.

Lemma window_parts p t d d' st : dram_window p t d = Returned (d', st) ->
  dr_core d' = fst (window_stats (dp_core p) t (dr_core d)) /\ dr_if d' = dr_if d /\
  if_window (dr_if d) t (fill_core (snd (window_stats (dp_core p) t (dr_core d)))) = Value st.
Proof.
  unfold dram_window. destruct (window_stats (dp_core p) t (dr_core d)) as [s a]. cbn [fst snd].
  destruct (if_window (dr_if d) t (fill_core a)) as [x|f]; [|discriminate]. intros E. injection E as <- <-. repeat split.
Qed.

Lemma core_part p c d d' : do_core_command p c d = Returned d' -> do_command (dp_core p) c (dr_core d) = Ok (dr_core d') /\ dr_if d' = dr_if d.
Proof. unfold do_core_command. destruct (do_command (dp_core p) c (dr_core d)); try discriminate. intros E. injection E as <-. split; reflexivity. Qed.
Lemma iface_part c d d' : do_interface_command c d = Returned d' -> if_command c (dr_if d) = Value (dr_if d') /\ dr_core d' = dr_core d.
Proof. unfold do_interface_command. destruct (if_command c (dr_if d)); try discriminate. intros E. injection E as <-. split; reflexivity. Qed.
Lemma both_parts p c d d' : do_dram_command p c d = Returned d' ->
  do_command (dp_core p) c (dr_core d) = Ok (dr_core d') /\ if_command c (dr_if d) = Value (dr_if d').
Proof.
  unfold do_dram_command. intros E. destruct (do_core_command p c d) as [d1|f|f s] eqn:E1; try discriminate.
  apply core_part in E1 as [E1 I1]. apply iface_part in E as [E2 I2]. rewrite I1 in E2. rewrite I2. split; assumption.
Qed.

Lemma uses_split p : forall us d d', uses_run p us d = Returned d' ->
  (exists a, run_ops (dp_core p) (core_ops us) (dr_core d) = Ok (dr_core d', a)) /\ calls_run (iface_calls us) (dr_if d) = Value (dr_if d').
Proof.
  induction us as [|u us IH]; intros d d' E.
  - injection E as <-. split; [exists []; reflexivity|reflexivity].
  - cbn [uses_run] in E. destruct (use_do p u d) as [d1|f|f s] eqn:E1; try discriminate. apply IH in E as [[a Ec] Ei].
    destruct u as [c|c|x|t]; cbn [use_do] in E1; unfold core_ops, iface_calls; cbn [flat_map app].
    + apply both_parts in E1 as [A B]. split; [exists a; cbn [run_ops]; rewrite A; exact Ec|].
      unfold calls_run. cbn [loop call_do]. rewrite B. exact Ei.
    + apply core_part in E1 as [A B]. split; [exists a; cbn [run_ops]; rewrite A; exact Ec|]. rewrite <- B. exact Ei.
    + destruct (call_do x (dr_if d)) as [i|f] eqn:X; [|discriminate]. injection E1 as <-. split; [exists a; exact Ec|].
      unfold calls_run. cbn [loop]. rewrite X. exact Ei.
    + destruct (dram_window p t d) as [[d2 st]|f|f s] eqn:X; try discriminate. injection E1 as <-. apply window_parts in X as (A & B & _).
      split; [|rewrite <- B; exact Ei]. cbn [run_ops]. destruct (window_stats (dp_core p) t (dr_core d)) as [s1 b]. cbn [fst] in A. rewrite <- A.
      fold (core_ops us). rewrite Ec. eexists. reflexivity.
Qed.

(* Commands alone: the two parts decide independently whether they return. *)
Lemma commands_split p : forall cs d d', uses_run p (map Both cs) d = Returned d' <->
  run_core (dp_core p) cs (dr_core d) = Ok (dr_core d') /\ calls_run (map Do cs) (dr_if d) = Value (dr_if d').
Proof.
  induction cs as [|c cs IH]; intros d d'.
  - cbn. split; [intros E; injection E as <-; split; reflexivity|intros [A B]]. injection A as A. injection B as B. destruct d, d'; cbn in *; congruence.
  - cbn [map uses_run use_do run_core]. unfold calls_run. cbn [map loop call_do]. fold (calls_run (map Do cs)).
    unfold do_dram_command, do_core_command, do_interface_command.
    destruct (do_command (dp_core p) c (dr_core d)) as [s| | |]; cbn [dr_if dr_core]; try (split; [discriminate|intros [A _]; discriminate]).
    destruct (if_command c (dr_if d)) as [i|f]; cbn [bind].
    + rewrite IH. cbn [dr_core dr_if]. reflexivity.
    + split; [discriminate|intros [_ B]; discriminate].
Qed.

(* ---- the interface only adds its own fields ---- *)

Definition own_ranks (i : iface) (st : sim_stats) (l : list cycle_stats) : Prop :=
  match fi_std (if_spec i) with
  | DDR4 => length l = fi_ranks (if_spec i) /\ forall j, (j < fi_ranks (if_spec i))%nat ->
      exists r s, nth_error (if_ranks i) j = Some r /\ nth_error (resize_stats (ss_rank st) (fi_ranks (if_spec i))) j = Some s /\
        nth_error l j = Some (mkCS (cs_counter s) (cs_cycles s) (prepos_of r))
  | _ => l = ss_rank st
  end.
Lemma resize_length l n : length (resize_stats l n) = n.
Proof. unfold resize_stats. rewrite app_length, firstn_length, repeat_length. lia. Qed.
Lemma fill_ranks_own i st l : fill_ranks i (ss_rank st) = Value l -> own_ranks i st l.
Proof.
  unfold fill_ranks, own_ranks. destruct (fi_std (if_spec i)); try (intros E; injection E as <-; reflexivity).
  intros E. apply fill_rank_loop in E as [L E]. rewrite resize_length in L. split; [exact L|]. intros j Hj.
  specialize (E j). replace ((0 <=? j)%nat && (j <? 0 + fi_ranks (if_spec i))%nat) with true in E by (symmetry; apply andb_true_intro; split; [apply Nat.leb_le; lia|apply Nat.ltb_lt; lia]).
  destruct (nth_error (if_ranks i) j) as [r|], (nth_error (resize_stats (ss_rank st) (fi_ranks (if_spec i))) j) as [s|];
    try (apply nth_error_None in E; lia). exists r, s. repeat split. exact E.
Qed.
Lemma fill_rank_goes ranks : forall n k l, (k + n <= length ranks)%nat -> (k + n <= length l)%nat -> exists l', loop (fill_rank ranks) (seq k n) l = Value l'.
Proof.
  induction n as [|n IH]; intros k l H1 H2; [exists l; reflexivity|]. cbn [seq loop]. unfold fill_rank at 1, fetch.
  destruct (nth_error ranks k) as [r|] eqn:R; [|apply nth_error_None in R; lia]. destruct (nth_error l k) as [s|] eqn:S; [|apply nth_error_None in S; lia].
  cbn [bind]. unfold put. replace (k <? length l)%nat with true by (symmetry; apply Nat.ltb_lt; lia). cbn [bind]. apply IH; [lia|]. rewrite length_upd. lia.
Qed.

(* Starting from other statistics with the same (zero) bus fields. *)
Lemma window_frame i t a b st : (forall n, bus_at a n = bus_at b n) -> if_window i t a = Value st ->
  exists st', if_window i t b = Value st' /\ (forall n, bus_at st n = bus_at st' n) /\ ss_bank st = ss_bank a /\ ss_bank st' = ss_bank b /\
    own_ranks i a (ss_rank st) /\ own_ranks i b (ss_rank st').
Proof.
  intros Eq E. unfold if_window in *. cbv zeta in *. apply bind_inv in E as (ranks & Fr & E).
  assert (exists ranks', fill_ranks i (ss_rank b) = Value ranks') as [ranks' Fr'].
  { pose proof (fill_ranks_own i a ranks Fr) as O. unfold own_ranks in O. unfold fill_ranks. destruct (fi_std (if_spec i)); try (eexists; reflexivity).
    destruct O as [L O]. apply fill_rank_goes; [|rewrite resize_length; lia]. destruct (fi_ranks (if_spec i)) as [|n]; [lia|].
    destruct (O n (Nat.lt_succ_diag_r n)) as (r & s & R & _). assert (n < length (if_ranks i))%nat by (apply nth_error_Some; congruence). lia. }
  rewrite Fr'. cbn [bind]. apply bind_inv in E as (cmd & E1 & E). rewrite E1. cbn [bind]. apply bind_inv in E as (dd & E2 & E). rewrite E2. cbn [bind].
  apply bind_inv in E as (x & E3 & E). rewrite E3. cbn [bind]. apply bind_inv in E as (y & E4 & E). rewrite E4. cbn [bind]. apply value_inj in E. subst st.
  eexists. split; [reflexivity|]. split; [|repeat split; try reflexivity; cbn [ss_rank]; apply fill_ranks_own; assumption].
  pose proof (Eq ReadBus) as Q1. pose proof (Eq WriteBus) as Q2. pose proof (Eq WClockStats) as Q3. pose proof (Eq ReadDBI) as Q4. pose proof (Eq WriteDBI) as Q5.
  pose proof (Eq TogglingRead) as Q6. pose proof (Eq TogglingWrite) as Q7. pose proof (Eq WriteDQS) as Q8. cbn in Q1, Q2, Q3, Q4, Q5, Q6, Q7, Q8.
  intros []; cbn [bus_at ss_commandBus ss_readBus ss_writeBus ss_clock ss_wClock ss_readDBI ss_writeDBI ss_togRead ss_togWrite ss_readDQS ss_writeDQS];
    rewrite ?Q1, ?Q2, ?Q3, ?Q4, ?Q5, ?Q6, ?Q7, ?Q8; reflexivity.
Qed.

(* ---- no call changes the memory description ---- *)

Lemma command_bus_spec c i i' : handle_command_bus c i = Value i' -> if_spec i' = if_spec i.
Proof.
  unfold handle_command_bus. destruct (if_pat i); intros E; apply bind_inv in E as (x & _ & E); apply bind_inv in E as (b & _ & E); apply value_inj in E; subst i'; reflexivity.
Qed.
Lemma dqs_spec c read n i i' : handle_dqs c read n i = Value i' -> if_spec i' = if_spec i.
Proof.
  unfold handle_dqs. destruct (fi_std (if_spec i)), read; intros E; repeat (apply bind_inv in E as (? & _ & E)); apply value_inj in E; subst i'; reflexivity.
Qed.
Lemma burst_spec c read i x : handle_burst c read i = Value x -> if_spec (fst x) = if_spec i.
Proof.
  unfold handle_burst. destruct (cmd_sz_bits c =? 0).
  - destruct (d_mode (if_data i)); intros E; repeat (apply bind_inv in E as (? & _ & E)); apply value_inj in E; subst x; reflexivity.
  - destruct (bus_lines i =? 0); [discriminate|]. intros E. apply bind_inv in E as (y & _ & E). cbv zeta in E.
    destruct (fi_std (if_spec i)); repeat (apply bind_inv in E as (? & _ & E)); apply value_inj in E; subst x; reflexivity.
Qed.
Lemma overrides_spec i n read : if_spec (handle_overrides i n read) = if_spec i.
Proof. unfold handle_overrides. destruct (if_pat i); reflexivity. Qed.
Lemma command_spec c i i' : if_command c i = Value i' -> if_spec i' = if_spec i.
Proof.
  unfold if_command. intros E. apply bind_inv in E as (j & R & E). apply value_inj in E. subst i'. cbn [if_with_last if_spec].
  destruct (routing (if_spec i) (cmd_type c)); try discriminate.
  - eapply command_bus_spec; eassumption.
  - unfold handle_data in R. apply bind_inv in R as (x & Bx & R). apply burst_spec in Bx. cbv zeta in R. apply bind_inv in R as (k & D & R). apply dqs_spec in D.
    apply bind_inv in R as (l & H & R). apply command_bus_spec in H. rewrite overrides_spec in H.
    assert (if_spec l = if_spec i) as Sl by congruence. destruct (fi_std (if_spec l)); try (apply value_inj in R; subst j; exact Sl).
    unfold check in R. destruct (Nat.ltb (N.to_nat (cmd_rank c)) (length (if_ranks l))); [|discriminate]. do 2 (apply bind_inv in R as (? & _ & R)). apply value_inj in R. subst j. exact Sl.
  - unfold end_of_simulation in R. destruct (if_dbi i); [apply bind_inv in R as (? & _ & R)|]; apply value_inj in R; subst j; reflexivity.
  - apply value_inj in R. subst j. reflexivity.
Qed.
Lemma call_spec x i i' : call_do x i = Value i' -> if_spec i' = if_spec i.
Proof.
  destruct x as [c|e|a b|e|t|t]; cbn [call_do]; intros E.
  - eapply command_spec; eassumption.
  - apply value_inj in E. subst i'. unfold if_enable_dbi. destruct (if_dbi i); [destruct (match fi_std (if_spec i) with DDR4 => fi_bits (if_spec i) =? 4 | _ => false end)|]; reflexivity.
  - apply value_inj in E. subst i'. reflexivity.
  - unfold if_set_parity, check in E. destruct (fi_wck_on (if_spec i) || negb e); [|discriminate]. destruct (if_pat i); apply value_inj in E; subst i'; reflexivity.
  - unfold if_enable in E. destruct (if_enabled i); [|do 2 (apply bind_inv in E as (? & _ & E))]; apply value_inj in E; subst i'; reflexivity.
  - unfold if_disable in E. destruct (if_enabled i); [do 2 (apply bind_inv in E as (? & _ & E))|]; apply value_inj in E; subst i'; reflexivity.
Qed.
Lemma calls_spec : forall xs i i', calls_run xs i = Value i' -> if_spec i' = if_spec i.
Proof.
  induction xs as [|x xs IH]; intros i i' E; [apply value_inj in E; subst; reflexivity|].
  apply loop_cons_inv in E as (j & E1 & E). apply call_spec in E1. rewrite <- E1. apply IH. exact E.
Qed.

(* ---- the statistics ---- *)

Lemma window_sizes p t s : CoreBasics.sizes_ok p s -> length (st_rank (snd (window_stats p t s))) = ms_ranks p.
Proof. intros H. apply (process_sizes p t) in H. unfold window_stats. cbn [snd st_rank]. rewrite map_length. apply H. Qed.


Lemma same_nth {A} n : forall l l' : list A, length l = n -> length l' = n -> (forall r, (r < n)%nat -> nth_error l r = nth_error l' r) -> l = l'.
Proof.
  induction n as [|n IH]; intros [|x l] [|y l'] H H' E; try discriminate; [reflexivity|]. f_equal.
  - specialize (E 0%nat (Nat.lt_0_succ n)). injection E as ->. reflexivity.
  - apply IH; [now injection H|now injection H'|]. intros r Hr. apply (E (S r)). lia.
Qed.

Lemma statistics_parts p us t d0 d d' st : views_agree p -> dram_new p = Value d0 -> uses_run p us d0 = Returned d ->
  nondecreasing 0 (map op_time (core_ops us)) -> final_time 0 (map op_time (core_ops us)) <= t -> dram_window p t d = Returned (d', st) ->
  exists s i0 i si,
    run_core (dp_core p) (HistorySpec.commands (core_ops us)) (core_new (dp_core p)) = Ok s /\
    iface_new (dp_if p) (dp_sim p) = Value i0 /\ calls_run (iface_calls us) i0 = Value i /\ if_window i t sim_stats0 = Value si /\
    let own := snd (window_stats (dp_core p) t s) in
    (forall n, bus_at st n = bus_at si n) /\
    ss_bank st = map bank_entry (st_bank own) /\
    (length (ss_rank st) = ms_ranks (dp_core p) /\
     forall r, (r < ms_ranks (dp_core p))%nat -> exists c, shown_rank own r = Some c /\ nth_error (ss_rank st) r = Some (rank_entry c (nth_error (ss_rank si) r))) /\
    map cs_cycles (ss_rank st) = st_rank own /\
    (ms_std (dp_core p) = DDR4 -> map cs_counter (ss_rank st) = map cs_counter (ss_rank si) /\ map cs_prepos (ss_rank st) = map cs_prepos (ss_rank si)).
Proof.
  intros V New Run Nd Ft Win. unfold dram_new in New. apply bind_inv in New as (i0 & Ni & New). apply value_inj in New. subst d0.
  apply uses_split in Run as [[a Rc] Ri]. cbn [dr_core dr_if] in Rc, Ri. apply window_parts in Win as (_ & _ & Win).
  destruct (queries_do_not_matter _ _ _ _ _ t Nd Rc Ft) as (s & Rs & Eq). rewrite Eq in Win.
  assert (forall n, bus_at (fill_core (snd (window_stats (dp_core p) t s))) n = bus_at sim_stats0 n) as Z0 by (intros []; reflexivity).
  destruct (window_frame (dr_if d) t _ sim_stats0 st Z0 Win) as (si & Wi & B1 & B2 & _ & O1 & O2).
  exists s, i0, (dr_if d), si. split; [exact Rs|]. split; [exact Ni|]. split; [exact Ri|]. split; [exact Wi|]. cbv zeta.
  pose proof (window_sizes _ t _ (run_core_sizes _ _ _ _ (core_new_sizes (dp_core p)) Rs)) as L.
  set (own := snd (window_stats (dp_core p) t s)) in *. split; [exact B1|]. split; [rewrite B2; reflexivity|].
  assert (if_spec (dr_if d) = dp_if p) as Sp.
  { rewrite (calls_spec _ _ _ Ri). apply InterfaceTop.new_built in Ni. apply (InterfaceTop.bt_spec _ _ _ Ni). }
  unfold own_ranks in O1, O2. rewrite Sp in O1, O2. rewrite (va_if p V) in O1, O2. rewrite (proj1 (va_ranks p V)) in O1, O2.
  assert (forall r, (r < ms_ranks (dp_core p))%nat -> exists c, shown_rank own r = Some c) as Sh.
  { intros r Hr. unfold shown_rank. destruct (nth_error (st_rank own) r) eqn:Q; [eexists; reflexivity|]. apply nth_error_None in Q. lia. }
  assert (ms_std (dp_core p) = DDR4 \/ ms_std (dp_core p) <> DDR4) as [S4|S4] by (destruct (ms_std (dp_core p)); [left; reflexivity|right; discriminate..]).
  - rewrite S4 in O1, O2. destruct O1 as [L1 O1], O2 as [L2 O2].
    assert (forall r, (r < ms_ranks (dp_core p))%nat -> exists c, shown_rank own r = Some c /\ nth_error (ss_rank st) r = Some (rank_entry c (nth_error (ss_rank si) r)) /\
      exists y, nth_error (ss_rank si) r = Some y /\ cs_counter y = cs_zero) as G; [|split; [|split]].
    1:{ intros r Hr. destruct (Sh r Hr) as [c Hc]. exists c. split; [exact Hc|].
    assert (nth_error (ss_rank si) r <> None) as Nn by (apply nth_error_Some; lia).
    destruct (O1 r Hr) as (x & y & X & Y & Z). destruct (O2 r Hr) as (x' & y' & X' & Y' & Z'). split; [|eexists; split; [exact Z'|cbn [cs_counter]; unfold resize_stats in Y'; cbn [ss_rank sim_stats0] in Y'; rewrite firstn_nil in Y'; cbn [app] in Y'; apply nth_error_In, repeat_spec in Y'; subst y'; reflexivity]].
    rewrite Z, Z'. rewrite X in X'. injection X' as <-.
    unfold rank_entry. cbn [cs_prepos]. f_equal. f_equal.
    + unfold resize_stats in Y. cbn [fill_core ss_rank] in Y. rewrite nth_error_app1 in Y by (rewrite firstn_length, map_length; lia). rewrite firstn_all2 in Y by (rewrite map_length; lia).
      rewrite nth_error_map in Y. fold own in Y. unfold shown_rank in Hc. rewrite Hc in Y. injection Y as <-. reflexivity.
    + unfold resize_stats in Y. cbn [fill_core ss_rank] in Y. rewrite nth_error_app1 in Y by (rewrite firstn_length, map_length; lia). rewrite firstn_all2 in Y by (rewrite map_length; lia).
      rewrite nth_error_map in Y. fold own in Y. unfold shown_rank in Hc. rewrite Hc in Y. injection Y as <-. reflexivity. }
    + split; [exact L1|]. intros r Hr. destruct (G r Hr) as (c & A & B & _). exists c. split; assumption.
    + apply (same_nth (length (ss_rank st))); [apply map_length|lia|]. intros r Hr. rewrite L1 in Hr. destruct (G r Hr) as (c & A & B & _).
      rewrite nth_error_map, B. unfold shown_rank in A. rewrite A. reflexivity.
    + intros _. split.
      * apply (same_nth (length (ss_rank st))); [apply map_length|rewrite map_length; lia|]. intros r Hr. rewrite L1 in Hr. destruct (G r Hr) as (c & A & B & y & Y & Zy).
        rewrite !nth_error_map, B, Y. cbn. rewrite Zy. reflexivity.
      * apply (same_nth (length (ss_rank st))); [apply map_length|rewrite map_length; lia|]. intros r Hr. rewrite L1 in Hr. destruct (G r Hr) as (c & A & B & y & Y & Zy).
        rewrite !nth_error_map, B, Y. reflexivity.
  - assert (ss_rank st = ss_rank (fill_core own) /\ ss_rank si = []) as [E1 E2].
    { destruct (ms_std (dp_core p)); [contradiction|..]; split; assumption. }
    rewrite E1, E2. cbn [fill_core ss_rank]. split; [|split; [rewrite map_map; apply map_id|intros Q; contradiction]]. rewrite map_length. split; [exact L|]. intros r Hr. destruct (Sh r Hr) as [c Hc]. exists c. split; [exact Hc|].
    rewrite nth_error_map. unfold shown_rank in Hc. rewrite Hc. cbn [option_map]. replace (nth_error (@nil cycle_stats) r) with (@None cycle_stats) by (destruct r; reflexivity). reflexivity.
Qed.

(* ---- the energies ---- *)

Lemma fold_ext {A B} (f g : A -> B -> A) l : (forall a b, f a b = g a b) -> forall a, fold_left f l a = fold_left g l a.
Proof. intros E. induction l as [|b l IH]; intros a; [reflexivity|]. cbn. rewrite E. apply IH. Qed.
Lemma bank_energy_cycles p w k r r' : cs_cycles r = cs_cycles r' -> bank_energy p w k r = bank_energy p w k r'.
Proof. intros E. unfold bank_energy. now rewrite E. Qed.
Lemma rank_energy_cycles p w r r' e : cs_cycles r = cs_cycles r' -> rank_energy p w r e = rank_energy p w r' e.
Proof. intros E. unfold rank_energy. now rewrite E. Qed.
Lemma nth_cycles a b i : map cs_cycles a = map cs_cycles b ->
  match nth_error a i, nth_error b i with Some x, Some y => cs_cycles x = cs_cycles y | None, None => True | _, _ => False end.
Proof.
  intros E. assert (nth_error (map cs_cycles a) i = nth_error (map cs_cycles b) i) as Q by now rewrite E. rewrite !nth_error_map in Q.
  destruct (nth_error a i), (nth_error b i); cbn in Q; try discriminate; [now injection Q|exact I].
Qed.
Lemma core_energy_ext p a b : ss_bank a = ss_bank b -> map cs_cycles (ss_rank a) = map cs_cycles (ss_rank b) -> calc_energy p a = calc_energy p b.
Proof.
  intros E1 E2. unfold calc_energy. destruct (es_dr p =? 0); [reflexivity|]. destruct (finite_domain p); [|reflexivity]. apply fold_ext. intros [e| |] w; try reflexivity.
  unfold rank_loop. apply fold_ext. intros [e1| |] i; try reflexivity.
  assert (forall e, device_loop p w a i e = device_loop p w b i e) as D.
  { intros e2. unfold device_loop. apply fold_ext. intros [e3| |] d; try reflexivity. unfold bank_loop. apply fold_ext. intros [e4| |] k; try reflexivity. rewrite E1.
    destruct (nth_error (ss_bank b) (i * es_banks p + k)) as [x|]; [|reflexivity]. pose proof (nth_cycles _ _ i E2) as Q.
    destruct (nth_error (ss_rank a) i), (nth_error (ss_rank b) i); try contradiction; [|reflexivity]. rewrite (bank_energy_cycles p w x _ _ Q). reflexivity. }
  rewrite D. destruct (device_loop p w b i e1); try reflexivity. pose proof (nth_cycles _ _ i E2) as Q.
  destruct (nth_error (ss_rank a) i), (nth_error (ss_rank b) i); try contradiction; [|reflexivity]. now rewrite (rank_energy_cycles p w _ _ _ Q).
Qed.

Lemma rank_sum_map {X} (g : cycle_stats -> X) (f : X -> N) a b : map g (ss_rank a) = map g (ss_rank b) -> rank_sum (fun r => f (g r)) a = rank_sum (fun r => f (g r)) b.
Proof.
  unfold rank_sum. intros E. generalize 0. revert E. generalize (ss_rank a) (ss_rank b). induction l as [|x l IH]; intros [|y l'] E n; try discriminate; [reflexivity|].
  injection E as E1 E2. cbn [fold_left]. rewrite E1. apply IH. exact E2.
Qed.
Lemma interface_energy_ext p a b : (forall n, bus_at a n = bus_at b n) ->
  (is_std p = DDR4 -> map cs_counter (ss_rank a) = map cs_counter (ss_rank b) /\ map cs_prepos (ss_rank a) = map cs_prepos (ss_rank b)) ->
  calculateEnergy p a = calculateEnergy p b.
Proof.
  intros E R. pose proof (E CommandBus) as B1. pose proof (E ReadBus) as B2. pose proof (E WriteBus) as B3. pose proof (E ClockStats) as B4. pose proof (E WClockStats) as B5.
  pose proof (E ReadDBI) as B6. pose proof (E WriteDBI) as B7. pose proof (E TogglingRead) as B8. pose proof (E TogglingWrite) as B9. pose proof (E ReadDQS) as B10. pose proof (E WriteDQS) as B11.
  cbn [bus_at] in *.
  assert (is_std p = DDR4 -> ambleEnergy p a = ambleEnergy p b) as A.
  { intros S. destruct (R S) as [R1 R2]. unfold ambleEnergy, readcount, writecount.
    rewrite (rank_sum_map cs_prepos pp_ws a b R2), (rank_sum_map cs_prepos pp_rs a b R2).
    rewrite (rank_sum_map cs_counter (fun c => u64_add (cs_reads c) (cs_readAuto c)) a b R1), (rank_sum_map cs_counter (fun c => u64_add (cs_writes c) (cs_writeAuto c)) a b R1). reflexivity. }
  unfold calculateEnergy, calcClockEnergy, calcDQSEnergy, calcDQEnergyTogglingRate, calcDQEnergy, calcCAEnergy, calcDBIEnergy.
  rewrite B1, B2, B3, B4, B5, B6, B7, B8, B9, B10, B11. destruct (is_std p); try reflexivity. rewrite A by reflexivity. reflexivity.
Qed.

Theorem statistics_split p us t d0 d d' st : views_agree p -> dram_new p = Value d0 -> uses_run p us d0 = Returned d ->
  nondecreasing 0 (map op_time (core_ops us)) -> final_time 0 (map op_time (core_ops us)) <= t -> dram_window p t d = Returned (d', st) ->
  exists s i0 i si,
    run_core (dp_core p) (HistorySpec.commands (core_ops us)) (core_new (dp_core p)) = Ok s /\
    iface_new (dp_if p) (dp_sim p) = Value i0 /\ calls_run (iface_calls us) i0 = Value i /\ if_window i t sim_stats0 = Value si /\
    let own := snd (window_stats (dp_core p) t s) in
    (forall n, bus_at st n = bus_at si n) /\
    ss_bank st = map bank_entry (st_bank own) /\
    length (ss_rank st) = ms_ranks (dp_core p) /\
    (forall r, (r < ms_ranks (dp_core p))%nat -> exists c, shown_rank own r = Some c /\ nth_error (ss_rank st) r = Some (rank_entry c (nth_error (ss_rank si) r))) /\
    calc_core_stats p st = calc_energy (dp_ce p) (fill_core own) /\
    calc_interface_stats p st = calculateEnergy (dp_ie p) si.
Proof.
  intros V New Run Nd Ft Win. destruct (statistics_parts p us t d0 d d' st V New Run Nd Ft Win) as (s & i0 & i & si & H1 & H2 & H3 & H4 & H5). cbv zeta in H5.
  destruct H5 as (A & B & [C1 C2] & D & F). exists s, i0, i, si. split; [exact H1|]. split; [exact H2|]. split; [exact H3|]. split; [exact H4|]. cbv zeta.
  split; [exact A|]. split; [exact B|]. split; [exact C1|]. split; [exact C2|]. split.
  - apply core_energy_ext; [exact B|]. rewrite D. cbn [fill_core ss_rank]. rewrite map_map. symmetry. apply map_id.
  - apply interface_energy_ext; [exact A|]. rewrite (va_ie p V). exact F.
Qed.

(* A query leaves behind an object that answers the same. *)
Lemma window_twice p t d d' st : dram_window p t d = Returned (d', st) -> dram_window p t d' = Returned (d', st).
Proof.
  intros E. pose proof E as E0. apply window_parts in E as (A & B & C). unfold dram_window.
  pose proof (query_repeat (dp_core p) t (dr_core d)) as Q. rewrite <- A in Q.
  assert (fst (window_stats (dp_core p) t (dr_core d')) = dr_core d') as Q2.
  { rewrite A. unfold window_stats. cbn [fst]. apply process_process. apply N.le_refl. }
  destruct (window_stats (dp_core p) t (dr_core d')) as [s a]. cbn [fst snd] in Q, Q2. rewrite B, Q, C, Q2. destruct d' as [c i]. cbn in *. subst i. reflexivity.
Qed.
Lemma total_split p t d d' st a b : dram_window p t d = Returned (d', st) -> calc_core_stats p st = Exactly a -> calc_interface_stats p st = Exactly b ->
  total_energy p t d = Returned (d', Exactly (en_total a + ie_total b))%Q.
Proof. intros W A B. unfold total_energy, calc_core, calc_interface. rewrite W, (window_twice _ _ _ _ _ W), A, B. reflexivity. Qed.

(* ---- no command is ever counted for a rank ---- *)

Lemma rank_counters_empty p t d d' st : dram_window p t d = Returned (d', st) -> Forall (fun r => cs_counter r = cs_zero) (ss_rank st).
Proof.
  intros W. apply window_parts in W as (_ & _ & W). set (own := snd (window_stats (dp_core p) t (dr_core d))) in *.
  assert (forall n, bus_at (fill_core own) n = bus_at (fill_core own) n) as Z0 by reflexivity.
  destruct (window_frame _ t _ _ st Z0 W) as (_ & _ & _ & _ & _ & O & _). unfold own_ranks in O.
  assert (Forall (fun r => cs_counter r = cs_zero) (ss_rank (fill_core own))) as F by (apply Forall_map, Forall_forall; reflexivity).
  destruct (fi_std (if_spec (dr_if d))); try (rewrite O; exact F). destruct O as [L O]. apply Forall_forall. intros x Hx. apply In_nth_error in Hx as [j Hj].
  assert (j < fi_ranks (if_spec (dr_if d)))%nat as Lj by (rewrite <- L; apply nth_error_Some; congruence).
  destruct (O j Lj) as (r & s & _ & Y & Z). rewrite Hj in Z. injection Z as ->. cbn [cs_counter]. unfold resize_stats in Y.
  apply nth_error_In, in_app_or in Y as [Y|Y].
  - rewrite Forall_forall in F. apply F. rewrite <- (firstn_skipn (fi_ranks (if_spec (dr_if d))) (ss_rank (fill_core own))). apply in_or_app. left. exact Y.
  - apply repeat_spec in Y. subst s. reflexivity.
Qed.
