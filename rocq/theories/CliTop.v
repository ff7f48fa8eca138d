(* The program as a whole. *)
From Coq Require Import NArith QArith String List Bool Ascii Arith Lia.
From Verif Require Import Base Command CoreModel Bits HistorySpec CoreBounds StatsModel StatsSpec EnergyModel EnergySpec EnergyMore IfEnergyModel InterfaceModel InterfaceSpec InterfaceCa
  DramModel DramSpec DramProofs CsvModel CliModel CliSpec CsvProofs CliProofs.
Import ListNotations.
Local Open Scope N_scope.

(* ---- the time of the result ---- *)

Lemma ich_last_le {A Ctx} (exec : N -> A -> Ctx -> Ctx) t : forall q ctx last, last <= t -> snd (ich_process exec t q ctx last) <= t.
Proof.
  induction q as [|[ts x] q IH]; intros ctx last L; cbn [ich_process]; [exact L|].
  destruct (N.leb_spec ts t) as [K|K]; [apply IH; exact K|exact L].
Qed.

Lemma query_last_le p t s : co_last s <= t -> co_last (fst (window_stats p t s)) <= t.
Proof.
  intros L. unfold window_stats. cbn [fst]. unfold process_queue.
  pose proof (ich_last_le (exec_q p) t (co_queue s) (co_ranks s) (co_last s) L) as K.
  destruct (ich_process (exec_q p) t (co_queue s) (co_ranks s) (co_last s)) as [[q rs] l]. exact K.
Qed.

Lemma command_last_if c i i' : if_command c i = Value i' -> if_last i' = cmd_ts c.
Proof. unfold if_command. intros E. apply bind_inv in E as (j & _ & E). injection E as <-. reflexivity. Qed.

Lemma calls_last : forall cs i i' t, calls_run (map Do cs) i = Value i' -> if_last i = t -> if_last i' = final_time t (map cmd_ts cs).
Proof.
  induction cs as [|c cs IH]; intros i i' t E L; cbn [map] in *.
  - cbn in E. injection E as <-. exact L.
  - unfold calls_run in E. cbn [loop] in E. apply bind_inv in E as (j & Ej & E). change (final_time t (cmd_ts c :: map cmd_ts cs)) with (final_time (cmd_ts c) (map cmd_ts cs)).
    eapply IH; [exact E|]. eapply command_last_if. exact Ej.
Qed.

Lemma new_last p sim i : iface_new p sim = Value i -> if_last i = 0.
Proof. intros E. apply InterfaceTop.new_built in E. exact (InterfaceTop.bt_last _ _ _ E). Qed.

Lemma last_times p cs d0 d : dram_new p = Value d0 -> uses_run p (map Both cs) d0 = Returned d -> nondecreasing 0 (map cmd_ts cs) ->
  get_last_command_time (dr_core d) = final_time 0 (map cmd_ts cs) /\ if_last (dr_if d) = final_time 0 (map cmd_ts cs).
Proof.
  intros New Run Nd. unfold dram_new in New. apply bind_inv in New as (i0 & Ni & New). injection New as <-.
  apply commands_split in Run as (Rc & Ri). cbn [dr_core dr_if] in *. split.
  - eapply last_time_commands; eauto.
  - eapply calls_last; [exact Ri|]. eapply new_last; exact Ni.
Qed.

Theorem last_time_of_commands p cs d0 d : dram_new p = Value d0 -> uses_run p (map Both cs) d0 = Returned d -> nondecreasing 0 (map cmd_ts cs) ->
  dram_last_time d = final_time 0 (map cmd_ts cs).
Proof. intros New Run Nd. destruct (last_times p cs d0 d New Run Nd) as (A & B). unfold dram_last_time. rewrite A, B. apply N.max_id. Qed.

Lemma query_keeps_time p cs d0 d d1 st : dram_new p = Value d0 -> uses_run p (map Both cs) d0 = Returned d -> nondecreasing 0 (map cmd_ts cs) ->
  dram_window p (dram_last_time d) d = Returned (d1, st) -> dram_last_time d1 = dram_last_time d.
Proof.
  intros New Run Nd W. pose proof (last_time_of_commands p cs d0 d New Run Nd) as L. destruct (last_times p cs d0 d New Run Nd) as (A & B).
  rewrite L in *. apply window_parts in W as (C & D & _). unfold dram_last_time. rewrite D, B, C. unfold get_last_command_time in *.
  pose proof (query_last_le (dp_core p) (final_time 0 (map cmd_ts cs)) (dr_core d)) as K. rewrite A in K. specialize (K (N.le_refl _)). lia.
Qed.

(* Both energies come from one set of statistics. *)
Theorem result_of_one_query p cs d0 d d2 a b q : dram_new p = Value d0 -> uses_run p (map Both cs) d0 = Returned d -> nondecreasing 0 (map cmd_ts cs) ->
  (make_result p d = Returned (d2, (a, b, q)) <->
   exists st, dram_window p (final_time 0 (map cmd_ts cs)) d = Returned (d2, st) /\ a = calc_core_stats p st /\ b = calc_interface_stats p st /\ q = getTotalEnergy a b).
Proof.
  intros New Run Nd. pose proof (last_time_of_commands p cs d0 d New Run Nd) as L. unfold make_result, calc_core, calc_interface. split.
  - destruct (dram_window p (dram_last_time d) d) as [[d1 st]|f|f c] eqn:W; try discriminate.
    rewrite (query_keeps_time p cs d0 d d1 st New Run Nd W), (window_twice _ _ _ _ _ W).
    intros E. injection E as <- <- <- <-. exists st. rewrite <- L. auto.
  - intros (st & W & -> & -> & ->). rewrite <- L in W. rewrite W, (query_keeps_time p cs d0 d d2 st New Run Nd W), (window_twice _ _ _ _ _ W). reflexivity.
Qed.

(* ---- the program ---- *)

Lemma run_is_uses p : forall cs d d', run_commands p cs d = Ran d' <-> uses_run p (map Both cs) d = Returned d'.
Proof.
  induction cs as [|c cs IH]; intros d d'; cbn [run_commands map uses_run use_do].
  - split; intros E; injection E as <-; reflexivity.
  - destruct (do_dram_command p c d) as [d1|f|f s]; [apply IH|split; [destruct f; discriminate|discriminate]..].
Qed.

Lemma core_ops_both cs : core_ops (map Both cs) = map Cmd cs.
Proof. induction cs as [|c cs IH]; [reflexivity|]. cbn. f_equal. exact IH. Qed.
Lemma calls_both cs : iface_calls (map Both cs) = map Do cs.
Proof. induction cs as [|c cs IH]; [reflexivity|]. cbn. f_equal. exact IH. Qed.
Lemma commands_cmd cs : HistorySpec.commands (map Cmd cs) = cs.
Proof. induction cs as [|c cs IH]; [reflexivity|]. cbn. f_equal. exact IH. Qed.
Lemma times_cmd cs : map op_time (map Cmd cs) = map cmd_ts cs.
Proof. rewrite map_map. reflexivity. Qed.

Theorem program_result p text cs a b q : parse_command_list text = Value (Some cs) -> views_agree p -> nondecreasing 0 (map cmd_ts cs) ->
  let T := final_time 0 (map cmd_ts cs) in
  (program p text = Printed a b q <->
   exists s i0 i si, run_core (dp_core p) cs (core_new (dp_core p)) = Ok s /\
     iface_new (dp_if p) (dp_sim p) = Value i0 /\ calls_run (map Do cs) i0 = Value i /\ if_window i T sim_stats0 = Value si /\
     a = calc_energy (dp_ce p) (fill_core (snd (window_stats (dp_core p) T s))) /\ b = calculateEnergy (dp_ie p) si /\ q = getTotalEnergy a b).
Proof.
  intros Pa V Nd T. unfold program. rewrite Pa.
  assert (Key : forall d0 d d2 st, dram_new p = Value d0 -> uses_run p (map Both cs) d0 = Returned d -> dram_window p T d = Returned (d2, st) ->
    exists s i0 i si, run_core (dp_core p) cs (core_new (dp_core p)) = Ok s /\
     iface_new (dp_if p) (dp_sim p) = Value i0 /\ calls_run (map Do cs) i0 = Value i /\ if_window i T sim_stats0 = Value si /\
     calc_core_stats p st = calc_energy (dp_ce p) (fill_core (snd (window_stats (dp_core p) T s))) /\ calc_interface_stats p st = calculateEnergy (dp_ie p) si).
  { intros d0 d d2 st New Run W.
    destruct (statistics_split p (map Both cs) T d0 d d2 st V New Run) as (s & i0 & i & si & H1 & H2 & H3 & H4 & _ & _ & _ & _ & H5 & H6).
    - rewrite core_ops_both, times_cmd. exact Nd.
    - rewrite core_ops_both, times_cmd. apply N.le_refl.
    - exact W.
    - rewrite core_ops_both, commands_cmd in H1. rewrite calls_both in H3. exists s, i0, i, si. auto 10. }
  split.
  - destruct (dram_new p) as [d0|f] eqn:New; [|destruct f; discriminate].
    destruct (run_commands p cs d0) as [d| |f] eqn:Run; try discriminate. apply run_is_uses in Run.
    destruct (make_result p d) as [[d2 [[a' b'] q']]|f|f c] eqn:M; try discriminate. intros E. injection E as <- <- <-.
    apply (proj1 (result_of_one_query p cs d0 d d2 _ _ _ New Run Nd)) in M. destruct M as (st & W & -> & -> & ->).
    destruct (Key d0 d d2 st eq_refl Run W) as (s & i0 & i & si & H1 & H2 & H3 & H4 & H5 & H6). exists s, i0, i, si. auto 10.
  - intros (s & i0 & i & si & H1 & H2 & H3 & H4 & -> & -> & ->).
    unfold dram_new in *. rewrite H2 in *. cbn [bind] in *.
    set (d0 := mkDram (core_new (dp_core p)) i0) in *.
    assert (Run : uses_run p (map Both cs) d0 = Returned (mkDram s i)) by (apply commands_split; split; assumption).
    rewrite (proj2 (run_is_uses p cs d0 (mkDram s i)) Run).
    assert (Z0 : forall n, bus_at sim_stats0 n = bus_at (fill_core (snd (window_stats (dp_core p) T s))) n) by (intros []; reflexivity).
    destruct (window_frame i T _ _ si Z0 H4) as (st & Wi & _).
    assert (W : dram_window p T (mkDram s i) = Returned (mkDram (fst (window_stats (dp_core p) T s)) i, st)).
    { unfold dram_window. cbn [dr_core dr_if]. destruct (window_stats (dp_core p) T s) as [s1 own] eqn:Ws. cbn [fst snd] in *. rewrite Wi. reflexivity. }
    destruct (Key d0 _ _ st eq_refl Run W) as (s' & i0' & i' & si' & K1 & K2 & K3 & K4 & K5 & K6).
    rewrite H1 in K1. injection K1 as <-. injection K2 as <-. rewrite H3 in K3. injection K3 as <-. rewrite H4 in K4. injection K4 as <-.
    assert (New : dram_new p = Value d0) by (unfold dram_new; rewrite H2; reflexivity).
    pose proof (proj2 (result_of_one_query p cs d0 (mkDram s i) (mkDram (fst (window_stats (dp_core p) T s)) i) (calc_core_stats p st) (calc_interface_stats p st)
      (getTotalEnergy (calc_core_stats p st) (calc_interface_stats p st)) New Run Nd)) as M.
    rewrite M by (exists st; auto). rewrite K5, K6. reflexivity.
Qed.

(* ---- labels ---- *)

Lemma flat_seq (f : nat -> list nat) n : forall m k, (forall i, (k <= i < k + m)%nat -> f i = seq (i * n) n) -> flat_map f (seq k m) = seq (k * n) (m * n).
Proof.
  induction m as [|m IH]; intros k H; [reflexivity|]. cbn [seq flat_map]. rewrite (H k) by lia. rewrite IH by (intros i Hi; apply H; lia).
  replace (S m * n)%nat with (n + m * n)%nat by lia. rewrite seq_app. f_equal. f_equal. lia.
Qed.

Lemma seq_shift_map k n : map (fun b => (k + b)%nat) (seq 0 n) = seq k n.
Proof.
  revert k. induction n as [|n IH]; intros k; [reflexivity|]. cbn [seq map]. rewrite Nat.add_0_r. f_equal.
  rewrite <- seq_shift, map_map. rewrite <- (IH (S k)). apply map_ext. intros. lia.
Qed.

Lemma map_flat {A B C} (g : B -> C) (f : A -> list B) l : map g (flat_map f l) = flat_map (fun x => map g (f x)) l.
Proof. induction l as [|x l IH]; [reflexivity|]. cbn. rewrite map_app, IH. reflexivity. Qed.

Lemma labels_index ranks devices banks : map lb_index (labels ranks devices banks) = seq 0 (ranks * (devices * banks)).
Proof.
  unfold labels. rewrite map_flat.
  rewrite (flat_seq _ (devices * banks)); [reflexivity|]. intros r _. rewrite map_flat.
  transitivity (map (fun x => (r * (devices * banks) + x)%nat) (seq 0 (devices * banks))); [|apply seq_shift_map].
  pose proof (flat_seq (fun d => seq (d * banks) banks) banks devices 0 (fun _ _ => eq_refl)) as F. cbn [Nat.mul] in F. rewrite <- F, map_flat.
  apply flat_map_ext. intros d. rewrite map_map. cbn [lb_index]. rewrite <- (seq_shift_map (d * banks) banks), map_map. apply map_ext. intros b. lia.
Qed.

Lemma labels_in ranks devices banks l : In l (labels ranks devices banks) <->
  (lb_rank l < ranks /\ lb_device l < devices /\ lb_bank l < banks /\ lb_index l = lb_rank l * banks * devices + lb_device l * banks + lb_bank l)%nat.
Proof.
  unfold labels. rewrite in_flat_map. split.
  - intros (r & Hr & H). apply in_flat_map in H as (d & Hd & H). apply in_map_iff in H as (b & <- & Hb). apply in_seq in Hr, Hd, Hb. cbn. lia.
  - intros (Hr & Hd & Hb & E). exists (lb_rank l). split; [apply in_seq; lia|]. apply in_flat_map. exists (lb_device l). split; [apply in_seq; lia|].
    apply in_map_iff. exists (lb_bank l). split; [|apply in_seq; lia]. destruct l as [r d b i]. cbn in *. subst i. reflexivity.
Qed.

Lemma nth_seq_index (ls : list labelled) n : map lb_index ls = seq 0 n -> forall k l, nth_error ls k = Some l -> lb_index l = k.
Proof.
  intros E k l H. pose proof (map_nth_error lb_index k ls H) as M. rewrite E in M.
  assert (B : (k < n)%nat) by (assert (nth_error (seq 0 n) k <> None) by congruence; apply nth_error_Some in H0; rewrite seq_length in H0; exact H0).
  rewrite (nth_error_nth' _ 0%nat) in M by (rewrite seq_length; exact B). rewrite seq_nth in M by exact B. injection M as M. lia.
Qed.

Lemma zip_labels (xs : list energy_info) : forall ls k, map lb_index ls = seq k (length xs) -> forall ys, length ys = k ->
  flat_map (fun l => match nth_error (ys ++ xs) (lb_index l) with Some x => [(l, x)] | None => [] end) ls = combine ls xs.
Proof.
  induction xs as [|x xs IH]; intros ls k E ys L.
  - destruct ls; [reflexivity|discriminate].
  - destruct ls as [|l ls]; [discriminate|]. cbn [length seq map] in E. injection E as E1 E2. cbn [flat_map combine].
    rewrite E1, <- L, nth_app_exact. cbn [hd_error app]. f_equal.
    replace (ys ++ x :: xs) with ((ys ++ [x]) ++ xs) by (rewrite <- app_assoc; reflexivity).
    apply (IH ls (S k) E2). rewrite app_length. cbn. lia.
Qed.

Lemma in_nth_combine {A B} (a : list A) (b : list B) : forall k x y, nth_error a k = Some x -> nth_error b k = Some y -> nth_error (combine a b) k = Some (x, y).
Proof.
  revert b. induction a as [|u a IH]; intros [|v b] [|k] x y H K; cbn in *; try discriminate.
  - injection H as ->. injection K as ->. reflexivity.
  - apply IH; assumption.
Qed.

(* Every entry of the array is labelled with the rank, device and bank it is of. *)
Theorem json_labels p st e : calc_energy p st = Exactly e -> covers p st ->
  exists l, json_result p e = Some l /\ length l = (es_ranks p * es_devices p * es_banks p)%nat /\
    forall r d b, (r < es_ranks p)%nat -> (d < es_devices p)%nat -> (b < es_banks p)%nat ->
      exists lab x, nth_error l (slot p r d b) = Some (lab, x) /\ nth_error (en_bank e) (slot p r d b) = Some x /\ lb_rank lab = r /\ lb_device lab = d /\ lb_bank lab = b.
Proof.
  intros C Co. pose proof (slot_count p st e C Co) as L. unfold json_result.
  assert (E : Nat.eqb (length (en_bank e)) (es_ranks p * es_banks p * es_devices p) = true) by (apply Nat.eqb_eq; rewrite L; lia).
  rewrite E. pose proof (labels_index (es_ranks p) (es_devices p) (es_banks p)) as I.
  set (ls := labels (es_ranks p) (es_devices p) (es_banks p)) in *.
  assert (I' : map lb_index ls = seq 0 (length (en_bank e))) by (rewrite I, L; f_equal; lia).
  pose proof (zip_labels (en_bank e) ls 0 I' [] eq_refl) as Z. cbn [app] in Z. rewrite Z. eexists. split; [reflexivity|].
  assert (Ll : length ls = length (en_bank e)) by (rewrite <- (map_length lb_index ls), I', seq_length; reflexivity).
  split; [rewrite combine_length, Ll, Nat.min_id; exact L|].
  intros r d b Hr Hd Hb.
  assert (In (mkLabelled r d b (r * es_banks p * es_devices p + d * es_banks p + b)) ls) as In_l by (apply labels_in; cbn; lia).
  destruct (In_nth_error ls _ In_l) as (k & Hk).
  assert (Ek : k = slot p r d b).
  { pose proof (nth_seq_index ls _ I' k _ Hk) as Q. cbn in Q. unfold slot. lia. }
  subst k. exists (mkLabelled r d b (r * es_banks p * es_devices p + d * es_banks p + b)).
  assert (B : (slot p r d b < length (en_bank e))%nat) by (rewrite <- Ll; apply nth_error_Some; congruence).
  destruct (nth_error (en_bank e) (slot p r d b)) as [x|] eqn:X; [|apply nth_error_None in X; lia].
  exists x. split; [apply in_nth_combine; assumption|]. auto.
Qed.

(* ---- nothing is printed but for lines that are commands ---- *)
Lemma rows_of_lines (ls : list line) cs : Forall2 read_row (map (fun l => fields (li_cells l)) ls) cs -> Forall2 (fun l c => read_row (fields (li_cells l)) c) ls cs.
Proof. revert cs. induction ls as [|l ls IH]; intros cs H; inversion H; subst; constructor; auto. Qed.
Theorem printed_lines : forall p ls a b q, Forall line_ok ls -> no_mark (lines_text ls) -> program p (lines_text ls) = Printed a b q ->
  exists cs, Forall2 (fun l c => read_row (fields (li_cells l)) c) ls cs /\ parse_command_list (lines_text ls) = Value (Some cs).
Proof.
  intros p ls a b q Ok B H. unfold program in H. destruct (parse_command_list (lines_text ls)) as [[cs|]|f] eqn:E; try discriminate. exists cs. split; [|reflexivity].
  apply rows_of_lines. unfold parse_command_list in E. rewrite (lines_read ls Ok B) in E. apply (rows_accepted _ _ E).
Qed.
Theorem short_line_fails : forall p ls cs l more, Forall line_ok (ls ++ l :: more) -> no_mark (lines_text (ls ++ l :: more)) ->
  Forall2 (fun l c => proper (fields (li_cells l)) c) ls cs -> (length (li_cells l) < 7)%nat -> program p (lines_text (ls ++ l :: more)) = Failed.
Proof.
  intros p ls cs l more Ok B H L. unfold program, parse_command_list. rewrite (lines_read _ Ok B), map_app. cbn [map].
  rewrite (bad_row_refused (map (fun l => fields (li_cells l)) ls) (fields (li_cells l)) _ cs); [reflexivity| |].
  - clear - H. induction H; cbn [map]; constructor; auto.
  - unfold fields. now rewrite map_length.
Qed.
