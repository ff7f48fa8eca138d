(* Properties C02, C03, C08, C09, C10, C12, C13: the statistics of the cores
   against the cycle-by-cycle reference machine of DeviceSpec.v.
   rank_view / bank_view (DeviceSpec.v) are what a caller of the library sees. *)
From Coq Require Import NArith List Bool.
From Verif Require Import Base Command CoreModel HistorySpec DeviceSpec RefineMain DeviceFacts DeviceSleep DeviceAuto DeviceTop ExampleCores CoreRefuted StaySpec StayProofs.
Import ListNotations.
Local Open Scope N_scope.

(* Every legal history is accepted: no handler throws, asserts or leaves an
   array. *)
Theorem C02_legal_histories_accepted :
  forall p cs t, well_formed p -> timely p cs t -> legal_history p cs ->
    exists s, run_core p cs (core_new p) = Ok s.
Proof. exact legal_history_accepted. Qed.
Print Assumptions C02_legal_histories_accepted.

(* C02: all shown cycle counts are the counts of the reference machine. *)
Theorem C02_rank_counts_are_cycle_counts :
  forall p cs t r, well_formed p -> timely p cs t -> legal_history p cs -> (r < ms_ranks p)%nat ->
    rank_view p cs t r = Some (spec_rank p r cs t).
Proof. exact rank_view_spec. Qed.
Print Assumptions C02_rank_counts_are_cycle_counts.

Theorem C02_bank_counts_are_cycle_counts :
  forall p cs t r b, well_formed p -> timely p cs t -> legal_history p cs ->
    (r < ms_ranks p)%nat -> (b < ms_banks p)%nat ->
    bank_view p cs t r b = Some (spec_bank p r b cs t).
Proof. exact bank_view_spec. Qed.
Print Assumptions C02_bank_counts_are_cycle_counts.

Example C02_witness :
  well_formed ex_lpddr5 /\ timely ex_lpddr5 ex_sref_all 1000 /\ legal_history ex_lpddr5 ex_sref_all /\
  spec_bank ex_lpddr5 0 1 ex_sref_all 1000 = mkCycles 180 330 40 50 300 100.
Proof.
  split; [split; [repeat constructor|discriminate]|]. split; [show_timely|]. split; [show_legal|].
  vm_compute. reflexivity.
Qed.

(* C03: the six shown numbers add up to the simulated time, as numbers and not
   only modulo 2^64, so the subtraction behind pre did not wrap. *)
Theorem C03_rank_cycles_add_up :
  forall p cs t r, well_formed p -> timely p cs t -> legal_history p cs -> (r < ms_ranks p)%nat ->
    exists c, rank_view p cs t r = Some c /\
      cy_act c + cy_pre c + cy_pda c + cy_pdp c + cy_sref c + cy_dsm c = t.
Proof. exact rank_adds_up. Qed.
Print Assumptions C03_rank_cycles_add_up.

Theorem C03_bank_cycles_add_up :
  forall p cs t r b, well_formed p -> timely p cs t -> legal_history p cs ->
    (r < ms_ranks p)%nat -> (b < ms_banks p)%nat ->
    exists c, bank_view p cs t r b = Some c /\
      cy_act c + cy_pre c + cy_pda c + cy_pdp c + cy_sref c + cy_dsm c = t.
Proof. exact bank_adds_up. Qed.
Print Assumptions C03_bank_cycles_add_up.

Example C03_witness :
  well_formed ex_lpddr5 /\ timely ex_lpddr5 ex_sref_all 1000 /\ legal_history ex_lpddr5 ex_sref_all /\
  rank_view ex_lpddr5 ex_sref_all 1000 0 <> None.
Proof.
  split; [split; [repeat constructor|discriminate]|]. split; [show_timely|]. split; [show_legal|].
  vm_compute. discriminate.
Qed.

(* Legality is needed: when precharge power-down is requested while an
   auto-precharge is still pending, every standard but DDR4 counts cycles twice
   and pre wraps. *)
Theorem C03_pending_auto_precharge_refuted :
  forall p, In p [ex_ddr5; ex_lpddr4; ex_lpddr5; ex_lpddr6] ->
    timely p ex_wrap 200 /\
    exists c, bank_view p ex_wrap 200 0 1 = Some c /\ 200 < cy_pre c /\
      cy_act c + cy_pda c + cy_pdp c + cy_sref c + cy_dsm c > 200.
Proof. exact pre_wraps. Qed.
Print Assumptions C03_pending_auto_precharge_refuted.

(* C08: x is RDA or WRA, y the same access without auto-precharge, pre the
   precharge at max (activation + tRAS, t + offset).  Commands in mid do not
   touch the bank.  The two histories show the same cycles for every rank and
   bank, and the same counters except those of the access and the precharge. *)
Theorem C08_auto_precharge_is_precharge :
  forall p r a1 act a2 x y off mid pre post T,
    let a := a1 ++ act :: a2 in
    let h1 := a ++ x :: mid ++ post in
    let h2 := a ++ y :: mid ++ pre :: post in
    well_formed p -> (r < ms_ranks p)%nat ->
    to_rank r act = true -> cmd_type act = ACT -> addr act = addr x ->
    (forall z, In z a2 -> touches p r (addr x) z = true -> cmd_type z = RD \/ cmd_type z = WR) ->
    to_rank r x = true -> auto_pair p x y off ->
    cmd_type pre = PRE -> cmd_rank pre = cmd_rank x -> cmd_bank pre = cmd_bank x ->
    cmd_ts pre = N.max (cmd_ts act + ms_tRAS p) (cmd_ts x + off) ->
    (forall z, In z mid -> touches p r (addr x) z = false) ->
    timely p h1 T -> timely p h2 T -> legal_history p h1 ->
    legal_history p h2 /\
    (forall r', (r' < ms_ranks p)%nat -> rank_view p h1 T r' = rank_view p h2 T r') /\
    (forall r' b, (r' < ms_ranks p)%nat -> (b < ms_banks p)%nat ->
       bank_view p h1 T r' b = bank_view p h2 T r' b) /\
    (forall r' b k, (r' < ms_ranks p)%nat -> (b < ms_banks p)%nat ->
       ~ In k [K_pre; K_reads; K_readAuto; K_writes; K_writeAuto] ->
       bank_counter p h1 T r' b k = bank_counter p h2 T r' b k).
Proof. exact auto_precharge_activation. Qed.
Print Assumptions C08_auto_precharge_is_precharge.

(* The same for any way the row came to be open since s, including an active
   power-down in between; s is then the end of the power-down. *)
Theorem C08_auto_precharge_general :
  forall p r a x y off mid pre post s T,
    let h1 := a ++ x :: mid ++ post in
    let h2 := a ++ y :: mid ++ pre :: post in
    well_formed p -> (r < ms_ranks p)%nat -> to_rank r x = true -> auto_pair p x y off ->
    cmd_type pre = PRE -> cmd_rank pre = cmd_rank x -> cmd_bank pre = cmd_bank x ->
    open_since p r (addr x) a (cmd_ts x) s ->
    cmd_ts pre = N.max (s + ms_tRAS p) (cmd_ts x + off) ->
    (forall z, In z mid -> touches p r (addr x) z = false) ->
    timely p h1 T -> timely p h2 T -> legal_history p h1 ->
    legal_history p h2 /\
    (forall r', (r' < ms_ranks p)%nat -> rank_view p h1 T r' = rank_view p h2 T r') /\
    (forall r' b, (r' < ms_ranks p)%nat -> (b < ms_banks p)%nat ->
       bank_view p h1 T r' b = bank_view p h2 T r' b) /\
    (forall r' b k, (r' < ms_ranks p)%nat -> (b < ms_banks p)%nat ->
       ~ In k [K_pre; K_reads; K_readAuto; K_writes; K_writeAuto] ->
       bank_counter p h1 T r' b k = bank_counter p h2 T r' b k).
Proof. exact auto_precharge. Qed.
Print Assumptions C08_auto_precharge_general.

Example C08_witness :
  let x := at_ 30 RDA 0 2 in let y := at_ 30 RD 0 2 in let pre := at_ 38 PRE 0 2 in
  auto_pair ex_ddr4 x y 8 /\ cmd_ts pre = N.max (0 + ms_tRAS ex_ddr4) (cmd_ts x + 8) /\
  (forall z, In z ex_auto_a2 -> touches ex_ddr4 0 2 z = true -> cmd_type z = RD \/ cmd_type z = WR) /\
  (forall z, In z ex_auto_mid -> touches ex_ddr4 0 2 z = false) /\
  legal_history ex_ddr4 (([] ++ at_ 0 ACT 0 2 :: ex_auto_a2) ++ x :: ex_auto_mid ++ ex_auto_post) /\
  timely ex_ddr4 (([] ++ at_ 0 ACT 0 2 :: ex_auto_a2) ++ x :: ex_auto_mid ++ ex_auto_post) 500 /\
  timely ex_ddr4 (([] ++ at_ 0 ACT 0 2 :: ex_auto_a2) ++ y :: ex_auto_mid ++ pre :: ex_auto_post) 500.
Proof.
  split; [vm_compute; repeat split; auto|]. split; [reflexivity|].
  split; [intros z [<-|[<-|[]]]; [discriminate|right; reflexivity]|].
  split; [intros z [<-|[<-|[]]]; reflexivity|]. split; [show_legal|]. split; show_timely.
Qed.

(* Taken literally, with the time of the ACT command, the property fails after
   an active power-down in all standards. *)
Theorem C08_after_power_down_refuted :
  forall p, In p [ex_ddr4; ex_ddr5; ex_lpddr4; ex_lpddr5; ex_lpddr6] ->
    109 = N.max (0 + ms_tRAS p) (101 + ms_offRD p) /\
    timely p ex_late 200 /\ timely p ex_late' 200 /\ legal_history p ex_late /\ legal_history p ex_late' /\
    exists c c', bank_view p ex_late 200 0 0 = Some c /\ bank_view p ex_late' 200 0 0 = Some c' /\
      cy_act c <> cy_act c'.
Proof. exact late_precharge. Qed.
Print Assumptions C08_after_power_down_refuted.

(* C09 *)
Theorem C09_rank_active_when_some_bank_is :
  forall p cs t r, well_formed p -> timely p cs t -> legal_history p cs -> (r < ms_ranks p)%nat ->
    exists c, rank_view p cs t r = Some c /\ cy_act c = cycles_where p r cs t (some_bank_acts p).
Proof. exact rank_is_union. Qed.
Print Assumptions C09_rank_active_when_some_bank_is.

Theorem C09_rank_activity_bounds :
  forall p cs t r, well_formed p -> timely p cs t -> legal_history p cs -> (r < ms_ranks p)%nat ->
    exists c vs, rank_view p cs t r = Some c /\
      map (bank_view p cs t r) (seq 0 (ms_banks p)) = map Some vs /\
      Forall (fun v => cy_act v <= cy_act c) vs /\
      cy_act c <= fold_right N.add 0 (map cy_act vs).
Proof. exact rank_between. Qed.
Print Assumptions C09_rank_activity_bounds.

Example C09_witness :
  well_formed ex_lpddr5 /\ timely ex_lpddr5 ex_pd_all 300 /\ legal_history ex_lpddr5 ex_pd_all /\
  cycles_where ex_lpddr5 0 ex_pd_all 300 (some_bank_acts ex_lpddr5) = 260.
Proof.
  split; [split; [repeat constructor|discriminate]|]. split; [show_timely|]. split; [show_legal|].
  vm_compute. reflexivity.
Qed.

(* C10 for legal histories: every shown count, pre included, stays or grows by
   one when the query moves one cycle on. *)
Theorem C10_rank_counts_monotone :
  forall p cs t r, well_formed p -> timely p cs t -> t + 1 < two64 -> legal_history p cs -> (r < ms_ranks p)%nat ->
    exists c c', rank_view p cs t r = Some c /\ rank_view p cs (t + 1) r = Some c' /\
      Forall2 (fun x y => x <= y <= x + 1)
        [cy_act c; cy_pre c; cy_pda c; cy_pdp c; cy_sref c; cy_dsm c]
        [cy_act c'; cy_pre c'; cy_pda c'; cy_pdp c'; cy_sref c'; cy_dsm c'].
Proof. exact rank_monotone. Qed.
Print Assumptions C10_rank_counts_monotone.

Theorem C10_bank_counts_monotone :
  forall p cs t r b, well_formed p -> timely p cs t -> t + 1 < two64 -> legal_history p cs ->
    (r < ms_ranks p)%nat -> (b < ms_banks p)%nat ->
    exists c c', bank_view p cs t r b = Some c /\ bank_view p cs (t + 1) r b = Some c' /\
      Forall2 (fun x y => x <= y <= x + 1)
        [cy_act c; cy_pre c; cy_pda c; cy_pdp c; cy_sref c; cy_dsm c]
        [cy_act c'; cy_pre c'; cy_pda c'; cy_pdp c'; cy_sref c'; cy_dsm c'].
Proof. exact bank_monotone. Qed.
Print Assumptions C10_bank_counts_monotone.

(* C12: a stay in self-refresh entered by en; mid holds no exit.  At any T the
   entry has contributed min (tRFC, T - t) active cycles to the rank and to every
   bank, everything after t + tRFC is self-refresh or deep sleep, deep sleep are
   the cycles whose last deep-sleep command was an entry, and nothing else grew. *)
Theorem C12_self_refresh_accounting :
  forall p r a en mid T,
    well_formed p -> timely p (a ++ en :: mid) T -> legal_history p (a ++ en :: mid) ->
    (r < ms_ranks p)%nat -> cmd_type en = SREFEN -> to_rank r en = true ->
    (forall c, In c mid -> to_rank r c = true -> cmd_type c <> SREFEX) ->
    let deep := count_below (fun n => in_deep_sleep r mid (cmd_ts en + n)) (N.to_nat (T - cmd_ts en)) in
    (exists v0 v, rank_view p a (cmd_ts en) r = Some v0 /\ rank_view p (a ++ en :: mid) T r = Some v /\
       sref_growth p (cmd_ts en) T deep v0 v) /\
    (forall b, (b < ms_banks p)%nat ->
     exists v0 v, bank_view p a (cmd_ts en) r b = Some v0 /\ bank_view p (a ++ en :: mid) T r b = Some v /\
       sref_growth p (cmd_ts en) T deep v0 v).
Proof. exact sref_accounting. Qed.
Print Assumptions C12_self_refresh_accounting.

(* A whole stay, from entry at t to exit at u: u - (t + tRFC) cycles, which is
   not negative. *)
Theorem C12_whole_stay :
  forall p r a en mid ex,
    let h := a ++ en :: mid ++ [ex] in
    let t := cmd_ts en in let u := cmd_ts ex in
    well_formed p -> timely p h u -> legal_history p h -> (r < ms_ranks p)%nat ->
    cmd_type en = SREFEN -> to_rank r en = true ->
    (forall c, In c mid -> to_rank r c = true -> cmd_type c <> SREFEX) ->
    cmd_type ex = SREFEX -> to_rank r ex = true ->
    t + ms_tRFC p <= u /\
    forall b, (b < ms_banks p)%nat ->
    exists v0 v, bank_view p a t r b = Some v0 /\ bank_view p h u r b = Some v /\
      cy_act v = cy_act v0 + ms_tRFC p /\
      cy_sref v + cy_dsm v = cy_sref v0 + cy_dsm v0 + (u - (t + ms_tRFC p)) /\
      cy_pre v = cy_pre v0 /\ cy_pda v = cy_pda v0 /\ cy_pdp v = cy_pdp v0.
Proof. exact sref_whole_stay. Qed.
Print Assumptions C12_whole_stay.

(* One deep-sleep phase from x to y counts with its length. *)
Theorem C12_deep_sleep_phase :
  forall r x y m1 m2 m3 t T,
    to_rank r x = true -> to_rank r y = true -> cmd_type x = DSMEN -> cmd_type y = DSMEX ->
    (forall c, In c (m1 ++ m2 ++ m3) -> to_rank r c = true -> cmd_type c <> DSMEN /\ cmd_type c <> DSMEX) ->
    t <= cmd_ts x -> cmd_ts x <= cmd_ts y -> cmd_ts y <= T ->
    count_below (fun n => in_deep_sleep r (m1 ++ x :: m2 ++ y :: m3) (t + n)) (N.to_nat (T - t)) = cmd_ts y - cmd_ts x.
Proof. exact one_deep_sleep. Qed.
Print Assumptions C12_deep_sleep_phase.

Example C12_witness :
  well_formed ex_lpddr5 /\ timely ex_lpddr5 ex_sref_all 900 /\ legal_history ex_lpddr5 ex_sref_all /\
  (forall c, In c ex_sref_mid -> to_rank 0 c = true -> cmd_type c <> SREFEX) /\
  count_below (fun n => in_deep_sleep 0 ex_sref_mid (400 + n)) 500 = 100.
Proof.
  split; [split; [repeat constructor|discriminate]|]. split; [show_timely|]. split; [show_legal|].
  split; [intros c [<-|[<-|[]]]; discriminate|]. vm_compute. reflexivity.
Qed.

(* The entries are counted: after any accepted history (no order of timestamps
   assumed) and a query at a time not before any of them, the two counters of a rank
   that the statistics do not show but a saved state contains are the number of
   self-refresh entries whose refresh is over and the number of deep sleep entries. *)
Theorem C12_entries : forall p cs s t r,
  (r < ms_ranks p)%nat -> run_core p cs (core_new p) = Ok s -> Forall (fun c => cmd_ts c <= t) cs ->
  exists rk, nth_error (co_ranks (fst (window_stats p t s))) r = Some rk /\
    rk_n_sref rk = how_many (asleep_by p r t) cs mod two64 /\ rk_n_dsm rk = how_many (deep_entry r) cs mod two64.
Proof. exact stay_counters. Qed.
Print Assumptions C12_entries.
Example C12_entries_case : exists s, run_core ex_lpddr5 ex_sref_all (core_new ex_lpddr5) = Ok s /\ Forall (fun c => cmd_ts c <= 900) ex_sref_all /\
  how_many (asleep_by ex_lpddr5 0 900) ex_sref_all = 1 /\ how_many (deep_entry 0) ex_sref_all = 1.
Proof. vm_compute. eexists. split; [reflexivity|]. split; [|split; reflexivity]. repeat constructor; discriminate. Qed.

(* C13: the power-down lasts from e to x.  Until e nothing changes; from e to x
   no active cycle is counted; from x on the active count of a bank (and of the
   rank) grows exactly if it would have grown in cycle e without the power-down,
   that is, if it was active at entry. *)
Theorem C13_power_down_pauses_and_resumes :
  forall p r a en mid ex T,
    well_formed p -> timely p (a ++ en :: mid ++ [ex]) T -> T + 1 < two64 ->
    legal_history p (a ++ en :: mid ++ [ex]) -> (r < ms_ranks p)%nat ->
    cmd_type en = PDEA -> to_rank r en = true ->
    (forall c, In c mid -> to_rank r c = true -> cmd_type c <> PDXA) ->
    cmd_type ex = PDXA -> to_rank r ex = true ->
    exists e x, cmd_ts en <= e /\ e <= cmd_ts ex /\ cmd_ts ex <= x /\
      (exists v v1 w, rank_view p a e r = Some v /\ rank_view p a (e + 1) r = Some v1 /\
         rank_view p (a ++ en :: mid ++ [ex]) T r = Some w /\ apd_growth e x T v v1 w) /\
      (forall b, (b < ms_banks p)%nat ->
       exists v v1 w, bank_view p a e r b = Some v /\ bank_view p a (e + 1) r b = Some v1 /\
         bank_view p (a ++ en :: mid ++ [ex]) T r b = Some w /\ apd_growth e x T v v1 w).
Proof. exact apd_accounting. Qed.
Print Assumptions C13_power_down_pauses_and_resumes.

Example C13_witness :
  well_formed ex_lpddr5 /\ timely ex_lpddr5 ex_pd_all 300 /\ legal_history ex_lpddr5 ex_pd_all /\
  (forall c, In c ex_pd_mid -> to_rank 0 c = true -> cmd_type c <> PDXA).
Proof.
  split; [split; [repeat constructor|discriminate]|]. split; [show_timely|]. split; [show_legal|].
  intros c [<-|[]]. discriminate.
Qed.

(* Outside the legal histories banks that are closed come back to life after
   power-down: a bank whose auto-precharge fires during power-down, and a bank
   whose refresh ends in the very cycle the power-down starts.  DDR4 remembers
   the banks at entry and is not affected. *)
Theorem C13_closed_bank_resumes_refuted :
  forall p, In p [ex_ddr5; ex_lpddr4; ex_lpddr5; ex_lpddr6] ->
    timely p ex_reopen 200 /\
    exists c c', bank_view p ex_reopen 200 0 1 = Some c /\ bank_view p ex_reopen 300 0 1 = Some c' /\
      cy_act c' = cy_act c + 100.
Proof. exact closed_bank_resumes. Qed.
Print Assumptions C13_closed_bank_resumes_refuted.

Theorem C13_refreshed_bank_resumes_refuted :
  forall p, In p [ex_lpddr4; ex_lpddr5] ->
    timely p ex_reopen2 300 /\
    exists c c', bank_view p ex_reopen2 300 0 1 = Some c /\ bank_view p ex_reopen2 400 0 1 = Some c' /\
      cy_act c' = cy_act c + 100.
Proof. exact refreshed_bank_resumes. Qed.
Print Assumptions C13_refreshed_bank_resumes_refuted.
