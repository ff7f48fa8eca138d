(* Every member of a core stays a 64-bit number. *)
From Coq Require Import NArith List Bool Arith Lia.
From Verif Require Import Base Command CoreModel CoreBasics HistorySpec RangeSpec.
Import ListNotations.
Local Open Scope N_scope.

Lemma fits_add a b : fits (u64_add a b).
Proof. unfold fits, u64_add. apply N.mod_lt. discriminate. Qed.
Lemma fits_sub a b : fits (u64_sub a b).
Proof. unfold fits, u64_sub. apply N.mod_lt. discriminate. Qed.
Lemma fits_inc a : fits (u64_inc a).
Proof. apply fits_add. Qed.
Lemma fits_max a b : fits a -> fits b -> fits (N.max a b).
Proof. unfold fits. apply N.max_lub_lt. Qed.
Lemma fits_zero : fits 0.
Proof. reflexivity. Qed.
Lemma iv_new_fits : iv_fits iv_new.
Proof. split; [apply fits_zero|split; exact Logic.I]. Qed.
Lemma iv_close_fits t i : fits t -> iv_fits i -> iv_fits (iv_close t i).
Proof. intros T (A & B & C). unfold iv_close. destruct (iv_is_open i); [|now split]. split; [apply fits_add|]. split; [exact B|exact T]. Qed.
Lemma iv_start_fits t i : fits t -> iv_fits i -> iv_fits (iv_start_at t i).
Proof. intros T (A & B & C). split; [exact A|]. split; [exact T|exact Logic.I]. Qed.
Lemma iv_start_if_fits t i : fits t -> iv_fits i -> iv_fits (iv_start_if_closed t i).
Proof. intros T I. unfold iv_start_if_closed. destruct (iv_is_open i); [exact I|now apply iv_start_fits]. Qed.
Lemma bump_fits k c : cs_fits c -> cs_fits (cs_bump k c).
Proof. intros F j. specialize (F j). destruct c, k, j; cbn in *; first [apply fits_inc | exact F]. Qed.

(* ---- banks ---- *)

Lemma b_bump k b : bank_fits b -> bank_fits (bk_bump k b).
Proof. intros (A & B & C & D). split; [now apply bump_fits|]. split; [exact B|]. split; [exact C|exact D]. Qed.
Lemma b_act i b : iv_fits i -> bank_fits b -> bank_fits (bk_set_act i b).
Proof. intros I (A & (_ & B2) & C). split; [exact A|]. split; [split; [exact I|exact B2]|exact C]. Qed.
Lemma b_active x b : bank_fits b -> bank_fits (bk_set_active x b).
Proof. intro H. exact H. Qed.
Lemma b_latest t b : fits t -> bank_fits b -> bank_fits (bk_set_latestPre t b).
Proof. intros T (A & B & _ & D). split; [exact A|]. split; [exact B|]. split; [exact T|exact D]. Qed.
Lemma b_refresh t b : fits t -> bank_fits b -> bank_fits (bk_set_refreshEnd t b).
Proof. intros T (A & B & C & _). split; [exact A|]. split; [exact B|]. split; [exact C|exact T]. Qed.
Lemma b_iv b : bank_fits b -> iv_fits (bk_act b).
Proof. intros (_ & (A & _) & _). exact A. Qed.
Lemma b_new : bank_fits bank_new.
Proof. split; [intros []; apply fits_zero|]. repeat split. Qed.

(* ---- ranks ---- *)

Ltac rk := intros; unfold rank_fits in *; cbn; tauto.
Lemma r_mem m r : rank_fits r -> rank_fits (rk_set_memState m r).
Proof. rk. Qed.
Lemma r_act i r : iv_fits i -> rank_fits r -> rank_fits (rk_set_act i r).
Proof. rk. Qed.
Lemma r_sref i r : iv_fits i -> rank_fits r -> rank_fits (rk_set_sref i r).
Proof. rk. Qed.
Lemma r_pda i r : iv_fits i -> rank_fits r -> rank_fits (rk_set_pda i r).
Proof. rk. Qed.
Lemma r_pdp i r : iv_fits i -> rank_fits r -> rank_fits (rk_set_pdp i r).
Proof. rk. Qed.
Lemma r_dsm i r : iv_fits i -> rank_fits r -> rank_fits (rk_set_dsm i r).
Proof. rk. Qed.
Lemma r_nsref n r : fits n -> rank_fits r -> rank_fits (rk_set_n_sref n r).
Proof. rk. Qed.
Lemma r_ndsm n r : fits n -> rank_fits r -> rank_fits (rk_set_n_dsm n r).
Proof. rk. Qed.
Lemma r_end n r : fits n -> rank_fits r -> rank_fits (rk_set_endRefresh n r).
Proof. rk. Qed.
Lemma r_banks bs r : Forall bank_fits bs -> rank_fits r -> rank_fits (rk_set_banks bs r).
Proof. rk. Qed.
Lemma r_upd b f r : (forall k, bank_fits k -> bank_fits (f k)) -> rank_fits r -> rank_fits (rk_upd_bank b f r).
Proof. intros F R. apply r_banks; [|exact R]. apply Forall_upd; [apply R|exact F]. Qed.
Lemma r_map f r r0 : (forall k, bank_fits k -> bank_fits (f k)) -> rank_fits r0 -> rank_fits r -> rank_fits (rk_set_banks (map f (rk_banks r0)) r).
Proof. intros F R0 R. apply r_banks; [|exact R]. apply Forall_forall. intros k K. apply in_map_iff in K as (k0 & <- & K). apply F. destruct R0 as (_ & _ & B). rewrite Forall_forall in B. now apply B. Qed.
Lemma r_iv_act r : rank_fits r -> iv_fits (rk_act r). Proof. rk. Qed.
Lemma r_iv_sref r : rank_fits r -> iv_fits (rk_sref r). Proof. rk. Qed.
Lemma r_iv_pda r : rank_fits r -> iv_fits (rk_pda r). Proof. rk. Qed.
Lemma r_iv_pdp r : rank_fits r -> iv_fits (rk_pdp r). Proof. rk. Qed.
Lemma r_iv_dsm r : rank_fits r -> iv_fits (rk_dsm r). Proof. rk. Qed.
Lemma r_if (b : bool) r1 r2 : rank_fits r1 -> rank_fits r2 -> rank_fits (if b then r1 else r2).
Proof. now destruct b. Qed.

#[local] Hint Resolve fits_add fits_sub fits_inc fits_max fits_zero iv_close_fits iv_start_fits iv_start_if_fits
  b_bump b_act b_active b_latest b_refresh b_iv r_mem r_act r_sref r_pda r_pdp r_dsm r_nsref r_ndsm r_end r_upd r_map
  r_iv_act r_iv_sref r_iv_pda r_iv_pdp r_iv_dsm r_if : range.
Lemma close_idle_fits t r : fits t -> rank_fits r -> rank_fits (close_if_idle t r).
Proof. intros. unfold close_if_idle, rk_close_act. auto 8 with range. Qed.
Lemma start_idle_fits t r : fits t -> rank_fits r -> rank_fits (start_if_idle t r).
Proof. intros. unfold start_if_idle, rk_start_act. auto 8 with range. Qed.
#[local] Hint Resolve close_idle_fits start_idle_fits : range.
Lemma h_act_fits p b t r : fits t -> rank_fits r -> rank_fits (h_act p b t r).
Proof.
  intros T R. unfold h_act. destruct (ms_std p); cbv zeta.
  1: { assert (rank_fits (rk_upd_bank b (fun k => bk_set_act (iv_start_at t (bk_act k)) (bk_set_active true (bk_bump K_act k))) r)) by (apply r_upd; auto 10 with range). auto 8 with range. }
  all: apply r_upd; [auto with range|]; apply start_idle_fits; [exact T|]; apply r_upd; auto 10 with range.
Qed.
Lemma h_pre_fits t b r : fits t -> rank_fits r -> rank_fits (h_pre t b r).
Proof.
  intros T R. unfold h_pre. destruct (nth_error (rk_banks r) b) as [k|]; [|exact R]. destruct (bk_active k); [|exact R].
  apply close_idle_fits; [exact T|]. apply r_upd; auto 12 with range.
Qed.
Lemma fold_fits {A} (f : rank -> A -> rank) l : (forall r x, rank_fits r -> rank_fits (f r x)) -> forall r, rank_fits r -> rank_fits (fold_left f l r).
Proof. intro F. induction l as [|x l IH]; intros r R; cbn; auto. Qed.

Definition good (x : rank * events) : Prop := rank_fits (fst x) /\ Forall (fun e => fits (fst e)) (snd x).
Lemma refresh_on_fits k n t b r : fits t -> rank_fits r -> good (h_refreshOnBank k n t b r).
Proof.
  intros T R. unfold h_refreshOnBank. cbv zeta. split; cbn [fst snd].
  - apply r_upd; [auto 12 with range|]. apply start_idle_fits; [exact T|]. apply r_upd; auto with range.
  - constructor; [apply fits_add|constructor].
Qed.
Lemma refresh_fits k n t bs r : fits t -> rank_fits r -> good (refresh_banks k n t bs r).
Proof.
  intros T R. unfold refresh_banks. assert (good (r, [])) as G by (split; [exact R|constructor]). revert G. generalize (r, [] : events).
  induction bs as [|b bs IH]; intros [r0 e0] G; cbn [fold_left]; [exact G|]. apply IH.
  pose proof (refresh_on_fits k n t b r0 T (proj1 G)) as H. destruct (h_refreshOnBank k n t b r0) as [r1 e1].
  split; cbn [fst snd]; [apply H|]. apply Forall_app. split; [apply G|apply H].
Qed.
Lemma refAll_fits p t r : fits t -> rank_fits r -> good (h_refAll p t r).
Proof.
  intros T R. unfold h_refAll. destruct (ms_std p); cbv zeta.
  1: { split; cbn [fst snd].
       - apply fold_fits; [|auto 8 with range]. intros r0 b R0. unfold ddr4_ref_bank. apply r_upd; auto 12 with range.
       - apply Forall_forall. intros e E. apply in_map_iff in E as (b & <- & _). apply fits_add. }
  all: pose proof (refresh_fits K_refAllBank (ms_tRFC p) t (seq 0 (length (rk_banks r))) r T R) as [G1 G2];
    destruct (refresh_banks K_refAllBank (ms_tRFC p) t (seq 0 (length (rk_banks r))) r); split; cbn [fst snd] in *; auto with range.
Qed.
Lemma opt_start i : iv_fits i -> fits (iv_get_start i).
Proof. intros (_ & B & _). unfold iv_get_start. destruct (iv_start i); [exact B|apply fits_zero]. Qed.
Lemma pd_time_fits p k : bank_fits k -> fits (bank_pd_time p k).
Proof. intros (_ & _ & _ & R). unfold bank_pd_time. repeat apply fits_max; try exact R; match goal with |- fits (if ?b then _ else _) => destruct b end; auto with range. Qed.
Lemma earliest_fits p r : rank_fits r -> fits (earliest_pd p r).
Proof.
  intros (_ & _ & B). unfold earliest_pd. assert (forall e, fits e -> fits (fold_left (fun e k => N.max e (bank_pd_time p k)) (rk_banks r) e)) as H; [|apply H, fits_zero].
  induction B as [|k ks K B IH]; intros e E; cbn; [exact E|]. apply IH. apply fits_max; [exact E|now apply pd_time_fits].
Qed.
#[local] Hint Resolve earliest_fits : range.
Definition good_outcome (x : Base.outcome (rank * events)) : Prop := match x with Ok y => good y | _ => True end.
Lemma dispatch_fits p c f r : fits (cmd_ts c) -> dispatch p c = A_rank f -> rank_fits r -> good_outcome (f r).
Proof.
  intros T E R.
  assert (forall x y, good (x, y) <-> rank_fits x /\ Forall (fun e => fits (fst e)) y) as GE by (intros; reflexivity).
  assert (forall n x, fits n -> Forall (fun e : N * ricmd => fits (fst e)) [(n, x)]) as ON by (intros; constructor; [assumption|constructor]).
  revert E. unfold dispatch, on_rank, on_bank, on_banks, quiet, quiet_o, h_preAll, h_preSame,
    h_rw, h_rwAuto, h_srefExit, h_dsmEntry, h_dsmExit, h_pdaEntry,
    h_pdaExit, h_pdpEntry, h_pdpExit, h_refSame, h_refPerBank, h_refTwoBanks, h_refDual.
  destruct (cmd_type c);
    repeat match goal with
           | |- context [match ms_std p with _ => _ end] => destruct (ms_std p)
           | |- context [match ms_banksPerGroup p with _ => _ end] => destruct (ms_banksPerGroup p)
           | |- context [if ms_m8b p then _ else _] => destruct (ms_m8b p)
           end;
    intros H; try discriminate; injection H as <-;
    repeat match goal with
           | |- good_outcome (if ?b then _ else _) => destruct b
           | |- good_outcome (match rk_memState ?b with _ => _ end) => destruct (rk_memState b)
           | |- good_outcome (match (match ?b with _ => _ end) with _ => _ end) => destruct b
           end; cbn [good_outcome]; try exact Logic.I.
  all: try (apply refresh_fits; assumption).
  all: try (apply refAll_fits; assumption).
  all: try (apply GE; split; [|constructor]; solve [apply h_act_fits; assumption | apply h_pre_fits; assumption | apply r_upd; auto with range
                                                   | apply fold_fits; [intros; now apply h_pre_fits|exact R] | auto 10 with range]).
  all: try (apply GE; split; [exact R|]; apply ON; auto with range).
  all: try (destruct (nth_error (rk_banks r) _) as [k|]; apply GE; split; [apply r_upd; auto with range | apply ON; unfold autopre_time; auto with range | exact R | constructor]).
  all: unfold h_srefEntry; pose proof (refAll_fits p (cmd_ts c) r T R) as [G1 G2]; destruct (h_refAll p (cmd_ts c) r); apply GE; split; [exact G1|];
    apply Forall_app; split; [exact G2|apply ON; apply fits_add].
Qed.
Lemma close_banks_fits t r : fits t -> rank_fits r -> rank_fits (close_banks t r).
Proof. intros T R. unfold close_banks. apply r_map; auto 8 with range. Qed.
Lemma exec_fits p t c r : fits t -> rank_fits r -> rank_fits (exec_ric p t c r).
Proof.
  intros T R. assert (forall (b : bank -> bool) k, bank_fits k -> bank_fits (if b k then bk_set_act (iv_start_at t (bk_act k)) k else k)) as C.
  { intros b k K. destruct (b k); auto 8 with range. }
  destruct c; cbn [exec_ric].
  - now apply h_pre_fits.
  - unfold x_refEnd. apply close_idle_fits; [exact T|]. apply r_upd; auto 8 with range.
  - unfold x_sref. auto 8 with range.
  - unfold x_pdaIn, rk_close_act. apply close_banks_fits; [exact T|]. auto 12 with range.
  - unfold x_pdaOut. cbv zeta. set (r1 := rk_set_pda _ _). assert (rank_fits r1) as R1 by (unfold r1; auto 8 with range).
    assert (rank_fits (rk_start_act t r1)) as R2 by (unfold rk_start_act; auto 8 with range).
    destruct (ms_std p); try (apply r_map; [apply (C (resumes _))|assumption|assumption]).
    all: match goal with |- rank_fits (if _ then _ else ?x) => assert (rank_fits x) as R3 by (apply r_map; [first [apply (C bk_active)|apply (C (resumes r1))]|exact R1|exact R1]) end.
    all: apply r_if; [|exact R3]; unfold rk_start_act; auto 8 with range.
  - unfold x_pdpIn, rk_close_act. pose proof (close_banks_fits t r T R). destruct (ms_std p); auto 12 with range.
  - unfold x_pdpOut. cbv zeta. set (r1 := rk_set_pdp _ _). assert (rank_fits r1) as R1 by (unfold r1; auto 8 with range).
    destruct (ms_std p); try exact R1. apply r_map; [apply (C bk_active)|exact R1|exact R1].
Qed.
Lemma ich_fits p t q : forall rs l, Forall (fun e : qentry => fits (fst e)) q -> Forall rank_fits rs -> fits l ->
  match ich_process (exec_q p) t q rs l with (q', rs', l') => Forall (fun e => fits (fst e)) q' /\ Forall rank_fits rs' /\ fits l' end.
Proof.
  induction q as [|[ts x] q IH]; intros rs l Q R L; cbn [ich_process]; [now repeat split|].
  inversion Q; subst. destruct (ts <=? t); [|now repeat split]. apply IH; [assumption| |assumption].
  unfold exec_q. apply Forall_upd; [exact R|]. intros r Hr. now apply exec_fits.
Qed.
Lemma process_fits p t s : core_fits s -> core_fits (process_queue p t s).
Proof.
  intros (L & R & Q). unfold process_queue. pose proof (ich_fits p t _ _ _ Q R L) as H. destruct (ich_process _ _ _ _ _) as [[q rs] l]. destruct H as (A & B & C). split; [exact C|]. split; [exact B|exact A].
Qed.
Lemma insert_fits_q n (x : nat * ricmd) q : fits n -> Forall (fun e : qentry => fits (fst e)) q -> Forall (fun e => fits (fst e)) (q_insert n x q).
Proof.
  intros F Q. induction Q as [|[m y] q H Q IH]; cbn [q_insert]; [constructor; [exact F|constructor]|].
  destruct (n <? m); constructor; try assumption. constructor; assumption.
Qed.
Lemma enqueue_fits r evs : forall q, Forall (fun e : N * ricmd => fits (fst e)) evs -> Forall (fun e : qentry => fits (fst e)) q -> Forall (fun e => fits (fst e)) (enqueue r evs q).
Proof.
  unfold enqueue. induction evs as [|e evs IH]; intros q E Q; cbn [fold_left]; [exact Q|]. inversion E; subst. apply IH; [assumption|]. now apply insert_fits_q.
Qed.
Lemma command_fits p c s s' : fits (cmd_ts c) -> core_fits s -> do_command p c s = Ok s' -> core_fits s'.
Proof.
  intros T F. unfold do_command. pose proof (process_fits p (cmd_ts c) s F) as (L & R & Q). set (s1 := process_queue p (cmd_ts c) s) in *.
  assert (fits (N.max (cmd_ts c) (co_last s1))) as M by now apply fits_max.
  destruct (dispatch p c) as [| | |f] eqn:D; intro H; try discriminate.
  - injection H as <-. split; [exact M|]. split; [exact R|exact Q].
  - cbn [co_ranks co_queue co_last] in H. destruct (nth_error (co_ranks s1) (N.to_nat (cmd_rank c))) as [rk|] eqn:En; [|discriminate].
    assert (rank_fits rk) as K by (rewrite Forall_forall in R; apply R; eapply nth_error_In; exact En).
    pose proof (dispatch_fits p c f rk T D K) as G. destruct (f rk) as [[rk' evs]|[rk' evs]| |]; try discriminate. injection H as <-.
    split; [exact M|]. split; cbn [co_ranks co_queue].
    + apply Forall_upd; [exact R|]. intros _ _. apply G.
    + apply enqueue_fits; [apply G|exact Q].
Qed.
Lemma new_fits p : core_fits (core_new p).
Proof.
  split; [apply fits_zero|]. split; [|constructor]. cbn. apply Forall_forall. intros r H. apply repeat_spec in H. subst r.
  split; [repeat split; exact Logic.I|]. split; [repeat split|]. cbn. apply Forall_forall. intros b B. apply repeat_spec in B. subst b. apply b_new.
Qed.
Lemma ops_fit p os : forall s s' a, Forall op_fits os -> core_fits s -> run_ops p os s = Ok (s', a) -> core_fits s'.
Proof.
  induction os as [|[c|t] os IH]; intros s s' a F S H; cbn [run_ops] in H; inversion F; subst.
  - injection H as <- _. exact S.
  - destruct (do_command p c s) as [s1|s1| |] eqn:D; try discriminate. eapply IH; [assumption| |exact H]. eapply command_fits; eassumption.
  - unfold window_stats in H. pose proof (process_fits p t s S) as P.
    destruct (run_ops p os (process_queue p t s)) as [[s2 r]|[s2 r]| |] eqn:E; try discriminate. injection H as <- _. eapply IH; eassumption.
Qed.
Lemma range p os s a : Forall op_fits os -> run_ops p os (core_new p) = Ok (s, a) -> core_fits s.
Proof. intros F H. eapply ops_fit; [exact F|apply new_fits|exact H]. Qed.
