(* Structural facts about the cores: draining as execution of a prefix, queue
   sortedness, vector sizes, and the projection of a core on one rank. *)
From Coq Require Import ZArith NArith List Bool Lia ZifyBool ZifyNat ZifyN Sorting.Sorted Permutation.
From Verif Require Import Base Command CoreModel ListFacts QueueProofs.
Import ListNotations.
Local Open Scope N_scope.

(* ---- draining ---- *)

Definition exec_entry (p : memspec) (rs : list rank) (e : N * (nat * ricmd)) : list rank :=
  upd (fst (snd e)) (exec_ric p (fst e) (snd (snd e))) rs.

Definition last_ts {A} (l0 : N) (es : list (N * A)) : N := fold_left (fun _ e => fst e) es l0.

Lemma ich_process_eq {A Ctx} (exec : N -> A -> Ctx -> Ctx) t q ctx l :
  ich_process exec t q ctx l =
  (rest t q, fold_left (fun c e => exec (fst e) (snd e) c) (due t q) ctx, last_ts l (due t q)).
Proof.
  revert ctx l; induction q as [|[ts x] q IH]; intros ctx l; cbn; auto.
  destruct (ts <=? t); cbn; auto. rewrite IH. reflexivity.
Qed.

Lemma process_eq p t s :
  process_queue p t s =
  mkCore (fold_left (exec_entry p) (due t (co_queue s)) (co_ranks s))
         (rest t (co_queue s)) (last_ts (co_last s) (due t (co_queue s))).
Proof. unfold process_queue. rewrite ich_process_eq. reflexivity. Qed.

Lemma process_process p t1 t2 s :
  t1 <= t2 -> process_queue p t2 (process_queue p t1 s) = process_queue p t2 s.
Proof.
  intros H. rewrite !process_eq; cbn [co_queue co_ranks co_last].
  rewrite rest_rest by exact H.
  unfold last_ts. rewrite <- !fold_left_app, !(due_due _ _ _ H). reflexivity.
Qed.

Lemma do_command_process p c t s :
  t <= cmd_ts c -> do_command p c (process_queue p t s) = do_command p c s.
Proof. intros H. unfold do_command. rewrite process_process by exact H. reflexivity. Qed.

(* ---- sortedness of the queue ---- *)

Lemma enqueue_sorted r evs q : tsorted q -> tsorted (enqueue r evs q).
Proof.
  unfold enqueue. revert q; induction evs as [|e evs IH]; intros q H; cbn; auto.
  apply IH, q_insert_sorted, H.
Qed.

Lemma process_sorted p t s : tsorted (co_queue s) -> tsorted (co_queue (process_queue p t s)).
Proof. rewrite process_eq; cbn. apply rest_sorted. Qed.

Lemma do_command_sorted p c s s' :
  tsorted (co_queue s) -> do_command p c s = Ok s' -> tsorted (co_queue s').
Proof.
  intros Hs. unfold do_command.
  pose proof (process_sorted p (cmd_ts c) s Hs) as Hp.
  destruct (dispatch p c) as [| | |f]; intros H; try discriminate.
  - injection H as <-; exact Hp.
  - cbn [co_ranks co_queue co_last] in H.
    destruct (nth_error _ _) as [rk|]; [|discriminate].
    destruct (f rk) as [[rk' evs]|[rk' evs]| |]; try discriminate.
    injection H as <-; cbn. apply enqueue_sorted, Hp.
Qed.

Lemma run_core_sorted p cs s s' :
  tsorted (co_queue s) -> run_core p cs s = Ok s' -> tsorted (co_queue s').
Proof.
  revert s; induction cs as [|c cs IH]; cbn; intros s Hs H.
  - injection H as <-; auto.
  - destruct (do_command p c s) as [s1|s1| |] eqn:E; try discriminate.
    eapply IH; [|exact H]. eapply do_command_sorted; eauto.
Qed.

Lemma queue_sorted_reachable p cs s : run_core p cs (core_new p) = Ok s -> tsorted (co_queue s).
Proof. apply run_core_sorted. constructor. Qed.

(* ---- sizes are preserved ---- *)

Definition nbk (r : rank) : nat := length (rk_banks r).

Lemma nbk_upd_bank b f r : nbk (rk_upd_bank b f r) = nbk r.
Proof. unfold nbk, rk_upd_bank; cbn. apply length_upd. Qed.
Lemma nbk_close_if_idle t r : nbk (close_if_idle t r) = nbk r.
Proof. unfold close_if_idle; destruct (rank_is_active t r); reflexivity. Qed.
Lemma nbk_start_if_idle t r : nbk (start_if_idle t r) = nbk r.
Proof. unfold start_if_idle; destruct (rank_is_active t r); reflexivity. Qed.
Lemma nbk_set_banks_map f r : nbk (rk_set_banks (map f (rk_banks r)) r) = nbk r.
Proof. unfold nbk; cbn. apply map_length. Qed.

Lemma nbk_h_act p b t r : nbk (h_act p b t r) = nbk r.
Proof.
  unfold h_act. destruct (ms_std p);
  rewrite ?nbk_upd_bank, ?nbk_start_if_idle, ?nbk_upd_bank; try reflexivity.
  unfold nbk; cbn. apply length_upd.
Qed.

Lemma nbk_h_pre t b r : nbk (h_pre t b r) = nbk r.
Proof.
  unfold h_pre. destruct (nth_error _ b) as [k|]; [|reflexivity].
  destruct (bk_active k); [|reflexivity].
  rewrite nbk_close_if_idle, nbk_upd_bank; reflexivity.
Qed.

Lemma nbk_fold {A} (f : A -> rank -> rank) l r :
  (forall a r, nbk (f a r) = nbk r) -> nbk (fold_left (fun r a => f a r) l r) = nbk r.
Proof. intros H; revert r; induction l as [|a l IH]; intros r; cbn; auto. rewrite IH, H; auto. Qed.

Lemma nbk_h_refreshOnBank k tm t b r : nbk (fst (h_refreshOnBank k tm t b r)) = nbk r.
Proof. unfold h_refreshOnBank; cbn [fst]. rewrite nbk_upd_bank, nbk_start_if_idle, nbk_upd_bank; reflexivity. Qed.

(* The loop splits into the rank part and the schedule. *)
Lemma refresh_banks_eq k tm t bs r :
  refresh_banks k tm t bs r =
  (fold_left (fun r b => fst (h_refreshOnBank k tm t b r)) bs r,
   map (fun b => (u64_add t tm, RI_refEnd b)) bs).
Proof.
  unfold refresh_banks.
  match goal with |- fold_left ?f _ _ = _ => set (F := f) end.
  assert (forall evs, fold_left F bs (r, evs) =
    (fold_left (fun r b => fst (h_refreshOnBank k tm t b r)) bs r,
     evs ++ map (fun b => (u64_add t tm, RI_refEnd b)) bs)) as H.
  { revert r; induction bs as [|b bs IH]; intros r evs; cbn [fold_left map].
    - rewrite app_nil_r; reflexivity.
    - change (F (r, evs) b) with
        (fst (h_refreshOnBank k tm t b r), evs ++ [(u64_add t tm, RI_refEnd b)]).
      rewrite IH, <- app_assoc. reflexivity. }
  apply (H []).
Qed.

Lemma nbk_refresh_banks k tm t bs r : nbk (fst (refresh_banks k tm t bs r)) = nbk r.
Proof.
  rewrite refresh_banks_eq; cbn [fst].
  apply (nbk_fold (fun b r => fst (h_refreshOnBank k tm t b r))).
  intros; apply nbk_h_refreshOnBank.
Qed.

Lemma h_refAll_ddr4 p t r : ms_std p = DDR4 ->
  h_refAll p t r =
  (fold_left (fun r b => ddr4_ref_bank t (u64_add t (ms_tRFC p)) b r)
     (seq 0 (nbk r))
     (rk_set_act (iv_start_if_closed t (rk_act r))
        (rk_set_endRefresh (u64_add t (ms_tRFC p)) r)),
   map (fun b => (u64_add t (ms_tRFC p), RI_refEnd b)) (seq 0 (nbk r))).
Proof. intros H; unfold h_refAll; rewrite H; reflexivity. Qed.

Lemma h_refAll_other p t r : ms_std p <> DDR4 ->
  h_refAll p t r =
  (rk_set_endRefresh (u64_add t (ms_tRFC p))
     (fst (refresh_banks K_refAllBank (ms_tRFC p) t (seq 0 (nbk r)) r)),
   map (fun b => (u64_add t (ms_tRFC p), RI_refEnd b)) (seq 0 (nbk r))).
Proof.
  intros H; unfold h_refAll, nbk; rewrite refresh_banks_eq.
  destruct (ms_std p); try congruence; reflexivity.
Qed.

Lemma nbk_h_refAll p t r : nbk (fst (h_refAll p t r)) = nbk r.
Proof.
  destruct (ms_std p) eqn:E;
    [rewrite h_refAll_ddr4 by exact E
    |rewrite h_refAll_other by congruence; cbn [fst]; apply nbk_refresh_banks ..].
  cbn [fst].
  rewrite (nbk_fold (fun b r => ddr4_ref_bank t (u64_add t (ms_tRFC p)) b r)); auto.
  intros; apply nbk_upd_bank.
Qed.

Lemma nbk_exec_ric p t c r : nbk (exec_ric p t c r) = nbk r.
Proof.
  destruct c; cbn [exec_ric].
  - apply nbk_h_pre.
  - unfold x_refEnd. rewrite nbk_close_if_idle, nbk_upd_bank; reflexivity.
  - reflexivity.
  - unfold nbk, x_pdaIn, close_banks; cbn. apply map_length.
  - unfold x_pdaOut. destruct (ms_std p);
      try (match goal with |- nbk (if ?b then _ else _) = _ => destruct b end);
      unfold nbk; cbn; apply map_length.
  - unfold x_pdpIn. destruct (ms_std p); try reflexivity.
    unfold nbk, close_banks; cbn. apply map_length.
  - unfold x_pdpOut. destruct (ms_std p); try reflexivity.
    unfold nbk; cbn. apply map_length.
Qed.

(* What a rank handler may return. *)
Definition nbk_ok (r : rank) (o : outcome (rank * events)) : Prop :=
  match o with Ok (r', _) | Throws (r', _) => nbk r' = nbk r | _ => True end.

Lemma nbk_dispatch p c f r : dispatch p c = A_rank f -> nbk_ok r (f r).
Proof.
  unfold dispatch, on_rank, on_bank, on_banks, quiet, quiet_o, h_preAll, h_preSame,
    h_rw, h_rwAuto, h_srefEntry, h_srefExit, h_dsmEntry, h_dsmExit, h_pdaEntry,
    h_pdaExit, h_pdpEntry, h_pdpExit, h_refSame, h_refPerBank, h_refTwoBanks, h_refDual.
  destruct (cmd_type c);
    repeat match goal with
           | |- context [match ms_std p with _ => _ end] => destruct (ms_std p)
           | |- context [match ms_banksPerGroup p with _ => _ end] => destruct (ms_banksPerGroup p)
           | |- context [if ms_m8b p then _ else _] => destruct (ms_m8b p)
           end;
    intros H; try discriminate; injection H as <-;
    repeat match goal with
           | |- nbk_ok _ (if ?b then _ else _) => destruct b
           | |- nbk_ok _ (match rk_memState ?b with _ => _ end) => destruct (rk_memState b)
           | |- nbk_ok _ (match (match ?b with _ => _ end) with _ => _ end) => destruct b
           end; cbn [nbk_ok]; auto.
  all: try (destruct (nth_error _ _); cbn [nbk_ok]; auto using nbk_upd_bank).
  all: try apply nbk_h_act; try apply nbk_h_pre; try apply nbk_upd_bank.
  all: try (apply (nbk_fold (h_pre _)); intros; apply nbk_h_pre).
  all: try match goal with
       | |- context [refresh_banks ?a ?b ?c ?d ?e] =>
           pose proof (nbk_refresh_banks a b c d e) as HH;
           destruct (refresh_banks a b c d e); exact HH
       | |- context [h_refAll ?a ?b ?c] =>
           pose proof (nbk_h_refAll a b c) as HH;
           destruct (h_refAll a b c); exact HH
       end.
Qed.

Definition sizes_ok (p : memspec) (s : core) : Prop :=
  length (co_ranks s) = ms_ranks p /\ Forall (fun r => nbk r = ms_banks p) (co_ranks s).

Lemma Forall_upd {A} (P : A -> Prop) i f l :
  Forall P l -> (forall x, P x -> P (f x)) -> Forall P (upd i f l).
Proof.
  intros H Hf; revert i; induction H as [|x l Hx Hl IH]; intros [|i]; cbn; auto.
Qed.

Lemma exec_entries_length p es rs : length (fold_left (exec_entry p) es rs) = length rs.
Proof. revert rs; induction es as [|e es IH]; intros rs; cbn; auto.
  rewrite IH. unfold exec_entry. apply length_upd. Qed.

Lemma exec_entries_nbk p es rs n :
  Forall (fun r => nbk r = n) rs -> Forall (fun r => nbk r = n) (fold_left (exec_entry p) es rs).
Proof.
  revert rs; induction es as [|e es IH]; intros rs H; cbn; auto.
  apply IH. unfold exec_entry. apply Forall_upd; auto.
  intros x Hx. rewrite nbk_exec_ric; auto.
Qed.

Lemma process_sizes p t s : sizes_ok p s -> sizes_ok p (process_queue p t s).
Proof.
  intros [H1 H2]. rewrite process_eq. split; cbn.
  - rewrite exec_entries_length; auto.
  - apply exec_entries_nbk; auto.
Qed.

Lemma do_command_sizes p c s s' : sizes_ok p s -> do_command p c s = Ok s' -> sizes_ok p s'.
Proof.
  intros Hs. unfold do_command.
  pose proof (process_sizes p (cmd_ts c) s Hs) as [H1 H2].
  destruct (dispatch p c) as [| | |f] eqn:Ed; intros H; try discriminate.
  - injection H as <-; split; auto.
  - cbn [co_ranks co_queue co_last] in H.
    destruct (nth_error _ _) as [rk|] eqn:En; [|discriminate].
    pose proof (nbk_dispatch p c f rk Ed) as Hn.
    destruct (f rk) as [[rk' evs]|[rk' evs]| |]; try discriminate.
    injection H as <-; split; cbn in *.
    + rewrite length_upd; auto.
    + rewrite Forall_forall in *. intros x Hx. apply In_nth_error in Hx as [i Hi].
      rewrite nth_error_upd in Hi.
      destruct (Nat.eqb_spec (N.to_nat (cmd_rank c)) i) as [Heq|Hne].
      * subst i. rewrite En in Hi; injection Hi as <-. rewrite Hn. apply H2.
        eapply nth_error_In; eauto.
      * apply H2. eapply nth_error_In; eauto.
Qed.

Lemma run_core_sizes p cs s s' : sizes_ok p s -> run_core p cs s = Ok s' -> sizes_ok p s'.
Proof.
  revert s; induction cs as [|c cs IH]; cbn; intros s Hs H.
  - injection H as <-; auto.
  - destruct (do_command p c s) as [s1|s1| |] eqn:E; try discriminate.
    eapply IH; [|exact H]. eapply do_command_sizes; eauto.
Qed.

Lemma core_new_sizes p : sizes_ok p (core_new p).
Proof.
  split; cbn.
  - apply repeat_length.
  - apply Forall_forall. intros x Hx. apply repeat_spec in Hx as ->.
    unfold nbk; cbn. apply repeat_length.
Qed.

(* ---- projection on one rank ---- *)

Definition rqueue (r : nat) (q : list qentry) : events :=
  map (fun e => (fst e, snd (snd e))) (filter (fun e => Nat.eqb (fst (snd e)) r) q).

Notation rstate := (rank * list (N * ricmd))%type.

Definition exec_ev (p : memspec) (rk : rank) (e : N * ricmd) : rank :=
  exec_ric p (fst e) (snd e) rk.

Definition r_drain (p : memspec) (t : N) (s : rstate) : rstate :=
  (fold_left (exec_ev p) (due t (snd s)) (fst s), rest t (snd s)).

Definition r_enqueue (evs q : events) : events :=
  fold_left (fun q e => q_insert (fst e) (snd e) q) evs q.

Definition r_apply (p : memspec) (c : Command) (s : rstate) : outcome rstate :=
  match dispatch p c with
  | A_none => Ok s
  | A_unsupported => Asserts
  | A_throw => Throws s
  | A_rank f =>
      match f (fst s) with
      | Ok (rk', evs) => Ok (rk', r_enqueue evs (snd s))
      | Throws (rk', evs) => Throws (rk', r_enqueue evs (snd s))
      | Asserts => Asserts
      | Undefined => Undefined
      end
  end.

Definition r_command (p : memspec) (c : Command) (s : rstate) : outcome rstate :=
  r_apply p c (r_drain p (cmd_ts c) s).

Fixpoint r_run (p : memspec) (cs : list Command) (s : rstate) : outcome rstate :=
  match cs with
  | [] => Ok s
  | c :: cs' => match r_command p c s with
                | Ok s' => r_run p cs' s'
                | o => o
                end
  end.

Definition proj (r : nat) (s : core) : option rstate :=
  match nth_error (co_ranks s) r with
  | Some rk => Some (rk, rqueue r (co_queue s))
  | None => None
  end.

Lemma due_map_f {A B} (g : N * A -> N * B) (Hg : forall e, fst (g e) = fst e) t q :
  due t (map g q) = map g (due t q).
Proof. induction q as [|e q IH]; cbn; auto. rewrite Hg. destruct (fst e <=? t); cbn; congruence. Qed.
Lemma rest_map_f {A B} (g : N * A -> N * B) (Hg : forall e, fst (g e) = fst e) t q :
  rest t (map g q) = map g (rest t q).
Proof. induction q as [|e q IH]; cbn; auto. rewrite Hg. destruct (fst e <=? t); cbn; congruence. Qed.

Lemma filter_filter {A} (f g : A -> bool) l :
  filter f (filter g l) = filter g (filter f l).
Proof.
  induction l as [|a l IH]; cbn; auto.
  destruct (f a) eqn:Ef, (g a) eqn:Eg; cbn; rewrite ?Ef, ?Eg; congruence.
Qed.

Lemma due_rqueue t r q : tsorted q -> due t (rqueue r q) = rqueue r (due t q).
Proof.
  intros H. unfold rqueue. rewrite due_map_f by reflexivity. f_equal.
  rewrite !due_filter by auto using tsorted_filter. apply filter_filter.
Qed.
Lemma rest_rqueue t r q : tsorted q -> rest t (rqueue r q) = rqueue r (rest t q).
Proof.
  intros H. unfold rqueue. rewrite rest_map_f by reflexivity. f_equal.
  rewrite !rest_filter by auto using tsorted_filter. apply filter_filter.
Qed.

Lemma exec_entries_nth p es rs r :
  nth_error (fold_left (exec_entry p) es rs) r =
  option_map (fun rk => fold_left (exec_ev p) (rqueue r es) rk) (nth_error rs r).
Proof.
  revert rs; induction es as [|e es IH]; intros rs.
  - cbn. destruct (nth_error rs r); reflexivity.
  - cbn [fold_left]. rewrite IH. unfold exec_entry. rewrite nth_error_upd.
    unfold rqueue; cbn [filter].
    destruct (Nat.eqb (fst (snd e)) r); cbn [map fold_left].
    + destruct (nth_error rs r); reflexivity.
    + reflexivity.
Qed.

Lemma proj_process p t s r : tsorted (co_queue s) ->
  proj r (process_queue p t s) = option_map (r_drain p t) (proj r s).
Proof.
  intros H. rewrite process_eq. unfold proj; cbn [co_ranks co_queue].
  rewrite exec_entries_nth.
  destruct (nth_error (co_ranks s) r) as [rk|]; cbn; auto.
  unfold r_drain; cbn. rewrite due_rqueue, rest_rqueue by auto. reflexivity.
Qed.

Lemma map_q_insert {A B} (g : A -> B) ts x q :
  map (fun e => (fst e, g (snd e))) (q_insert ts x q)
  = q_insert ts (g x) (map (fun e => (fst e, g (snd e))) q).
Proof.
  induction q as [|[ts' y] q IH]; cbn; auto.
  destruct (ts <? ts'); cbn; congruence.
Qed.

Lemma rqueue_insert r r' ts x q : tsorted q ->
  rqueue r (q_insert ts (r', x) q) =
  if Nat.eqb r' r then q_insert ts x (rqueue r q) else rqueue r q.
Proof.
  intros H. unfold rqueue. rewrite filter_q_insert by auto. cbn [fst snd].
  destruct (Nat.eqb r' r); auto.
  apply (map_q_insert (fun y : nat * ricmd => snd y)).
Qed.

Lemma rqueue_enqueue r r' evs q : tsorted q ->
  rqueue r (enqueue r' evs q) =
  if Nat.eqb r' r then r_enqueue evs (rqueue r q) else rqueue r q.
Proof.
  unfold enqueue, r_enqueue.
  revert q; induction evs as [|e evs IH]; intros q H; cbn [fold_left].
  - destruct (Nat.eqb r' r); reflexivity.
  - rewrite IH by (apply q_insert_sorted; auto). rewrite rqueue_insert by auto.
    destruct (Nat.eqb r' r); reflexivity.
Qed.

(* A command addressed to rank r acts on the projection like r_command. *)
Lemma proj_command_same p c s s' st r :
  tsorted (co_queue s) -> N.to_nat (cmd_rank c) = r ->
  proj r s = Some st -> do_command p c s = Ok s' ->
  exists st', r_command p c st = Ok st' /\ proj r s' = Some st'.
Proof.
  intros Hq Hr Hp H.
  pose proof (proj_process p (cmd_ts c) s r Hq) as HP. rewrite Hp in HP. cbn in HP.
  pose proof (process_sorted p (cmd_ts c) s Hq) as Hq1.
  unfold do_command in H. unfold r_command, r_apply.
  destruct (dispatch p c) as [| | |f]; try discriminate.
  - injection H as <-. eexists; split; [reflexivity|]. exact HP.
  - cbn [co_ranks co_queue co_last] in H. rewrite Hr in H.
    unfold proj in HP.
    destruct (nth_error (co_ranks (process_queue p (cmd_ts c) s)) r) as [rk|] eqn:En; [|discriminate].
    assert (HP1 : r_drain p (cmd_ts c) st = (rk, rqueue r (co_queue (process_queue p (cmd_ts c) s))))
      by congruence.
    rewrite HP1; cbn [fst snd].
    destruct (f rk) as [[rk' evs]|[rk' evs]| |]; try discriminate.
    injection H as <-. eexists; split; [reflexivity|].
    unfold proj; cbn [co_ranks co_queue]. rewrite nth_error_upd, Nat.eqb_refl, En; cbn [option_map].
    rewrite rqueue_enqueue, Nat.eqb_refl by auto. reflexivity.
Qed.

(* A command addressed to another rank only drains the projection. *)
Lemma proj_command_other p c s s' r :
  tsorted (co_queue s) -> N.to_nat (cmd_rank c) <> r ->
  do_command p c s = Ok s' ->
  proj r s' = option_map (r_drain p (cmd_ts c)) (proj r s).
Proof.
  intros Hq Hr H.
  rewrite <- proj_process by auto.
  pose proof (process_sorted p (cmd_ts c) s Hq) as Hq1.
  unfold do_command in H.
  destruct (dispatch p c) as [| | |f]; try discriminate.
  - injection H as <-. reflexivity.
  - cbn [co_ranks co_queue co_last] in H.
    destruct (nth_error (co_ranks (process_queue p (cmd_ts c) s)) (N.to_nat (cmd_rank c))) as [rk|] eqn:En; [|discriminate].
    destruct (f rk) as [[rk' evs]|[rk' evs]| |]; try discriminate.
    injection H as <-. unfold proj; cbn [co_ranks co_queue].
    rewrite nth_error_upd, rqueue_enqueue by auto.
    destruct (Nat.eqb_spec (N.to_nat (cmd_rank c)) r); [congruence|].
    reflexivity.
Qed.

(* Draining twice. *)
Lemma r_drain_drain p t1 t2 s : t1 <= t2 -> r_drain p t2 (r_drain p t1 s) = r_drain p t2 s.
Proof.
  intros H. unfold r_drain; cbn [fst snd]. rewrite rest_rest by auto. f_equal.
  rewrite <- fold_left_app, due_due; auto.
Qed.

Lemma r_command_drain p c t s : t <= cmd_ts c -> r_command p c (r_drain p t s) = r_command p c s.
Proof. intros H. unfold r_command. rewrite r_drain_drain by auto. reflexivity. Qed.
