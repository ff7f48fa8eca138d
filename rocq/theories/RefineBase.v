(* Relation between the model of a rank and the reference machine, and the
   facts about intervals, banks and queues it needs. *)
From Coq Require Import ZArith NArith List Bool Lia ZifyBool ZifyNat ZifyN Sorting.Sorted Permutation.
From Verif Require Import Base Command CoreModel ListFacts QueueProofs CoreBasics HistorySpec CoreHistory CoreBounds DeviceSpec.
Import ListNotations.
Local Open Scope N_scope.

Definition b2N (b : bool) : N := if b then 1 else 0.

(* ---- intervals ---- *)

Definition ivrel (now : N) (i : interval) (o : bool) (a : N) : Prop :=
  iv_wf now i /\ iv_is_open i = o /\ iv_count_at now i = a.

Lemma ivrel_close now i o a : now < two64 -> ivrel now i o a -> ivrel now (iv_close now i) false a.
Proof.
  intros Hn [H1 [H2 H3]]. split; [|split].
  - apply iv_wf_close; auto.
  - unfold iv_close. destruct (iv_is_open i) eqn:E; auto. unfold iv_is_open; cbn.
    destruct (iv_start i); reflexivity.
  - rewrite iv_count_close; auto.
Qed.

Lemma ivrel_start now i a : ivrel now i false a -> ivrel now (iv_start_at now i) true a.
Proof.
  intros [H1 [H2 H3]]. split; [|split; [reflexivity|]].
  - apply iv_wf_start; auto.
  - rewrite iv_count_closed in H3 by auto. unfold iv_count_at, iv_start_at, iv_is_open, iv_get_start; cbn.
    rewrite N.ltb_irrefl. exact H3.
Qed.

Lemma ivrel_start_if_closed now i o a : ivrel now i o a -> ivrel now (iv_start_if_closed now i) true a.
Proof.
  intros H. unfold iv_start_if_closed. destruct (iv_is_open i) eqn:E.
  - destruct H as [H1 [H2 H3]]. split; auto.
  - apply ivrel_start. destruct H as [H1 [H2 H3]]. split; auto.
Qed.

Lemma ivrel_tick now i o a : now + 1 < two64 -> ivrel now i o a -> ivrel (now + 1) i o (a + b2N o).
Proof.
  intros Hn [H1 [H2 H3]]. split; [|split; auto].
  - eapply iv_wf_weaken; [|exact H1]. lia.
  - destruct o; cbn [b2N].
    + unfold iv_is_open in H2.
      destruct (iv_start i) as [s|] eqn:Es, (iv_end i) as [e|] eqn:Ee; try discriminate.
      pose proof H1 as H1'. unfold iv_wf in H1'. rewrite Es, Ee in H1'.
      rewrite (iv_count_open (now + 1) i s); auto.
      2: eapply iv_wf_weaken; [|exact H1]; lia.
      rewrite (iv_count_open now i s) in H3 by (auto; lia). lia.
    + rewrite iv_count_closed in H3 |- * by auto. lia.
Qed.

Lemma ivrel_new now : ivrel now iv_new false 0.
Proof. repeat split. Qed.

Lemma ivrel_ext now i o a o' a' : ivrel now i o a -> o = o' -> a = a' -> ivrel now i o' a'.
Proof. intros H <- <-; exact H. Qed.

(* ---- lists ---- *)

Lemma mapi_length {A B} i (f : nat -> A -> B) l : length (mapi i f l) = length l.
Proof. revert i; induction l; intros; cbn; auto. Qed.

Lemma nth_error_mapi {A B} (f : nat -> A -> B) l i j :
  nth_error (mapi i f l) j = option_map (f (i + j)%nat) (nth_error l j).
Proof.
  revert i j; induction l as [|x l IH]; intros i [|j]; cbn; auto.
  - rewrite Nat.add_0_r; auto.
  - rewrite IH. rewrite Nat.add_succ_r; reflexivity.
Qed.

Lemma nth_error_touch p c g bs b :
  nth_error (touch p c g bs) b = option_map (fun x => if footprint p c b then g x else x) (nth_error bs b).
Proof. unfold touch. rewrite nth_error_mapi. reflexivity. Qed.

Lemma addressed_spec p c P bs : addressed p c P bs = true ->
  forall b sb, nth_error bs b = Some sb -> footprint p c b = true -> P sb = true.
Proof.
  unfold addressed. intros H b sb Hb Hf. rewrite forallb_forall in H.
  specialize (H (P sb)). apply H.
  apply (nth_error_In _ b). rewrite nth_error_mapi, Hb. cbn. rewrite Hf. reflexivity.
Qed.

(* ---- pending events of the reference machine ---- *)

Definition sb_ev (i : nat) (b : sbank) : list (N * ricmd) :=
  match sb_state b with
  | Closing c => [(c, RI_pre i)]
  | Refreshing e => [(e, RI_refEnd i)]
  | _ => []
  end.

Fixpoint bank_evs (i : nat) (bs : list sbank) : events :=
  match bs with
  | [] => []
  | b :: r => sb_ev i b ++ bank_evs (S i) r
  end.

Definition rank_ev (d : device) : events :=
  match dv_pend d with
  | Some (x, ActPd) => [(x, RI_pdaIn)]
  | Some (x, PrePd) => [(x, RI_pdpIn)]
  | Some (x, SelfRef) => [(x, RI_sref)]
  | Some (x, Up) => match dv_mode d with
                    | ActPd => [(x, RI_pdaOut)]
                    | PrePd => [(x, RI_pdpOut)]
                    | _ => []
                    end
  | _ => []
  end.

Lemma bank_evs_in e i bs : In e (bank_evs i bs) ->
  exists j sb, nth_error bs j = Some sb /\ sb_ev (i + j) sb = [e].
Proof.
  revert i; induction bs as [|b bs IH]; intros i H; cbn in H; [tauto|].
  apply in_app_or in H as [H|H].
  - exists 0%nat, b. split; auto. rewrite Nat.add_0_r. unfold sb_ev in *.
    destruct (sb_state b); cbn in H; try tauto; destruct H as [<-|[]]; reflexivity.
  - apply IH in H as [j [sb [H1 H2]]]. exists (S j), sb. split; auto.
    rewrite Nat.add_succ_r. exact H2.
Qed.

Lemma bank_evs_nil i bs : bank_evs i bs = [] -> forall j sb, nth_error bs j = Some sb -> is_stable sb = true.
Proof.
  revert i; induction bs as [|b bs IH]; intros i H [|j] sb Hj; cbn in *; try discriminate.
  - injection Hj as <-. apply app_eq_nil in H as [H _]. unfold sb_ev in H.
    unfold is_stable, is_closed, is_open. destruct (sb_state b); try discriminate; reflexivity.
  - apply app_eq_nil in H as [_ H]. eapply IH; eauto.
Qed.

(* Replacing one bank. *)
Lemma bank_evs_upd i j bs sb g : nth_error bs j = Some sb ->
  Permutation (sb_ev (i + j) sb ++ bank_evs i (upd j g bs)) (sb_ev (i + j) (g sb) ++ bank_evs i bs).
Proof.
  revert i j; induction bs as [|b bs IH]; intros i [|j] H; cbn in *; try discriminate.
  - injection H as <-. rewrite Nat.add_0_r. apply Permutation_app_swap_app.
  - specialize (IH (S i) j H). rewrite Nat.add_succ_r. change (S i + j)%nat with (S (i + j)) in IH.
    rewrite Permutation_app_swap_app. rewrite IH. apply Permutation_app_swap_app.
Qed.

Lemma bank_evs_all_stable i bs :
  (forall j sb, nth_error bs j = Some sb -> is_stable sb = true) -> bank_evs i bs = [].
Proof.
  revert i; induction bs as [|b bs IH]; intros i H; cbn; auto.
  rewrite IH by (intros j sb Hj; apply (H (S j)); auto). rewrite app_nil_r.
  specialize (H 0%nat b eq_refl). unfold is_stable, is_closed, is_open in H. unfold sb_ev.
  destruct (sb_state b); try discriminate; reflexivity.
Qed.

(* touch as a loop *)
Lemma touch_fold p c g bs ids :
  NoDup ids -> (forall b, (b < length bs)%nat -> In b ids <-> footprint p c b = true) ->
  touch p c g bs = fold_left (fun l b => upd b g l) ids bs.
Proof.
  intros Hn Hi. apply nth_error_ext. intros b.
  rewrite nth_error_touch.
  assert (forall l, nth_error (fold_left (fun l b => upd b g l) ids l) b =
                    if existsb (Nat.eqb b) ids then option_map g (nth_error l b) else nth_error l b) as HH.
  { clear Hi. induction ids as [|x ids IH]; intros l; cbn; auto.
    inversion Hn as [|? ? Hx Hn']; subst. rewrite (IH Hn'). rewrite nth_error_upd.
    rewrite (Nat.eqb_sym x b).
    destruct (Nat.eqb_spec b x) as [->|]; cbn [orb]; auto.
    destruct (existsb (Nat.eqb x) ids) eqn:E; auto.
    apply existsb_exists in E as [y [Hy Hxy]]. apply Nat.eqb_eq in Hxy as ->. tauto. }
  rewrite HH. destruct (nth_error bs b) as [sb|] eqn:E.
  2: destruct (existsb (Nat.eqb b) ids); reflexivity.
  cbn [option_map]. specialize (Hi b (nth_error_some_lt _ _ _ E)).
  destruct (existsb (Nat.eqb b) ids) eqn:Ex.
  - apply existsb_exists in Ex as [y [Hy Hxy]]. apply Nat.eqb_eq in Hxy as ->.
    apply Hi in Hy. rewrite Hy. reflexivity.
  - destruct (footprint p c b) eqn:Ef; auto.
    exfalso. assert (In b ids) as Hin by (apply Hi; auto).
    assert (existsb (Nat.eqb b) ids = true) by (apply existsb_exists; exists b; split; auto; apply Nat.eqb_refl).
    congruence.
Qed.

(* Starting an event on each of several stable banks. *)
Lemma fold_evs (g : sbank -> sbank) (ev : nat -> N * ricmd) ids bs :
  NoDup ids ->
  (forall b sb, In b ids -> nth_error bs b = Some sb -> is_stable sb = true /\ sb_ev b (g sb) = [ev b]) ->
  (forall b, In b ids -> (b < length bs)%nat) ->
  Permutation (map ev ids ++ bank_evs 0 bs) (bank_evs 0 (fold_left (fun l b => upd b g l) ids bs)).
Proof.
  revert bs; induction ids as [|b ids IH]; intros bs Hn Hs Hl; cbn [map fold_left app]; [reflexivity|].
  inversion Hn as [|? ? Hx Hn']; subst.
  destruct (nth_error_lt bs b (Hl b (or_introl eq_refl))) as [sb Hb].
  destruct (Hs b sb (or_introl eq_refl) Hb) as [S1 S2].
  rewrite <- IH; auto.
  - pose proof (bank_evs_upd 0 b bs sb g Hb) as P. cbn [Nat.add] in P. rewrite S2 in P.
    assert (sb_ev b sb = []) as E0.
    { unfold is_stable, is_closed, is_open in S1. unfold sb_ev. destruct (sb_state sb); try discriminate; auto. }
    rewrite E0 in P. cbn [app] in P. rewrite P. change (ev b :: map ev ids ++ bank_evs 0 bs) with ([ev b] ++ map ev ids ++ bank_evs 0 bs).
    apply Permutation_app_swap_app.
  - intros b' sb' Hin Hb'. rewrite nth_error_upd_ne in Hb' by (intros ->; tauto).
    apply Hs; auto. right; auto.
  - intros b' Hin. rewrite length_upd. apply Hl; right; auto.
Qed.

(* ---- settling ---- *)

Lemma settle_bank_idem a b sb : a <= b -> settle_bank b (settle_bank a sb) = settle_bank b sb.
Proof.
  intros H. unfold settle_bank. destruct (sb_state sb) as [| |c|e] eqn:E; rewrite ?E; auto.
  - destruct (N.leb_spec c a); cbn; rewrite ?E; auto. destruct (N.leb_spec c b); auto; lia.
  - destruct (N.leb_spec e a); cbn; rewrite ?E; auto. destruct (N.leb_spec e b); auto; lia.
Qed.

Lemma settle_wake t x sb : settle_bank t (wake_bank x sb) = wake_bank x (settle_bank t sb).
Proof.
  unfold settle_bank, wake_bank. destruct (sb_state sb) as [| |c|e] eqn:E; cbn; rewrite ?E; auto.
  - destruct (c <=? t); cbn; rewrite ?E; auto.
  - destruct (e <=? t); cbn; rewrite ?E; auto.
Qed.

Lemma settle_settle a b d : a <= b -> settle b (settle a d) = settle b d.
Proof.
  intros H. unfold settle.
  assert (map (settle_bank b) (map (settle_bank a) (dv_banks d)) = map (settle_bank b) (dv_banks d)) as E1.
  { rewrite map_map. apply map_ext. intros. apply settle_bank_idem; auto. }
  destruct (dv_pend d) as [[x m]|]; cbn.
  - destruct (N.leb_spec x a).
    + destruct (N.leb_spec x b); [|lia]. cbn. f_equal.
      destruct (dv_mode d); try exact E1.
      rewrite !map_map. apply map_ext. intros s.
      rewrite settle_wake, settle_bank_idem; auto.
    + cbn. rewrite E1. reflexivity.
  - rewrite E1; reflexivity.
Qed.

(* ---- the relation ---- *)

Definition mem_of (m : smode) : memState :=
  match m with Up => NOT_IN_PD | ActPd => PDN_ACT | PrePd => PDN_PRE | SelfRef => SREF | DeepSleep => DSM end.

Record brel (now n ps : N) (pd : bool) (k : bank) (sb : sbank) (a : N) : Prop := {
  br_active : bk_active k = busy sb;
  br_act : ivrel now (bk_act k) (busy sb && negb pd) a;
  br_end : match sb_state sb with
           | Closed => iv_end (bk_act k) = sb_off sb /\ (sb_off sb = None -> sb_since sb = None)
           | Open => pd = true -> iv_end (bk_act k) = Some ps
           | _ => True
           end;
  br_since : match sb_since sb with
             | Some s => iv_start (bk_act k) = Some s /\ cs_act (bk_counter k) <> 0 /\ s <= now
             | None => cs_act (bk_counter k) = 0
             end;
  br_opened : match sb_state sb with Open | Closing _ => sb_since sb <> None | _ => True end;
  br_pre : match sb_pre sb with
           | Some x => bk_latestPre k = x /\ cs_pre (bk_counter k) <> 0 /\ x <= now
           | None => cs_pre (bk_counter k) = 0
           end;
  br_ref : match sb_state sb with
           | Refreshing e => bk_refreshEnd k = e
           | _ => bk_refreshEnd k <= now
           end;
  br_n : cs_act (bk_counter k) <= n /\
         cs_pre (bk_counter k) + (match sb_state sb with Closing _ => 1 | _ => 0 end) <= n /\
         cs_act (bk_counter k) = cs_pre (bk_counter k) + (match sb_state sb with Open | Closing _ => 1 | _ => 0 end)
}.

(* The low-power modes and the banks. *)
Definition dev_ok (ps : N) (d : device) : Prop :=
  let bs := dv_banks d in
  match dv_mode d, dv_pend d with
  | Up, None => True
  | Up, Some (x, ActPd) => existsb is_open bs = true /\ forallb (fun b => is_open b || closed_before x b) bs = true
  | Up, Some (x, PrePd) => forallb (closed_by x) bs = true
  | Up, Some (x, SelfRef) => forallb (closed_by x) bs = true
  | ActPd, (None | Some (_, Up)) =>
      existsb is_open bs = true /\
      forallb (fun b => is_open b || (is_closed b && closed_before ps b)) bs = true
  | PrePd, (None | Some (_, Up)) => forallb is_closed bs = true
  | (SelfRef | DeepSleep), None => forallb is_closed bs = true
  | _, _ => False
  end.

Record cnts := mkCnts {
  n_bank : nat -> N; n_bpre : nat -> N;
  n_act : N; n_pre : N; n_pda : N; n_pdp : N; n_sref : N; n_dsm : N
}.

Record Rel (p : memspec) (now n : N) (rk : rank) (d : device) (K : cnts) : Prop := {
  rl_len : length (rk_banks rk) = ms_banks p /\ length (dv_banks d) = ms_banks p;
  rl_bank : forall b k sb, bnk b rk = Some k -> nth_error (dv_banks d) b = Some sb ->
              brel now n (iv_get_start (rk_pda rk)) (mode_is ActPd d) k sb (n_bank K b);
  rl_mem : rk_memState rk = mem_of (dv_mode d);
  rl_act : ivrel now (rk_act rk) (rank_acts d) (n_act K);
  rl_pda : ivrel now (rk_pda rk) (mode_is ActPd d) (n_pda K);
  rl_pdp : ivrel now (rk_pdp rk) (mode_is PrePd d) (n_pdp K);
  rl_sref : ivrel now (rk_sref rk) (mode_is SelfRef d || mode_is DeepSleep d) (n_sref K + n_dsm K);
  rl_dsm : ivrel now (rk_dsm rk) (mode_is DeepSleep d) (n_dsm K);
  rl_end : now < rk_endRefresh rk ->
             forall b sb, nth_error (dv_banks d) b = Some sb -> sb_state sb = Refreshing (rk_endRefresh rk);
  rl_ok : dev_ok (iv_get_start (rk_pda rk)) d;
  rl_bsum : forall b, (b < ms_banks p)%nat ->
              n_bank K b + n_bpre K b + n_pda K + n_pdp K + n_sref K + n_dsm K = now;
  rl_sum : n_act K + n_pre K + n_pda K + n_pdp K + n_sref K + n_dsm K = now
}.

Record qrel (now : N) (q : events) (d : device) : Prop := {
  ql_split : exists qb, q = qb ++ rank_ev d /\ Permutation qb (bank_evs 0 (dv_banks d));
  ql_sorted : tsorted q;
  ql_time : Forall (fun e => now <= fst e) q
}.

Lemma rel_bank_ex p now n rk d K b : Rel p now n rk d K -> (b < ms_banks p)%nat ->
  exists k sb, bnk b rk = Some k /\ nth_error (dv_banks d) b = Some sb /\
    brel now n (iv_get_start (rk_pda rk)) (mode_is ActPd d) k sb (n_bank K b).
Proof.
  intros R Hb. destruct (rl_len _ _ _ _ _ _ R) as [L1 L2].
  destruct (nth_error_lt (rk_banks rk) b ltac:(lia)) as [k Hk].
  destruct (nth_error_lt (dv_banks d) b ltac:(lia)) as [sb Hs].
  exists k, sb. split; [auto|split; [auto|]]. eapply rl_bank; eauto.
Qed.

Lemma existsb_nth {A} (f : A -> bool) l : existsb f l = true <-> exists i x, nth_error l i = Some x /\ f x = true.
Proof.
  rewrite existsb_exists. split.
  - intros [x [Hx Hf]]. apply In_nth_error in Hx as [i Hi]. eauto.
  - intros [i [x [Hi Hf]]]. exists x. split; auto. eapply nth_error_In; eauto.
Qed.
Lemma forallb_nth {A} (f : A -> bool) l : forallb f l = true <-> forall i x, nth_error l i = Some x -> f x = true.
Proof.
  rewrite forallb_forall. split.
  - intros H i x Hi. apply H. eapply nth_error_In; eauto.
  - intros H x Hx. apply In_nth_error in Hx as [i Hi]. eauto.
Qed.

Lemma existsb_ext_nth {A B} (f : A -> bool) (g : B -> bool) l l' :
  length l = length l' ->
  (forall i x y, nth_error l i = Some x -> nth_error l' i = Some y -> f x = g y) ->
  existsb f l = existsb g l'.
Proof.
  revert l'; induction l as [|x l IH]; intros [|y l'] L H; cbn in *; try discriminate; auto.
  rewrite (H 0%nat x y) by auto. f_equal. apply IH; [lia|].
  intros i a b Ha Hb. apply (H (S i)); auto.
Qed.

(* Activity flags agree. *)
Lemma rel_active p now n rk d K : Rel p now n rk d K ->
  existsb bk_active (rk_banks rk) = existsb busy (dv_banks d).
Proof.
  intros R. destruct (rl_len _ _ _ _ _ _ R) as [L1 L2].
  apply existsb_ext_nth; [lia|].
  intros i x y Hx Hy. eapply br_active, rl_bank; eauto.
Qed.
