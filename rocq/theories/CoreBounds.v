(* Bounds on the interval counters (C10) and the last command time (C11). *)
From Coq Require Import ZArith NArith List Bool Lia ZifyBool ZifyNat ZifyN Sorting.Sorted Permutation.
From Verif Require Import Base Command CoreModel ListFacts QueueProofs CoreBasics HistorySpec CoreHistory.
Import ListNotations.
Local Open Scope N_scope.

(* ---- what may happen to an interval at time t ---- *)

Inductive iv_steps (t : N) : interval -> interval -> Prop :=
| ivs_refl i : iv_steps t i i
| ivs_close i j : iv_steps t i j -> iv_steps t i (iv_close t j)
| ivs_start i j : iv_steps t i j -> iv_steps t i (iv_start_at t j).

Lemma ivs_trans t i j k : iv_steps t i j -> iv_steps t j k -> iv_steps t i k.
Proof. intros H1 H2. induction H2; auto; constructor; auto. Qed.

Lemma ivs_start_if_closed t i j : iv_steps t i j -> iv_steps t i (iv_start_if_closed t j).
Proof. unfold iv_start_if_closed. destruct (iv_is_open j); auto. constructor; auto. Qed.

Definition orel {A} (R : A -> A -> Prop) (a b : option A) : Prop :=
  match a, b with
  | None, None => True
  | Some x, Some y => R x y
  | _, _ => False
  end.

Record rank_steps (t : N) (r r' : rank) : Prop := {
  rs_act : iv_steps t (rk_act r) (rk_act r');
  rs_pda : iv_steps t (rk_pda r) (rk_pda r');
  rs_pdp : iv_steps t (rk_pdp r) (rk_pdp r');
  rs_sref : iv_steps t (rk_sref r) (rk_sref r');
  rs_dsm : iv_steps t (rk_dsm r) (rk_dsm r');
  rs_bank : forall b, orel (fun x y => iv_steps t (bk_act x) (bk_act y)) (bnk b r) (bnk b r')
}.

Lemma orel_refl {A} (R : A -> A -> Prop) a : (forall x, R x x) -> orel R a a.
Proof. intros H; destruct a; cbn; auto. Qed.

Lemma orel_trans {A} (R : A -> A -> Prop) a b c :
  (forall x y z, R x y -> R y z -> R x z) -> orel R a b -> orel R b c -> orel R a c.
Proof. intros H; destruct a, b, c; cbn; try tauto; eauto. Qed.

Lemma rks_refl t r : rank_steps t r r.
Proof. constructor; try constructor. intros b. apply orel_refl. constructor. Qed.

Lemma rks_trans t r1 r2 r3 : rank_steps t r1 r2 -> rank_steps t r2 r3 -> rank_steps t r1 r3.
Proof.
  intros [] []; constructor; try (eapply ivs_trans; eauto; fail).
  intros b. eapply orel_trans; [|apply rs_bank0|apply rs_bank1].
  intros x y z. apply ivs_trans.
Qed.

Lemma rks_upd_bank t b f r :
  (forall x, iv_steps t (bk_act x) (bk_act (f x))) -> rank_steps t r (rk_upd_bank b f r).
Proof.
  intros H. constructor; try constructor.
  intros b'. rewrite bnk_upd_bank. destruct (Nat.eqb b b'); [|apply orel_refl; constructor].
  destruct (bnk b' r); cbn; auto.
Qed.

Lemma rks_map_banks t f r :
  (forall x, iv_steps t (bk_act x) (bk_act (f x))) ->
  rank_steps t r (rk_set_banks (map f (rk_banks r)) r).
Proof.
  intros H. constructor; try constructor.
  intros b'. rewrite bnk_map. destruct (bnk b' r); cbn; auto.
Qed.

Ltac rks_field := constructor; cbn; repeat constructor; intros; apply orel_refl; constructor.

Lemma rks_close_act t r : rank_steps t r (rk_close_act t r).
Proof. rks_field. Qed.
Lemma rks_start_act t r : rank_steps t r (rk_start_act t r).
Proof. rks_field. Qed.
Lemma rks_start_closed t r : rank_steps t r (rk_set_act (iv_start_if_closed t (rk_act r)) r).
Proof. constructor; cbn; try constructor; [apply ivs_start_if_closed; constructor|].
  intros; apply orel_refl; constructor. Qed.
Lemma rks_close_if_idle t r : rank_steps t r (close_if_idle t r).
Proof. unfold close_if_idle. destruct (rank_is_active t r); auto using rks_refl, rks_close_act. Qed.
Lemma rks_start_if_idle t r : rank_steps t r (start_if_idle t r).
Proof. unfold start_if_idle. destruct (rank_is_active t r); auto using rks_refl, rks_start_act. Qed.
Lemma rks_endRefresh t e r : rank_steps t r (rk_set_endRefresh e r).
Proof. rks_field. Qed.
Lemma rks_memState t m r : rank_steps t r (rk_set_memState m r).
Proof. rks_field. Qed.

Lemma rks_fold {A} t (h : A -> rank -> rank) l r :
  (forall a r, rank_steps t r (h a r)) -> rank_steps t r (fold_left (fun r a => h a r) l r).
Proof.
  intros H; revert r; induction l as [|a l IH]; intros r; cbn; auto using rks_refl.
  eapply rks_trans; [apply H|apply IH].
Qed.

Lemma rks_h_act p b t r : rank_steps t r (h_act p b t r).
Proof.
  unfold h_act. destruct (ms_std p).
  1: eapply rks_trans; [apply rks_upd_bank|apply rks_start_closed]; intros; cbn; repeat constructor.
  all: eapply rks_trans; [apply rks_upd_bank|eapply rks_trans; [apply rks_start_if_idle|apply rks_upd_bank]];
    intros; cbn; repeat constructor.
Qed.

Lemma rks_h_pre t b r : rank_steps t r (h_pre t b r).
Proof.
  unfold h_pre. destruct (nth_error _ b) as [k|]; auto using rks_refl.
  destruct (bk_active k); auto using rks_refl.
  eapply rks_trans; [apply rks_upd_bank|apply rks_close_if_idle]. intros; cbn; repeat constructor.
Qed.

Lemma rks_h_refreshOnBank k tm t b r : rank_steps t r (fst (h_refreshOnBank k tm t b r)).
Proof.
  unfold h_refreshOnBank; cbn [fst].
  eapply rks_trans; [apply rks_upd_bank|eapply rks_trans; [apply rks_start_if_idle|apply rks_upd_bank]];
    intros; cbn; try apply ivs_start_if_closed; constructor.
Qed.

Lemma rks_refresh_banks k tm t bs r : rank_steps t r (fst (refresh_banks k tm t bs r)).
Proof.
  rewrite refresh_banks_eq; cbn [fst].
  apply (rks_fold t (fun b r => fst (h_refreshOnBank k tm t b r))).
  intros; apply rks_h_refreshOnBank.
Qed.

Lemma rks_h_refAll p t r : rank_steps t r (fst (h_refAll p t r)).
Proof.
  destruct (ms_std p) eqn:E;
    [rewrite h_refAll_ddr4 by auto|rewrite h_refAll_other by congruence..]; cbn [fst].
  2-5: eapply rks_trans; [apply rks_refresh_banks|apply rks_endRefresh].
  eapply rks_trans; [apply (rks_endRefresh t (u64_add t (ms_tRFC p)))|].
  eapply rks_trans; [apply rks_start_closed|].
  apply (rks_fold t (fun b r => ddr4_ref_bank t (u64_add t (ms_tRFC p)) b r)).
  intros. apply rks_upd_bank. intros; cbn. apply ivs_start_if_closed; constructor.
Qed.

Lemma rks_exec_ric p t c r : rank_steps t r (exec_ric p t c r).
Proof.
  destruct c; cbn [exec_ric].
  - apply rks_h_pre.
  - unfold x_refEnd. eapply rks_trans; [apply rks_upd_bank|apply rks_close_if_idle].
    intros; cbn; repeat constructor.
  - rks_field.
  - unfold x_pdaIn, close_banks.
    eapply rks_trans; [|apply rks_map_banks; intros; cbn; repeat constructor].
    eapply rks_trans; [|apply rks_close_act]. rks_field.
  - unfold x_pdaOut.
    set (r1 := rk_set_pda (iv_close t (rk_pda r)) (rk_set_memState NOT_IN_PD r)).
    assert (rank_steps t r r1) as H1 by rks_field.
    assert (forall f : bank -> bool, rank_steps t r1 (rk_set_banks (map (fun k => if f k
              then bk_set_act (iv_start_at t (bk_act k)) k else k) (rk_banks r1)) r1)) as H2.
    { intros f. apply rks_map_banks. intros x. destruct (f x); cbn; repeat constructor. }
    eapply rks_trans; [exact H1|]. cbv zeta.
    destruct (ms_std p);
      try (match goal with |- rank_steps _ _ (if ?b then _ else _) => destruct b end);
      try apply H2; try (eapply rks_trans; [apply H2|apply rks_start_act]).
    eapply rks_trans; [apply rks_start_act|].
    apply rks_map_banks. intros x. destruct (resumes _ x); cbn; repeat constructor.
  - unfold x_pdpIn, close_banks. destruct (ms_std p); try rks_field.
    eapply rks_trans; [|apply rks_close_act].
    eapply rks_trans; [apply rks_map_banks with (f := fun k => bk_set_act (iv_close t (bk_act k)) k); intros; cbn; repeat constructor|].
    rks_field.
  - unfold x_pdpOut. cbv zeta. destruct (ms_std p); try rks_field.
    match goal with |- rank_steps _ _ (rk_set_banks (map ?f _) ?x) => assert (rank_steps t r x) as H1 by rks_field end.
    eapply rks_trans; [exact H1|].
    apply rks_map_banks. intros x. destruct (bk_active x); cbn; repeat constructor.
Qed.

Lemma rks_dispatch p c f r r' evs :
  dispatch p c = A_rank f -> f r = Ok (r', evs) -> rank_steps (cmd_ts c) r r'.
Proof.
  intros Hd Hf. revert Hd Hf.
  unfold dispatch, on_rank, on_bank, on_banks, quiet, quiet_o.
  destruct (cmd_type c) eqn:Et;
    repeat match goal with
           | |- context [match ms_std p with _ => _ end] => destruct (ms_std p) eqn:?
           | |- context [match ms_banksPerGroup p with _ => _ end] => destruct (ms_banksPerGroup p) eqn:?
           | |- context [if ms_m8b p then _ else _] => destruct (ms_m8b p)
           end;
    intros Hd; try discriminate; injection Hd as <-;
    repeat match goal with
           | |- (if ?b then _ else _) = _ -> _ => destruct b
           end; intros Hf; try discriminate.
  all: try (injection Hf as <- <-; auto using rks_h_act, rks_h_pre, rks_refl; fail).
  all: try (injection Hf as <- <-; apply rks_upd_bank; intros; cbn; constructor).
  all: try (injection Hf as <- <-; apply (rks_fold (cmd_ts c) (h_pre (cmd_ts c))); intros; apply rks_h_pre).
  all: try (unfold h_rwAuto in Hf; destruct (nth_error (rk_banks r) _) as [k|];
            injection Hf as <- <-; [apply rks_upd_bank; intros; cbn; constructor|apply rks_refl]).
  all: try (unfold h_refSame, h_refPerBank, h_refTwoBanks, h_refDual in Hf;
       match type of Hf with
       | Ok (refresh_banks ?k ?tm ?t ?bs ?r) = Ok (?r', ?e) =>
           pose proof (rks_refresh_banks k tm t bs r) as HH;
           destruct (refresh_banks k tm t bs r) as [r1 e1]; injection Hf as <- <-; exact HH
       end).
  all: try (unfold h_srefEntry in Hf;
            pose proof (rks_h_refAll p (cmd_ts c) r) as HH;
            destruct (h_refAll p (cmd_ts c) r) as [r1 e1]; injection Hf as <- <-; exact HH).
  all: try (pose proof (rks_h_refAll p (cmd_ts c) r) as HH;
            destruct (h_refAll p (cmd_ts c) r) as [r1 e1]; injection Hf as <- <-; exact HH).
  all: unfold h_srefExit, h_dsmEntry, h_dsmExit, h_pdaEntry, h_pdaExit, h_pdpEntry, h_pdpExit in Hf.
  all: destruct (ms_std p); destruct (rk_memState r); try discriminate; injection Hf as <- <-;
       try apply rks_refl; rks_field.
Qed.

(* ---- interval well-formedness ---- *)

Definition iv_wf (now : N) (i : interval) : Prop :=
  match iv_start i, iv_end i with
  | None, None => iv_count i = 0
  | Some s, None => iv_count i <= s /\ s <= now
  | Some _, Some e => iv_count i <= e /\ e <= now
  | None, Some _ => False
  end.

Lemma iv_wf_weaken a b i : a <= b -> iv_wf a i -> iv_wf b i.
Proof. unfold iv_wf. destruct (iv_start i), (iv_end i); intros; lia. Qed.

Lemma iv_wf_new now : iv_wf now iv_new.
Proof. reflexivity. Qed.

Lemma iv_wf_close t i : t < two64 -> iv_wf t i -> iv_wf t (iv_close t i).
Proof.
  unfold iv_wf, iv_close, iv_is_open, iv_get_start. intros Ht.
  destruct (iv_start i) as [s|] eqn:Es, (iv_end i) as [e|] eqn:Ee; cbn; rewrite ?Es, ?Ee; auto.
  intros [H1 H2]. rewrite u64_sub_le by lia. rewrite u64_add_small by lia. lia.
Qed.

Lemma iv_wf_start t i : iv_wf t i -> iv_wf t (iv_start_at t i).
Proof.
  unfold iv_wf; cbn. destruct (iv_start i), (iv_end i); intros; lia.
Qed.

Lemma iv_wf_steps t i j : t < two64 -> iv_steps t i j -> iv_wf t i -> iv_wf t j.
Proof. intros Ht H. induction H; auto using iv_wf_close, iv_wf_start. Qed.

Lemma iv_count_le t i : t < two64 -> iv_wf t i -> iv_count_at t i <= t.
Proof.
  unfold iv_wf, iv_count_at, iv_is_open, iv_get_start. intros Ht.
  destruct (iv_start i) as [s|], (iv_end i) as [e|]; cbn; try lia.
  intros [H1 H2]. destruct (N.ltb_spec s t); [|lia].
  rewrite u64_sub_add by lia. lia.
Qed.

Lemma iv_count_open t i s : t < two64 -> iv_wf t i -> iv_start i = Some s -> iv_end i = None ->
  iv_count_at t i = iv_count i + (t - s).
Proof.
  unfold iv_wf, iv_count_at, iv_is_open, iv_get_start. intros Ht H Hs He.
  rewrite Hs, He in *. cbn. destruct H as [H1 H2]. destruct (N.ltb_spec s t); [|lia].
  rewrite u64_sub_add by lia. lia.
Qed.

Lemma iv_count_closed t i : iv_is_open i = false -> iv_count_at t i = iv_count i.
Proof. unfold iv_count_at. intros ->. reflexivity. Qed.

(* An event at t never raises the count at t. *)
Lemma iv_count_close t i : t < two64 -> iv_wf t i -> iv_count_at t (iv_close t i) = iv_count_at t i.
Proof.
  intros Ht H. unfold iv_close. destruct (iv_is_open i) eqn:E; auto.
  unfold iv_wf in H. unfold iv_is_open in E.
  destruct (iv_start i) as [s|] eqn:Es, (iv_end i) as [e|] eqn:Ee; try discriminate.
  rewrite (iv_count_open t i s); auto; [|unfold iv_wf; rewrite Es, Ee; auto].
  rewrite iv_count_closed by reflexivity. cbn. unfold iv_get_start. rewrite Es.
  rewrite u64_sub_le by lia. rewrite u64_add_small by lia. reflexivity.
Qed.

Lemma iv_count_start t i : t < two64 -> iv_wf t i -> iv_count_at t (iv_start_at t i) <= iv_count_at t i.
Proof.
  intros Ht H.
  assert (iv_count_at t (iv_start_at t i) = iv_count i) as ->.
  { unfold iv_count_at, iv_start_at, iv_is_open, iv_get_start; cbn. rewrite N.ltb_irrefl. reflexivity. }
  unfold iv_wf in H.
  destruct (iv_start i) as [s|] eqn:Es, (iv_end i) as [e|] eqn:Ee;
    try (rewrite iv_count_closed by (unfold iv_is_open; rewrite Es, ?Ee; reflexivity); lia).
  rewrite (iv_count_open t i s); auto; [lia|unfold iv_wf; rewrite Es, Ee; auto].
Qed.

Lemma iv_count_steps t i j : t < two64 -> iv_wf t i -> iv_steps t i j ->
  iv_count_at t j <= iv_count_at t i.
Proof.
  intros Ht H S. induction S as [|i j S IH|i j S IH]; [lia| |].
  - rewrite iv_count_close; auto. eapply iv_wf_steps; eauto.
  - etransitivity; [apply iv_count_start; auto; eapply iv_wf_steps; eauto|auto].
Qed.

(* One cycle later. *)
Lemma iv_count_next t i : t + 1 < two64 -> iv_wf t i -> iv_count_at (t + 1) i <= iv_count_at t i + 1.
Proof.
  intros Ht H. pose proof (iv_wf_weaken t (t + 1) i ltac:(lia) H) as H'.
  unfold iv_wf in H.
  destruct (iv_start i) as [s|] eqn:Es, (iv_end i) as [e|] eqn:Ee;
    try (rewrite !iv_count_closed by (unfold iv_is_open; rewrite Es, ?Ee; reflexivity); lia).
  rewrite (iv_count_open (t + 1) i s), (iv_count_open t i s); auto; try lia.
  unfold iv_wf; rewrite Es, Ee; auto.
Qed.

Record rank_wf (now : N) (r : rank) : Prop := {
  rw_act : iv_wf now (rk_act r);
  rw_pda : iv_wf now (rk_pda r);
  rw_pdp : iv_wf now (rk_pdp r);
  rw_sref : iv_wf now (rk_sref r);
  rw_dsm : iv_wf now (rk_dsm r);
  rw_bank : forall b x, bnk b r = Some x -> iv_wf now (bk_act x)
}.

Lemma rank_wf_weaken a b r : a <= b -> rank_wf a r -> rank_wf b r.
Proof. intros H []; constructor; eauto using iv_wf_weaken. Qed.

Lemma rank_wf_steps t r r' : t < two64 -> rank_steps t r r' -> rank_wf t r -> rank_wf t r'.
Proof.
  intros Ht [] []; constructor; eauto using iv_wf_steps.
  intros b x Hx. specialize (rs_bank0 b). rewrite Hx in rs_bank0.
  destruct (bnk b r) as [y|] eqn:E; cbn in rs_bank0; [|tauto].
  eapply iv_wf_steps; eauto.
Qed.

Lemma rank_new_wf n now : rank_wf now (rank_new n).
Proof.
  constructor; try apply iv_wf_new. unfold bnk; cbn. intros b x H.
  apply nth_error_In, repeat_spec in H as ->. apply iv_wf_new.
Qed.

(* ---- no wrap-around ---- *)

Lemma tmax_ge p :
  ms_tRAS p <= tmax p /\ ms_tRP p <= tmax p /\ ms_tRCD p <= tmax p /\ ms_tRCDW p <= tmax p /\
  ms_tRFC p <= tmax p /\ ms_tRFCsb p <= tmax p /\ ms_tRFCPB p <= tmax p /\ ms_tRFCDB p <= tmax p /\
  ms_offRD p <= tmax p /\ ms_offWR p <= tmax p.
Proof. unfold tmax. lia. Qed.

Lemma dispatch_events_after p c f r r' evs e :
  cmd_ts c + tmax p < two64 ->
  dispatch p c = A_rank f -> f r = Ok (r', evs) -> In e evs -> cmd_ts c <= fst e.
Proof.
  intros Ht Hd Hf. pose proof (tmax_ge p) as Hm.
  assert (forall d, d <= tmax p -> cmd_ts c <= u64_add (cmd_ts c) d) as Hadd.
  { intros d Hdm. rewrite u64_add_small; lia. }
  revert Hd Hf.
  unfold dispatch, on_rank, on_bank, on_banks, quiet, quiet_o.
  destruct (cmd_type c) eqn:Et;
    repeat match goal with
           | |- context [match ms_std p with _ => _ end] => destruct (ms_std p) eqn:?
           | |- context [match ms_banksPerGroup p with _ => _ end] => destruct (ms_banksPerGroup p) eqn:?
           | |- context [if ms_m8b p then _ else _] => destruct (ms_m8b p)
           end;
    intros Hd; try discriminate; injection Hd as <-;
    repeat match goal with
           | |- (if ?b then _ else _) = _ -> _ => destruct b
           end; intros Hf He; try discriminate; auto.
  all: try (injection Hf as <- <-; cbn in He; tauto).
  all: try (unfold h_rwAuto in Hf; destruct (nth_error (rk_banks r) _) as [k|];
            injection Hf as <- <-; cbn in He; [|tauto]; destruct He as [<-|[]];
            unfold autopre_time; cbn [fst];
            etransitivity; [|apply N.le_max_r]; apply Hadd; tauto).
  all: try (unfold h_refSame, h_refPerBank, h_refTwoBanks, h_refDual in Hf;
            rewrite refresh_banks_eq in Hf;
            match type of Hf with Ok (?x, ?y) = _ => assert (evs = y) as -> by congruence end;
            apply in_map_iff in He as [x [<- Hx]]; cbn [fst]; apply Hadd; tauto).
  all: assert (forall x, In x (snd (h_refAll p (cmd_ts c) r)) -> cmd_ts c <= fst x) as HA by
      (intros x Hx; destruct (ms_std p) eqn:Es;
       [rewrite h_refAll_ddr4 in Hx by auto|rewrite h_refAll_other in Hx by congruence..];
       cbn [snd] in Hx; apply in_map_iff in Hx as [y [<- Hy]]; cbn [fst]; apply Hadd; tauto).
  all: unfold h_srefEntry in Hf.
  all: try (destruct (h_refAll p (cmd_ts c) r) as [r1 e1]; injection Hf as <- <-; cbn [snd] in HA;
            try (apply in_app_or in He as [He|[<-|[]]]); [apply HA; exact He|cbn [fst]; apply Hadd; tauto]).
  all: try (destruct (h_refAll p (cmd_ts c) r) as [r1 e1]; injection Hf as <- <-; cbn [snd] in HA;
            apply HA; exact He).
  all: unfold h_srefExit, h_dsmEntry, h_dsmExit, h_pdaEntry, h_pdaExit, h_pdpEntry, h_pdpExit in Hf.
  all: destruct (ms_std p), (rk_memState r); try discriminate; injection Hf as <- <-; cbn in He; try tauto;
       destruct He as [<-|[]]; cbn [fst]; lia.
Qed.

(* ---- invariant of a core at time now ---- *)

Record core_wf (now : N) (s : core) : Prop := {
  cw_ranks : Forall (rank_wf now) (co_ranks s);
  cw_sorted : tsorted (co_queue s);
  cw_after : Forall (fun e => now <= fst e) (co_queue s)
}.

Lemma entries_wf p es rs now t :
  t < two64 -> now <= t ->
  tsorted es -> Forall (fun e => now <= fst e /\ fst e <= t) es ->
  Forall (rank_wf now) rs -> Forall (rank_wf t) (fold_left (exec_entry p) es rs).
Proof.
  intros Ht. revert rs now; induction es as [|e es IH]; intros rs now Hn Hs F H; cbn [fold_left].
  - eapply Forall_impl; [|exact H]. intros r. apply rank_wf_weaken. auto.
  - apply tsorted_inv in Hs as [S1 S2]. inversion F as [|? ? [F1 F2] F3]; subst.
    apply (IH _ (fst e)); auto.
    + rewrite Forall_forall in *. intros x Hx. specialize (F3 x Hx). specialize (S2 x Hx).
      unfold ts_le in S2. lia.
    + unfold exec_entry. 
      assert (Forall (rank_wf (fst e)) rs) as H'.
      { eapply Forall_impl; [|exact H]. intros r. apply rank_wf_weaken. auto. }
      apply Forall_upd; auto. intros r Hr.
      eapply rank_wf_steps; [|apply rks_exec_ric|exact Hr]. lia.
Qed.

Lemma due_bounds {A} now t (q : list (N * A)) :
  Forall (fun e => now <= fst e) q -> Forall (fun e => now <= fst e /\ fst e <= t) (due t q).
Proof.
  intros H. rewrite Forall_forall in *. intros e He. split; [|eapply due_le; eauto].
  apply H. rewrite <- (due_rest t q). apply in_or_app; auto.
Qed.

Lemma due_sorted {A} t (q : list (N * A)) : tsorted q -> tsorted (due t q).
Proof. intros H. rewrite due_filter by auto. apply tsorted_filter; auto. Qed.

Lemma process_wf p t now s :
  t < two64 -> now <= t -> core_wf now s -> core_wf t (process_queue p t s).
Proof.
  intros Ht Hn [H1 H2 H3]. rewrite process_eq. constructor; cbn.
  - eapply entries_wf; eauto using due_sorted, due_bounds.
  - apply rest_sorted; auto.
  - apply Forall_forall. intros e He. apply (rest_gt t _ e H2) in He. lia.
Qed.

Lemma command_wf p c now s s' :
  cmd_ts c + tmax p < two64 -> now <= cmd_ts c -> core_wf now s ->
  do_command p c s = Ok s' -> core_wf (cmd_ts c) s'.
Proof.
  intros Ht Hn H Hd.
  pose proof (process_wf p (cmd_ts c) now s ltac:(lia) Hn H) as [W1 W2 W3].
  apply do_command_ok in Hd as [[_ ->]|[f [rk [rk' [evs [Ed [En [Ef ->]]]]]]]].
  - constructor; auto.
  - constructor; cbn [co_ranks co_queue].
    + rewrite Forall_forall in *. intros x Hx. apply In_nth_error in Hx as [i Hi].
      rewrite nth_error_upd in Hi.
      destruct (Nat.eqb_spec (N.to_nat (cmd_rank c)) i) as [He|He].
      * subst i. rewrite En in Hi; injection Hi as <-.
        eapply rank_wf_steps; [|eapply rks_dispatch; eauto|].
        -- lia.
        -- apply W1. eapply nth_error_In; eauto.
      * apply W1. eapply nth_error_In; eauto.
    + apply enqueue_sorted; auto.
    + rewrite Forall_forall in *. intros e He. apply enqueue_in in He as [[x [Hx ->]]|He]; auto.
      cbn [fst]. eapply dispatch_events_after; eauto.
Qed.

Lemma new_wf p : core_wf 0 (core_new p).
Proof.
  constructor; cbn; try constructor.
  apply Forall_forall. intros x Hx. apply repeat_spec in Hx as ->. apply rank_new_wf.
Qed.

Lemma run_core_wf p cs s s' now :
  nondecreasing now (map cmd_ts cs) -> no_overflow p (map cmd_ts cs) -> core_wf now s ->
  run_core p cs s = Ok s' -> core_wf (final_time now (map cmd_ts cs)) s'.
Proof.
  revert s now; induction cs as [|c cs IH]; intros s now Hn Ho W H; cbn in *.
  - injection H as <-. exact W.
  - destruct Hn as [H1 H2]. inversion Ho as [|? ? Ho1 Ho2]; subst.
    destruct (do_command p c s) as [s1|s1| |] eqn:E; try discriminate.
    eapply (IH s1 (cmd_ts c)); eauto. eapply command_wf; eauto.
Qed.

(* ---- deep sleep exists only on LPDDR5 ---- *)

Lemma dsm_exec p t c r : rk_dsm (exec_ric p t c r) = rk_dsm r.
Proof.
  destruct c; cbn [exec_ric];
    unfold h_pre, x_refEnd, x_sref, x_pdaIn, x_pdaOut, x_pdpIn, x_pdpOut, close_if_idle;
    repeat match goal with
           | |- context [match nth_error ?a ?b with _ => _ end] => destruct (nth_error a b)
           | |- context [match ms_std p with _ => _ end] => destruct (ms_std p)
           | |- context [if ?b then _ else _] => destruct b
           end; reflexivity.
Qed.

Lemma dsm_refresh_banks k tm t bs r : rk_dsm (fst (refresh_banks k tm t bs r)) = rk_dsm r.
Proof.
  rewrite refresh_banks_eq; cbn [fst].
  revert r; induction bs as [|b bs IH]; intros r; cbn [fold_left]; auto.
  rewrite IH. unfold h_refreshOnBank; cbn [fst]. unfold start_if_idle.
  destruct (rank_is_active _ _); reflexivity.
Qed.

Lemma dsm_refAll p t r : rk_dsm (fst (h_refAll p t r)) = rk_dsm r.
Proof.
  destruct (ms_std p) eqn:E;
    [rewrite h_refAll_ddr4 by auto|rewrite h_refAll_other by congruence..]; cbn [fst].
  2-5: apply dsm_refresh_banks.
  generalize (seq 0 (nbk r)) as bs. intros bs.
  assert (forall r0, rk_dsm (fold_left (fun r b => ddr4_ref_bank t (u64_add t (ms_tRFC p)) b r) bs r0) = rk_dsm r0) as H.
  { induction bs as [|b bs IH]; intros r0; cbn [fold_left]; auto. rewrite IH. reflexivity. }
  rewrite H. reflexivity.
Qed.

Lemma dsm_h_pre t b r : rk_dsm (h_pre t b r) = rk_dsm r.
Proof. exact (dsm_exec (mkMemspec DDR4 0 0 0 0 0 0 0 0 0 0 0 0 0 0 0 false) t (RI_pre b) r). Qed.

Lemma dsm_preFold t bs r : rk_dsm (fold_left (fun r b => h_pre t b r) bs r) = rk_dsm r.
Proof. revert r; induction bs as [|b bs IH]; intros r; cbn [fold_left]; auto. rewrite IH. apply dsm_h_pre. Qed.

Lemma dsm_dispatch p c f r r' evs :
  ms_std p <> LPDDR5 -> dispatch p c = A_rank f -> f r = Ok (r', evs) -> rk_dsm r' = rk_dsm r.
Proof.
  intros Hs Hd Hf. revert Hd Hf.
  unfold dispatch, on_rank, on_bank, on_banks, quiet, quiet_o, h_preAll, h_preSame.
  destruct (cmd_type c) eqn:Et;
    repeat match goal with
           | |- context [match ms_std p with _ => _ end] => destruct (ms_std p) eqn:?; try congruence
           | |- context [match ms_banksPerGroup p with _ => _ end] => destruct (ms_banksPerGroup p) eqn:?
           | |- context [if ms_m8b p then _ else _] => destruct (ms_m8b p)
           end;
    intros Hd; try discriminate; injection Hd as <-;
    repeat match goal with
           | |- (if ?b then _ else _) = _ -> _ => destruct b
           end; intros Hf; try discriminate.
  all: try (injection Hf as <- <-; auto using dsm_h_pre, dsm_preFold; fail).
  all: try (injection Hf as <- <-; unfold h_act, start_if_idle; destruct (ms_std p); cbn; 
            try (destruct (rank_is_active _ _)); reflexivity).
  all: try (unfold h_rwAuto in Hf; destruct (nth_error (rk_banks r) _) as [k|];
            injection Hf as <- <-; reflexivity).
  all: try (unfold h_refSame, h_refPerBank, h_refTwoBanks, h_refDual in Hf;
       match type of Hf with
       | Ok (refresh_banks ?k ?tm ?t ?bs ?r) = Ok (?r', ?e) =>
           pose proof (dsm_refresh_banks k tm t bs r) as HH;
           destruct (refresh_banks k tm t bs r) as [r1 e1]; injection Hf as <- <-; exact HH
       end).
  all: try (unfold h_srefEntry in Hf;
            pose proof (dsm_refAll p (cmd_ts c) r) as HH;
            destruct (h_refAll p (cmd_ts c) r) as [r1 e1]; injection Hf as <- <-; exact HH).
  all: try (pose proof (dsm_refAll p (cmd_ts c) r) as HH;
            destruct (h_refAll p (cmd_ts c) r) as [r1 e1]; injection Hf as <- <-; exact HH).
  all: unfold h_srefExit, h_pdaEntry, h_pdaExit, h_pdpEntry, h_pdpExit in Hf.
  all: destruct (ms_std p); destruct (rk_memState r); try discriminate; injection Hf as <- <-; reflexivity.
Qed.

Definition no_dsm (s : core) : Prop := Forall (fun r => rk_dsm r = iv_new) (co_ranks s).

Lemma process_no_dsm p t s : no_dsm s -> no_dsm (process_queue p t s).
Proof.
  unfold no_dsm. rewrite process_eq; cbn. generalize (due t (co_queue s)) as es. intros es.
  generalize (co_ranks s) as rs. induction es as [|e es IH]; intros rs H; cbn [fold_left]; auto.
  apply IH. unfold exec_entry. apply Forall_upd; auto. intros r Hr. rewrite dsm_exec. auto.
Qed.

Lemma command_no_dsm p c s s' : ms_std p <> LPDDR5 -> no_dsm s -> do_command p c s = Ok s' -> no_dsm s'.
Proof.
  intros Hs H Hd. pose proof (process_no_dsm p (cmd_ts c) s H) as H1. unfold no_dsm in *.
  apply do_command_ok in Hd as [[_ ->]|[f [rk [rk' [evs [Ed [En [Ef ->]]]]]]]]; cbn [co_ranks]; auto.
  rewrite Forall_forall in *. intros x Hx. apply In_nth_error in Hx as [i Hi].
  rewrite nth_error_upd in Hi.
  destruct (Nat.eqb_spec (N.to_nat (cmd_rank c)) i) as [He|He].
  - subst i. rewrite En in Hi; injection Hi as <-.
    rewrite (dsm_dispatch p c f rk rk' evs) by auto. apply H1. eapply nth_error_In; eauto.
  - apply H1. eapply nth_error_In; eauto.
Qed.

Lemma run_no_dsm p cs s s' : ms_std p <> LPDDR5 -> no_dsm s -> run_core p cs s = Ok s' -> no_dsm s'.
Proof.
  intros Hs. revert s; induction cs as [|c cs IH]; intros s H Hr; cbn in Hr.
  - injection Hr as <-; auto.
  - destruct (do_command p c s) as [s1|s1| |] eqn:E; try discriminate.
    apply (IH s1); auto. exact (command_no_dsm p c s s1 Hs H E).
Qed.

Lemma new_no_dsm p : no_dsm (core_new p).
Proof. apply Forall_forall. intros x Hx. apply repeat_spec in Hx as ->. reflexivity. Qed.

(* ---- C10 ---- *)

Lemma u64_sub_add_cancel a b : a < two64 -> b < two64 -> u64_add (u64_sub a b) b = a.
Proof.
  unfold u64_add, u64_sub, two64. intros.
  rewrite (N.mod_small b) by lia.
  rewrite N.add_mod_idemp_l by lia.
  replace (a + 18446744073709551616 - b + b) with (a + 1 * 18446744073709551616) by lia.
  rewrite N.mod_add by lia. apply N.mod_small; lia.
Qed.

(* The raw counts behind the shown ones. *)
Definition raw_rank (t : N) (r : rank) : list N :=
  [iv_count_at t (rk_act r); iv_count_at t (rk_pda r); iv_count_at t (rk_pdp r);
   iv_count_at t (rk_dsm r); iv_count_at t (rk_sref r)].
Definition raw_bank (t : N) (r : rank) (k : bank) : list N :=
  [iv_count_at t (bk_act k); iv_count_at t (rk_pda r); iv_count_at t (rk_pdp r);
   iv_count_at t (rk_dsm r); iv_count_at t (rk_sref r)].

Definition dsm_ok (p : memspec) (r : rank) : Prop := ms_std p <> LPDDR5 -> rk_dsm r = iv_new.

Lemma shown_counts_rank p t r : t < two64 -> rank_wf t r -> dsm_ok p r ->
  shown_counts (rank_window p t r) = raw_rank t r.
Proof.
  intros Ht W D. unfold shown_counts, rank_window, raw_rank, rank_sref, rank_dsm; cbn [cy_act cy_pda cy_pdp cy_dsm cy_sref].
  pose proof (iv_count_le t _ Ht (rw_sref _ _ W)) as Hs.
  pose proof (iv_count_le t _ Ht (rw_dsm _ _ W)) as Hd. unfold dsm_ok in D.
  destruct (ms_std p); try (rewrite D by congruence; cbn; rewrite u64_add_small by lia; rewrite N.add_0_r; reflexivity).
  all: rewrite u64_sub_add_cancel by lia; reflexivity.
Qed.

Lemma shown_counts_bank p t r k : t < two64 -> rank_wf t r -> dsm_ok p r ->
  shown_counts (bs_cycles (bank_window p t r k)) = raw_bank t r k.
Proof.
  intros Ht W D. unfold shown_counts, bank_window, raw_bank, bank_sref, bank_dsm; cbn [bs_cycles cy_act cy_pda cy_pdp cy_dsm cy_sref].
  pose proof (iv_count_le t _ Ht (rw_sref _ _ W)) as Hs.
  pose proof (iv_count_le t _ Ht (rw_dsm _ _ W)) as Hd. unfold dsm_ok in D.
  destruct (ms_std p); try (rewrite D by congruence; cbn; rewrite u64_add_small by lia; rewrite N.add_0_r; reflexivity).
  all: rewrite u64_sub_add_cancel by lia; reflexivity.
Qed.

Lemma raw_rank_le t r : t < two64 -> rank_wf t r -> Forall (fun x => x <= t) (raw_rank t r).
Proof. intros Ht []. repeat constructor; apply iv_count_le; auto. Qed.
Lemma raw_bank_le t r b k : t < two64 -> rank_wf t r -> bnk b r = Some k ->
  Forall (fun x => x <= t) (raw_bank t r k).
Proof. intros Ht [] Hb. repeat constructor; apply iv_count_le; eauto. Qed.

Lemma iv_next t i j : t + 1 < two64 -> iv_wf t i -> iv_steps (t + 1) i j ->
  iv_count_at (t + 1) j <= iv_count_at t i + 1.
Proof.
  intros Ht W S. etransitivity.
  - apply (iv_count_steps (t + 1) i j); auto. eapply iv_wf_weaken; [|exact W]; lia.
  - apply iv_count_next; auto.
Qed.

Lemma raw_rank_next t r r' : t + 1 < two64 -> rank_wf t r -> rank_steps (t + 1) r r' ->
  Forall2 (fun x y => y <= x + 1) (raw_rank t r) (raw_rank (t + 1) r').
Proof. intros Ht [] []. repeat constructor; apply iv_next; auto. Qed.

Lemma raw_bank_next t r r' b k k' : t + 1 < two64 -> rank_wf t r -> rank_steps (t + 1) r r' ->
  bnk b r = Some k -> bnk b r' = Some k' ->
  Forall2 (fun x y => y <= x + 1) (raw_bank t r k) (raw_bank (t + 1) r' k').
Proof.
  intros Ht [] [] Hk Hk'. specialize (rs_bank0 b). rewrite Hk, Hk' in rs_bank0. cbn in rs_bank0.
  repeat constructor; apply iv_next; eauto.
Qed.

(* From t to t+1 every executed event happens at t+1. *)
Lemma entries_steps p t es rs r rk rk' :
  Forall (fun e => fst e = t) es ->
  nth_error rs r = Some rk ->
  nth_error (fold_left (exec_entry p) es rs) r = Some rk' -> rank_steps t rk rk'.
Proof.
  revert rs rk; induction es as [|e es IH]; intros rs rk F H H'; cbn [fold_left] in H'.
  - assert (rk = rk') as -> by congruence. apply rks_refl.
  - inversion F as [|? ? F1 F2]; subst.
    destruct (Nat.eqb_spec (fst (snd e)) r) as [He|He].
    + eapply rks_trans; [apply (rks_exec_ric p (fst e) (snd (snd e)) rk)|].
      eapply IH; [exact F2| |exact H']. unfold exec_entry. subst r.
      rewrite nth_error_upd, Nat.eqb_refl, H. reflexivity.
    + eapply IH; [exact F2| |exact H']. unfold exec_entry.
      rewrite nth_error_upd_ne by auto. auto.
Qed.

Lemma process_next p t s r rk rk' :
  tsorted (co_queue s) ->
  nth_error (co_ranks (process_queue p t s)) r = Some rk ->
  nth_error (co_ranks (process_queue p (t + 1) s)) r = Some rk' ->
  rank_steps (t + 1) rk rk'.
Proof.
  intros Hs H H'. rewrite <- (process_process p t (t + 1)) in H' by lia.
  rewrite (process_eq p (t + 1)) in H'. cbn [co_ranks] in H'.
  eapply entries_steps; [|exact H|exact H'].
  apply Forall_forall. intros e He. pose proof (due_le _ _ _ He) as H1.
  rewrite process_eq in He. cbn [co_queue] in He.
  assert (In e (rest t (co_queue s))) as H2.
  { rewrite <- (due_rest (t + 1) (rest t (co_queue s))). apply in_or_app; auto. }
  apply (rest_gt t _ e Hs) in H2. lia.
Qed.

Definition reach_ok (p : memspec) (cs : list Command) (t : N) (s : core) : Prop :=
  nondecreasing 0 (map cmd_ts cs) /\ no_overflow p (map cmd_ts cs) /\
  final_time 0 (map cmd_ts cs) <= t /\ t + 1 < two64 /\
  run_core p cs (core_new p) = Ok s.

Lemma reach_facts p cs t s : reach_ok p cs t s ->
  core_wf t (process_queue p t s) /\ core_wf (t + 1) (process_queue p (t + 1) s) /\
  tsorted (co_queue s) /\ sizes_ok p s /\
  (forall r t', In r (co_ranks (process_queue p t' s)) -> dsm_ok p r).
Proof.
  intros [H1 [H2 [H3 [H4 H5]]]].
  pose proof (run_core_wf p cs _ s 0 H1 H2 (new_wf p) H5) as W.
  repeat split; try (eapply process_wf; [lia| |exact W]; lia).
  - apply W.
  - eapply (proj1 (run_core_sizes _ _ _ _ (core_new_sizes p) H5)).
  - eapply (proj2 (run_core_sizes _ _ _ _ (core_new_sizes p) H5)).
  - intros r t' Hr Hs. pose proof (run_no_dsm p cs _ s Hs (new_no_dsm p) H5) as D.
    apply (process_no_dsm p t') in D. unfold no_dsm in D. rewrite Forall_forall in D. auto.
Qed.

Lemma bounds_rank p cs t s r c c' :
  reach_ok p cs t s ->
  shown_rank (snd (window_stats p t s)) r = Some c ->
  shown_rank (snd (window_stats p (t + 1) s)) r = Some c' ->
  Forall (fun x => x <= t) (shown_counts c) /\
  Forall2 (fun x y => y <= x + 1) (shown_counts c) (shown_counts c').
Proof.
  intros R Hc Hc'. pose proof (proj1 (proj2 (proj2 (proj2 R)))) as Ht.
  destruct (reach_facts p cs t s R) as [W [W' [S [Z D]]]].
  unfold shown_rank, window_stats in Hc, Hc'; cbn [snd st_rank] in Hc, Hc'.
  rewrite nth_error_map in Hc, Hc'.
  destruct (nth_error (co_ranks (process_queue p t s)) r) as [rk|] eqn:E; [|discriminate].
  destruct (nth_error (co_ranks (process_queue p (t + 1) s)) r) as [rk'|] eqn:E'; [|discriminate].
  cbn in Hc, Hc'. injection Hc as <-. injection Hc' as <-.
  assert (rank_wf t rk) as Wr. { destruct W as [W _ _]. rewrite Forall_forall in W. eauto using nth_error_In. }
  assert (rank_wf (t+1) rk') as Wr'. { destruct W' as [W' _ _]. rewrite Forall_forall in W'. eauto using nth_error_In. }
  rewrite !shown_counts_rank; eauto using nth_error_In; try lia.
  split; [apply raw_rank_le; auto; lia|].
  apply raw_rank_next; auto. eapply process_next; eauto.
Qed.

Lemma bounds_bank p cs t s r b c c' :
  reach_ok p cs t s -> (b < ms_banks p)%nat ->
  shown_bank p (snd (window_stats p t s)) r b = Some c ->
  shown_bank p (snd (window_stats p (t + 1) s)) r b = Some c' ->
  Forall (fun x => x <= t) (shown_counts (bs_cycles c)) /\
  Forall2 (fun x y => y <= x + 1) (shown_counts (bs_cycles c)) (shown_counts (bs_cycles c')).
Proof.
  intros R Hb Hc Hc'. pose proof (proj1 (proj2 (proj2 (proj2 R)))) as Ht.
  destruct (reach_facts p cs t s R) as [W [W' [S [Z D]]]].
  unfold shown_bank, window_stats in Hc, Hc'; cbn [snd st_bank] in Hc, Hc'.
  pose proof (process_sizes p t s Z) as [_ Z1]. rewrite Forall_forall in Z1.
  pose proof (process_sizes p (t + 1) s Z) as [_ Z2]. rewrite Forall_forall in Z2.
  rewrite nth_error_flat_map in Hc; [|intros x Hx; rewrite map_length; apply Z1; exact Hx|exact Hb].
  rewrite nth_error_flat_map in Hc'; [|intros x Hx; rewrite map_length; apply Z2; exact Hx|exact Hb].
  destruct (nth_error (co_ranks (process_queue p t s)) r) as [rk|] eqn:E; [|discriminate].
  destruct (nth_error (co_ranks (process_queue p (t + 1) s)) r) as [rk'|] eqn:E'; [|discriminate].
  rewrite nth_error_map in Hc, Hc'. fold (bnk b rk) in Hc. fold (bnk b rk') in Hc'.
  destruct (bnk b rk) as [k|] eqn:Ek; [|discriminate].
  destruct (bnk b rk') as [k'|] eqn:Ek'; [|discriminate].
  cbn [option_map] in Hc, Hc'. injection Hc as <-. injection Hc' as <-.
  assert (rank_wf t rk) as Wr. { destruct W as [W _ _]. rewrite Forall_forall in W. eauto using nth_error_In. }
  assert (rank_wf (t+1) rk') as Wr'. { destruct W' as [W' _ _]. rewrite Forall_forall in W'. eauto using nth_error_In. }
  rewrite !shown_counts_bank; eauto using nth_error_In; try lia.
  split; [eapply raw_bank_le; eauto; lia|].
  eapply raw_bank_next; eauto. eapply process_next; eauto.
Qed.

(* ---- C11 ---- *)

Lemma max_time_cons x l : max_time (x :: l) = N.max x (max_time l).
Proof. reflexivity. Qed.

Lemma max_time_app a b : max_time (a ++ b) = N.max (max_time a) (max_time b).
Proof.
  induction a as [|x a IH].
  - change (max_time ([] ++ b)) with (max_time b). change (max_time []) with 0. lia.
  - change ((x :: a) ++ b) with (x :: (a ++ b)). rewrite !max_time_cons, IH. lia.
Qed.

Lemma fold_max_base l0 l : fold_right N.max l0 l = N.max l0 (max_time l).
Proof.
  induction l as [|x l IH].
  - change (max_time []) with 0. cbn [fold_right]. lia.
  - rewrite max_time_cons. cbn [fold_right]. rewrite IH. lia.
Qed.

(* the queue holds nothing before the last command time *)
Definition last_inv (now : N) (s : core) : Prop :=
  core_wf now s /\ co_last s <= now.

Lemma process_last p t now s : now <= t -> last_inv now s ->
  co_last (process_queue p t s) =
  N.max (co_last s) (max_time (map fst (filter (fun e => fst e <=? t) (co_queue s)))).
Proof.
  intros Hn [[_ S A] L]. rewrite process_eq; cbn [co_last].
  rewrite last_ts_max.
  - rewrite fold_max_base, due_filter by auto. reflexivity.
  - apply due_sorted; auto.
  - eapply Forall_impl; [|apply (due_bounds now t); exact A]. cbn. intros e He. lia.
Qed.

Lemma max_time_le t (l : list (N * (nat * ricmd))) :
  max_time (map fst (filter (fun e => fst e <=? t) l)) <= t.
Proof.
  induction l as [|e l IH]; cbn [filter map]; [apply N.le_0_l|].
  destruct (N.leb_spec (fst e) t); auto. cbn [map]. rewrite max_time_cons. lia.
Qed.

Lemma process_last_inv p t now s : t < two64 -> now <= t -> last_inv now s -> last_inv t (process_queue p t s).
Proof.
  intros Ht Hn I. split.
  - eapply process_wf; eauto. apply I.
  - rewrite (process_last p t now s Hn I). pose proof (max_time_le t (co_queue s)).
    destruct I as [_ L]. lia.
Qed.

Lemma command_last p c s s' : do_command p c s = Ok s' ->
  co_last s' = N.max (cmd_ts c) (co_last (process_queue p (cmd_ts c) s)).
Proof.
  intros H. apply do_command_ok in H as [[_ ->]|[f [rk [rk' [evs [_ [_ [_ ->]]]]]]]]; reflexivity.
Qed.

Lemma last_time_run p os s s' a now :
  nondecreasing now (map op_time os) -> no_overflow p (map op_time os) -> last_inv now s ->
  run_ops p os s = Ok (s', a) ->
  co_last s' = N.max (co_last s) (max_time (executed_times p os s)).
Proof.
  revert s a now; induction os as [|[c|t] os IH]; intros s a now Hn Ho I H; cbn [run_ops] in H.
  - injection H as <- <-. cbn [executed_times]. change (max_time []) with 0. lia.
  - cbn in Hn. destruct Hn as [H1 H2]. inversion Ho as [|? ? Ho1 Ho2]; subst. cbn in Ho1.
    cbn [executed_times op_time].
    destruct (do_command p c s) as [s1|s1| |] eqn:E; try discriminate.
    assert (last_inv (cmd_ts c) s1) as I1.
    { split; [eapply command_wf; eauto; apply I|]. rewrite (command_last p c s s1 E).
      pose proof (process_last_inv p (cmd_ts c) now s ltac:(lia) H1 I) as [_ L]. lia. }
    rewrite (IH s1 a (cmd_ts c) H2 Ho2 I1 H).
    rewrite (command_last p c s s1 E), (process_last p (cmd_ts c) now s H1 I), max_time_app.
    rewrite max_time_cons. lia.
  - cbn in Hn. destruct Hn as [H1 H2]. inversion Ho as [|? ? Ho1 Ho2]; subst. cbn in Ho1.
    cbn [executed_times op_time].
    cbn [window_stats fst] in H |- *. unfold window_stats in H |- *; cbn [fst] in H |- *.
    destruct (run_ops p os (process_queue p t s)) as [[s2 r2]|[s2 r2]| |] eqn:E; try discriminate.
    injection H as <- <-.
    rewrite (IH _ r2 t H2 Ho2 (process_last_inv p t now s ltac:(lia) H1 I) E).
    rewrite (process_last p t now s H1 I), max_time_app. lia.
Qed.

Lemma last_time p os s a :
  nondecreasing 0 (map op_time os) -> no_overflow p (map op_time os) ->
  run_ops p os (core_new p) = Ok (s, a) ->
  get_last_command_time s = max_time (executed_times p os (core_new p)).
Proof.
  intros H1 H2 H3. unfold get_last_command_time.
  rewrite (last_time_run p os (core_new p) s a 0 H1 H2); auto.
  - cbn [core_new co_last]. lia.
  - split; [apply new_wf|cbn; lia].
Qed.

Lemma last_time_commands p cs s :
  nondecreasing 0 (map cmd_ts cs) ->
  run_core p cs (core_new p) = Ok s ->
  get_last_command_time s = final_time 0 (map cmd_ts cs).
Proof.
  assert (forall s0 t0, co_last s0 <= t0 -> nondecreasing t0 (map cmd_ts cs) ->
    run_core p cs s0 = Ok s -> cs <> [] -> co_last s = final_time t0 (map cmd_ts cs)) as G.
  { induction cs as [|c cs IH]; intros s0 t0 L Hn H Hne; [congruence|].
    cbn in Hn, H. destruct Hn as [H1 H2].
    destruct (do_command p c s0) as [s1|s1| |] eqn:E; try discriminate.
    assert (co_last s1 = cmd_ts c) as L1.
    { rewrite (command_last p c s0 s1 E). rewrite process_eq; cbn [co_last].
      assert (forall l (x : N), x <= cmd_ts c -> (forall e : N * (nat * ricmd), In e l -> fst e <= cmd_ts c) ->
                last_ts x l <= cmd_ts c) as GG.
      { induction l as [|e l IHl]; intros x Hx Hl; [exact Hx|].
        change (last_ts x (e :: l)) with (last_ts (fst e) l). apply IHl; cbn in *; auto. }
      pose proof (GG (due (cmd_ts c) (co_queue s0)) (co_last s0) ltac:(lia)
                    (fun e He => due_le _ _ _ He)). lia. }
    destruct cs as [|c' cs'].
    - cbn in H. injection H as <-. exact L1.
    - change (final_time t0 (map cmd_ts (c :: c' :: cs'))) with (final_time (cmd_ts c) (map cmd_ts (c' :: cs'))).
      eapply IH; eauto; [lia|discriminate]. }
  intros Hn H. destruct cs as [|c cs].
  - cbn in H. injection H as <-. reflexivity.
  - eapply G; eauto; [cbn; lia|discriminate].
Qed.

(* ---- forms used by the property statements ---- *)

Lemma schedule_after p c s s' e :
  cmd_ts c + tmax p < two64 -> do_command p c s = Ok s' ->
  In e (co_queue s') -> In e (co_queue s) \/ cmd_ts c <= fst e.
Proof.
  intros Ht H Hin.
  assert (forall e, In e (co_queue (process_queue p (cmd_ts c) s)) -> In e (co_queue s)) as Hsub.
  { intros x Hx. rewrite process_eq in Hx; cbn in Hx.
    rewrite <- (due_rest (cmd_ts c) (co_queue s)). apply in_or_app; auto. }
  apply do_command_ok in H as [[_ ->]|[f [rk [rk' [evs [Hd [En [Ef ->]]]]]]]]; cbn [co_queue] in Hin; auto.
  apply enqueue_in in Hin as [[y [Hy He]]|Hin]; auto.
  right. subst e. cbn [fst]. eapply dispatch_events_after; eauto.
Qed.

Lemma rank_counts_bounded p cs t s r c c' :
  nondecreasing 0 (map cmd_ts cs) -> no_overflow p (map cmd_ts cs) ->
  final_time 0 (map cmd_ts cs) <= t -> t + 1 < two64 ->
  run_core p cs (core_new p) = Ok s ->
  shown_rank (snd (window_stats p t s)) r = Some c ->
  shown_rank (snd (window_stats p (t + 1) s)) r = Some c' ->
  Forall (fun x => x <= t) (shown_counts c) /\
  Forall2 (fun x y => y <= x + 1) (shown_counts c) (shown_counts c').
Proof. intros. eapply bounds_rank; eauto. repeat split; eauto. Qed.

Lemma bank_counts_bounded p cs t s r b c c' :
  nondecreasing 0 (map cmd_ts cs) -> no_overflow p (map cmd_ts cs) ->
  final_time 0 (map cmd_ts cs) <= t -> t + 1 < two64 -> (b < ms_banks p)%nat ->
  run_core p cs (core_new p) = Ok s ->
  shown_bank p (snd (window_stats p t s)) r b = Some c ->
  shown_bank p (snd (window_stats p (t + 1) s)) r b = Some c' ->
  Forall (fun x => x <= t) (shown_counts (bs_cycles c)) /\
  Forall2 (fun x y => y <= x + 1) (shown_counts (bs_cycles c)) (shown_counts (bs_cycles c')).
Proof. intros. eapply bounds_bank; eauto. repeat split; eauto. Qed.

Lemma run_ops_app p os1 os2 s s1 a1 s2 a :
  run_ops p os1 s = Ok (s1, a1) -> run_ops p (os1 ++ os2) s = Ok (s2, a) ->
  exists a2, run_ops p os2 s1 = Ok (s2, a2).
Proof.
  revert s a1 a; induction os1 as [|[c|t] os1 IH]; intros s a1 a H1 H2; cbn in *.
  - injection H1 as <- <-. eauto.
  - destruct (do_command p c s) as [s0|s0| |]; try discriminate. eauto.
  - destruct (run_ops p os1 _) as [[x y]|[x y]| |] eqn:E; try discriminate.
    injection H1 as <- <-.
    destruct (run_ops p (os1 ++ os2) _) as [[u v]|[u v]| |] eqn:E2; try discriminate.
    injection H2 as <- <-. eapply IH; eauto.
Qed.

Lemma run_ops_inv p os s s' a now :
  nondecreasing now (map op_time os) -> no_overflow p (map op_time os) -> last_inv now s ->
  run_ops p os s = Ok (s', a) -> last_inv (final_time now (map op_time os)) s'.
Proof.
  revert s a now; induction os as [|[c|t] os IH]; intros s a now Hn Ho I H; cbn [run_ops] in H.
  - injection H as <- <-. exact I.
  - cbn in Hn. destruct Hn as [H1 H2]. inversion Ho as [|? ? Ho1 Ho2]; subst. cbn in Ho1.
    destruct (do_command p c s) as [s1|s1| |] eqn:E; try discriminate.
    apply (IH s1 a (cmd_ts c)); auto.
    split; [eapply command_wf; eauto; apply I|]. rewrite (command_last p c s s1 E).
    pose proof (process_last_inv p (cmd_ts c) now s ltac:(lia) H1 I) as [_ L]. lia.
  - cbn in Hn. destruct Hn as [H1 H2]. inversion Ho as [|? ? Ho1 Ho2]; subst. cbn in Ho1.
    unfold window_stats in H; cbn [fst] in H.
    destruct (run_ops p os (process_queue p t s)) as [[s2 r2]|[s2 r2]| |] eqn:E; try discriminate.
    injection H as <- <-. apply (IH (process_queue p t s) r2 t); auto.
    eapply process_last_inv; eauto. lia.
Qed.

Lemma nondecreasing_app from a b :
  nondecreasing from (a ++ b) -> nondecreasing from a /\ nondecreasing (final_time from a) b.
Proof.
  revert from; induction a as [|x a IH]; intros from H; cbn in *; auto.
  destruct H as [H1 H2]. apply IH in H2 as [H2 H3]. auto.
Qed.

Lemma last_time_monotone p os o s a s' a' :
  nondecreasing 0 (map op_time (os ++ [o])) -> no_overflow p (map op_time (os ++ [o])) ->
  run_ops p os (core_new p) = Ok (s, a) ->
  run_ops p (os ++ [o]) (core_new p) = Ok (s', a') ->
  get_last_command_time s <= get_last_command_time s'.
Proof.
  intros Hn Ho H1 H2. destruct (run_ops_app p os [o] _ _ _ _ _ H1 H2) as [a2 H3].
  rewrite map_app in Hn, Ho. apply nondecreasing_app in Hn as [Hn1 Hn2].
  apply Forall_app in Ho as [Ho1 Ho2].
  pose proof (run_ops_inv p os _ s a 0 Hn1 Ho1 (conj (new_wf p) (N.le_refl 0)) H1) as I.
  unfold get_last_command_time.
  rewrite (last_time_run p [o] s s' a2 _ Hn2 Ho2 I H3). lia.
Qed.
