(* LPDDR6, where the flags of the inversion travel with the data: it takes the calls
   whose commands are allowed, inverted or not. *)
From Coq Require Import NArith List Bool Lia Arith.
From Verif Require Import Base Command CoreModel Bits WaveSpec BitFacts ListFacts PinModel DbiModel DbiSpec DbiProofs DbiBounds DbiPinModel
  StatsModel FormatProofs BusModel ToggleModel DataProofs InterfaceModel InterfaceSpec WireSpec InterfaceCa InterfaceRun InterfaceTop WireProofs InterfaceData InterfaceExamples WireExamples FlagExamples
  ProgressSpec ProgressProofs ProgressTables TakenSpec TakenProofs TakenExamples InvertSpec InvertStep InvertTop.
Import ListNotations.
Local Open Scope N_scope.
Ltac Zify.zify_post_hook ::= idtac.

Lemma quiet_reset d t read : dg_width (db_config d) = None -> dg_callback (db_config d) = false -> dbi_reset d t read = Value (d, []).
Proof.
  intros W C. unfold dbi_reset. unfold chunks_per_width. rewrite W, C, orb_true_r. cbn [check].
  destruct (negb _); [reflexivity|]. destruct (_ <? _); [reflexivity|]. destruct (_ =? _); reflexivity.
Qed.
Lemma quiet_update d t n data read d' ev out : dg_width (db_config d) = None -> dg_callback (db_config d) = false -> (0 < dg_sub (db_config d))%nat ->
  dbi_update d t n (Some data) read = Value (d', ev, Some out) -> ev = [] /\ length out = Nat.div n (dg_digits (db_config d)) /\ db_config d' = db_config d.
Proof.
  intros W C S U. apply update_spec in U. cbv zeta in U. destruct U as (_ & _ & _ & _ & _ & L & d1 & ev1 & prev & s & inv & cap & Hr & _ & _ & Hs & -> & -> & Hc & _).
  rewrite (quiet_reset _ _ _ W C) in Hr. injection Hr as <- <-. pose proof (compute_inv _ _ _ _ _ _ _ S Hs) as I. split; [|split; [|exact Hc]].
  - destruct (sc_events s) as [|e l] eqn:E; [reflexivity|]. destruct (si_events _ _ _ _ _ _ _ I e) as (ch & _ & A); [rewrite E; now left|]. unfold announce in A. rewrite C in A. discriminate A.
  - rewrite (si_len _ _ _ _ _ _ _ I), firstn_length. lia.
Qed.
Lemma update_some d t n data read d' ev out : db_enable d = true -> n <> 0%nat -> dg_idle (db_config d) <> PinZ -> dbi_update d t n (Some data) read = Value (d', ev, out) -> exists l, out = Some l.
Proof.
  intros En Nz Iz U. unfold dbi_update in U. rewrite (proj2 (Nat.eqb_neq n 0) Nz), En in U.
  assert (pin_eqb PinZ (dg_idle (db_config d)) = false) as Pz by (destruct (dg_idle (db_config d)); try reflexivity; contradiction). rewrite Pz in U. cbn [orb negb] in U.
  apply bind_inv in U as (r & _ & U). apply check_inv in U as [_ U]. cbv zeta in U. destruct (Nat.ltb _ _); [discriminate|]. apply bind_inv in U as (prev & _ & U). apply check_inv in U as [_ U].
  destruct (grow_inversions _ _ _) as [inv cap]. apply bind_inv in U as (s & _ & U). apply bind_inv in U as (te & _ & U). apply value_inj in U. injection U as _ _ <-. eauto.
Qed.

Section Six.
Context (p : ifspec) (bus : bool) (i0 : iface) (B : N).
Context (Sz : sizes_ok p) (S6 : fi_std p = LPDDR6) (G : fi_groups p = 4) (R0 : 0 < fi_rate p).
Let m := N.to_nat (B / 16).

Lemma config_six : dbi_config_of p = mkDbiConfig 8 2 PinL Static None (N.to_nat (fi_burst p)) false (fi_grow p).
Proof using S6. unfold dbi_config_of. rewrite S6. reflexivity. Qed.
Definition ready (y : option dbi_pins_if) : Prop := exists x, y = Some x /\ dbi_ok (dbi_config_of p) m (di_dbi x).

Lemma six_inverts c read i : ready (if_dbi i) -> is_bus (d_mode (if_data i)) = bus -> transfers (cmd_type c) = Some read -> dressed p bus c -> same_size B bus c -> cmd_sz_bits c <> 0 ->
  exists y o, invert_data c read i = Value (y, o) /\ ready y /\ match o with Some l => cmd_sz_bits c <= 8 * N.of_nat (length l) | None => True end.
Proof using Sz S6 G R0.
  intros (x & Ex & Ox) Mo T Dr Ss Nz. assert (transfers (cmd_type c) <> None) as Tn by (rewrite T; discriminate). unfold invert_data. rewrite Ex, Mo.
  destruct (bus && db_enable (di_dbi x)) eqn:On; [|exists (Some x), None; split; [reflexivity|]; split; [exists x; auto|exact I]].
  apply andb_true_iff in On as [Eb En]. destruct (Ss Eb Tn) as [S1 S2]. destruct (dr_six _ _ _ Dr Tn S6) as [_ [Z|Z]]; [contradiction|].
  assert (cmd_sz_bits c = 16 * N.of_nat m /\ (0 < m)%nat) as [Sm Pm].
  { assert (B = 256 \/ B = 512) as [Hb|Hb] by (rewrite <- S1; destruct Z as [Z|[Z _]]; auto); unfold m; rewrite S1, Hb; split; try reflexivity; vm_compute; lia. }
  pose proof (dr_data _ _ _ Dr Tn Eb) as Dn. destruct (dr_bytes _ _ _ Dr Tn) as [H|[H1 _]]; [contradiction|].
  unfold data_of. destruct (cmd_data c) as [|v l0] eqn:Ed; [contradiction|]. rewrite <- Ed in *. unfold dbi_if_data.
  rewrite (proj2 (Nat.eqb_neq (N.to_nat (cmd_sz_bits c)) 0)), En by lia. cbn [orb negb].
  assert (N.to_nat (cmd_sz_bits c) = m * chunk_size (dbi_config_of p))%nat as Nb by (rewrite config_six; change (chunk_size _) with 16%nat; lia).
  destruct (update_ok (dbi_config_of p) m (di_dbi x) (u64_mul (cmd_ts c) (di_rate x)) (cmd_data c) read) as (d' & ev & out & U & Od).
  - rewrite config_six. split; [cbn; lia|]. split; [cbn; lia|exact I].
  - unfold fits, dbi_pins. rewrite config_six. exact I.
  - exact Ox.
  - exact Pm.
  - rewrite config_six. cbn [dg_sub]. lia.
  - rewrite Nb, U. cbn [bind]. pose proof (proj1 Ox) as Cx.
    assert (m * chunk_size (dbi_config_of p) <> 0)%nat as Nn by (rewrite <- Nb; lia).
    assert (dg_idle (db_config (di_dbi x)) <> PinZ /\ dg_width (db_config (di_dbi x)) = None /\ dg_callback (db_config (di_dbi x)) = false /\ dg_sub (db_config (di_dbi x)) = 2%nat) as (X1 & X2 & X3 & X4)
      by (rewrite Cx, config_six; repeat split; discriminate).
    assert (0 < dg_sub (db_config (di_dbi x)))%nat as X5 by (rewrite X4; lia).
    destruct (update_some _ _ _ _ _ _ _ _ En Nn X1 U) as (l & ->).
    destruct (quiet_update _ _ _ _ _ _ _ _ X2 X3 X5 U) as (-> & Ll & _).
    cbn [deliver loop bind fst snd]. do 2 eexists. split; [reflexivity|]. split; [eexists; split; [reflexivity|exact Od]|].
    rewrite Ll, <- Nb, Cx, config_six. cbn [dg_digits]. assert (N.to_nat (cmd_sz_bits c) = (2 * m) * 8)%nat as -> by lia. rewrite Nat.div_mul by lia. lia.
Qed.
Lemma six_end t i : ready (if_dbi i) -> exists j, end_of_simulation t i = Value j /\ ready (if_dbi j).
Proof using S6.
  intros (x & Ex & Ox). unfold end_of_simulation. rewrite Ex. unfold dbi_if_end, dbi_reset_both. pose proof (proj1 Ox) as Cx.
  rewrite (quiet_reset (di_dbi x) t true) by (rewrite Cx, config_six; reflexivity). cbn [bind fst snd]. rewrite (quiet_reset (di_dbi x) t false) by (rewrite Cx, config_six; reflexivity).
  cbn [bind fst snd app deliver loop]. eexists. split; [reflexivity|]. eexists. split; [reflexivity|exact Ox].
Qed.

Context (Kr : ck_start (if_rdqs i0) = None) (Kw : ck_start (if_wdqs i0) = None) (Kk : two_clocks (fi_std p) = true -> fi_wck_on p = false -> ck_start (if_wck i0) = None).

Lemma six_needs c xs i i' : calls_inv p bus i0 xs i -> ready (if_dbi i) -> data_ends p bus xs i -> trace_allowed p bus (commands xs) -> dressed p bus c -> same_size B bus c ->
  if_command c i = Value i' -> trace_allowed p bus (commands xs ++ [c]) /\ data_ends p bus (xs ++ [Do c]) i'.
Proof using Sz S6 G R0.
  intros Ci Di De A0 Dr Ss E. pose proof (ci_run _ _ _ _ _ Ci) as Rv. unfold data_ends. rewrite commands_one.
  apply (inverted_step_needs p bus i0 xs c i i' Sz R0 (fun _ => G) Ci De A0 Dr); [|exact E].
  intros read y l T _ Q. destruct (N.eq_dec (cmd_sz_bits c) 0) as [Z|Z]; [rewrite Z; apply N.le_0_l|].
  destruct (six_inverts c read i Di (rn_mode _ _ _ _ _ Rv) T Dr Ss Z) as (y' & o & Q' & _ & L). rewrite Q' in Q. injection Q as _ ->. exact L.
Qed.
Lemma six_command c xs i : calls_inv p bus i0 xs i -> ready (if_dbi i) -> data_ends p bus xs i -> trace_allowed p bus (commands xs) ->
  Forall (dressed p bus) (commands (xs ++ [Do c])) -> same_size B bus c -> trace_allowed p bus (commands (xs ++ [Do c])) ->
  exists i', if_command c i = Value i' /\ calls_inv p bus i0 (xs ++ [Do c]) i' /\ ready (if_dbi i') /\ data_ends p bus (xs ++ [Do c]) i'.
Proof using Sz S6 G R0 Kr Kw Kk.
  intros Ci Di De A0 Dr Ss A. rewrite commands_one in Dr, A. pose proof (allowed_fits _ _ _ Dr A) as Tf. apply Forall_app in Dr as [_ Dr]. apply Forall_inv in Dr.
  pose proof (ci_run _ _ _ _ _ Ci) as Rv.
  assert (exists y, (forall read, transfers (cmd_type c) = Some read -> inverts c read i y) /\ (routing p (cmd_type c) = ToEnd -> exists j, end_of_simulation (cmd_ts c) i = Value j /\ if_dbi j = y) /\ ready y) as (y & Y1 & Y2 & Y3).
  { destruct (transfers (cmd_type c)) as [read|] eqn:T.
    - assert (routing p (cmd_type c) <> ToEnd) as Ne by (pose proof (transfers_routing p (cmd_type c)) as Tr; rewrite T in Tr; rewrite Tr; discriminate).
      unfold inverts. destruct (N.eqb_spec (cmd_sz_bits c) 0) as [Z|Z].
      + exists (if_dbi i). split; [reflexivity|]. split; [intros Q; contradiction|exact Di].
      + destruct (six_inverts c read i Di (rn_mode _ _ _ _ _ Rv) T Dr Ss Z) as (y & o & Q & Ry & L). exists y. split; [intros r Er; injection Er as <-; exists o; split; [exact Q|exact L]|]. split; [intros F; contradiction|exact Ry].
    - destruct (six_end (cmd_ts c) i Di) as (j & Ej & Rj). exists (if_dbi j). split; [discriminate|]. split; [|exact Rj]. intros _. exists j. auto. }
  destruct (inverted_step_goes p bus i0 xs c i y Sz R0 (fun _ => G) Kr Kw Kk Tf Ci Y1 Y2) as (i' & E & Ci' & Z1 & Z2). exists i'. split; [exact E|]. split; [exact Ci'|]. split.
  - destruct (transfers (cmd_type c)) eqn:T; [rewrite Z1 by (left; discriminate); exact Y3|]. destruct (routing p (cmd_type c)) eqn:Rt; try (rewrite Z2; [exact Di|reflexivity|discriminate]). rewrite Z1 by now right. exact Y3.
  - exact (proj2 (six_needs c xs i i' Ci Di De A0 Dr Ss E)).
Qed.
Lemma six_switch xc xs i i' : plain_call xc -> (forall c, xc <> Do c) -> calls_inv p bus i0 xs i -> ready (if_dbi i) -> data_ends p bus xs i -> call_do xc i = Value i' ->
  calls_inv p bus i0 (xs ++ [xc]) i' /\ ready (if_dbi i') /\ data_ends p bus (xs ++ [xc]) i'.
Proof using Sz S6 G R0.
  intros Pl Nd Ci (x & Ex & Ox) De E.
  assert (commands (xs ++ [xc]) = commands xs) as Cs by (rewrite commands_app; destruct xc as [c|e|a b|e|u|u]; try (destruct (Nd c eq_refl)); cbn; now rewrite app_nil_r).
  assert (if_data i' = if_data i /\ if_ranks i' = if_ranks i /\ ready (if_dbi i')) as (I1 & I2 & I3).
  { destruct xc as [c|e|a b|e|u|u]; try (destruct (Nd c eq_refl)); try contradiction; cbn [call_do] in E; apply value_inj in E; subst i'.
    - unfold if_enable_dbi. rewrite Ex. destruct (match fi_std (if_spec i) with DDR4 => _ | _ => _ end); cbn [fst]; [repeat split; exists x; auto|].
      cbn [if_with_dbi if_with_data if_data if_ranks if_dbi]. repeat split. eexists. split; [reflexivity|]. exact Ox.
    - repeat split. exists x. auto. }
  split; [|split; [exact I3|intros read; rewrite Cs, I1; apply De]].
  destruct Ci as [C1 C2 C3]. constructor; rewrite ?Cs, ?I1, ?I2.
  - eapply run_step; try eassumption; [exact (fun _ => G)|]. intros c H. destruct (Nd c H).
  - intros read. apply C2.
  - exact C3.
Qed.
End Six.

Theorem six_goes_on p sim i0 B : sizes_ok p -> fi_std p = LPDDR6 -> fi_groups p = 4 -> iface_new p sim = Value i0 ->
  forall xs, Forall plain_call xs -> Forall (dressed p (no_toggle sim)) (commands xs) -> Forall (same_size B (no_toggle sim)) (commands xs) -> trace_allowed p (no_toggle sim) (commands xs) ->
  exists i, calls_run xs i0 = Value i /\ calls_inv p (no_toggle sim) i0 xs i /\ ready p B (if_dbi i) /\ data_ends p (no_toggle sim) xs i.
Proof.
  intros Sz S6 G New. destruct (start_goes p sim i0 Sz New) as (V0 & R0 & K1 & K2 & K3).
  induction xs as [|xc xs IH] using rev_ind; intros Pl Dr Ss A.
  - exists i0. split; [reflexivity|]. split; [destruct V0 as [V1 V2 _ _ V3]; constructor; assumption|]. split; [|intros read; now apply (start_end p)].
    pose proof (bt_dbi _ _ _ (new_built _ _ _ New)) as D. unfold new_dbi in D. rewrite S6 in D. apply bind_inv in D as (d & D1 & D). apply value_inj in D.
    eexists. split; [symmetry; exact D|]. cbn [di_dbi]. eapply new_ok. exact D1.
  - apply Forall_app in Pl as [Pl1 Pl2]. apply Forall_inv in Pl2.
    assert (trace_allowed p (no_toggle sim) (commands xs) /\ Forall (dressed p (no_toggle sim)) (commands xs) /\ Forall (same_size B (no_toggle sim)) (commands xs)) as (A1 & Dr1 & Ss1).
    { rewrite commands_app in *. apply Forall_app in Dr as [Dr _]. apply Forall_app in Ss as [Ss _]. split; [eapply allowed_app; exact A|]. split; assumption. }
    destruct (IH Pl1 Dr1 Ss1 A1) as (i & R & Ci & Di & De).
    assert (exists i', call_do xc i = Value i' /\ calls_inv p (no_toggle sim) i0 (xs ++ [xc]) i' /\ ready p B (if_dbi i') /\ data_ends p (no_toggle sim) (xs ++ [xc]) i') as (i' & E & Rest).
    { destruct xc as [c|e|a b|e|u|u]; try contradiction.
      - cbn [call_do]. apply (six_command p (no_toggle sim) i0 B Sz S6 G R0 K1 K2 K3); auto. rewrite commands_one in Ss. apply Forall_app in Ss as [_ Ss]. now apply Forall_inv in Ss.
      - eexists. split; [reflexivity|]. apply (six_switch p (no_toggle sim) i0 B Sz S6 G R0 _ xs i); [exact Pl2|intros c; discriminate|exact Ci|exact Di|exact De|reflexivity].
      - eexists. split; [reflexivity|]. apply (six_switch p (no_toggle sim) i0 B Sz S6 G R0 _ xs i); [exact Pl2|intros c; discriminate|exact Ci|exact Di|exact De|reflexivity]. }
    exists i'. split; [|exact Rest]. unfold calls_run. rewrite BusProofs.loop_app. unfold calls_run in R. rewrite R. cbn [bind loop]. rewrite E. reflexivity.
Qed.

Theorem six_exactly p sim i0 B xs : sizes_ok p -> fi_std p = LPDDR6 -> fi_groups p = 4 -> iface_new p sim = Value i0 ->
  Forall plain_call xs -> Forall (dressed p (no_toggle sim)) (commands xs) -> Forall (same_size B (no_toggle sim)) (commands xs) ->
  ((exists i, calls_run xs i0 = Value i) <-> trace_allowed p (no_toggle sim) (commands xs)).
Proof.
  intros Sz S6 G New Pl Dr Ss. split.
  2: { intros A. destruct (six_goes_on p sim i0 B Sz S6 G New xs Pl Dr Ss A) as (i & R & _). now exists i. }
  intros (i & R). revert i Pl Dr Ss R. destruct (start_goes p sim i0 Sz New) as (V0 & R0 & K1 & K2 & K3).
  induction xs as [|xc xs IH] using rev_ind; intros i Pl Dr Ss R.
  - constructor; [constructor|exact I|exact I|exact I].
  - unfold calls_run in R. rewrite BusProofs.loop_app in R. apply bind_inv in R as (j & R1 & R). cbn [loop] in R. apply bind_inv in R as (k & E & Q). apply value_inj in Q. subst k.
    apply Forall_app in Pl as [Pl1 Pl2]. apply Forall_inv in Pl2.
    assert (Forall (dressed p (no_toggle sim)) (commands xs) /\ Forall (same_size B (no_toggle sim)) (commands xs)) as (Dr1 & Ss1).
    { rewrite commands_app in *. apply Forall_app in Dr as [Dr _]. apply Forall_app in Ss as [Ss _]. split; assumption. }
    pose proof (IH j Pl1 Dr1 Ss1 R1) as A1.
    destruct (six_goes_on p sim i0 B Sz S6 G New xs Pl1 Dr1 Ss1 A1) as (j' & R2 & Ci & Di & De). unfold calls_run in R2. rewrite R1 in R2. apply value_inj in R2. subst j'.
    destruct xc as [c|e|a b|e|u|u]; try contradiction; [|rewrite commands_app; cbn; now rewrite app_nil_r|rewrite commands_app; cbn; now rewrite app_nil_r].
    cbn [call_do] in E. rewrite commands_one in *. apply Forall_app in Dr as [_ Dr]. apply Forall_inv in Dr. apply Forall_app in Ss as [_ Ss]. apply Forall_inv in Ss.
    exact (proj1 (six_needs p (no_toggle sim) i0 B Sz S6 G R0 c xs j i Ci Di De A1 Dr Ss E)).
Qed.
