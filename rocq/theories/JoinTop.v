(* Two traces, one after the other, through the interface and through the program. *)
From Coq Require Import NArith ZArith QArith List Bool Arith Lia.
From Verif Require Import Base Command CoreModel Bits WaveSpec BitFacts BusProofs ClockProofs ToggleModel ToggleProofs StatsModel StatsSpec EnergyModel EnergySpec EnergyProofs IfEnergyModel IfEnergySpec
  InterfaceModel InterfaceSpec WireSpec AmbleSpec HistorySpec DeviceSpec DramModel DramSpec ProgressSpec ChargeSpec ChargeTop ComposeSpec ComposeTop ComposeMain CliModel CliSpec
  ProgressProofs ProgressQuery
  MemSpecModel MemSpecSpec WholeSpec WholeWires WholeProofs JoinSpec JoinProofs.
Import ListNotations.
Local Open Scope N_scope.
Ltac Zify.zify_post_hook ::= idtac.

(* ---- the interface takes both ---- *)
Lemma delay_fits p bus T c : command_fits p bus c -> in_time p bus (delay T c) -> command_fits p bus (delay T c).
Proof.
  intros [A B C _] [I1 I2]. split; [exact A|exact B| |exact I1]. intros H. specialize (C H). destruct C as [C1 C2 C3 C4 C5 _]. split; try assumption. exact (I2 H).
Qed.
Lemma apart_app M ds' : apart M ds' -> forall ds a, a <= M -> apart a ds -> Forall (fun d => drive_end d < M) ds -> apart a (ds ++ ds').
Proof.
  intros H. induction ds as [|d ds IH]; intros a La A F.
  - cbn [app]. destruct ds' as [|d' ds']; [exact Logic.I|]. destruct H as [H1 H2]. split; [lia|exact H2].
  - cbn [app apart] in *. inversion_clear F as [|? ? F1 F2]. destruct A as [A1 A2]. split; [exact A1|]. apply IH; [unfold drive_end in F1; lia|exact A2|exact F2].
Qed.
Lemma apart_shifted M ds : forall a, apart a ds -> apart (a + M) (shifted M ds).
Proof.
  induction ds as [|d ds IH]; intros a A; [exact Logic.I|]. cbn [shifted map apart fst snd] in *. destruct A as [A1 A2]. split; [lia|].
  replace (fst d + M + N.of_nat (length (snd d))) with (fst d + N.of_nat (length (snd d)) + M) by lia. apply IH, A2.
Qed.
Lemma overlap_app M l' : no_overlap M l' -> forall l a, a <= M -> no_overlap a l -> Forall (fun b => fst b + snd b < M) l -> no_overlap a (l ++ l').
Proof.
  intros H. induction l as [|d l IH]; intros a La A F.
  - cbn [app]. destruct l' as [|d' l']; [exact Logic.I|]. destruct H as [H1 H2]. split; [lia|exact H2].
  - cbn [app no_overlap] in *. inversion_clear F as [|? ? F1 F2]. destruct A as [A1 A2]. split; [exact A1|]. apply IH; [lia|exact A2|exact F2].
Qed.
Lemma bursts_app p bus read x y : ProgressSpec.bursts p bus read (x ++ y) = ProgressSpec.bursts p bus read x ++ ProgressSpec.bursts p bus read y.
Proof. apply flat_app. Qed.
Lemma bursts_over p bus read cs T : quiet p bus cs T -> Forall (fun b => fst b + snd b < T * fi_rate p) (ProgressSpec.bursts p bus read cs).
Proof.
  unfold ProgressSpec.bursts. induction 1 as [|c cs [_ [_ H]] _ IH]; [constructor|]. cbn [flat_map]. apply Forall_app. split; [|exact IH].
  destruct (transfers (cmd_type c)); [|constructor]. destruct (eqb _ read); [|constructor]. constructor; [|constructor]. apply H. discriminate.
Qed.
Lemma overlap_later p bus read T cs : forall a, no_overlap a (ProgressSpec.bursts p bus read cs) -> no_overlap (a + T * fi_rate p) (ProgressSpec.bursts p bus read (later T cs)).
Proof.
  unfold ProgressSpec.bursts. induction cs as [|c cs IH]; intros a A; [exact Logic.I|]. change (later T (c :: cs)) with (delay T c :: later T cs). cbn [flat_map] in *.
  change (cmd_type (delay T c)) with (cmd_type c). change (burst_beats p bus (delay T c)) with (burst_beats p bus c). change (cmd_ts (delay T c)) with (cmd_ts c + T).
  destruct (transfers (cmd_type c)) as [r|]; [|apply IH, A]. destruct (eqb r read); [|apply IH, A]. cbn [app no_overlap fst snd] in *. destruct A as [A1 A2].
  rewrite N.mul_add_distr_r. split; [lia|]. replace (cmd_ts c * fi_rate p + T * fi_rate p + burst_beats p bus c) with (cmd_ts c * fi_rate p + burst_beats p bus c + T * fi_rate p) by lia.
  apply IH, A2.
Qed.
Theorem fits_join p bus cs1 cs2 T : trace_fits p bus cs1 -> trace_fits p bus cs2 -> quiet p bus cs1 T -> Forall (in_time p bus) (later T cs2) ->
  trace_fits p bus (cs1 ++ later T cs2).
Proof.
  intros [A1 B1 C1 D1] [A2 B2 C2 D2] Q I. split.
  - apply Forall_app. split; [exact A1|]. unfold later in *. apply Forall_map. rewrite Forall_map in I. rewrite Forall_forall in *. intros c Hc. apply delay_fits; auto.
  - rewrite ca_app, ca_later. apply (apart_app (T * ca_beats (fi_std p))); [apply (apart_shifted _ _ 0), B2|lia|exact B1|apply ca_over, Q].
  - rewrite bursts_app. apply (overlap_app (T * fi_rate p)); [apply (overlap_later p bus true T cs2 0), C2|lia|exact C1|apply bursts_over, Q].
  - rewrite bursts_app. apply (overlap_app (T * fi_rate p)); [apply (overlap_later p bus false T cs2 0), D2|lia|exact D1|apply bursts_over, Q].
Qed.

(* ---- the conditions of the energy ---- *)
Lemma order_until p bus w cs : forall a u v, u <= v -> bursts_in_order p bus w a u cs -> bursts_in_order p bus w a v cs.
Proof.
  induction cs as [|c cs IH]; intros a u v L H; [cbn in *; lia|]. cbn [bursts_in_order] in *. destruct (match transfers (cmd_type c) with Some read => w read | None => false end); [split; [apply H|eapply IH; [exact L|apply H]]|eapply IH; eassumption].
Qed.
Lemma order_app p bus w y u : forall x a M, bursts_in_order p bus w a M x -> bursts_in_order p bus w M u y -> bursts_in_order p bus w a u (x ++ y).
Proof.
  assert (forall a M, a <= M -> bursts_in_order p bus w M u y -> bursts_in_order p bus w a u y) as Low.
  { induction y as [|c y IH]; intros a M L H; [cbn in *; lia|]. cbn [bursts_in_order] in *. destruct (match transfers (cmd_type c) with Some read => w read | None => false end); [split; [lia|apply H]|eapply IH; eassumption]. }
  induction x as [|c x IH]; intros a M H1 H2; [cbn [app]; eapply Low; [exact H1|exact H2]|]. cbn [app bursts_in_order] in *.
  destruct (match transfers (cmd_type c) with Some read => w read | None => false end); [split; [apply H1|eapply IH; [apply H1|exact H2]]|eapply IH; eassumption].
Qed.
Lemma order_later p bus w T cs : forall a u, bursts_in_order p bus w a u cs -> bursts_in_order p bus w (T + a) (T + u) (later T cs).
Proof.
  induction cs as [|c cs IH]; intros a u H; [cbn in *; lia|]. change (later T (c :: cs)) with (delay T c :: later T cs). cbn [bursts_in_order] in *.
  change (cmd_type (delay T c)) with (cmd_type c). change (burst_cycles p bus (delay T c)) with (burst_cycles p bus c). change (cmd_ts (delay T c)) with (cmd_ts c + T).
  destruct (match transfers (cmd_type c) with Some read => w read | None => false end); [|apply IH, H]. split; [destruct H; lia|].
  replace (cmd_ts c + T + burst_cycles p bus c) with (T + (cmd_ts c + burst_cycles p bus c)) by lia. apply IH, H.
Qed.
Definition put_off (T : N) (b : N * N) : N * N := (fst b + T, snd b).
Lemma ranks_app p bus read r x y : rank_bursts p bus read r (x ++ y) = rank_bursts p bus read r x ++ rank_bursts p bus read r y.
Proof. apply flat_app. Qed.
Lemma ranks_later p bus read r T cs : rank_bursts p bus read r (later T cs) = map (put_off T) (rank_bursts p bus read r cs).
Proof.
  induction cs as [|c cs IH]; [reflexivity|]. change (later T (c :: cs)) with ([delay T c] ++ later T cs). change (c :: cs) with ([c] ++ cs). rewrite !ranks_app, IH, map_app. f_equal.
  unfold rank_bursts. cbn [flat_map]. change (cmd_type (delay T c)) with (cmd_type c). change (cmd_rank (delay T c)) with (cmd_rank c).
  destruct (transfers (cmd_type c)) as [d|]; [|reflexivity]. destruct (eqb d read && Nat.eqb (N.to_nat (cmd_rank c)) r); reflexivity.
Qed.
Lemma ranks_over p bus read r cs T : quiet p bus cs T -> Forall (fun b => fst b + snd b < T) (rank_bursts p bus read r cs).
Proof.
  unfold rank_bursts. induction 1 as [|c cs [_ [_ H]] _ IH]; [constructor|]. cbn [flat_map]. apply Forall_app. split; [|exact IH].
  destruct (transfers (cmd_type c)); [|constructor]. destruct (_ && _); [|constructor]. constructor; [|constructor]. cbn [fst snd]. unfold burst_cycles.
  assert (cmd_ts c * fi_rate p + burst_beats p bus c < T * fi_rate p) as X by (apply H; discriminate).
  assert (fi_rate p <> 0) as R by (intros E; rewrite E in X; lia). pose proof (N.mul_div_le (burst_beats p bus c) (fi_rate p) R). nia.
Qed.
Lemma gaps_put T l : back_to_back (map (put_off T) l) = back_to_back l.
Proof.
  induction l as [|a l IH]; [reflexivity|]. destruct l as [|b l]; [reflexivity|]. cbn [map back_to_back] in *. rewrite IH. f_equal. cbn [put_off fst snd].
  destruct (N.eqb_spec (fst a + snd a) (fst b)), (N.eqb_spec (fst a + T + snd a) (fst b + T)); try reflexivity; lia.
Qed.
Lemma gaps_app T y : back_to_back y = 0 -> (match y with b :: _ => T <= fst b | [] => True end) -> forall x, back_to_back x = 0 -> Forall (fun b => fst b + snd b < T) x -> back_to_back (x ++ y) = 0.
Proof.
  intros Hy Hf. induction x as [|a x IH]; intros Hx F; [exact Hy|]. inversion_clear F as [|? ? F1 F2]. destruct x as [|b x].
  - cbn [app]. destruct y as [|b y]; [reflexivity|]. cbn [back_to_back] in *. rewrite Hy. destruct (N.eqb_spec (fst a + snd a) (fst b)); [lia|reflexivity].
  - cbn [app back_to_back] in *. apply N.eq_add_0 in Hx as [X1 X2]. rewrite X1. exact (IH X2 F2).
Qed.
Lemma calm_join p e sim cs1 cs2 T t : calm p e sim cs1 T -> calm p e sim cs2 t -> quiet p (no_toggle sim) cs1 T ->
  (T + t) * (fi_rate p + dqs_rate p + 2) * (dq_lines p + 32) + 64 < two64 -> calm p e sim (cs1 ++ later T cs2) (T + t).
Proof.
  intros [A1 B1 C1 D1 E1 F1 G1] [A2 _ _ _ E2 _ _] Q S. split; auto.
  - eapply order_app; [exact A1|]. replace T with (T + 0) at 1 by lia. apply order_later, A2.
  - intros S4 rank read Hr. destruct (E1 S4 rank read Hr) as [X1 Y1]. destruct (E2 S4 rank read Hr) as [X2 Y2]. rewrite ranks_app, ranks_later. split.
    + apply (gaps_app T); [rewrite gaps_put; exact X2| |exact X1|apply ranks_over, Q]. destruct (rank_bursts p (no_toggle sim) read rank cs2); [exact Logic.I|]. cbn. lia.
    + destruct (rank_bursts p (no_toggle sim) read rank cs1) as [|b l]; [|exact Y1]. cbn [app]. destruct (rank_bursts p (no_toggle sim) read rank cs2) as [|b l]; [reflexivity|].
      cbn [map at_zero put_off fst] in *. destruct (N.eqb_spec (fst b) 0); [discriminate|]. destruct (N.eqb_spec (fst b + T) 0); [lia|reflexivity].
Qed.

(* ---- energies ---- *)
Lemma field_sum a b f : field_at (add_exact a b) f = field_at a f + field_at b f.
Proof. destruct f; reflexivity. Qed.
Theorem static_join p e cs1 cs2 T t : quiet p true cs1 T -> forall g,
  (wire_static p e None (cs1 ++ later T cs2) (T + t) g == wire_static p e None cs1 T g + wire_static p e None cs2 t g)%Q.
Proof.
  intros Q g. unfold wire_static. destruct (ln_term (impedance e g)); [|reflexivity]. rewrite (wires_join p cs1 cs2 T t Q g), field_sum, qn_sum. ring.
Qed.
Theorem dynamic_join p e cs1 cs2 T t : quiet p true cs1 T -> forall g,
  (wire_dynamic p e None (cs1 ++ later T cs2) (T + t) g == wire_dynamic p e None cs1 T g + wire_dynamic p e None cs2 t g)%Q.
Proof.
  intros Q g. unfold wire_dynamic. rewrite (wires_join p cs1 cs2 T t Q g). cbn [add_exact z2o]. rewrite qn_sum. ring.
Qed.
Lemma charge_join p e I cs1 cs2 T t : rests p cs1 T -> timely p cs2 t -> legal_history p cs2 ->
  (core_charge p e I (cs1 ++ later T cs2) (T + t) == core_charge p e I cs1 T + core_charge p e I cs2 t)%Q.
Proof.
  intros RE T2 L2. unfold core_charge. rewrite <- qsum_plus. apply qsum_ext. intros w _. rewrite <- qsum_plus. apply qsum_ext. intros r Hr. apply in_seq in Hr.
  rewrite (charge_both p cs1 cs2 T RE (proj1 T2) e w (I w) r t); [ring|lia|apply L2; lia|apply T2].
Qed.
Lemma final_later T cs : forall a b, final_time (a + T) (map cmd_ts (later T cs)) = final_time a (map cmd_ts cs) + T /\ (cs <> [] -> final_time b (map cmd_ts (later T cs)) = final_time 0 (map cmd_ts cs) + T).
Proof.
  induction cs as [|c cs IH]; intros a b; [split; [reflexivity|intros X; contradiction]|]. change (later T (c :: cs)) with (delay T c :: later T cs). cbn [map]. change (cmd_ts (delay T c)) with (cmd_ts c + T).
  unfold final_time in *. cbn [fold_left]. split; [apply (IH (cmd_ts c) 0)|intros _; apply (IH (cmd_ts c) 0)].
Qed.
Lemma final_join cs1 cs2 : final_time 0 (map cmd_ts (cs1 ++ later (final_time 0 (map cmd_ts cs1)) cs2)) = final_time 0 (map cmd_ts cs1) + final_time 0 (map cmd_ts cs2).
Proof.
  set (T := final_time 0 (map cmd_ts cs1)). rewrite map_app. unfold final_time at 1. rewrite fold_left_app. fold (final_time 0 (map cmd_ts cs1)). fold T. fold (final_time T (map cmd_ts (later T cs2))).
  destruct cs2 as [|c cs2]; [cbn; unfold final_time; cbn; lia|]. destruct (final_later T (c :: cs2) 0 T) as [_ H]. rewrite H by discriminate. lia.
Qed.

Theorem soundly_join p cs1 cs2 : soundly p cs1 -> soundly p cs2 -> rests (dp_core p) cs1 (ends cs1) -> quiet (dp_if p) (no_toggle (dp_sim p)) cs1 (ends cs1) ->
  timely (dp_core p) (cs1 ++ later (ends cs1) cs2) (ends cs1 + ends cs2) -> Forall (in_time (dp_if p) (no_toggle (dp_sim p))) (later (ends cs1) cs2) ->
  countable (dp_if p) (ends cs1 + ends cs2) ->
  soundly p (cs1 ++ later (ends cs1) cs2) /\ ends (cs1 ++ later (ends cs1) cs2) = ends cs1 + ends cs2.
Proof.
  intros [A1 B1 C1 D1] [A2 B2 C2 D2] R Q Ti In Sm.
  assert (ends (cs1 ++ later (ends cs1) cs2) = ends cs1 + ends cs2) as E by apply final_join. split; [|exact E]. split; rewrite ?E.
  - exact Ti.
  - eapply sequence_legal; eassumption.
  - apply fits_join; assumption.
  - apply calm_join; assumption.
Qed.

(* What the program prints for one trace. *)
Lemma printed p text cs I : capable p -> backgrounds (dp_ce p) I -> parse_command_list text = Value (Some cs) -> soundly p cs ->
  exists en ie, program p text = Printed (Exactly en) (Exactly ie) (Exactly (en_total en + ie_total ie)%Q) /\
    (en_total en == core_charge (dp_core p) (dp_ce p) I cs (ends cs))%Q /\
    forall s, (statics ie s == qsum (wire_static (dp_if p) (dp_ie p) (dp_sim p) cs (ends cs)) (driven_groups (dp_if p) s) /\
               dynamics ie s == qsum (wire_dynamic (dp_if p) (dp_ie p) (dp_sim p) cs (ends cs)) (driven_groups (dp_if p) s))%Q.
Proof.
  intros [V SM [d0 New] Wf We Go Sz G6] Bg Pa [A B C D]. exact (program_energy p I text cs d0 Pa V SM New Wf We Bg Go Sz G6 A B C D).
Qed.
Lemma total_sides ie : (ie_total ie == statics ie Controller + dynamics ie Controller + (statics ie Dram + dynamics ie Dram))%Q.
Proof. unfold ie_total, statics, dynamics. ring. Qed.

Theorem programs_join p cs1 cs2 text1 text2 text : capable p -> dp_sim p = None -> soundly p cs1 -> soundly p cs2 ->
  rests (dp_core p) cs1 (ends cs1) -> quiet (dp_if p) true cs1 (ends cs1) ->
  timely (dp_core p) (cs1 ++ later (ends cs1) cs2) (ends cs1 + ends cs2) -> Forall (in_time (dp_if p) true) (later (ends cs1) cs2) -> countable (dp_if p) (ends cs1 + ends cs2) ->
  parse_command_list text1 = Value (Some cs1) -> parse_command_list text2 = Value (Some cs2) -> parse_command_list text = Value (Some (cs1 ++ later (ends cs1) cs2)) ->
  exists en1 ie1 en2 ie2 en ie a1 a2 a,
    program p text1 = Printed (Exactly en1) (Exactly ie1) (Exactly a1) /\ program p text2 = Printed (Exactly en2) (Exactly ie2) (Exactly a2) /\
    program p text = Printed (Exactly en) (Exactly ie) (Exactly a) /\
    (en_total en == en_total en1 + en_total en2)%Q /\ (a == a1 + a2)%Q /\
    forall s, (statics ie s == statics ie1 s + statics ie2 s)%Q /\ (dynamics ie s == dynamics ie1 s + dynamics ie2 s)%Q.
Proof.
  intros Cp Si S1 S2 R Q Ti In Sm P1 P2 P. destruct (backgrounds_exist _ (cp_energy p Cp)) as [I Bg].
  assert (no_toggle (dp_sim p) = true) as B by (rewrite Si; reflexivity).
  destruct (soundly_join p cs1 cs2 S1 S2 R) as [S E]; try rewrite B; try assumption.
  destruct (printed p text1 cs1 I Cp Bg P1 S1) as (en1 & ie1 & X1 & Y1 & Z1). destruct (printed p text2 cs2 I Cp Bg P2 S2) as (en2 & ie2 & X2 & Y2 & Z2).
  destruct (printed p text _ I Cp Bg P S) as (en & ie & X & Y & Z). rewrite E in Y, Z. rewrite Si in *.
  assert (en_total en == en_total en1 + en_total en2)%Q as Ce by (rewrite Y, Y1, Y2; apply charge_join; [exact R|apply S2|apply S2]).
  assert (forall s, (statics ie s == statics ie1 s + statics ie2 s)%Q /\ (dynamics ie s == dynamics ie1 s + dynamics ie2 s)%Q) as Ie.
  { intros s. destruct (Z1 s) as [U1 V1]. destruct (Z2 s) as [U2 V2]. destruct (Z s) as [U V]. rewrite U, U1, U2, V, V1, V2, <- !qsum_plus.
    split; apply qsum_ext; intros g _; [apply static_join|apply dynamic_join]; exact Q. }
  exists en1, ie1, en2, ie2, en, ie. do 3 eexists. split; [exact X1|]. split; [exact X2|]. split; [exact X|]. split; [exact Ce|]. split; [|exact Ie].
  rewrite Ce, !total_sides. destruct (Ie Controller) as [K1 K2]. destruct (Ie Dram) as [K3 K4]. rewrite K1, K2, K3, K4. ring.
Qed.

(* ---- once more and once more ---- *)
Lemma quiet_later p bus T t cs : quiet p bus cs t -> quiet p bus (later T cs) (T + t).
Proof.
  intros H. apply Forall_map. eapply Forall_impl; [|exact H]. cbn beta. intros c [A [B C]]. change (cmd_ts (delay T c)) with (cmd_ts c + T). split; [lia|].
  unfold command_over. rewrite words_delay. change (cmd_type (delay T c)) with (cmd_type c). change (burst_beats p bus (delay T c)) with (burst_beats p bus c). change (cmd_ts (delay T c)) with (cmd_ts c + T).
  rewrite !N.mul_add_distr_r. split; intros X; [specialize (B X)|specialize (C X)]; lia.
Qed.
Theorem quiet_join p bus cs1 cs2 T t : quiet p bus cs1 T -> quiet p bus cs2 t -> quiet p bus (cs1 ++ later T cs2) (T + t).
Proof.
  intros A B. apply Forall_app. split; [|apply quiet_later, B]. eapply Forall_impl; [|exact A]. cbn beta. intros c [H [I J]]. split; [lia|]. unfold command_over.
  rewrite !N.mul_add_distr_r. split; intros X; [specialize (I X)|specialize (J X)]; lia.
Qed.
Theorem wires_looped p cs T n : quiet p true cs T -> forall g, wire_counts p None (looped T cs n) (N.of_nat n * T) g = scale (N.of_nat n) (wire_counts p None cs T g).
Proof.
  intros Q g. induction n as [|n IH].
  - cbn [looped N.of_nat N.mul]. unfold wire_counts, data_counts. cbv zeta. destruct g; try reflexivity; try (destruct (fi_wck_on p)); unfold total_cycles; cbn [filter map fold_right];
      apply stats_ext; unfold scale, periods; cbn [ones zeroes changes o2z z2o]; rewrite ?N.mul_0_r, ?N.mul_0_l; reflexivity.
  - cbn [looped]. replace (N.of_nat (S n) * T) with (T + N.of_nat n * T) by lia. rewrite wires_join, IH by exact Q. rewrite Nat2N.inj_succ, <- N.add_1_l.
    apply stats_ext; unfold scale, add_exact; cbn [ones zeroes changes o2z z2o]; ring.
Qed.
Lemma in_time_back p bus T c : in_time p bus (delay T c) -> in_time p bus c.
Proof.
  unfold in_time, command_ok. change (cmd_type (delay T c)) with (cmd_type c). change (burst_beats p bus (delay T c)) with (burst_beats p bus c).
  change (burst_cycles p bus (delay T c)) with (burst_cycles p bus c). change (cmd_ts (delay T c)) with (cmd_ts c + T). rewrite !N.mul_add_distr_r. intros [[A B] C]. split; [split; lia|].
  intros X. specialize (C X). lia.
Qed.
Lemma countable_less p m n : m <= n -> countable p n -> countable p m.
Proof. unfold countable. intros H. apply N.le_lt_trans. apply N.add_le_mono_r. apply N.mul_le_mono_r, N.mul_le_mono_r, H. Qed.
Lemma soundly_nil p cs : soundly p cs -> soundly p [].
Proof.
  intros [A B C D]. split.
  - split; [exact Logic.I|]. split; [constructor|]. split; [apply N.le_refl|]. split; reflexivity.
  - apply legal_nil.
  - split; try exact Logic.I. constructor.
  - destruct D as [_ D2 D3 D4 _ D6 _]. split; auto; try reflexivity; try apply N.le_refl.
Qed.
Section Loop.
Context (p : dspec) (cs : list Command).
Let T := ends cs.
Context (Cp : capable p) (Si : dp_sim p = None) (S1 : soundly p cs) (R : rests (dp_core p) cs T) (Q : quiet (dp_if p) true cs T).

Lemma soundly_looped n : timely (dp_core p) (looped T cs n) (N.of_nat n * T) -> Forall (in_time (dp_if p) true) (looped T cs n) -> countable (dp_if p) (N.of_nat n * T) ->
  soundly p (looped T cs n) /\ ends (looped T cs n) = N.of_nat n * T.
Proof using All.
  induction n as [|n IH]; intros Ti In Sm; [split; [exact (soundly_nil p cs S1)|reflexivity]|].
  cbn [looped] in Ti, In |- *. replace (N.of_nat (S n) * T) with (T + N.of_nat n * T) in * by lia. apply Forall_app in In as [_ In].
  destruct IH as [S2 E2].
  - eapply timely_tail; [exact Ti|eapply loop_ordered; exact R|eapply loop_ends; exact R].
  - unfold later in In. rewrite Forall_map in In. eapply Forall_impl; [|exact In]. intros c. apply in_time_back.
  - eapply countable_less; [|exact Sm]. lia.
  - destruct (soundly_join p cs (looped T cs n) S1 S2 R) as [S E]; rewrite ?E2, ?Si; cbn [no_toggle]; try assumption. fold T in E. rewrite E2 in E. auto.
Qed.
Lemma charge_looped I n : timely (dp_core p) (looped T cs n) (N.of_nat n * T) -> Forall (in_time (dp_if p) true) (looped T cs n) -> countable (dp_if p) (N.of_nat n * T) ->
  (core_charge (dp_core p) (dp_ce p) I (looped T cs n) (N.of_nat n * T) == qnat n * core_charge (dp_core p) (dp_ce p) I cs T)%Q.
Proof using All.
  induction n as [|n IH]; intros Ti In Sm.
  - change (looped T cs 0) with (@nil Command). change (N.of_nat 0 * T) with 0. unfold core_charge at 1. change (qnat 0) with 0%Q. rewrite Qmult_0_l.
    apply qsum_zero. intros w _. apply qsum_zero. intros r _. rewrite idle_charge. unfold cycles_time. change (qn 0) with 0%Q. ring.
  - cbn [looped] in Ti, In |- *. replace (N.of_nat (S n) * T) with (T + N.of_nat n * T) in * by lia. apply Forall_app in In as [_ In].
    assert (timely (dp_core p) (looped T cs n) (N.of_nat n * T)) as T2 by (eapply timely_tail; [exact Ti|eapply loop_ordered; exact R|eapply loop_ends; exact R]).
    assert (Forall (in_time (dp_if p) true) (looped T cs n)) as I2 by (unfold later in In; rewrite Forall_map in In; eapply Forall_impl; [|exact In]; intros c; apply in_time_back).
    assert (countable (dp_if p) (N.of_nat n * T)) as C2 by (eapply countable_less; [|exact Sm]; lia).
    rewrite charge_join; [|exact R|exact T2|apply soundly_looped; assumption]. rewrite IH by assumption. rewrite qnat_S. ring.
Qed.
Theorem programs_looped n text1 text : timely (dp_core p) (looped T cs n) (N.of_nat n * T) -> Forall (in_time (dp_if p) true) (looped T cs n) -> countable (dp_if p) (N.of_nat n * T) ->
  parse_command_list text1 = Value (Some cs) -> parse_command_list text = Value (Some (looped T cs n)) ->
  exists en1 ie1 en ie a1 a, program p text1 = Printed (Exactly en1) (Exactly ie1) (Exactly a1) /\ program p text = Printed (Exactly en) (Exactly ie) (Exactly a) /\
    (en_total en == qnat n * en_total en1)%Q /\ (a == qnat n * a1)%Q /\
    forall s, (statics ie s == qnat n * statics ie1 s)%Q /\ (dynamics ie s == qnat n * dynamics ie1 s)%Q.
Proof using All.
  intros Ti In Sm P1 P. destruct (backgrounds_exist _ (cp_energy p Cp)) as [I Bg]. destruct (soundly_looped n Ti In Sm) as [S E].
  destruct (printed p text1 cs I Cp Bg P1 S1) as (en1 & ie1 & X1 & Y1 & Z1). destruct (printed p text _ I Cp Bg P S) as (en & ie & X & Y & Z). rewrite E in Y, Z. rewrite Si in Z, Z1. fold T in Y1, Z1.
  assert (en_total en == qnat n * en_total en1)%Q as Ce by (rewrite Y, Y1; apply charge_looped; assumption).
  assert (forall a : N, (qn (N.of_nat n * a) == qnat n * qn a)%Q) as Mu by (intros a; unfold qn, qnat; rewrite N2Z.inj_mul, inject_Z_mult, nat_N_Z; reflexivity).
  assert (forall s, (statics ie s == qnat n * statics ie1 s)%Q /\ (dynamics ie s == qnat n * dynamics ie1 s)%Q) as Ie.
  { intros s. destruct (Z1 s) as [U1 V1]. destruct (Z s) as [U V]. rewrite U, U1, V, V1, <- !qsum_scale.
    split; apply qsum_ext; intros g _; unfold wire_static, wire_dynamic; rewrite (wires_looped (dp_if p) cs T n Q g).
    - destruct (ln_term _); [|ring]. replace (field_at (scale (N.of_nat n) (wire_counts (dp_if p) None cs T g)) (burning (fi_std (dp_if p)))) with (N.of_nat n * field_at (wire_counts (dp_if p) None cs T g) (burning (fi_std (dp_if p))))
        by (destruct (burning _); reflexivity). rewrite Mu. ring.
    - cbn [scale z2o]. rewrite Mu. ring. }
  exists en1, ie1, en, ie. do 2 eexists. split; [exact X1|]. split; [exact X|]. split; [exact Ce|]. split; [|exact Ie].
  rewrite Ce, !total_sides. destruct (Ie Controller) as [K1 K2]. destruct (Ie Dram) as [K3 K4]. rewrite K1, K2, K3, K4. ring.
Qed.
End Loop.

(* ---- statistics ---- *)
Theorem statistics_join p e i0 cs1 cs2 T t : InterfaceSpec.sizes_ok p -> (fi_std p = LPDDR6 -> fi_groups p = 4) -> iface_new p None = Value i0 ->
  trace_fits p true cs1 -> trace_fits p true cs2 -> calm p e None cs1 T -> calm p e None cs2 t -> quiet p true cs1 T -> Forall (fun c => cmd_ts c <= t) cs2 ->
  Forall (in_time p true) (later T cs2) -> countable p (T + t) ->
  exists i1 i2 i st1 st2 st,
    calls_run (map Do cs1) i0 = Value i1 /\ calls_run (map Do cs2) i0 = Value i2 /\ calls_run (map Do (cs1 ++ later T cs2)) i0 = Value i /\
    if_window i1 T sim_stats0 = Value st1 /\ if_window i2 t sim_stats0 = Value st2 /\ if_window i (T + t) sim_stats0 = Value st /\
    ss_commandBus st = add_exact (ss_commandBus st1) (ss_commandBus st2) /\
    ss_readBus st = add_exact (ss_readBus st1) (ss_readBus st2) /\ ss_writeBus st = add_exact (ss_writeBus st1) (ss_writeBus st2) /\
    ss_clock st = add_exact (ss_clock st1) (ss_clock st2) /\ ss_readDQS st = add_exact (ss_readDQS st1) (ss_readDQS st2) /\
    (if two_clocks (fi_std p) then ss_wClock st = add_exact (ss_wClock st1) (ss_wClock st2) else ss_writeDQS st = add_exact (ss_writeDQS st1) (ss_writeDQS st2)).
Proof.
  intros Sz G6 New F1 F2 C1 C2 Q E2 In Sm.
  assert (trace_fits p true (cs1 ++ later T cs2)) as F by (apply fits_join; assumption).
  assert (calm p e None (cs1 ++ later T cs2) (T + t)) as C by (apply calm_join; assumption).
  assert (Forall (fun c => cmd_ts c <= T) cs1) as E1 by (eapply Forall_impl; [|exact Q]; intros c Hc; apply Hc).
  assert (Forall (fun c => cmd_ts c <= T + t) (cs1 ++ later T cs2)) as E.
  { apply Forall_app. split; [eapply Forall_impl; [|exact E1]; cbn beta; intros c Hc; lia|]. apply Forall_map. eapply Forall_impl; [|exact E2]. cbn beta. intros c Hc. change (cmd_ts (delay T c)) with (cmd_ts c + T). lia. }
  assert (forall cs u, trace_fits p true cs -> calm p e None cs u -> Forall (fun c => cmd_ts c <= u) cs ->
    exists i st, calls_run (map Do cs) i0 = Value i /\ if_window i u sim_stats0 = Value st /\ ss_commandBus st = wire_counts p None cs u CA /\
      ss_readBus st = wire_counts p None cs u RDQ /\ ss_writeBus st = wire_counts p None cs u WDQ /\ ss_clock st = wire_counts p None cs u CK /\ ss_readDQS st = wire_counts p None cs u RDQS /\
      (if two_clocks (fi_std p) then ss_wClock st = wire_counts p None cs u WCK else ss_writeDQS st = wire_counts p None cs u WDQS)) as K.
  { intros cs u Fi Ca En. destruct (trace_goes p None i0 cs Sz G6 New Fi) as (i & Ri & _). destruct (calm_bounds p e None cs u Sz Ca) as [B1 B2].
    destruct (window_goes p None i0 cs i u sim_stats0 Sz G6 New Fi Ri En B1 B2) as (st & Wi). exists i, st. split; [exact Ri|]. split; [exact Wi|].
    destruct (wires_data p e None cs u i0 i st Sz G6 New Logic.I Fi En Ri Wi Ca) as (r & w & -> & -> & [(D1 & D2 & _)|(_ & _ & _ & _ & X)]); [|contradiction].
    destruct (wires_dqs p e None cs u i0 i st Sz G6 New Logic.I Fi En Ri Wi Ca) as [Q1 Q2].
    split; [exact (wires_ca p e None cs u i0 i st Sz G6 New Logic.I Fi En Ri Wi Ca)|]. split; [exact D1|]. split; [exact D2|].
    split; [exact (wires_ck p e None cs u i0 i st Sz G6 New Logic.I Fi En Ri Wi Ca)|]. split; [exact Q1|].
    destruct (two_clocks (fi_std p)) eqn:Tw; [exact (wires_wck p e None cs u i0 i st Sz G6 New Logic.I Fi En Ri Wi Ca Tw)|exact (Q2 eq_refl)]. }
  destruct (K _ _ F1 C1 E1) as (i1 & st1 & R1 & W1 & A1 & A2 & A3 & A4 & A5 & A6). destruct (K _ _ F2 C2 E2) as (i2 & st2 & R2 & W2 & B1 & B2 & B3 & B4 & B5 & B6).
  destruct (K _ _ F C E) as (i & st & R & W & D1 & D2 & D3 & D4 & D5 & D6). exists i1, i2, i, st1, st2, st. repeat (split; [assumption|]).
  rewrite D1, D2, D3, D4, D5, A1, A2, A3, A4, A5, B1, B2, B3, B4, B5. repeat (split; [apply wires_join, Q|]).
  destruct (two_clocks (fi_std p)); rewrite D6, A6, B6; apply wires_join, Q.
Qed.
