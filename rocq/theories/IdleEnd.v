(* A trace that ends later is as good as one that ends sooner. *)
From Coq Require Import NArith QArith List Bool Arith Lia.
From Verif Require Import Base Command CoreModel Bits WaveSpec BitFacts ToggleModel StatsModel EnergyModel EnergySpec IfEnergyModel IfEnergySpec
  InterfaceModel InterfaceSpec WireSpec AmbleSpec HistorySpec DeviceSpec RefineMain DramModel DramSpec ProgressSpec ChargeSpec CliModel MemSpecModel MemSpecSpec WholeSpec
  JoinSpec JoinProofs JoinTop SettleSpec IdleSpec IdleProofs.
Import ListNotations.
Local Open Scope N_scope.
Ltac Zify.zify_post_hook ::= idtac.

Section End.
Variable p : dspec.
Variables (cs : list Command) (c1 c2 : Command) (T t : N).
Hypothesis E1 : end_at c1 T.
Hypothesis E2 : end_at c2 t.
Hypothesis HT : T <= t.
Hypothesis So : soundly p (cs ++ [c1]).
Hypothesis Rk : cmd_rank c2 = cmd_rank c1.
Hypothesis Tm : t + tmax (dp_core p) < two64.
Hypothesis Cn : countable (dp_if p) t.
Hypothesis Ok : command_ok (dp_if p) (no_toggle (dp_sim p)) c2.

Lemma nd_last l x y : forall f, x <= y -> nondecreasing f (l ++ [x]) -> nondecreasing f (l ++ [y]).
Proof. induction l as [|a l IH]; intros f L H; cbn in *; [lia|]. split; [apply H|apply IH; [exact L|apply H]]. Qed.
Lemma end_timely : timely (dp_core p) (cs ++ [c2]) t.
Proof using All.
  destruct So as [(T1 & T2 & T3 & T4 & T5) _ _ _]. destruct E1 as [_ X1]. destruct E2 as [_ X2]. split; [|split; [|split; [|split]]].
  - rewrite map_app in *. cbn [map] in *. rewrite X2. rewrite X1 in T1. exact (nd_last _ _ _ _ HT T1).
  - unfold no_overflow in *. rewrite map_app in *. apply Forall_app in T2 as [T2 _]. apply Forall_app. split; [exact T2|]. cbn [map]. constructor; [rewrite X2; exact Tm|constructor].
  - rewrite final_end, X2. lia.
  - lia.
  - rewrite app_length in *. exact T5.
Qed.
Lemma end_legal : legal_history (dp_core p) (cs ++ [c2]).
Proof using E1 E2 So Rk.
  destruct So as [_ [L1 L2] _ _]. destruct E1 as [Y1 _]. destruct E2 as [Y2 _]. split.
  - apply Forall_app in L1 as [A B]. apply Forall_app. split; [exact A|]. inversion B as [|? ? B1 _]. constructor; [rewrite Rk; exact B1|constructor].
  - intros r Hr. specialize (L2 r Hr). unfold legal in *. rewrite filter_app in *. cbn [filter] in *. assert (to_rank r c2 = to_rank r c1) as -> by (unfold to_rank; now rewrite Rk).
    destruct (to_rank r c1); [|exact L2]. rewrite run_device_app in *. destruct (run_device _ _ _) as [d|]; [|exact L2]. unfold command, in_standard, well_addressed in *. rewrite Y1 in L2. rewrite Y2. discriminate.
Qed.
Lemma end_fits : trace_fits (dp_if p) (no_toggle (dp_sim p)) (cs ++ [c2]).
Proof using E1 E2 So Ok.
  destruct So as [_ _ [F1 F2 F3 F4] _]. destruct E1 as [Y1 _]. destruct E2 as [Y2 _].
  apply Forall_app in F1 as [F0 F1]. inversion F1 as [|? ? [G1 G2 G3 G4] _]. split.
  - apply Forall_app. split; [exact F0|]. constructor; [|constructor]. split; [rewrite Y2, <- Y1; exact G1|intros _ X; congruence|rewrite Y2; intros X; now elim X|exact Ok].
  - rewrite ca_app in *. assert (ca_drives (dp_if p) (no_toggle (dp_sim p)) [c2] = []) as -> by (unfold ca_drives; cbn [flat_map]; rewrite Y2; reflexivity).
    assert (ca_drives (dp_if p) (no_toggle (dp_sim p)) [c1] = []) as X by (unfold ca_drives; cbn [flat_map]; rewrite Y1; reflexivity). now rewrite X in F2.
  - rewrite bursts_app in *. assert (forall r, ProgressSpec.bursts (dp_if p) (no_toggle (dp_sim p)) r [c2] = []) as -> by (intros; unfold ProgressSpec.bursts; cbn [flat_map]; rewrite Y2; reflexivity).
    assert (ProgressSpec.bursts (dp_if p) (no_toggle (dp_sim p)) true [c1] = []) as X by (unfold ProgressSpec.bursts; cbn [flat_map]; rewrite Y1; reflexivity). now rewrite X in F3.
  - rewrite bursts_app in *. assert (forall r, ProgressSpec.bursts (dp_if p) (no_toggle (dp_sim p)) r [c2] = []) as -> by (intros; unfold ProgressSpec.bursts; cbn [flat_map]; rewrite Y2; reflexivity).
    assert (ProgressSpec.bursts (dp_if p) (no_toggle (dp_sim p)) false [c1] = []) as X by (unfold ProgressSpec.bursts; cbn [flat_map]; rewrite Y1; reflexivity). now rewrite X in F4.
Qed.
Lemma order_end q bus w c : cmd_type c = END_OF_SIMULATION -> forall l a u, bursts_in_order q bus w a u (l ++ [c]) <-> bursts_in_order q bus w a u l.
Proof.
  intros E. induction l as [|x l IH]; intros a u; cbn [app bursts_in_order]; [rewrite E; reflexivity|]. destruct (match transfers (cmd_type x) with Some read => w read | None => false end); rewrite IH; reflexivity.
Qed.
Lemma end_calm : calm (dp_if p) (dp_ie p) (dp_sim p) (cs ++ [c2]) t.
Proof using E1 E2 So HT Cn.
  destruct So as [_ _ _ C]. unfold ends in C. rewrite final_end in C. destruct E1 as [Y1 X1]. destruct E2 as [Y2 X2]. rewrite X1 in C.
  apply (calm_longer _ _ _ _ _ t HT Cn) in C. destruct C as [A B D E F G H]. split; auto.
  - apply order_end; [exact Y2|]. apply (order_end _ _ _ c1 Y1). exact A.
  - intros S4 rank read Hr. specialize (F S4 rank read Hr). rewrite ranks_app in *.
    assert (forall c, cmd_type c = END_OF_SIMULATION -> rank_bursts (dp_if p) (no_toggle (dp_sim p)) read rank [c] = []) as Z by (intros c Yc; unfold rank_bursts; cbn [flat_map]; rewrite Yc; reflexivity).
    rewrite (Z c1 Y1) in F. rewrite (Z c2 Y2). exact F.
Qed.
Theorem end_later : soundly p (cs ++ [c2]).
Proof using All. split; unfold ends; rewrite ?final_end, ?(proj2 E2); [exact end_timely|exact end_legal|exact end_fits|exact end_calm]. Qed.
End End.

Theorem waiting_energy p I cs c1 c2 T t text1 text2 : capable p -> backgrounds (dp_ce p) I ->
  end_at c1 T -> end_at c2 t -> T <= t -> cmd_rank c2 = cmd_rank c1 -> ends cs + tmax (dp_core p) <= T -> quiet (dp_if p) (no_toggle (dp_sim p)) cs T ->
  soundly p (cs ++ [c1]) -> t + tmax (dp_core p) < two64 -> countable (dp_if p) t -> command_ok (dp_if p) (no_toggle (dp_sim p)) c2 ->
  parse_command_list text1 = Value (Some (cs ++ [c1])) -> parse_command_list text2 = Value (Some (cs ++ [c2])) ->
  exists en1 ie1 en2 ie2 a1 a2, program p text1 = Printed (Exactly en1) (Exactly ie1) (Exactly a1) /\ program p text2 = Printed (Exactly en2) (Exactly ie2) (Exactly a2) /\
    (en_total en2 == en_total en1 + qn (t - T) * (es_tCK (dp_ce p) * resting_power (dp_core p) (dp_ce p) I cs T))%Q /\
    (forall s, (statics ie2 s == statics ie1 s + qn (t - T) * qsum (idle_static (dp_if p) (dp_ie p) (dp_sim p)) (driven_groups (dp_if p) s) /\
                dynamics ie2 s == dynamics ie1 s + qn (t - T) * qsum (idle_dynamic (dp_if p) (dp_ie p)) (driven_groups (dp_if p) s))%Q) /\
    (a2 == a1 + qn (t - T) * (es_tCK (dp_ce p) * resting_power (dp_core p) (dp_ce p) I cs T + idle_cost (dp_if p) (dp_ie p) (dp_sim p)))%Q.
Proof.
  intros Cp Bg E1 E2 HT Rk HF Qu S1 Tm Cn Ok P1 P2. 
  assert (soundly p (cs ++ [c2])) as S2 by (apply (end_later p cs c1 c2 T t); assumption).
  exact (waiting_program p I cs c1 c2 T t text1 text2 Cp Bg E1 E2 HT HF Qu S1 S2 P1 P2).
Qed.
