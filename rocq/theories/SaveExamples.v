(* Cases for PropSave.v. *)
From Coq Require Import NArith QArith List Bool Lia ZifyBool ZifyN.
From Verif Require Import Base Command CoreModel HistorySpec DeviceSpec DeviceFacts ExampleCores Bits InterfaceModel InterfaceExamples StatsModel EnergyModel EnergySpec EnergyMore DramModel DramExamples
  ProgressSpec ProgressProofs ProgressQuery ProgressExamples ProgressTop ChargeSpec ChargeBase ChargeProofs ChargeTop ComposeExamples SaveSpec SaveProofs SaveTop.
Import ListNotations.
Local Open Scope N_scope.

Fixpoint unhurriedb (p : memspec) (r : nat) (a z : list Command) : bool :=
  match z with
  | [] => true
  | c :: z =>
      (if to_rank r c && match cmd_type c with RDA | WRA => true | _ => false end
       then match device_at p r a (cmd_ts c) with
            | Some d => match nth_error (dv_banks d) (N.to_nat (cmd_bank c)) with
                        | Some b => match sb_since b with Some s => s + ms_tRAS p <=? cmd_ts c + closes_after p c | None => true end
                        | None => true
                        end
            | None => true
            end
       else true) && unhurriedb p r (a ++ [c]) z
  end.
Lemma unhurried_from p r z : forall a, unhurriedb p r a z = true -> forall x c y, z = x ++ c :: y -> to_rank r c = true -> cmd_type c = RDA \/ cmd_type c = WRA ->
  forall d b s, device_at p r (a ++ x) (cmd_ts c) = Some d -> nth_error (dv_banks d) (N.to_nat (cmd_bank c)) = Some b -> sb_since b = Some s -> s + ms_tRAS p <= cmd_ts c + closes_after p c.
Proof.
  induction z as [|c0 z IH]; intros a H x c y E R K d b s D B S; [destruct x; discriminate|]. cbn [unhurriedb] in H. apply andb_true_iff in H as [H1 H2].
  destruct x as [|x0 x]; cbn in E; injection E as <- E.
  - rewrite app_nil_r in D. rewrite R, D, B, S in H1. destruct K as [K|K]; rewrite K in H1; cbn in H1; lia.
  - apply (IH (a ++ [c0]) H2 x c y E R K d b s); auto. rewrite <- app_assoc. exact D.
Qed.
Lemma unhurried_by p r cs : unhurriedb p r [] cs = true -> unhurried p r cs.
Proof. intros H a c z E. exact (unhurried_from p r cs [] H a c z E). Qed.

Lemma day_undisturbed s : undisturbed (memory s) (day_commands s).
Proof.
  intros r Hr. right. apply unhurried_by. assert (ms_ranks (memory s) = 1%nat) as E by (destruct s; reflexivity). rewrite E in Hr. assert (r = 0%nat) as -> by lia. destruct s; vm_compute; reflexivity.
Qed.
Lemma ex_worthwhile s : worthwhile (dp_ce (ex_dspec s)) (bg (dp_ce (ex_dspec s))).
Proof.
  split; [destruct s; vm_compute; discriminate|]. intros w Hw. destruct s; cbn in Hw; repeat (destruct Hw as [<-|Hw]; [repeat (split; try (vm_compute; discriminate))|]); try contradiction.
Qed.

(* A read with auto-precharge one cycle after active power-down. *)
Definition held_up : list Command := [cmd_at 0 ACT 4 3 0 []; cmd_at 60 PDEA 0 0 0 []; cmd_at 90 PDXA 0 0 0 []; cmd_at 91 RDA 4 0 9 []].
Lemma one_rank_legal s cs : ms_ranks (memory s) = 1%nat -> forallb (fun c => cmd_rank c =? 0) cs = true ->
  (match run_device (memory s) (filter (to_rank 0) cs) (device_new (memory s)) with Some _ => true | None => false end) = true -> legal_history (memory s) cs.
Proof.
  intros E F R. split.
  - rewrite E. apply Forall_forall. intros c Hc. rewrite forallb_forall in F. specialize (F c Hc). lia.
  - intros r Hr. assert (r = 0%nat) as -> by lia. unfold legal. destruct (run_device _ _ _); discriminate.
Qed.
Lemma held_up_longer : exists p cs t, DeviceSpec.well_formed p /\ timely p cs t /\ legal_history p cs /\ timely p (awake cs) t /\ legal_history p (awake cs) /\
  exists v v', rank_view p cs t 0 = Some v /\ rank_view p (awake cs) t 0 = Some v' /\ cy_act v' < cy_act v + cy_pda v /\ cy_pre v + cy_pdp v < cy_pre v'.
Proof.
  exists (memory DDR4), held_up, 200. split; [apply day_legal|]. split; [apply timely_by; vm_compute; reflexivity|]. split; [apply one_rank_legal; vm_compute; reflexivity|].
  split; [apply timely_by; vm_compute; reflexivity|]. split; [apply one_rank_legal; vm_compute; reflexivity|].
  do 2 eexists. split; [vm_compute; reflexivity|]. split; [vm_compute; reflexivity|]. split; vm_compute; reflexivity.
Qed.

(* A day with precharge power-down in two places. *)
Definition naps : list Command :=
  [cmd_at 0 ACT 4 3 0 []; cmd_at 20 RDA 4 0 9 []; cmd_at 30 PDEP 0 0 0 []; cmd_at 100 PDXP 0 0 0 []; cmd_at 120 REFA 0 0 0 []; cmd_at 130 PDEP 0 0 0 []; cmd_at 400 PDXP 0 0 0 []; cmd_at 420 ACT 2 0 0 []].
Lemma naps_day : Forall (fun s => timely (memory s) naps 500 /\ legal_history (memory s) naps /\ (forall c, In c naps -> cmd_type c <> PDEA)) five.
Proof.
  apply in_five. intros s. split; [apply timely_by; destruct s; vm_compute; reflexivity|]. split.
  - apply one_rank_legal; destruct s; vm_compute; reflexivity.
  - intros c Hc. repeat (destruct Hc as [<-|Hc]; [discriminate|]). contradiction.
Qed.
Lemma naps_times : map (fun s => option_map (fun v => (cy_pre v, cy_pdp v)) (rank_view (memory s) naps 500 0)) five = repeat (Some (50, 242)) 5.
Proof. vm_compute. reflexivity. Qed.
