(* How a trace ends. *)
From Coq Require Import NArith QArith List Bool Ascii Arith Lia.
From Verif Require Import Base Command CoreModel Bits BusModel WaveSpec ToggleModel DataProofs StatsModel InterfaceModel InterfaceSpec WireSpec InterfaceCa InterfaceRun InterfaceTop
  HistorySpec DeviceSpec FormatProofs DramModel DramSpec ProgressSpec ProgressProofs ProgressQuery TakenSpec TakenProofs RejectSpec RejectProofs RefineMain CliModel CliTop BoundTop DeviceFacts EndSpec EndProofs.
Import ListNotations.
Local Open Scope N_scope.
Ltac Zify.zify_post_hook ::= idtac.

Lemma core_answers p cs s c : well_formed p -> run_core p cs (core_new p) = Ok s -> wants p (cmd_type c) = None \/ timely p cs (cmd_ts c) /\ legal_history p cs ->
  reaction_of (do_command p c s) = core_says p cs c.
Proof.
  intros W R [F|[T L]]; [|exact (legal_reaction p cs c s W T L R)]. rewrite (free_reaction p cs s c W R F). unfold core_says, reaction_in. rewrite F. destruct (on_address p c); reflexivity.
Qed.
Lemma runs_app p a b : forall d, run_commands p (a ++ b) d = match run_commands p a d with Ran d1 => run_commands p b d1 | x => x end.
Proof.
  induction a as [|c a IH]; intros d; [reflexivity|]. cbn [app run_commands]. destruct (do_dram_command p c d) as [d1|[]|[] s]; try reflexivity. apply IH.
Qed.
Lemma runs_parts p cs : forall d d1, run_commands p cs d = Ran d1 ->
  run_core (dp_core p) cs (dr_core d) = Ok (dr_core d1) /\ calls_run (map Do cs) (dr_if d) = Value (dr_if d1).
Proof.
  induction cs as [|c cs IH]; intros d d1 E; cbn [run_commands] in E; [injection E as <-; split; reflexivity|].
  destruct (do_dram_command p c d) as [d2|[]|[] s] eqn:E1; try discriminate. destruct (IH d2 d1 E) as [I1 I2]. unfold do_dram_command, do_core_command, do_interface_command in E1.
  destruct (do_command (dp_core p) c (dr_core d)) as [s| | |] eqn:E2; try discriminate. cbn [dr_if dr_core] in E1. destruct (if_command c (dr_if d)) as [i|] eqn:E3; [|discriminate]. injection E1 as <-.
  cbn [dr_core dr_if] in *. split; [cbn [run_core]; rewrite E2; exact I1|]. unfold calls_run. cbn [map loop call_do]. rewrite E3. exact I2.
Qed.
Lemma runs_together p cs : forall d s i, run_core (dp_core p) cs (dr_core d) = Ok s -> calls_run (map Do cs) (dr_if d) = Value i -> run_commands p cs d = Ran (mkDram s i).
Proof.
  induction cs as [|c cs IH]; intros d s i E F; cbn [run_core run_commands] in *.
  - injection E as <-. unfold calls_run in F. cbn in F. injection F as <-. destruct d; reflexivity.
  - unfold calls_run in F. cbn [map loop call_do] in F. unfold do_dram_command, do_core_command, do_interface_command. destruct (do_command (dp_core p) c (dr_core d)) as [s1| | |]; try discriminate.
    cbn [dr_if dr_core]. destruct (if_command c (dr_if d)) as [i1|]; [|discriminate]. apply IH; assumption.
Qed.

Section Ends.
Context (p : dspec) (d0 : dram) (New : dram_new p = Value d0) (Wf : well_formed (dp_core p)) (Sz : InterfaceSpec.sizes_ok (dp_if p)) (G : fi_std (dp_if p) = LPDDR6 -> fi_groups (dp_if p) = 4).
Let bus := no_toggle (dp_sim p).

Lemma parts : dr_core d0 = core_new (dp_core p) /\ iface_new (dp_if p) (dp_sim p) = Value (dr_if d0).
Proof using New. unfold dram_new in New. apply bind_inv in New as (i & I & E). apply value_inj in E. subst d0. split; [reflexivity|exact I]. Qed.
Lemma before cs c : predictable (dp_core p) (cs ++ [c]) -> predictable (dp_core p) cs.
Proof using. intros P a x b ->. apply (P a x (b ++ [c])). rewrite <- app_assoc. reflexivity. Qed.
Lemma taken_before cs c : core_takes_all (dp_core p) (cs ++ [c]) -> core_takes_all (dp_core p) cs.
Proof using. intros P a x b ->. apply (P a x (b ++ [c])). rewrite <- app_assoc. reflexivity. Qed.
Lemma taken_more cs c : core_takes_all (dp_core p) cs -> core_says (dp_core p) cs c = Taken -> core_takes_all (dp_core p) (cs ++ [c]).
Proof using.
  intros P T a x b E. destruct b as [|y b _] using rev_ind.
  - apply app_inj_tail in E as [<- <-]. exact T.
  - rewrite app_comm_cons, app_assoc in E. apply app_inj_tail in E as [E _]. exact (P a x b E).
Qed.
Lemma allowed_before q bs cs c : trace_allowed q bs (cs ++ [c]) -> trace_allowed q bs cs.
Proof using.
  intros [A1 A2 A3 A4]. apply Forall_app in A1 as [A1 _]. rewrite drives_app in A2. rewrite bursts_app in A3, A4.
  constructor; [exact A1|eapply apart_app; exact A2|eapply overlap_app; exact A3|eapply overlap_app; exact A4].
Qed.

(* The object's answer to the next command. *)
Lemma object_answer cs c d : Forall (dressed (dp_if p) bus) (cs ++ [c]) -> predictable (dp_core p) (cs ++ [c]) -> run_commands p cs d0 = Ran d ->
  trace_allowed (dp_if p) bus cs /\
  match core_says (dp_core p) cs c with
  | Taken => (exists d', do_dram_command p c d = Returned d') /\ trace_allowed (dp_if p) bus (cs ++ [c]) \/
             (exists s, do_dram_command p c d = InterfaceStops (interface_says (dp_if p) c) s) /\ ~ trace_allowed (dp_if p) bus (cs ++ [c])
  | Asserted => do_dram_command p c d = CoreStops Assertion
  | Thrown => do_dram_command p c d = CoreStops Exception
  | Unspecified => do_dram_command p c d = CoreStops UB
  end.
Proof using New Wf Sz G.
  intros Dr P R. destruct parts as [Nc Ni]. destruct (runs_parts p cs d0 d R) as [Rc Ri]. rewrite Nc in Rc.
  assert (trace_allowed (dp_if p) bus cs) as A.
  { apply (taken_exactly (dp_if p) (dp_sim p) (dr_if d0) cs Sz G Ni); [now apply Forall_app in Dr|]. eexists. exact Ri. }
  split; [exact A|]. rewrite <- (core_answers (dp_core p) cs (dr_core d) c Wf Rc (P cs c [] eq_refl)).
  unfold do_dram_command, do_core_command, do_interface_command. destruct (do_command (dp_core p) c (dr_core d)) as [s|s| |]; try reflexivity. cbn [reaction_of dr_if dr_core].
  destruct (answer_known (dp_if p) (dp_sim p) (dr_if d0) cs c Sz G Ni Dr A) as (i & Ei & K). rewrite Ri in Ei. apply value_inj in Ei. subst i.
  destruct K as [[(i' & K) K']|[K K']]; rewrite K; [left|right]; (split; [eexists; reflexivity|exact K']).
Qed.

Theorem runs_exactly cs : Forall (dressed (dp_if p) bus) cs -> predictable (dp_core p) cs -> ((exists d, run_commands p cs d0 = Ran d) <-> all_taken p bus cs).
Proof using New Wf Sz G.
  induction cs as [|c cs IH] using rev_ind; intros Dr P.
  - split; [|intros _; eexists; reflexivity]. intros _. split; [|constructor; [constructor|exact Logic.I|exact Logic.I|exact Logic.I]]. intros a x b E. destruct a; discriminate E.
  - pose proof Dr as Dr'. apply Forall_app in Dr' as [Dr1 _]. specialize (IH Dr1 (before cs c P)). rewrite runs_app. split.
    + intros (d & R). destruct (run_commands p cs d0) as [d1| |] eqn:R1; try discriminate. destruct (proj1 IH (ex_intro _ d1 eq_refl)) as [Tk _].
      destruct (object_answer cs c d1 Dr P R1) as [_ An]. cbn [run_commands] in R. destruct (core_says (dp_core p) cs c) eqn:Cs.
      * destruct An as [[(d' & An) A]|[(s & An) A]]; rewrite An in R; [split; [now apply taken_more|exact A]|]. destruct (interface_says (dp_if p) c); discriminate R.
      * rewrite An in R. discriminate R.
      * rewrite An in R. discriminate R.
      * rewrite An in R. discriminate R.
    + intros [Tk A]. destruct (proj2 IH (conj (taken_before cs c Tk) (allowed_before _ _ cs c A))) as (d1 & R1). rewrite R1.
      destruct (object_answer cs c d1 Dr P R1) as [_ An]. rewrite (Tk cs c [] eq_refl) in An. destruct An as [[(d' & An) _]|[_ F]]; [|contradiction]. cbn [run_commands]. rewrite An. eexists; reflexivity.
Qed.

(* The first command that is not taken decides. *)
Theorem runs_until pre c post a : Forall (dressed (dp_if p) bus) (pre ++ c :: post) -> predictable (dp_core p) (pre ++ c :: post) -> refused_first p bus pre c a ->
  run_commands p (pre ++ c :: post) d0 = run_stops a.
Proof using New Wf Sz G.
  intros Dr P [Tk Rf].
  assert (Forall (dressed (dp_if p) bus) (pre ++ [c])) as Dr1.
  { apply Forall_app in Dr as [D1 D2]. inversion D2; subst. apply Forall_app. split; [exact D1|]. constructor; [assumption|constructor]. }
  assert (predictable (dp_core p) (pre ++ [c])) as P1.
  { intros x y z E. apply (P x y (z ++ post)). replace (pre ++ c :: post) with ((pre ++ [c]) ++ post) by (rewrite <- app_assoc; reflexivity). rewrite E, <- app_assoc. reflexivity. }
  destruct (proj2 (runs_exactly pre (proj1 (proj1 (Forall_app _ _ _) Dr1)) (before pre c P1)) Tk) as (d & R). rewrite runs_app, R. cbn [run_commands].
  destruct (object_answer pre c d Dr1 P1 R) as [_ An]. destruct (core_says (dp_core p) pre c).
  - destruct Rf as [Na ->]. destruct An as [[_ A]|[(s & An) _]]; [contradiction|]. rewrite An. cbn [run_stops]. destruct (interface_says (dp_if p) c); reflexivity.
  - subst a. rewrite An. reflexivity.
  - subst a. rewrite An. reflexivity.
  - subst a. rewrite An. reflexivity.
Qed.
Theorem taken_or_refused cs : Forall (dressed (dp_if p) bus) cs -> predictable (dp_core p) cs ->
  all_taken p bus cs \/ exists pre c post a, cs = pre ++ c :: post /\ refused_first p bus pre c a.
Proof using New Wf Sz G.
  induction cs as [|c cs IH] using rev_ind; intros Dr P.
  - left. apply runs_exactly; [constructor|exact P|]. eexists; reflexivity.
  - pose proof Dr as Dr'. apply Forall_app in Dr' as [Dr1 _]. destruct (IH Dr1 (before cs c P)) as [Tk|(pre & x & post & a & -> & Rf)].
    + destruct (proj2 (runs_exactly cs Dr1 (before cs c P)) Tk) as (d & R). destruct (object_answer cs c d Dr P R) as [_ An]. destruct (core_says (dp_core p) cs c) eqn:Cs.
      * destruct An as [[_ A]|[_ A]]; [left; split; [now apply taken_more; [apply Tk|]|exact A]|]. right. exists cs, c, [], (ByInterface (interface_says (dp_if p) c)). split; [reflexivity|]. split; [exact Tk|]. rewrite Cs. split; [exact A|reflexivity].
      * right. exists cs, c, [], (ByCore Asserted). split; [reflexivity|]. split; [exact Tk|]. now rewrite Cs.
      * right. exists cs, c, [], (ByCore Thrown). split; [reflexivity|]. split; [exact Tk|]. now rewrite Cs.
      * right. exists cs, c, [], (ByCore Unspecified). split; [reflexivity|]. split; [exact Tk|]. now rewrite Cs.
    + right. exists pre, x, (post ++ [c]), a. split; [now rewrite <- app_assoc|exact Rf].
Qed.
End Ends.

Lemma all_before l : forall from, nondecreasing from l -> from <= final_time from l /\ Forall (fun t => t <= final_time from l) l.
Proof.
  induction l as [|x l IH]; intros from H; [split; [apply N.le_refl|constructor]|]. destruct H as [H1 H2]. destruct (IH x H2) as [I1 I2].
  change (final_time from (x :: l)) with (final_time x l). split; [lia|constructor; assumption].
Qed.
Lemma final_in l : forall from, final_time from l = from \/ In (final_time from l) l.
Proof.
  induction l as [|x l IH]; intros from; [now left|]. right. change (final_time from (x :: l)) with (final_time x l). destruct (IH x) as [-> | H]; [now left|now right].
Qed.
Section Program.
Context (p : dspec) (d0 : dram) (New : dram_new p = Value d0) (Wf : well_formed (dp_core p)) (Sz : InterfaceSpec.sizes_ok (dp_if p)) (G : fi_std (dp_if p) = LPDDR6 -> fi_groups (dp_if p) = 4).
Context (text : list ascii) (cs : list Command) (Text : parse_command_list text = Value (Some cs)).
Let bus := no_toggle (dp_sim p).

Theorem program_stopped pre c post a : cs = pre ++ c :: post -> Forall (dressed (dp_if p) bus) cs -> predictable (dp_core p) cs -> refused_first p bus pre c a ->
  program p text = program_stops a.
Proof using New Wf Sz G Text.
  intros E Dr P Rf. unfold program. rewrite Text, New. subst cs. rewrite (runs_until p d0 New Wf Sz G pre c post a Dr P Rf). destruct a as [[]|[]]; reflexivity.
Qed.
Theorem program_prints : views_agree p -> nondecreasing 0 (map cmd_ts cs) -> Forall (dressed (dp_if p) bus) cs -> predictable (dp_core p) cs ->
  final_time 0 (map cmd_ts cs) * fi_rate (dp_if p) < two64 ->
  ((exists a b q, program p text = Printed a b q) <-> all_taken p bus cs).
Proof using New Wf Sz G Text.
  intros Va O Dr P T. destruct (parts p d0 New) as [Nc Ni]. split.
  - intros (a & b & q & E). apply (runs_exactly p d0 New Wf Sz G cs Dr P). unfold program in E. rewrite Text, New in E. destruct (run_commands p cs d0) as [d| |]; try discriminate E. now exists d.
  - intros Tk. destruct (proj2 (runs_exactly p d0 New Wf Sz G cs Dr P) Tk) as (d & R). destruct (runs_parts p cs d0 d R) as [Rc Ri]. rewrite Nc in Rc.
    assert (Forall (fun c => cmd_ts c <= final_time 0 (map cmd_ts cs)) cs) as La.
    { pose proof (proj2 (all_before _ 0 O)) as K. rewrite Forall_map in K. exact K. }
    destruct (window_goes (dp_if p) (dp_sim p) (dr_if d0) cs (dr_if d) (final_time 0 (map cmd_ts cs)) sim_stats0 Sz G Ni (allowed_fits _ _ _ Dr (proj2 Tk)) Ri La) as (si & W).
    + destruct (final_in (map cmd_ts cs) 0) as [-> | In]; [destruct (fi_std (dp_if p)); reflexivity|]. apply in_map_iff in In as (c & <- & In). rewrite Forall_forall in Dr. exact (proj1 (dr_time _ _ _ (Dr c In))).
    + exact T.
    + do 3 eexists. apply (program_result p text cs _ _ _ Text Va O). do 4 eexists. split; [exact Rc|]. split; [exact Ni|]. split; [exact Ri|]. split; [exact W|]. split; [reflexivity|]. split; reflexivity.
Qed.

(* So there are four ways to end, and two of them only for few commands. *)
Theorem program_ends : views_agree p -> nondecreasing 0 (map cmd_ts cs) -> Forall (dressed (dp_if p) bus) cs -> predictable (dp_core p) cs ->
  final_time 0 (map cmd_ts cs) * fi_rate (dp_if p) < two64 ->
  (exists a b q, program p text = Printed a b q) \/ program p text = Died Assertion \/
  program p text = Failed /\ (exists c, In c cs /\ wordless p c) \/
  program p text = Died UB /\ (exists c, In c cs /\ partnerless p c).
Proof using New Wf Sz G Text.
  intros Va O Dr P T. destruct (taken_or_refused p d0 New Wf Sz G cs Dr P) as [Tk|(pre & c & post & a & E & Rf)].
  - left. now apply program_prints.
  - right. rewrite (program_stopped pre c post a E Dr P Rf). assert (In c cs) as Ic by (rewrite E; apply in_elt). destruct Rf as [_ Rf]. unfold core_says, reaction_in in Rf.
    destruct (on_address (dp_core p) c) eqn:Oa.
    + assert ((exists f, f = interface_says (dp_if p) c /\ a = ByInterface f) \/ a = ByCore Asserted) as [(f & Ef & ->) | ->].
      { destruct (wants (dp_core p) (cmd_type c)) as [w|]; [|left; eexists; split; [reflexivity|apply Rf]]. destruct (smode_beq (mode_before (dp_core p) pre c) w); [|now right]. left; eexists; split; [reflexivity|apply Rf]. }
      * unfold interface_says in Ef. destruct f; [right; left; split; [reflexivity|]; exists c; split; [exact Ic|]|left; reflexivity|exfalso].
        -- unfold wordless. destruct (fi_std (dp_if p)) eqn:Sd; destruct (cmd_type c); try discriminate Ef; [left; split; [first [exact Sd|reflexivity]|reflexivity]|]. right. split; [|reflexivity]. rewrite <- (va_if _ Va). assumption.
        -- destruct (fi_std (dp_if p)); try discriminate Ef; destruct (cmd_type c); try discriminate Ef. destruct (eight (fi_arch (dp_if p))); discriminate Ef.
      * left. reflexivity.
    + left. destruct (wants (dp_core p) (cmd_type c)); now subst a.
    + right; left. assert (a = ByCore Thrown) as -> by (destruct (wants (dp_core p) (cmd_type c)); exact Rf). split; [reflexivity|]. exists c. split; [exact Ic|]. right.
      unfold on_address in Oa. destruct (in_standard (dp_core p) (cmd_type c)) eqn:Is.
      * destruct (cmd_type c); try discriminate Oa; repeat match type of Oa with (if ?x then _ else _) = _ => destruct x; try discriminate Oa end.
      * destruct (ms_std (dp_core p)); try discriminate Oa. destruct (cmd_type c); try discriminate Oa. split; reflexivity.
    + right; right. assert (a = ByCore Unspecified) as -> by (destruct (wants (dp_core p) (cmd_type c)); exact Rf). split; [reflexivity|]. exists c. split; [exact Ic|].
      unfold on_address in Oa. destruct (in_standard (dp_core p) (cmd_type c)) eqn:Is.
      * destruct (cmd_type c) eqn:Ty; try discriminate Oa; repeat match type of Oa with (if ?x then _ else _) = _ => destruct x eqn:?; try discriminate Oa end.
        split; [exact Ty|]. apply Nat.ltb_ge. assumption.
      * destruct (ms_std (dp_core p)); try discriminate Oa. destruct (cmd_type c); discriminate Oa.
Qed.
End Program.

Lemma legal_predictable p cs T : timely p cs T -> legal_history p cs -> predictable p cs.
Proof.
  intros Ti [LR L] pre c post E. right. subst cs. assert (nondecreasing 0 (map cmd_ts (pre ++ c :: post))) as O by apply Ti. rewrite map_app in O. cbn [map] in O.
  apply BoundTop.order_app in O as [_ O]. destruct O as [O1 O2]. split.
  - eapply DeviceFacts.timely_prefix; [exact Ti|exact O1|]. pose proof (proj1 (all_before _ _ O2)) as A.
    assert (final_time 0 (map cmd_ts (pre ++ c :: post)) <= T) as B by apply Ti. rewrite map_app in B. cbn [map] in B. unfold final_time in B, A. rewrite fold_left_app in B. cbn [fold_left] in B. lia.
  - split; [now apply Forall_app in LR|]. intros r Hr. eapply DeviceFacts.legal_cat. exact (L r Hr).
Qed.
Lemma free_predictable p cs : Forall (fun c => wants p (cmd_type c) = None) cs -> predictable p cs.
Proof. intros F pre c post ->. left. apply Forall_elt in F. exact F. Qed.
