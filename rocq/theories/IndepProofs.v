(* The parts of an interface look only at the events of their views. *)
From Coq Require Import NArith List Bool Lia.
From Verif Require Import Base Command CoreModel Bits HistorySpec StatsModel StatsSpec PatternSpec PatternModel BusModel ToggleModel DbiModel DbiPinModel FormatModel FormatProofs DataProofs
  InterfaceModel InterfaceSpec InterfaceCa InterfaceTop DramProofs IndepSpec.
Import ListNotations.
Local Open Scope N_scope.
Ltac Zify.zify_post_hook ::= idtac.

(* ---------------- lists of events ---------------- *)
Lemma seen_cons {A B} (f : A -> option B) x l : seen f (x :: l) = match f x with Some y => [y] | None => [] end ++ seen f l. Proof. reflexivity. Qed.
Section Lockstep.
  Context {E K : Type} (view : call -> option E) (part : iface -> K) (inv : iface -> Prop).
  Hypothesis kept : forall x i i', inv i -> call_do x i = Value i' -> inv i'.
  Hypothesis blind : forall x i i', inv i -> view x = None -> call_do x i = Value i' -> part i' = part i.
  Hypothesis step : forall x y e i j i' j', inv i -> inv j -> view x = Some e -> view y = Some e -> part i = part j -> call_do x i = Value i' -> call_do y j = Value j' -> part i' = part j'.
  Lemma lockstep : forall xs ys i j a b, inv i -> inv j -> seen view xs = seen view ys -> part i = part j -> calls_run xs i = Value a -> calls_run ys j = Value b -> part a = part b.
  Proof using kept blind step.
    induction xs as [|x xs IH].
    - induction ys as [|y ys IHy]; intros i j a b Ii Ij S P Ra Rb.
      + apply value_inj in Ra, Rb. now subst.
      + apply loop_cons_inv in Rb as (j1 & R1 & Rb). rewrite seen_cons in S. destruct (view y) eqn:V; [discriminate|].
        apply (IHy i j1 a b); auto; [now apply (kept y j)|]. rewrite P. symmetry. now apply (blind y).
    - intros ys i j a b Ii Ij S P Ra Rb. apply loop_cons_inv in Ra as (i1 & R1 & Ra). rewrite seen_cons in S. destruct (view x) as [e|] eqn:Vx.
      + revert j Ij P Rb. induction ys as [|y ys IHy]; intros j Ij P Rb; [discriminate|].
        apply loop_cons_inv in Rb as (j1 & Q1 & Rb). rewrite seen_cons in S. destruct (view y) as [e'|] eqn:Vy.
        * injection S as -> S. apply (IH ys i1 j1 a b); auto; [now apply (kept x i)|now apply (kept y j)|now apply (step x y e' i j)].
        * apply (IHy S j1); auto; [now apply (kept y j)|]. rewrite P. symmetry. now apply (blind y).
      + apply (IH ys i1 j a b); auto; [now apply (kept x i)|]. rewrite <- P. now apply (blind x).
  Qed.
End Lockstep.

(* ---------------- what each handler changes ---------------- *)
Lemma bus_frame c i i' : handle_command_bus c i = Value i' -> exists b h, i' = if_with_cmd i b h.
Proof.
  unfold handle_command_bus. destruct (if_pat i); intros E; apply bind_inv in E as (x & _ & E); apply bind_inv in E as (b & _ & E); apply value_inj in E; subst i'; eauto.
Qed.
Lemma dqs_frame c read n i i' : handle_dqs c read n i = Value i' -> exists r w k, i' = if_with_clocks i r w k.
Proof. unfold handle_dqs. destruct (fi_std (if_spec i)), read; intros E; repeat (apply bind_inv in E as (? & _ & E)); apply value_inj in E; subst i'; eauto. Qed.
Lemma burst_frame c read i x : handle_burst c read i = Value x -> exists d y buf, fst x = if_with_data i d y buf /\ d_mode d = d_mode (if_data i).
Proof.
  unfold handle_burst. destruct (cmd_sz_bits c =? 0).
  - destruct (d_mode (if_data i)) eqn:M; intros E.
    + apply value_inj in E. subst x. exists (if_data i), (if_dbi i), (if_buf i). split; [destruct i; reflexivity|exact M].
    + apply bind_inv in E as (d & L & E). apply value_inj in E. subst x. apply data_load_mode in L. rewrite M in L. do 3 eexists. split; [reflexivity|exact L].
  - destruct (bus_lines i =? 0); [discriminate|]. intros E. apply bind_inv in E as (y & _ & E). cbv zeta in E.
    destruct (fi_std (if_spec i)); try (apply bind_inv in E as (d & L & E); apply value_inj in E; subst x; apply data_load_mode in L; do 3 eexists; split; [reflexivity|exact L]).
    apply bind_inv in E as (f & _ & E). apply bind_inv in E as (d & L & E); apply value_inj in E; subst x; apply data_load_mode in L; do 3 eexists; split; [reflexivity|exact L].
Qed.
Lemma overrides_frame i n read : exists h, handle_overrides i n read = if_with_pat i h.
Proof. unfold handle_overrides. destruct (if_pat i); eauto. Qed.

(* ---------------- a command, part by part ---------------- *)
Definition ranks_step (c : Command) (read : bool) (n : N) (p : ifspec) (l l' : list rank_if) : Prop :=
  match fi_std p with
  | DDR4 => exists r r', fetch l (N.to_nat (cmd_rank c)) = Value r /\ handle_prepostamble (cmd_ts c) (n / fi_rate p) r read = Value r' /\ l' = upd (N.to_nat (cmd_rank c)) (fun _ => r') l
  | _ => l' = l
  end.
Lemma transfer_parts c i i' read : transfers (cmd_type c) = Some read -> if_command c i = Value i' ->
  exists x i2 i3, handle_burst c read i = Value x /\ handle_dqs c read (snd x) (fst x) = Value i2 /\
    handle_command_bus c (handle_overrides i2 (snd x) read) = Value i3 /\
    if_spec i' = if_spec i /\ if_data i' = if_data (fst x) /\ if_dbi i' = if_dbi (fst x) /\ if_buf i' = if_buf (fst x) /\ if_meta i' = if_meta i /\ if_enabled i' = if_enabled i /\
    d_mode (if_data i') = d_mode (if_data i) /\
    if_rdqs i' = if_rdqs i2 /\ if_wdqs i' = if_wdqs i2 /\ if_wck i' = if_wck i2 /\ if_clock i' = if_clock i /\
    if_spec (fst x) = if_spec i /\ if_rdqs (fst x) = if_rdqs i /\ if_wdqs (fst x) = if_wdqs i /\ if_wck (fst x) = if_wck i /\ if_spec i2 = if_spec i /\ if_pat i2 = if_pat i /\ if_cmd i2 = if_cmd i /\
    if_cmd i' = if_cmd i3 /\ if_pat i' = if_pat i3 /\
    ranks_step c read (snd x) (if_spec i) (if_ranks i) (if_ranks i').
Proof.
  intros T E. unfold if_command in E. apply bind_inv in E as (j & R & E). apply value_inj in E. subst i'.
  assert (routing (if_spec i) (cmd_type c) = ToData read) as Rt by (destruct (cmd_type c); try discriminate; injection T as <-; reflexivity). rewrite Rt in R.
  unfold handle_data in R. apply bind_inv in R as (x & Bx & R). cbv zeta in R. apply bind_inv in R as (i2 & D & R). apply bind_inv in R as (i3 & H & R).
  exists x, i2, i3. split; [exact Bx|]. split; [exact D|]. split; [exact H|].
  destruct (burst_frame _ _ _ _ Bx) as (d & y & buf & X & M). destruct (dqs_frame _ _ _ _ _ D) as (r & w & k & D').
  destruct (overrides_frame i2 (snd x) read) as (h & O). rewrite O in H. destruct (bus_frame _ _ _ H) as (b & h' & H').
  assert (Q : exists l, j = if_with_ranks i3 l /\ ranks_step c read (snd x) (if_spec i) (if_ranks i) l).
  { subst i3. rewrite D', X in R |- *. cbn [if_spec if_with_cmd if_with_pat if_with_clocks if_with_data if_ranks] in R. unfold ranks_step.
    destruct (fi_std (if_spec i)); try (apply value_inj in R; subst j; exists (if_ranks i); split; [reflexivity|reflexivity]).
    apply check_inv in R as [_ R]. apply bind_inv in R as (a & F & R). apply bind_inv in R as (a' & F' & R). apply value_inj in R. subst j. eexists. split; [reflexivity|]. eauto. }
  destruct Q as (l & -> & Q). subst i3. rewrite D', X. cbn. rewrite M. repeat (split; [reflexivity|]). exact Q.
Qed.
Lemma other_parts c i i' : transfers (cmd_type c) = None -> if_command c i = Value i' ->
  if_spec i' = if_spec i /\ if_data i' = if_data i /\ if_buf i' = if_buf i /\ if_meta i' = if_meta i /\ if_enabled i' = if_enabled i /\
  if_rdqs i' = if_rdqs i /\ if_wdqs i' = if_wdqs i /\ if_wck i' = if_wck i /\ if_clock i' = if_clock i /\ if_ranks i' = if_ranks i /\
  (match cmd_type c with END_OF_SIMULATION => match routing (if_spec i) END_OF_SIMULATION with ToEnd => exists j, end_of_simulation (cmd_ts c) i = Value j /\ if_dbi i' = if_dbi j | _ => if_dbi i' = if_dbi i end | _ => if_dbi i' = if_dbi i end) /\
  (if silent (fi_std (if_spec i)) (cmd_type c) then if_cmd i' = if_cmd i /\ if_pat i' = if_pat i
   else exists j, handle_command_bus c i = Value j /\ if_cmd i' = if_cmd j /\ if_pat i' = if_pat j).
Proof.
  intros T E. unfold if_command in E. apply bind_inv in E as (j & R & E). apply value_inj in E. subst i'.
  assert (Bus : handle_command_bus c i = Value j -> silent (fi_std (if_spec i)) (cmd_type c) = false -> cmd_type c <> END_OF_SIMULATION ->
    if_spec j = if_spec i /\ if_data j = if_data i /\ if_buf j = if_buf i /\ if_meta j = if_meta i /\ if_enabled j = if_enabled i /\
    if_rdqs j = if_rdqs i /\ if_wdqs j = if_wdqs i /\ if_wck j = if_wck i /\ if_clock j = if_clock i /\ if_ranks j = if_ranks i /\ if_dbi j = if_dbi i).
  { intros H _ _. destruct (bus_frame _ _ _ H) as (b & h & ->). now repeat split. }
  cbn [if_with_last if_spec if_data if_buf if_meta if_enabled if_rdqs if_wdqs if_wck if_clock if_ranks if_dbi if_cmd if_pat].
  destruct (routing (if_spec i) (cmd_type c)) as [| read| | | |] eqn:Rt; try discriminate R.
  - assert (S : silent (fi_std (if_spec i)) (cmd_type c) = false) by (unfold routing in Rt; destruct (cmd_type c), (fi_std (if_spec i)); try discriminate; reflexivity).
    assert (N0 : cmd_type c <> END_OF_SIMULATION) by (intros Z; rewrite Z in Rt; cbn in Rt; destruct (fi_std (if_spec i)); discriminate).
    destruct (Bus R S N0) as (B1 & B2 & B3 & B4 & B5 & B6 & B7 & B8 & B9 & B10 & B11). rewrite S. repeat (split; [assumption|]). split; [destruct (cmd_type c); congruence|]. eauto.
  - destruct (cmd_type c); cbn in Rt; try discriminate; destruct (fi_std (if_spec i)); try discriminate; destruct (fi_arch (if_spec i)); discriminate.
  - assert (Z : cmd_type c = END_OF_SIMULATION) by (destruct (cmd_type c); cbn in Rt; try discriminate; try reflexivity; destruct (fi_std (if_spec i)); try discriminate; destruct (fi_arch (if_spec i)); discriminate).
    rewrite Z in Rt |- *. rewrite Rt. cbn [silent].
    pose proof R as R'. unfold end_of_simulation in R. destruct (if_dbi i) eqn:Ed; [apply bind_inv in R as (? & _ & R)|]; apply value_inj in R; subst j; cbn; (repeat (split; [reflexivity|])); (split; [|now split]);
      (eexists; split; [exact R'|reflexivity]).
  - apply value_inj in R. subst j.
    assert (S : silent (fi_std (if_spec i)) (cmd_type c) = true) by (unfold routing in Rt; destruct (cmd_type c), (fi_std (if_spec i)); try discriminate; try reflexivity; destruct (fi_arch (if_spec i)); discriminate).
    rewrite S. repeat (split; [reflexivity|]). split; [|now split]. destruct (cmd_type c); try reflexivity. rewrite Rt. reflexivity.
Qed.

(* ---------------- bursts ---------------- *)
Lemma burst_same c c' read i j : cmd_ts c = cmd_ts c' -> cmd_sz_bits c = cmd_sz_bits c' -> cmd_data c = cmd_data c' ->
  if_spec i = if_spec j -> if_data i = if_data j -> if_dbi i = if_dbi j -> if_buf i = if_buf j -> if_meta i = if_meta j ->
  handle_burst c read i = match handle_burst c' read j with Value k => Value (if_with_data i (if_data (fst k)) (if_dbi (fst k)) (if_buf (fst k)), snd k) | Fails f => Fails f end.
Proof.
  intros T Z D E1 E2 E3 E4 E5. unfold handle_burst, invert_data, bus_lines, data_of. rewrite T, Z, D, E1, E2, E3, E4, E5.
  destruct (cmd_sz_bits c' =? 0).
  - destruct (d_mode (if_data j)); cbn [fst snd].
    + rewrite <- E2, <- E3, <- E4. destruct i; reflexivity.
    + destruct (load_data _ _ _ _ _); reflexivity.
  - destruct (data_width (if_spec j) =? 0); [reflexivity|].
    match goal with |- bind ?m _ = _ => destruct m as [x|f] end; [|reflexivity]. cbn [bind]. cbv zeta.
    destruct (fi_std (if_spec j)); try (match goal with |- bind ?m _ = _ => destruct m as [d|f] end; reflexivity).
    match goal with |- bind ?m _ = _ => destruct m as [d|f] end; [|reflexivity]. cbn [bind].
    match goal with |- bind ?m _ = _ => destruct m as [d'|f] end; reflexivity.
Qed.
Lemma length_same c c' read read' i j x y : cmd_sz_bits c = cmd_sz_bits c' -> if_spec i = if_spec j -> d_mode (if_data i) = d_mode (if_data j) ->
  handle_burst c read i = Value x -> handle_burst c' read' j = Value y -> snd x = snd y.
Proof.
  intros Z E1 M. unfold handle_burst, bus_lines. rewrite Z, E1, M. intros Hx Hy.
  destruct (cmd_sz_bits c' =? 0).
  - destruct (d_mode (if_data j)); [apply value_inj in Hx, Hy|apply bind_inv in Hx as (? & _ & Hx); apply bind_inv in Hy as (? & _ & Hy); apply value_inj in Hx, Hy]; now subst.
  - destruct (data_width (if_spec j) =? 0); [discriminate|]. apply bind_inv in Hx as (? & _ & Hx). apply bind_inv in Hy as (? & _ & Hy). cbv zeta in Hx, Hy.
    destruct (fi_std (if_spec j)); try (apply bind_inv in Hx as (? & _ & Hx); apply bind_inv in Hy as (? & _ & Hy); apply value_inj in Hx, Hy; now subst).
    apply bind_inv in Hx as ([r k] & Fx & Hx). apply bind_inv in Hy as ([r' k'] & Fy & Hy). apply InterfaceCa.format_bits in Fx as [Kx _], Fy as [Ky _]. cbn [fst snd] in Hx, Hy.
    apply bind_inv in Hx as (? & _ & Hx). apply bind_inv in Hy as (? & _ & Hy). apply value_inj in Hx, Hy. subst. reflexivity.
Qed.
Lemma toggling_load d read t n a b : d_mode d = ModeToggling -> load_data d read t n a = load_data d read t n b.
Proof. intros M. unfold load_data, data_load_read, data_load_write, data_load. rewrite M. reflexivity. Qed.
Lemma estimate_same c c' read i j x y : cmd_ts c = cmd_ts c' -> cmd_sz_bits c = cmd_sz_bits c' -> if_spec i = if_spec j -> if_data i = if_data j -> d_mode (if_data j) = ModeToggling ->
  handle_burst c read i = Value x -> handle_burst c' read j = Value y -> if_data (fst x) = if_data (fst y).
Proof.
  intros T Z E1 E2 M. unfold handle_burst, bus_lines. rewrite T, Z, E1, E2, M. intros Hx Hy.
  destruct (cmd_sz_bits c' =? 0).
  - apply bind_inv in Hx as (d & Lx & Hx); apply bind_inv in Hy as (d' & Ly & Hy); apply value_inj in Hx, Hy. subst. cbn [fst if_with_data if_data]. congruence.
  - destruct (data_width (if_spec j) =? 0); [discriminate|]. apply bind_inv in Hx as (? & _ & Hx). apply bind_inv in Hy as (? & _ & Hy). cbv zeta in Hx, Hy.
    destruct (fi_std (if_spec j));
      try (apply bind_inv in Hx as (d & Lx & Hx); apply bind_inv in Hy as (d' & Ly & Hy); apply value_inj in Hx, Hy; subst; cbn [fst if_with_data if_data]; rewrite (toggling_load _ _ _ _ _ None M) in Lx; rewrite (toggling_load _ _ _ _ _ None M) in Ly; congruence).
    apply bind_inv in Hx as ([r k] & Fx & Hx). apply bind_inv in Hy as ([r' k'] & Fy & Hy). apply InterfaceCa.format_bits in Fx as [Kx _], Fy as [Ky _]. cbn [fst snd] in Hx, Hy.
    apply bind_inv in Hx as (d & Lx & Hx). apply bind_inv in Hy as (d' & Ly & Hy). apply value_inj in Hx, Hy. subst. cbn [fst if_with_data if_data].
    rewrite (toggling_load _ _ _ _ _ None M) in Lx; rewrite (toggling_load _ _ _ _ _ None M) in Ly. congruence.
Qed.
Lemma dqs_same c c' read n i j a b : cmd_ts c = cmd_ts c' -> if_spec i = if_spec j -> if_rdqs i = if_rdqs j -> if_wdqs i = if_wdqs j -> if_wck i = if_wck j ->
  handle_dqs c read n i = Value a -> handle_dqs c' read n j = Value b -> if_rdqs a = if_rdqs b /\ if_wdqs a = if_wdqs b /\ if_wck a = if_wck b.
Proof.
  intros T E1 E2 E3 E4. unfold handle_dqs. rewrite T, E1, E2, E3, E4. intros Ha Hb.
  destruct (fi_std (if_spec j)); try destruct read;
    repeat (let x := fresh in let F := fresh in apply bind_inv in Ha as (x & F & Ha)); repeat (let x := fresh in let F := fresh in apply bind_inv in Hb as (x & F & Hb));
    apply value_inj in Ha, Hb; subst a b; cbn [if_with_clocks if_rdqs if_wdqs if_wck]; repeat split; congruence.
Qed.
Lemma bus_same c c' i j a b : cmd_ts c = cmd_ts c' -> cmd_type c = cmd_type c' -> coord_of c = coord_of c' -> if_cmd i = if_cmd j -> if_pat i = if_pat j ->
  handle_command_bus c i = Value a -> handle_command_bus c' j = Value b -> if_cmd a = if_cmd b /\ if_pat a = if_pat b.
Proof.
  intros T Ty Co E1 E2. unfold handle_command_bus. rewrite T, Ty, Co, E1, E2. intros Ha Hb.
  destruct (if_pat j); apply bind_inv in Ha as (x & X & Ha); apply bind_inv in Hb as (y & Y & Hb); (assert (x = y) as -> by congruence);
    apply bind_inv in Ha as (x' & X' & Ha); apply bind_inv in Hb as (y' & Y' & Hb); apply value_inj in Ha, Hb; subst a b; cbn [if_with_cmd if_cmd if_pat]; split; congruence.
Qed.
Lemma overrides_same i j n read : if_spec i = if_spec j -> if_pat i = if_pat j -> if_pat (handle_overrides i n read) = if_pat (handle_overrides j n read) /\ if_cmd (handle_overrides i n read) = if_cmd i.
Proof. intros E1 E2. unfold handle_overrides. rewrite E2, E1. destruct (if_pat j); split; reflexivity. Qed.

(* ---------------- the other calls ---------------- *)
Lemma call_frame x i i' : (forall c, x <> Do c) -> call_do x i = Value i' ->
  if_spec i' = if_spec i /\ if_data i' = if_data i /\ if_buf i' = if_buf i /\ if_ranks i' = if_ranks i /\ if_rdqs i' = if_rdqs i /\ if_wdqs i' = if_wdqs i /\ if_cmd i' = if_cmd i /\
  (match x with SetDbi e => if_dbi i' = if_dbi (fst (if_enable_dbi e i)) | _ => if_dbi i' = if_dbi i end) /\
  (match x with SetMeta a b => if_meta i' = (a mod 65536, b mod 65536) | _ => if_meta i' = if_meta i end) /\
  (match x with SetParity e => True | _ => if_pat i' = if_pat i end) /\
  (match x with Enable _ | Disable _ => True | _ => if_wck i' = if_wck i /\ if_clock i' = if_clock i /\ if_enabled i' = if_enabled i end).
Proof.
  intros N0 E. destruct x as [c|e|a b|e|t|t]; cbn [call_do] in E; [exfalso; eapply N0; reflexivity| | | | |].
  - apply value_inj in E. subst i'. unfold if_enable_dbi. destruct (if_dbi i) as [x|] eqn:D; [destruct (match fi_std (if_spec i) with DDR4 => fi_bits (if_spec i) =? 4 | _ => false end)|]; cbn; rewrite ?D; now repeat split.
  - apply value_inj in E. subst i'. now repeat split.
  - unfold if_set_parity in E. apply check_inv in E as [_ E]. destruct (if_pat i) eqn:D; apply value_inj in E; subst i'; cbn; rewrite ?D; now repeat split.
  - unfold if_enable in E. destruct (if_enabled i); [|do 2 (apply bind_inv in E as (? & _ & E))]; apply value_inj in E; subst i'; now repeat split.
  - unfold if_disable in E. destruct (if_enabled i); [do 2 (apply bind_inv in E as (? & _ & E))|]; apply value_inj in E; subst i'; now repeat split.
Qed.

(* ---------------- the parts ---------------- *)
Definition always (i : iface) : Prop := True.
Lemma call_mode x i i' : call_do x i = Value i' -> d_mode (if_data i') = d_mode (if_data i).
Proof.
  intros E. destruct x as [c| | | | |]; try (apply call_frame in E; [|discriminate]; destruct E as (_ & -> & _); reflexivity).
  cbn [call_do] in E. destruct (transfers (cmd_type c)) as [read|] eqn:T.
  - destruct (transfer_parts _ _ _ _ T E) as (x & i2 & i3 & _ & _ & _ & _ & _ & _ & _ & _ & _ & M & _). exact M.
  - destruct (other_parts _ _ _ T E) as (_ & -> & _). reflexivity.
Qed.
Lemma calls_mode : forall xs i i', calls_run xs i = Value i' -> d_mode (if_data i') = d_mode (if_data i).
Proof.
  induction xs as [|x xs IH]; intros i i' E; [apply value_inj in E; now subst|]. apply loop_cons_inv in E as (j & E1 & E). apply call_mode in E1. rewrite <- E1. now apply IH.
Qed.
Ltac frames E := apply call_frame in E; [|discriminate]; cbv beta match in E; destruct E as (? & ? & ? & ? & ? & ? & ? & ? & ? & ? & ?).
Ltac same_command Vx Vy := rewrite <- Vx in Vy; injection Vy; clear Vy; intros.

Definition data_part (i : iface) := (if_spec i, if_data i, if_dbi i, if_buf i, if_meta i).
Lemma data_kept x i i' : always i -> call_do x i = Value i' -> always i'. Proof. intros; exact Logic.I. Qed.
Lemma data_blind x i i' : always i -> data_view x = None -> call_do x i = Value i' -> data_part i' = data_part i.
Proof.
  intros _ V E. unfold data_part. destruct x as [c|e|a b|e|t|t]; try discriminate V; try (frames E; congruence).
  cbn [data_view] in V. cbn [call_do] in E. destruct (transfers (cmd_type c)) eqn:T; [discriminate|]. destruct (other_parts _ _ _ T E) as (A & B & C & D & _ & _ & _ & _ & _ & _ & F & _).
  rewrite A, B, C, D. assert (if_dbi i' = if_dbi i) as -> by (destruct (cmd_type c); try discriminate V; exact F). reflexivity.
Qed.
Lemma data_step x y e i j i' j' : always i -> always j -> data_view x = Some e -> data_view y = Some e -> data_part i = data_part j -> call_do x i = Value i' -> call_do y j = Value j' -> data_part i' = data_part j'.
Proof.
  intros _ _ Vx Vy P Ex Ey. unfold data_part in *. injection P as P1 P2 P3 P4 P5.
  destruct x as [c|f|a b|f|t|t]; try discriminate Vx.
  - cbn [data_view] in Vx. cbn [call_do] in Ex. destruct (transfers (cmd_type c)) as [read|] eqn:T.
    + injection Vx as <-. destruct y as [c'|f|a b|f|t|t]; try discriminate Vy. cbn [data_view] in Vy. cbn [call_do] in Ey.
      destruct (transfers (cmd_type c')) as [read'|] eqn:T'; [|destruct (cmd_type c'); discriminate]. injection Vy as -> Vt Vs Vd.
      destruct (transfer_parts _ _ _ _ T Ex) as (x & i2 & i3 & B & _ & _ & A1 & A2 & A3 & A4 & A5 & _).
      destruct (transfer_parts _ _ _ _ T' Ey) as (y & j2 & j3 & B' & _ & _ & C1 & C2 & C3 & C4 & C5 & _).
      rewrite (burst_same c c' read i j), B' in B by congruence. apply value_inj in B. subst x. cbn [fst if_with_data if_data if_dbi if_buf] in A2, A3, A4.
      rewrite A1, A2, A3, A4, A5, C1, C2, C3, C4, C5, P1, P5. reflexivity.
    + destruct (cmd_type c) eqn:Ty; try discriminate Vx. injection Vx as <-. destruct y as [c'|f|a b|f|t|t]; try discriminate Vy. cbn [data_view] in Vy. cbn [call_do] in Ey.
      destruct (transfers (cmd_type c')) as [read'|] eqn:T'; [discriminate|]. destruct (cmd_type c') eqn:Ty'; try discriminate Vy. injection Vy as Vt.
      assert (T0 : transfers (cmd_type c) = None) by now rewrite Ty. assert (T1 : transfers (cmd_type c') = None) by now rewrite Ty'.
      destruct (other_parts _ _ _ T0 Ex) as (A & B & C & D & _ & _ & _ & _ & _ & _ & F & _). destruct (other_parts _ _ _ T1 Ey) as (A' & B' & C' & D' & _ & _ & _ & _ & _ & _ & F' & _).
      rewrite Ty in F. rewrite Ty' in F'. rewrite A, B, C, D, A', B', C', D', P1, P2, P4, P5. rewrite P1 in F. assert (if_dbi i' = if_dbi j') as ->; [|reflexivity].
      destruct (routing (if_spec j) END_OF_SIMULATION); try congruence. destruct F as (k & F1 & F2), F' as (k' & F1' & F2'). rewrite F2, F2'. rewrite <- Vt in F1. unfold end_of_simulation in F1, F1'. rewrite P3 in F1.
      destruct (if_dbi j) eqn:Dj; [apply bind_inv in F1 as (u & U & F1); apply bind_inv in F1' as (u' & U' & F1')|]; apply value_inj in F1, F1'; subst k k'; cbn [if_with_dbi if_with_data if_dbi]; congruence.
  - injection Vx as <-. destruct y as [c|g|a b|g|t|t]; try discriminate Vy.
    + cbn [data_view] in Vy. destruct (transfers (cmd_type c)); [discriminate|]. destruct (cmd_type c); discriminate.
    + injection Vy as ->. frames Ex. frames Ey.
      assert (if_dbi (fst (if_enable_dbi f i)) = if_dbi (fst (if_enable_dbi f j))).
      { unfold if_enable_dbi. rewrite P1, P3. destruct (if_dbi j) eqn:Dj; [destruct (match fi_std (if_spec j) with DDR4 => fi_bits (if_spec j) =? 4 | _ => false end)|]; cbn [fst if_with_dbi if_with_data if_dbi]; congruence. }
      congruence.
  - injection Vx as <-. destruct y as [c|g|a' b'|g|t|t]; try discriminate Vy.
    + cbn [data_view] in Vy. destruct (transfers (cmd_type c)); [discriminate|]. destruct (cmd_type c); discriminate.
    + injection Vy as -> ->. frames Ex. frames Ey. congruence.
Qed.
Lemma data_parts xs ys i a b : seen data_view xs = seen data_view ys -> calls_run xs i = Value a -> calls_run ys i = Value b -> data_part a = data_part b.
Proof. intros S. apply (lockstep data_view data_part always data_kept data_blind data_step); auto; exact Logic.I. Qed.

Definition estimate_part (i : iface) := (if_spec i, if_data i).
Definition toggles (i : iface) : Prop := d_mode (if_data i) = ModeToggling.
Lemma toggles_kept x i i' : toggles i -> call_do x i = Value i' -> toggles i'. Proof. unfold toggles. intros H E. apply call_mode in E. congruence. Qed.
Lemma estimate_blind x i i' : toggles i -> burst_view x = None -> call_do x i = Value i' -> estimate_part i' = estimate_part i.
Proof.
  intros _ V E. unfold estimate_part. destruct x as [c|e|a b|e|t|t]; try (frames E; congruence).
  cbn [burst_view] in V. cbn [call_do] in E. destruct (transfers (cmd_type c)) eqn:T; [discriminate|]. destruct (other_parts _ _ _ T E) as (A & B & _). congruence.
Qed.
Lemma estimate_step x y e i j i' j' : toggles i -> toggles j -> burst_view x = Some e -> burst_view y = Some e -> estimate_part i = estimate_part j -> call_do x i = Value i' -> call_do y j = Value j' -> estimate_part i' = estimate_part j'.
Proof.
  intros M M' Vx Vy P Ex Ey. unfold estimate_part in *. injection P as P1 P2.
  destruct x as [c|f|a b|f|t|t]; try discriminate Vx. destruct y as [c'|f|a b|f|t|t]; try discriminate Vy. cbn [burst_view call_do] in *.
  destruct (transfers (cmd_type c)) as [read|] eqn:T; [|discriminate]. destruct (transfers (cmd_type c')) as [read'|] eqn:T'; [|discriminate]. injection Vx as <-. injection Vy as -> Vt Vs.
  destruct (transfer_parts _ _ _ _ T Ex) as (x & i2 & i3 & B & _ & _ & A1 & A2 & _). destruct (transfer_parts _ _ _ _ T' Ey) as (y & j2 & j3 & B' & _ & _ & C1 & C2 & _).
  rewrite A1, C1, A2, C2, P1. f_equal. exact (estimate_same c c' read i j x y (eq_sym Vt) (eq_sym Vs) P1 P2 M' B B').
Qed.
Lemma estimate_parts xs ys i a b : toggles i -> seen burst_view xs = seen burst_view ys -> calls_run xs i = Value a -> calls_run ys i = Value b -> estimate_part a = estimate_part b.
Proof. intros M S. now apply (lockstep burst_view estimate_part toggles toggles_kept estimate_blind estimate_step). Qed.

Definition strobe_part (i : iface) := (if_spec i, d_mode (if_data i), if_rdqs i, if_wdqs i, if_wck i, if_enabled i).
Lemma strobe_blind x i i' : always i -> strobe_view x = None -> call_do x i = Value i' -> strobe_part i' = strobe_part i.
Proof.
  intros _ V E. unfold strobe_part. destruct x as [c|e|a b|e|t|t]; try discriminate V; try (frames E; cbv beta match in *; intuition congruence).
  cbn [strobe_view] in V. cbn [call_do] in E. destruct (transfers (cmd_type c)) eqn:T; [discriminate|]. destruct (other_parts _ _ _ T E) as (A & B & _ & _ & C & D & F & G & _). congruence.
Qed.
Lemma enable_clocks t i j i' j' : if_spec i = if_spec j -> if_enabled i = if_enabled j -> if_enable t i = Value i' -> if_enable t j = Value j' ->
  (if_wck i = if_wck j -> if_wck i' = if_wck j') /\ (if_clock i = if_clock j -> if_clock i' = if_clock j') /\ if_enabled i' = if_enabled j'.
Proof.
  intros P1 P2. unfold if_enable. rewrite P1, P2. destruct (if_enabled j) eqn:En; intros Ex Ey.
  - apply value_inj in Ex, Ey. subst. repeat split; congruence.
  - apply bind_inv in Ex as (u & U & Ex), Ey as (v & V & Ey). apply bind_inv in Ex as (u' & U' & Ex), Ey as (v' & V' & Ey). apply value_inj in Ex, Ey. subst. cbn. repeat split; intros Q; rewrite ?Q in *; congruence.
Qed.
Lemma disable_clocks t i j i' j' : if_spec i = if_spec j -> if_enabled i = if_enabled j -> if_disable t i = Value i' -> if_disable t j = Value j' ->
  (if_wck i = if_wck j -> if_wck i' = if_wck j') /\ (if_clock i = if_clock j -> if_clock i' = if_clock j') /\ if_enabled i' = if_enabled j'.
Proof.
  intros P1 P2. unfold if_disable. rewrite P1, P2. destruct (if_enabled j) eqn:En; intros Ex Ey.
  - apply bind_inv in Ex as (u & U & Ex), Ey as (v & V & Ey). apply bind_inv in Ex as (u' & U' & Ex), Ey as (v' & V' & Ey). apply value_inj in Ex, Ey. subst. cbn. repeat split; intros Q; rewrite ?Q in *; congruence.
  - apply value_inj in Ex, Ey. subst. repeat split; congruence.
Qed.
Lemma strobe_step x y e i j i' j' : always i -> always j -> strobe_view x = Some e -> strobe_view y = Some e -> strobe_part i = strobe_part j -> call_do x i = Value i' -> call_do y j = Value j' -> strobe_part i' = strobe_part j'.
Proof.
  intros _ _ Vx Vy P Ex Ey. pose proof (call_mode _ _ _ Ex) as Mx. pose proof (call_mode _ _ _ Ey) as My. unfold strobe_part in *. injection P as P1 P2 P3 P4 P5 P6. rewrite Mx, My.
  destruct x as [c|f|a b|f|t|t]; try discriminate Vx.
  - cbn [strobe_view] in Vx. destruct (transfers (cmd_type c)) as [read|] eqn:T; [|discriminate]. injection Vx as <-. destruct y as [c'|f|a b|f|t|t]; try discriminate Vy.
    cbn [strobe_view call_do] in *. destruct (transfers (cmd_type c')) as [read'|] eqn:T'; [|discriminate]. injection Vy as -> Vt Vs.
    destruct (transfer_parts _ _ _ _ T Ex) as (x & i2 & i3 & B & D & _ & A1 & _ & _ & _ & _ & A2 & _ & A3 & A4 & A5 & _ & A6 & A7 & A8 & A9 & _).
    destruct (transfer_parts _ _ _ _ T' Ey) as (y & j2 & j3 & B' & D' & _ & C1 & _ & _ & _ & _ & C2 & _ & C3 & C4 & C5 & _ & C6 & C7 & C8 & C9 & _).
    rewrite <- (length_same _ _ _ _ _ _ _ _ (eq_sym Vs) P1 P2 B B') in D'.
    destruct (dqs_same c c' read (snd x) (fst x) (fst y) i2 j2) as (Q1 & Q2 & Q3); congruence.
  - injection Vx as <-. destruct y as [c'|f|a b|f|t'|t']; try discriminate Vy; [cbn [strobe_view] in Vy; destruct (transfers (cmd_type c')); discriminate|]. injection Vy as ->.
    destruct (enable_clocks _ _ _ _ _ P1 P6 Ex Ey) as (Q1 & _ & Q2). frames Ex. frames Ey. rewrite Q1 by assumption. congruence.
  - injection Vx as <-. destruct y as [c'|f|a b|f|t'|t']; try discriminate Vy; [cbn [strobe_view] in Vy; destruct (transfers (cmd_type c')); discriminate|]. injection Vy as ->.
    destruct (disable_clocks _ _ _ _ _ P1 P6 Ex Ey) as (Q1 & _ & Q2). frames Ex. frames Ey. rewrite Q1 by assumption. congruence.
Qed.
Lemma strobe_parts xs ys i a b : seen strobe_view xs = seen strobe_view ys -> calls_run xs i = Value a -> calls_run ys i = Value b -> strobe_part a = strobe_part b.
Proof. intros S. apply (lockstep strobe_view strobe_part always data_kept strobe_blind strobe_step); auto; exact Logic.I. Qed.

Definition clock_part (i : iface) := (if_spec i, if_clock i, if_enabled i).
Lemma clock_blind x i i' : always i -> switch_view x = None -> call_do x i = Value i' -> clock_part i' = clock_part i.
Proof.
  intros _ V E. unfold clock_part. destruct x as [c|e|a b|e|t|t]; try discriminate V; try (frames E; cbv beta match in *; intuition congruence).
  cbn [call_do] in E. destruct (transfers (cmd_type c)) eqn:T.
  - destruct (transfer_parts _ _ _ _ T E) as (x & i2 & i3 & _ & _ & _ & A1 & _ & _ & _ & _ & A2 & _ & _ & _ & _ & A3 & _). congruence.
  - destruct (other_parts _ _ _ T E) as (A & _ & _ & _ & C & _ & _ & _ & G & _). congruence.
Qed.
Lemma clock_step x y e i j i' j' : always i -> always j -> switch_view x = Some e -> switch_view y = Some e -> clock_part i = clock_part j -> call_do x i = Value i' -> call_do y j = Value j' -> clock_part i' = clock_part j'.
Proof.
  intros _ _ Vx Vy P Ex Ey. unfold clock_part in *. injection P as P1 P2 P3.
  destruct x as [c|f|a b|f|t|t]; try discriminate Vx; injection Vx as <-; destruct y as [c'|f|a b|f|t'|t']; try discriminate Vy; injection Vy as ->.
  - destruct (enable_clocks _ _ _ _ _ P1 P3 Ex Ey) as (_ & Q1 & Q2). frames Ex. frames Ey. rewrite Q1 by assumption. congruence.
  - destruct (disable_clocks _ _ _ _ _ P1 P3 Ex Ey) as (_ & Q1 & Q2). frames Ex. frames Ey. rewrite Q1 by assumption. congruence.
Qed.
Lemma clock_parts xs ys i a b : seen switch_view xs = seen switch_view ys -> calls_run xs i = Value a -> calls_run ys i = Value b -> clock_part a = clock_part b.
Proof. intros S. apply (lockstep switch_view clock_part always data_kept clock_blind clock_step); auto; exact Logic.I. Qed.

Definition command_part (i : iface) := (if_spec i, d_mode (if_data i), if_cmd i, if_pat i).
Definition of_standard (s : standard) (i : iface) : Prop := fi_std (if_spec i) = s.
Lemma standard_kept s x i i' : of_standard s i -> call_do x i = Value i' -> of_standard s i'. Proof. unfold of_standard. intros H E. apply call_spec in E. congruence. Qed.
Lemma command_blind s x i i' : of_standard s i -> command_view s x = None -> call_do x i = Value i' -> command_part i' = command_part i.
Proof.
  intros Sd V E. pose proof (call_mode _ _ _ E) as M. unfold command_part. rewrite M. destruct x as [c|e|a b|e|t|t]; try discriminate V; try (frames E; congruence).
  cbn [command_view] in V. cbn [call_do] in E. destruct (silent s (cmd_type c)) eqn:S; [|discriminate].
  assert (T : transfers (cmd_type c) = None) by (destruct (cmd_type c); try reflexivity; discriminate).
  destruct (other_parts _ _ _ T E) as (A & _ & _ & _ & _ & _ & _ & _ & _ & _ & _ & B). unfold of_standard in Sd. rewrite Sd, S in B. destruct B. congruence.
Qed.
Lemma parity_same e i j i' j' : if_spec i = if_spec j -> if_pat i = if_pat j -> if_set_parity e i = Value i' -> if_set_parity e j = Value j' -> if_pat i' = if_pat j'.
Proof.
  intros P1 P2. unfold if_set_parity. rewrite P1, P2. intros Ex Ey. apply check_inv in Ex as [_ Ex], Ey as [_ Ey]. destruct (if_pat j) eqn:D; apply value_inj in Ex, Ey; subst; cbn; congruence.
Qed.
Lemma command_step s x y e i j i' j' : of_standard s i -> of_standard s j -> command_view s x = Some e -> command_view s y = Some e -> command_part i = command_part j -> call_do x i = Value i' -> call_do y j = Value j' -> command_part i' = command_part j'.
Proof.
  intros Si Sj Vx Vy P Ex Ey. pose proof (call_mode _ _ _ Ex) as Mx. pose proof (call_mode _ _ _ Ey) as My. unfold command_part in *. injection P as P1 P2 P3 P4. rewrite Mx, My.
  destruct x as [c|f|a b|f|t|t]; try discriminate Vx.
  - cbn [command_view] in Vx. destruct (silent s (cmd_type c)) eqn:S; [discriminate|]. injection Vx as <-. destruct y as [c'|f|a b|f|t|t]; try discriminate Vy.
    cbn [command_view call_do] in *. destruct (silent s (cmd_type c')) eqn:S'; [discriminate|]. injection Vy as Vt Vy Vb Vg Vr Vw Vc Vs.
    assert (Co : coord_of c = coord_of c') by (unfold coord_of; congruence).
    destruct (transfers (cmd_type c)) as [read|] eqn:T.
    + rewrite <- Vy in T. rewrite T in Vs.
      destruct (transfer_parts c i i' read) as (x & i2 & i3 & B & D & H & A1 & A2 & A3 & A4 & A5 & A6 & A7 & A8 & A9 & A10 & A11 & A12 & A13 & A14 & A15 & A16 & A17 & A18 & A19 & A20 & _); [congruence|exact Ex|].
      destruct (transfer_parts c' j j' read) as (y & j2 & j3 & B' & D' & H' & C1 & C2 & C3 & C4 & C5 & C6 & C7 & C8 & C9 & C10 & C11 & C12 & C13 & C14 & C15 & C16 & C17 & C18 & C19 & C20 & _); [congruence|exact Ey|].
      rewrite <- (length_same _ _ _ _ _ _ _ _ (eq_sym Vs) P1 P2 B B') in H'.
      destruct (overrides_same i2 j2 (snd x) read) as [O1 O2]; [congruence|congruence|]. destruct (overrides_same j2 i2 (snd x) read) as [_ O3]; [congruence|congruence|].
      assert (O4 : if_cmd (handle_overrides i2 (snd x) read) = if_cmd (handle_overrides j2 (snd x) read)) by congruence.
      destruct (bus_same c c' _ _ i3 j3 (eq_sym Vt) (eq_sym Vy) Co O4 O1 H H') as [B1 B2]. rewrite A1, C1, A19, A20, C19, C20, B1, B2, P1, P2. reflexivity.
    + rewrite <- Vy in T. destruct (other_parts c i i') as (A & _ & _ & _ & _ & _ & _ & _ & _ & _ & _ & B); [congruence|exact Ex|]. destruct (other_parts c' j j') as (A' & _ & _ & _ & _ & _ & _ & _ & _ & _ & _ & B'); [congruence|exact Ey|].
      unfold of_standard in *. rewrite Si, S in B. rewrite Sj, S' in B'. destruct B as (k & B1 & B2 & B3), B' as (k' & B1' & B2' & B3').
      destruct (bus_same c c' _ _ k k' (eq_sym Vt) (eq_sym Vy) Co P3 P4 B1 B1'). congruence.
  - injection Vx as <-. destruct y as [c'|g|a b|g|t|t]; try discriminate Vy; [cbn [command_view] in Vy; destruct (silent s (cmd_type c')); discriminate|]. injection Vy as ->.
    pose proof (parity_same _ _ _ _ _ P1 P4 Ex Ey). frames Ex. frames Ey. congruence.
Qed.
Lemma command_parts s xs ys i a b : of_standard s i -> seen (command_view s) xs = seen (command_view s) ys -> calls_run xs i = Value a -> calls_run ys i = Value b -> command_part a = command_part b.
Proof. intros Si S. now apply (lockstep (command_view s) command_part (of_standard s) (standard_kept s) (command_blind s) (command_step s)). Qed.

Definition amble_part (i : iface) := (if_spec i, d_mode (if_data i), if_ranks i).
Lemma amble_blind x i i' : always i -> amble_view x = None -> call_do x i = Value i' -> amble_part i' = amble_part i.
Proof.
  intros _ V E. pose proof (call_mode _ _ _ E) as M. unfold amble_part. rewrite M. destruct x as [c|e|a b|e|t|t]; try discriminate V; try (frames E; congruence).
  cbn [amble_view] in V. cbn [call_do] in E. destruct (transfers (cmd_type c)) eqn:T; [discriminate|]. destruct (other_parts _ _ _ T E) as (A & _ & _ & _ & _ & _ & _ & _ & _ & B & _). congruence.
Qed.
Lemma amble_step x y e i j i' j' : always i -> always j -> amble_view x = Some e -> amble_view y = Some e -> amble_part i = amble_part j -> call_do x i = Value i' -> call_do y j = Value j' -> amble_part i' = amble_part j'.
Proof.
  intros _ _ Vx Vy P Ex Ey. pose proof (call_mode _ _ _ Ex) as Mx. pose proof (call_mode _ _ _ Ey) as My. unfold amble_part in *. injection P as P1 P2 P3. rewrite Mx, My.
  destruct x as [c|f|a b|f|t|t]; try discriminate Vx. destruct y as [c'|f|a b|f|t|t]; try discriminate Vy. cbn [amble_view call_do] in *.
  destruct (transfers (cmd_type c)) as [read|] eqn:T; [|discriminate]. destruct (transfers (cmd_type c')) as [read'|] eqn:T'; [|discriminate]. injection Vx as <-. injection Vy as -> Vt Vs Vr.
  destruct (transfer_parts _ _ _ _ T Ex) as (x & i2 & i3 & B & _ & _ & A1 & _ & _ & _ & _ & _ & _ & _ & _ & _ & _ & _ & _ & _ & _ & _ & _ & _ & _ & _ & R).
  destruct (transfer_parts _ _ _ _ T' Ey) as (y & j2 & j3 & B' & _ & _ & C1 & _ & _ & _ & _ & _ & _ & _ & _ & _ & _ & _ & _ & _ & _ & _ & _ & _ & _ & _ & R').
  rewrite <- (length_same _ _ _ _ _ _ _ _ (eq_sym Vs) P1 P2 B B') in R'. unfold ranks_step in R, R'. rewrite P1, P3 in R. rewrite Vt, Vr in R'.
  assert (if_ranks i' = if_ranks j') as Q; [|congruence].
  destruct (fi_std (if_spec j)); try congruence. destruct R as (r & r' & R1 & R2 & R3), R' as (q & q' & R1' & R2' & R3'). assert (r = q) as -> by congruence. assert (r' = q') as -> by congruence. congruence.
Qed.
Lemma amble_parts xs ys i a b : seen amble_view xs = seen amble_view ys -> calls_run xs i = Value a -> calls_run ys i = Value b -> amble_part a = amble_part b.
Proof. intros S. apply (lockstep amble_view amble_part always data_kept amble_blind amble_step); auto; exact Logic.I. Qed.
