(* The inversion lines of an interface, from the constructor to the statistics. *)
From Coq Require Import NArith List Bool Lia Arith.
From Verif Require Import Base Command CoreModel Bits WaveSpec BitFacts ListFacts PinModel PinSpec PinProofs DbiModel DbiSpec DbiProofs DbiBounds DbiPinModel DbiPinSpec DbiPinProofs
  StatsModel FormatProofs BusModel ToggleModel DataProofs InterfaceModel InterfaceSpec WireSpec InterfaceCa InterfaceRun InterfaceTop WireProofs InterfaceData LineSpec LineProofs FlagSpec FlagProofs.
Import ListNotations.
Local Open Scope N_scope.
Ltac Zify.zify_post_hook ::= idtac.

(* ---- one call ---- *)
Lemma burst_dbi c read i x : sizes_ok (if_spec i) -> handle_burst c read i = Value x ->
  if cmd_sz_bits c =? 0 then if_dbi (fst x) = if_dbi i else exists o, invert_data c read i = Value (if_dbi (fst x), o).
Proof.
  intros (W0 & W64 & _) E. unfold handle_burst, bus_lines in E. rewrite (width_eq _ W64) in E. destruct (cmd_sz_bits c =? 0).
  - destruct (d_mode (if_data i)); [injection E as <-; reflexivity|]. apply bind_inv in E as (d & _ & E). injection E as <-. reflexivity.
  - destruct (N.eqb_spec (dq_lines (if_spec i)) 0) as [|_]; [discriminate|]. apply bind_inv in E as ([y o] & V & E). cbv zeta in E. cbn [fst snd] in E.
    exists o. rewrite V. f_equal. f_equal.
    destruct (fi_std (if_spec i)); apply bind_inv in E as (d & L & E); try (injection E as <-; reflexivity).
    apply bind_inv in E as (d' & _ & E). injection E as <-. reflexivity.
Qed.

Section Lines.
Context (p : ifspec) (bus : bool) (d : pin) (Ln : lined p) (Sz : sizes_ok p) (Hn0 : (0 < flag_lines p)%nat).

Definition lines_of (dbi : bool) (held : bool -> nat -> option N) (x : dbi_pins_if) (i : iface) : Prop :=
  if_spec i = p /\ is_bus (d_mode (if_data i)) = bus /\ if_dbi i = Some x /\ flag_inv p dbi held x.

Lemma same_lines dbi held x i j : lines_of dbi held x i -> same_data i j -> lines_of dbi held x j.
Proof. intros (A & B & C & D) (S1 & S2 & S3 & _). split; [congruence|]. split; [congruence|]. split; [congruence|exact D]. Qed.
Lemma inv_ext dbi held held' x : (forall r line, held r line = held' r line) -> flag_inv p dbi held x -> flag_inv p dbi held' x.
Proof.
  intros H [A B C D E F]. constructor; try assumption. intros r. destruct (F r) as [[G K]|(G & K & L)]; [left|right].
  - split; [exact G|]. intros line. rewrite <- H. apply K.
  - split; [exact G|]. split; [exact K|]. intros line j Hl Hj Hm. rewrite <- H. apply L; assumption.
Qed.

Lemma call_told xc dbi held x i i' : (forall c, xc = Do c -> data_ok p c) -> lines_of dbi held x i -> call_do xc i = Value i' ->
  exists dbi' held' x', lines_of dbi' held' x' i' /\
    forall read line, (line < flag_lines p)%nat -> exists l,
      (forall r, told_line p bus read line dbi (held read line) (xc :: r) = l ++ told_line p bus read line dbi' (held' read line) r) /\
      pin_told l (nth line (di_side x read) d) = Value (nth line (di_side x' read) d).
Proof.
  intros Ok V E. pose proof V as (Vs & Vm & Vx & Vf).
  assert (forall j dbi', lines_of dbi' held x j -> (forall read line r, told_line p bus read line dbi (held read line) (xc :: r) = told_line p bus read line dbi' (held read line) r) ->
    exists dbi' held' x', lines_of dbi' held' x' j /\ forall read line, (line < flag_lines p)%nat -> exists l,
      (forall r, told_line p bus read line dbi (held read line) (xc :: r) = l ++ told_line p bus read line dbi' (held' read line) r) /\
      pin_told l (nth line (di_side x read) d) = Value (nth line (di_side x' read) d)) as K.
  { intros j dbi' H1 H2. exists dbi', held, x. split; [exact H1|]. intros read line _. exists []. split; [intros r; apply H2|reflexivity]. }
  destruct xc as [c|e|a b|e|t|t]; cbn [call_do] in E.
  - specialize (Ok c eq_refl). pose proof (transfers_routing p (cmd_type c)) as R. apply command_same in E. rewrite Vs in E.
    destruct (transfers (cmd_type c)) as [read|] eqn:T.
    + rewrite R in E. destruct E as (y & B & S).
      assert (cmd_type c <> END_OF_SIMULATION) as Ne by (intros H; rewrite H in T; discriminate).
      destruct (burst_effect p bus c read i y Vs Vm Sz B) as (q & z & buf & Y & Md & _). rewrite Y in B, S. cbn [fst] in S.
      pose proof (burst_dbi c read i _ ltac:(rewrite Vs; exact Sz) B) as Bd. cbn [fst if_with_data if_dbi] in Bd. unfold invert_data in Bd. rewrite Vx, Vm, (fl_on _ _ _ _ Vf) in Bd.
      assert (forall r line l, sends r c && dbi && bus = false -> told_line p bus r line dbi (held r line) (Do c :: l) = told_line p bus r line dbi (held r line) l) as Tn.
      { intros r line l H. cbn [told_line]. rewrite H. destruct (cmd_type c); try reflexivity. contradiction. }
      assert (z = Some x -> (forall r, sends r c && dbi && bus = false) ->
        exists dbi' held' x', lines_of dbi' held' x' i' /\ forall read line, (line < flag_lines p)%nat -> exists l,
          (forall r, told_line p bus read line dbi (held read line) (Do c :: r) = l ++ told_line p bus read line dbi' (held' read line) r) /\
          pin_told l (nth line (di_side x read) d) = Value (nth line (di_side x' read) d)) as Quiet.
      { intros -> H. apply (K i' dbi); [|intros; apply Tn, H]. eapply same_lines; [|exact S]. split; [exact Vs|]. split; [cbn [if_with_data if_data]; rewrite Md; exact Vm|]. split; [reflexivity|exact Vf]. }
      assert (forall r, sends r c = eqb read r && (negb (cmd_sz_bits c =? 0) && match cmd_data c with [] => false | _ => true end)) as Se.
      { intros r. unfold sends. rewrite T. now rewrite andb_assoc. }
      destruct (cmd_sz_bits c =? 0) eqn:Z.
      { apply Quiet; [congruence|]. intros r. rewrite Se. cbn [negb andb]. now rewrite andb_false_r. }
      destruct Bd as (o & Bd). destruct (bus && dbi) eqn:On.
      2: { injection Bd as Bz _. apply Quiet; [congruence|]. intros r. rewrite <- andb_assoc, (andb_comm dbi), On. apply andb_false_r. }
      apply andb_true_iff in On as [Eb Ed]. apply bind_inv in Bd as ([x' o'] & Bd & Bz). cbn [fst snd] in Bz. injection Bz as Bz _. symmetry in Bz.
      destruct (match cmd_data c with [] => false | _ => true end) eqn:Dc.
      2: { assert (data_of c = None) as D0 by (unfold data_of; destruct (cmd_data c); [reflexivity|discriminate]). rewrite D0 in Bd. cbn [dbi_if_data] in Bd. injection Bd as <- _. apply Quiet; [exact Bz|].
           intros r. rewrite Se. now rewrite !andb_false_r. }
      assert (sends read c = true) as Sd by (rewrite Se, eqb_reflx; reflexivity).
      rewrite data_of_some in Bd by (intros H; rewrite H in Dc; discriminate).
      destruct (burst_told p dbi held x c read x' o' d Ln Sz Hn0 Vf Ed Sd Ok Bd) as (F1 & F2).
      exists dbi, (fun r line => if eqb r read then now_held p c line else held r line), x'. split.
      * eapply same_lines; [|exact S]. split; [exact Vs|]. split; [cbn [if_with_data if_data]; rewrite Md; exact Vm|]. split; [exact Bz|exact F1].
      * intros r line Hl. eexists. split; [|apply F2; exact Hl]. intros l. cbn [told_line]. rewrite Se, Ed, Eb. cbn [negb andb]. rewrite !andb_true_r.
        replace (eqb read r) with (eqb r read) by (destruct r, read; reflexivity). destruct (Bool.eqb r read); [unfold now_held; rewrite <- app_assoc; reflexivity|].
        cbn [app]. destruct (cmd_type c); try reflexivity. contradiction.
    + assert (forall read, sends read c = false) as Sn by (intros r; unfold sends; now rewrite T).
      destruct (CmdType_eq_dec (cmd_type c) END_OF_SIMULATION) as [Ty|Ty].
      * assert (routing p (cmd_type c) = ToEnd) as Rt by (rewrite Ty; cbn [routing]; destruct Ln as [H|[H|H]]; rewrite H; reflexivity). rewrite Rt in E.
        destruct E as (j & Ej & S). unfold end_of_simulation in Ej. rewrite Vx in Ej. apply bind_inv in Ej as (x' & X & Ej). injection Ej as <-.
        destruct (end_told p dbi held x (cmd_ts c) x' d Ln Sz Hn0 Vf X) as (F1 & F2).
        exists dbi, (fun r line => still_held (held r line) (cmd_ts c)), x'. split.
        -- eapply same_lines; [|exact S]. split; [exact Vs|]. split; [exact Vm|]. split; [reflexivity|exact F1].
        -- intros r line Hl. eexists. split; [|apply F2; exact Hl]. intros l. cbn [told_line]. rewrite Sn, Ty. reflexivity.
      * assert (same_data i i') as S.
        { destruct (routing p (cmd_type c)) as [|read| | | |] eqn:Rt; [exact E|destruct (R read eq_refl)| |exact E|exact E|exact E].
          exfalso. clear -Rt Ty. destruct (cmd_type c); cbn [routing] in Rt; try discriminate; try congruence; destruct (fi_std p); try discriminate; destruct (fi_arch p); discriminate. }
        apply (K i' dbi); [eapply same_lines; [exact V|exact S]|]. intros read line l. cbn [told_line]. rewrite Sn. cbn [andb]. destruct (cmd_type c); try reflexivity. contradiction.
  - apply value_inj in E. subst i'. unfold if_enable_dbi. rewrite Vx.
    assert ((match fi_std (if_spec i) with DDR4 => fi_bits (if_spec i) =? 4 | _ => false end) = negb (has_dbi p)) as ->.
    { rewrite Vs. unfold has_dbi. destruct Ln as [H|[H|H]]; rewrite H; try reflexivity. now rewrite negb_involutive. }
    destruct (has_dbi p) eqn:H; cbn [negb fst].
    + set (x1 := di_with x _).
      exists e, held, x1. split.
      * split; [exact Vs|]. split; [exact Vm|]. split; [reflexivity|]. destruct Vf as [F1 F2 F3 F4 F5 F6]. constructor; try assumption; try reflexivity.
      * intros read line Hl. exists []. split; [intros r; cbn [told_line app]; rewrite H; reflexivity|]. unfold x1, di_side, di_with. destruct read; reflexivity.
    + apply (K _ dbi); [exact V|]. intros. cbn [told_line]. now rewrite H.
  - apply value_inj in E. subst i'. apply (K _ dbi); [exact V|reflexivity].
  - unfold if_set_parity in E. apply check_inv in E as [_ E]. apply (K _ dbi); [|reflexivity]. eapply same_lines; [exact V|]. destruct (if_pat i); apply value_inj in E; subst i'; repeat split.
  - unfold if_enable in E. apply (K _ dbi); [|reflexivity]. eapply same_lines; [exact V|]. destruct (if_enabled i); [apply value_inj in E; subst i'; apply same_refl|].
    apply bind_inv in E as (k & _ & E). apply bind_inv in E as (k' & _ & E). apply value_inj in E. subst i'. repeat split.
  - unfold if_disable in E. apply (K _ dbi); [|reflexivity]. eapply same_lines; [exact V|]. destruct (if_enabled i); [|apply value_inj in E; subst i'; apply same_refl].
    apply bind_inv in E as (k & _ & E). apply bind_inv in E as (k' & _ & E). apply value_inj in E. subst i'. repeat split.
Qed.

Lemma calls_told xs : forall dbi held x i i', Forall (data_ok p) (commands xs) -> lines_of dbi held x i -> calls_run xs i = Value i' ->
  exists dbi' held' x', lines_of dbi' held' x' i' /\ forall read line, (line < flag_lines p)%nat ->
    pin_told (told_line p bus read line dbi (held read line) xs) (nth line (di_side x read) d) = Value (nth line (di_side x' read) d).
Proof using Ln Sz Hn0.
  induction xs as [|c xs IH]; intros dbi held x i i' F V R.
  - apply value_inj in R. subst i'. exists dbi, held, x. split; [exact V|]. intros. reflexivity.
  - apply loop_cons_inv in R as (j & R1 & R). rewrite commands_cons in F. apply Forall_app in F as [F1 F2].
    destruct (call_told c dbi held x i j) as (dbi1 & held1 & x1 & V1 & G1); [intros c' ->; now inversion F1|exact V|exact R1|].
    destruct (IH _ _ _ _ _ F2 V1 R) as (dbi2 & held2 & x2 & V2 & G2). exists dbi2, held2, x2. split; [exact V2|].
    intros read line Hl. destruct (G1 read line Hl) as (l & Q & P). rewrite Q, told_app, P. cbn [bind]. apply G2. exact Hl.
Qed.
End Lines.

(* ---- the constructor ---- *)
Lemma new_lines p sim i : lined p -> sizes_ok p -> iface_new p sim = Value i ->
  (0 < flag_lines p)%nat /\ exists x, lines_of p (no_toggle sim) false (fun _ _ => None) x i /\
  forall read, di_side x read = repeat (pin_new (pin_capacity (fi_std p)) (if dq_rests_high (fi_std p) then PinH else PinL) (if dq_rests_high (fi_std p) then PinH else PinL)) (flag_lines p).
Proof.
  intros Ln Sz New. pose proof (new_built _ _ _ New) as B. pose proof (bt_dbi _ _ _ B) as D. destruct (lined_config p Ln Sz) as (Cd & Ca & Cs & Cc & Cw & Ci & Cn).
  assert (exists x, dbi_if_new (dbi_config_of p) (pin_capacity (fi_std p)) (fi_rate p) false = Value x /\ if_dbi i = Some x) as (x & X & Ix).
  { unfold new_dbi in D. destruct Ln as [H|[H|H]]; rewrite H in *; apply bind_inv in D as (x & X & D); injection D as <-; exists x; split; auto. }
  unfold dbi_if_new in X. rewrite Cn in X. apply bind_inv in X as (y & Y & X). apply value_inj in X. unfold dbi_new in Y. rewrite Cw in Y. apply check_inv in Y as [M Y]. apply value_inj in Y.
  apply Nat.eqb_eq in M. unfold chunk_size in M. rewrite Cs, Cd in M. cbn [Nat.mul Nat.add] in M.
  split.
  - assert (flag_lines p = Nat.div (N.to_nat (dq_lines p)) 8) as -> by (unfold flag_lines; destruct Ln as [H|[H|H]]; rewrite H; reflexivity).
    pose proof (Nat.div_mod (N.to_nat (dq_lines p)) 8 ltac:(lia)). destruct Sz as (W0 & _). lia.
  - exists x. subst x y. split.
    + split; [apply (bt_spec _ _ _ B)|]. split.
      { destruct (bt_data _ _ _ B) as (max & _ & Dn). rewrite (data_new_mode _ _ _ _ Dn). unfold data_mode, no_toggle. destruct sim; reflexivity. }
      split; [exact Ix|]. constructor; cbn [di_dbi db_config db_enable di_rate di_read di_write]; try reflexivity; try apply repeat_length.
      intros read. left. split; [destruct read; reflexivity|reflexivity].
    + intros read. unfold di_side. cbn [di_read di_write]. rewrite Ci. destruct read; reflexivity.
Qed.

(* ---- standards without inversion lines ---- *)
Definition no_pins (i : iface) : Prop := match if_dbi i with Some x => di_read x = [] /\ di_write x = [] | None => True end.
Lemma none_of_none x j : di_read x = [] -> di_write x = [] -> length (di_read j) = length (di_read x) -> length (di_write j) = length (di_write x) -> di_read j = [] /\ di_write j = [].
Proof. intros -> -> A B. cbn in *. split; now apply length_zero_iff_nil. Qed.
Lemma no_pins_step p xc i i' : sizes_ok p -> if_spec i = p -> no_pins i -> call_do xc i = Value i' -> no_pins i' /\ if_spec i' = p.
Proof.
  intros Sz Sp V E. unfold no_pins in *.
  assert (forall j k, same_data j k -> if_spec j = p -> match if_dbi j with Some x => di_read x = [] /\ di_write x = [] | None => True end -> match if_dbi k with Some x => di_read x = [] /\ di_write x = [] | None => True end /\ if_spec k = p) as K.
  { intros j k (S1 & _ & S3 & _) H1 H2. rewrite S3. split; [exact H2|congruence]. }
  destruct xc as [c|e|a b|e|t|t]; cbn [call_do] in E.
  - apply command_same in E. rewrite Sp in E. destruct (routing p (cmd_type c)) as [|read| | | |]; try (eapply K; [exact E|exact Sp|exact V]).
    + destruct E as (y & B & S). destruct (burst_effect p _ c read i y Sp eq_refl Sz B) as (q & z & buf & Y & _).
      pose proof (burst_dbi c read i y ltac:(rewrite Sp; exact Sz) B) as Bd. eapply K; [exact S|rewrite Y; exact Sp|].
      destruct (cmd_sz_bits c =? 0); [rewrite Bd; exact V|]. destruct Bd as (o & Bd). unfold invert_data in Bd. destruct (if_dbi i) as [x|]; [|injection Bd as <- _; exact Logic.I].
      destruct (is_bus _ && db_enable _); [|injection Bd as <- _; exact V]. apply bind_inv in Bd as ([x' o'] & Bd & Bz). injection Bz as <- _. cbn [fst].
      unfold dbi_if_data in Bd. destruct (data_of c); [|injection Bd as <- _; exact V]. destruct (Nat.eqb _ _ || _); [injection Bd as <- _; exact V|].
      apply bind_inv in Bd as ([[d' evs] u] & _ & Bd). apply bind_inv in Bd as (j & D & Bd). injection Bd as <- _. apply deliver_lengths in D as (D1 & D2 & _). destruct V. eapply none_of_none; eassumption.
    + destruct E as (j & Ej & S). eapply K; [exact S| |]; unfold end_of_simulation in Ej; destruct (if_dbi i) as [x|] eqn:X.
      * apply bind_inv in Ej as (x' & _ & Ej). injection Ej as <-. exact Sp.
      * injection Ej as <-. exact Sp.
      * apply bind_inv in Ej as (x' & Ex & Ej). injection Ej as <-. cbn [if_with_dbi if_with_data if_dbi]. unfold dbi_if_end in Ex. apply bind_inv in Ex as (r & _ & D).
        apply deliver_lengths in D as (D1 & D2 & _). destruct V. eapply none_of_none; eassumption.
      * injection Ej as <-. rewrite X. exact Logic.I.
  - apply value_inj in E. subst i'. unfold if_enable_dbi. destruct (if_dbi i) as [x|] eqn:X; [|cbn [fst]; rewrite X; now split].
    destruct (match fi_std (if_spec i) with DDR4 => _ | _ => _ end); cbn [fst]; [rewrite X; now split|]. split; [exact V|exact Sp].
  - apply value_inj in E. subst i'. split; [exact V|exact Sp].
  - unfold if_set_parity in E. apply check_inv in E as [_ E]. apply (K i); [|exact Sp|exact V]. destruct (if_pat i); apply value_inj in E; subst i'; repeat split.
  - unfold if_enable in E. apply (K i); [|exact Sp|exact V]. destruct (if_enabled i); [apply value_inj in E; subst i'; apply same_refl|].
    apply bind_inv in E as (k & _ & E). apply bind_inv in E as (k' & _ & E). apply value_inj in E. subst i'. repeat split.
  - unfold if_disable in E. apply (K i); [|exact Sp|exact V]. destruct (if_enabled i); [|apply value_inj in E; subst i'; apply same_refl].
    apply bind_inv in E as (k & _ & E). apply bind_inv in E as (k' & _ & E). apply value_inj in E. subst i'. repeat split.
Qed.
Lemma no_pins_run p xs : sizes_ok p -> forall i i', if_spec i = p -> no_pins i -> calls_run xs i = Value i' -> no_pins i'.
Proof.
  intros Sz. induction xs as [|c xs IH]; intros i i' Sp V R; [apply value_inj in R; now subst i'|].
  apply loop_cons_inv in R as (j & R1 & R). destruct (no_pins_step p c i j Sz Sp V R1) as [A B]. eapply IH; eassumption.
Qed.

(* ---- the times ---- *)
Lemma taken_in_time max init idle l : forall p, Forall (fun x => fst x + N.of_nat max + 1 < two64) l -> pin_told l (pin_new max init idle) = Value p -> in_time (grouped l).
Proof.
  induction l as [|x l IH] using rev_ind; intros p F P; [constructor|]. apply Forall_app in F as [F1 F2]. apply Forall_inv in F2. rewrite told_app in P. apply bind_inv in P as (q & P & _).
  specialize (IH q F1 P). pose proof (line_exactly max init idle l IH) as [_ No].
  assert (onwards 0 l /\ roomy max (grouped l)) as [_ Ro] by (destruct (accepted_dec max l) as [A|A]; [exact A|rewrite (No A) in P; discriminate]).
  rewrite grouped_snoc. destruct (grouped l) as [|e bs] using rev_ind.
  - repeat constructor. cbn [fst snd length]. lia.
  - clear IHbs. destruct e as [t bits]. rewrite tell_last. apply roomy_app in Ro as [_ Ro]. apply Forall_inv in Ro. cbn [snd] in Ro. apply in_time_app in IH as [I1 I2]. destruct (N.eqb_spec t (fst x)) as [->|Ne].
    + apply in_time_app. split; [exact I1|]. repeat constructor. cbn [fst snd]. rewrite app_length. cbn [length]. lia.
    + apply in_time_app. split; [apply in_time_app; split; assumption|]. repeat constructor. cbn [fst snd length]. lia.
Qed.
Lemma told_times p bus read line t xs : 0 < fi_rate p -> forall dbi held, Forall (fun c => cmd_ts c <= t) (commands xs) -> Forall (fun x => fst x <= t * fi_rate p) (told_line p bus read line dbi held xs).
Proof.
  intros R0. induction xs as [|x xs IH]; intros dbi held F; [constructor|]. rewrite commands_cons in F. apply Forall_app in F as [F1 F2].
  assert (forall high h u, u <= t * fi_rate p -> Forall (fun x => fst x <= t * fi_rate p) (back_to_rest high h u)) as Bk.
  { intros high h u Hu. unfold back_to_rest. destruct h as [e|]; [|constructor]. destruct (e <? u); repeat constructor. exact Hu. }
  destruct x as [c| | | | |]; cbn [told_line]; try (apply IH; exact F2). apply Forall_inv in F1.
  assert (cmd_ts c * fi_rate p <= t * fi_rate p) as Hc by (now apply N.mul_le_mono_r).
  destruct (sends read c && dbi && bus).
  - apply Forall_app. split; [apply Bk; exact Hc|]. apply Forall_app. split; [|apply IH; exact F2]. apply Forall_forall. intros y Hy. apply in_map_iff in Hy as (b & <- & _). exact Hc.
  - destruct (cmd_type c); try (apply IH; exact F2). apply Forall_app. split; [|apply IH; exact F2]. apply Bk. nia.
Qed.

(* ---- the statistics ---- *)
Lemma sum_window pins t q fresh (ok : nat -> bool) (f : nat -> bus_stats) s : forall k,
  (forall j, (j < length pins)%nat -> pin_stats_at (nth j pins fresh) t q = if ok (k + j)%nat then Value (wrap_stats (f (k + j)%nat)) else Fails Assertion) ->
  loop (fun p s => x <- pin_stats_at p t q ;; Value (stats_add s x)) pins (wrap_stats (sum_pins k f)) = Value s -> s = wrap_stats (sum_pins (k + length pins) f).
Proof.
  induction pins as [|p r IH]; intros k H E.
  - injection E as <-. cbn [length]. now rewrite Nat.add_0_r.
  - apply loop_cons_inv in E as (s1 & E1 & E). pose proof (H 0%nat) as H0. cbn [nth length] in H0. rewrite Nat.add_0_r in H0. rewrite H0 in E1 by lia.
    destruct (ok k); [|discriminate]. cbn [bind] in E1. rewrite stats_add_wrap in E1. apply value_inj in E1. subst s1.
    change (add_exact (sum_pins k f) (f k)) with (sum_pins (S k) f) in E. apply IH in E.
    + rewrite E. cbn [length]. now replace (k + S (length r))%nat with (S k + length r)%nat by lia.
    + intros j Hj. specialize (H (S j)). cbn [nth length] in H. rewrite H by lia. replace (k + S j)%nat with (S k + j)%nat by lia. reflexivity.
Qed.

Theorem flags_exactly p sim i0 xs i t st st' : sizes_ok p -> iface_new p sim = Value i0 ->
  Forall (fun c => cmd_ts c <= t /\ data_ok p c) (commands xs) -> t * fi_rate p + 64 < two64 -> t * 2 < two64 ->
  calls_run xs i0 = Value i -> flags_blank st -> if_window i t st = Value st' ->
  ss_readDBI st' = wrap_stats (flag_stats p (no_toggle sim) true xs (t * 2)) /\
  ss_writeDBI st' = wrap_stats (flag_stats p (no_toggle sim) false xs (t * 2)).
Proof.
  intros Sz New F T1 T2 Run (B1 & B2) Win.
  assert (Forall (fun c => cmd_ts c <= t) (commands xs)) as Fa by (eapply Forall_impl; [|exact F]; intros c H; exact (proj1 H)).
  assert (Forall (data_ok p) (commands xs)) as Fb by (eapply Forall_impl; [|exact F]; intros c H; exact (proj2 H)).
  assert (exists r w, dbi_stats i t true = Value r /\ dbi_stats i t false = Value w /\ ss_readDBI st' = stats_add (ss_readDBI st) r /\ ss_writeDBI st' = stats_add (ss_writeDBI st) w) as (sr & sw & Er & Ew & -> & ->).
  { unfold if_window in Win. cbv zeta in Win. apply bind_inv in Win as (ranks & _ & Win). apply bind_inv in Win as (cmd & _ & Win). apply bind_inv in Win as (dd & _ & Win).
    apply bind_inv in Win as (rd & R & Win). apply bind_inv in Win as (wd & W & Win). apply value_inj in Win. subst st'. exists rd, wd. repeat split; assumption. }
  assert (forall read s, dbi_stats i t read = Value s -> s = wrap_stats (flag_stats p (no_toggle sim) read xs (t * 2))) as G.
  2: { rewrite B1, B2. rewrite (G true sr Er), (G false sw Ew). split; apply wrap_0. }
  clear sr sw Er Ew. intros read s E.
  assert (lined p \/ flag_lines p = 0%nat /\ no_pins i0) as [Ln|[N0 Np]].
  { pose proof (bt_dbi _ _ _ (new_built _ _ _ New)) as D. unfold lined, flag_lines, no_pins. unfold new_dbi in D. destruct (fi_std p); auto; right; (split; [reflexivity|]).
    - injection D as <-. exact Logic.I.
    - apply bind_inv in D as (y & _ & D). injection D as <-. split; reflexivity. }
  2: { pose proof (no_pins_run p xs Sz i0 i (bt_spec _ _ _ (new_built _ _ _ New)) Np Run) as V. unfold flag_stats. rewrite N0. cbn [sum_pins]. unfold dbi_stats in E. unfold no_pins in V.
       destruct (if_dbi i) as [x|]; [|injection E as <-; reflexivity]. destruct V as [V1 V2]. unfold dbi_if_stats in E. rewrite V1, V2 in E. destruct read; injection E as <-; reflexivity. }
  destruct (new_lines p sim i0 Ln Sz New) as (Hn0 & x0 & V0 & P0).
  assert (0 < fi_rate p) as R0 by (destruct (new_config p sim i0 Sz New) as (? & _ & _ & (_ & _ & R0 & _) & _); exact R0).
  set (rest := if dq_rests_high (fi_std p) then PinH else PinL) in *. set (fresh := pin_new (pin_capacity (fi_std p)) rest rest) in *.
  destruct (calls_told p (no_toggle sim) fresh Ln Sz Hn0 xs _ _ _ _ _ Fb V0 Run) as (dbi & held & x & (_ & _ & Vx & Vf) & P).
  unfold dbi_stats in E. rewrite Vx in E. unfold dbi_if_stats in E. fold (di_side x read) in E.
  assert (length (di_side x read) = flag_lines p) as Hs by (unfold di_side; destruct read; [apply (fl_read _ _ _ _ Vf)|apply (fl_write _ _ _ _ Vf)]).
  unfold flag_stats. fold rest. rewrite <- Hs. change stats0 with (wrap_stats (sum_pins 0 (fun line => told_wave rest rest (grouped (told_line p (no_toggle sim) read line false None xs)) (t * 2)))) in E.
  apply (sum_window _ _ _ fresh (fun line => told_last (told_line p (no_toggle sim) read line false None xs) <=? t * 2)) in E; [exact E|].
  intros j Hj. cbn [Nat.add]. rewrite Hs in Hj. specialize (P read j Hj). rewrite P0 in P. rewrite nth_repeat in P. unfold fresh in P at 1.
  apply (line_stats _ _ _ _ _ _ _) with (3 := T2) in P; [exact P|].
  eapply taken_in_time; [|exact P]. eapply Forall_impl; [|apply told_times; [exact R0|exact Fa]]. cbv beta. intros y Hy.
  assert (N.of_nat (pin_capacity (fi_std p)) <= 32) by (destruct (fi_std p); cbn; lia). lia.
Qed.

(* What was taken, in time, was told in order and fitted. *)
Theorem flags_taken p sim i0 xs i t : sizes_ok p -> iface_new p sim = Value i0 ->
  Forall (fun c => cmd_ts c <= t /\ data_ok p c) (commands xs) -> t * fi_rate p + 64 < two64 -> calls_run xs i0 = Value i ->
  forall read line, (line < flag_lines p)%nat -> let l := told_line p (no_toggle sim) read line false None xs in
    onwards 0 l /\ roomy (pin_capacity (fi_std p)) (grouped l).
Proof.
  intros Sz New F T Run read line Hl l.
  assert (Forall (fun c => cmd_ts c <= t) (commands xs)) as Fa by (eapply Forall_impl; [|exact F]; intros c H; exact (proj1 H)).
  assert (Forall (data_ok p) (commands xs)) as Fb by (eapply Forall_impl; [|exact F]; intros c H; exact (proj2 H)).
  assert (lined p) as Ln by (unfold lined; unfold flag_lines in Hl; destruct (fi_std p); auto; lia).
  destruct (new_lines p sim i0 Ln Sz New) as (Hn0 & x0 & V0 & P0).
  assert (0 < fi_rate p) as R0 by (destruct (new_config p sim i0 Sz New) as (? & _ & _ & (_ & _ & R0 & _) & _); exact R0).
  set (rest := if dq_rests_high (fi_std p) then PinH else PinL) in *. set (fresh := pin_new (pin_capacity (fi_std p)) rest rest) in *.
  destruct (calls_told p (no_toggle sim) fresh Ln Sz Hn0 xs _ _ _ _ _ Fb V0 Run) as (dbi & held & x & _ & P).
  specialize (P read line Hl). rewrite P0, nth_repeat in P. fold l in P. unfold fresh in P at 1.
  assert (in_time (grouped l)) as It.
  { eapply taken_in_time; [|exact P]. eapply Forall_impl; [|apply told_times; [exact R0|exact Fa]]. cbv beta. intros y Hy.
    assert (N.of_nat (pin_capacity (fi_std p)) <= 32) by (destruct (fi_std p); cbn; lia). lia. }
  destruct (accepted_dec (pin_capacity (fi_std p)) l) as [A|A]; [exact A|]. rewrite (proj2 (line_exactly _ rest rest l It) A) in P. discriminate.
Qed.
