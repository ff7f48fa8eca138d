(* An interface takes exactly the calls whose commands are allowed and whose
   inversion lines have room. *)
From Coq Require Import NArith List Bool Lia Arith.
From Verif Require Import Base Command CoreModel Bits WaveSpec BitFacts ListFacts PinModel PinSpec PinProofs DbiModel DbiSpec DbiProofs DbiBounds DbiPinModel DbiPinSpec DbiPinProofs
  StatsModel FormatProofs BusModel ToggleModel DataProofs InterfaceModel InterfaceSpec WireSpec InterfaceCa InterfaceRun InterfaceTop WireProofs InterfaceData LineSpec LineProofs FlagSpec FlagProofs FlagTop
  ProgressSpec ProgressProofs ProgressTables TakenSpec TakenProofs StorageSpec InvertSpec InvertProofs InvertStep.
Import ListNotations.
Local Open Scope N_scope.
Ltac Zify.zify_post_hook ::= idtac.

(* ---- lines ---- *)
Lemma grouped_times T l : Forall (fun x => fst x <= T) l -> Forall (fun d => fst d <= T) (grouped l).
Proof.
  induction l as [|x l IH] using rev_ind; intros F; [constructor|]. apply Forall_app in F as [F1 F2]. specialize (IH F1). apply Forall_inv in F2. cbv beta in F2. rewrite grouped_snoc.
  destruct (grouped l) as [|d bs] using rev_ind; [repeat constructor; exact F2|]. clear IHbs. destruct d as [t bits]. rewrite tell_last. apply Forall_app in IH as [I1 I2]. apply Forall_inv in I2. cbn [fst] in I2.
  destruct (t =? fst x).
  - apply Forall_app. split; [exact I1|repeat constructor; exact I2].
  - apply Forall_app. split; [apply Forall_app; split; [exact I1|repeat constructor; exact I2]|repeat constructor; exact F2].
Qed.
Lemma roomy_time max T l : Forall (fun x => fst x <= T) l -> T + N.of_nat max < two64 -> roomy max (grouped l) -> in_time (grouped l).
Proof.
  intros F H R. apply grouped_times in F. unfold roomy, in_time in *. rewrite Forall_forall in *. intros d Hd. specialize (F d Hd). specialize (R d Hd). cbv beta in *. lia.
Qed.
Lemma shorter_room max l l' : roomy max (grouped (l ++ l')) -> roomy max (grouped l).
Proof.
  induction l' as [|x l' IH] using rev_ind; [now rewrite app_nil_r|]. rewrite app_assoc, grouped_snoc. intros R. apply IH. clear IH. destruct (grouped (l ++ l')) as [|d bs] using rev_ind; [constructor|]. clear IHbs.
  destruct d as [t bits]. rewrite tell_last in R. destruct (t =? fst x); apply roomy_app in R as [R1 R2]; [|exact R1]. apply roomy_app. split; [exact R1|]. apply Forall_inv in R2. cbn [snd] in R2. rewrite app_length in R2.
  repeat constructor. cbn [snd]. lia.
Qed.
Lemma shorter_order l l' : forall from, onwards from (l ++ l') -> onwards from l.
Proof. induction l as [|x l IH]; intros from H; [exact I|]. destruct H as [H1 H2]. split; [exact H1|]. now apply IH. Qed.
Lemma told_prefix p bus read line xs r : forall dbi held, exists l, told_line p bus read line dbi held (xs ++ r) = told_line p bus read line dbi held xs ++ l.
Proof.
  induction xs as [|x xs IH]; intros dbi held; [eexists; reflexivity|]. cbn [app told_line]. destruct x as [c| | | | |]; try apply IH.
  destruct (sends read c && dbi && bus).
  - destruct (IH dbi (if last (line_flags p line c) false then Some (cmd_ts c * fi_rate p + burst_beats p true c) else None)) as (l & ->). exists l. now rewrite !app_assoc.
  - destruct (cmd_type c); try apply IH. destruct (IH dbi (still_held held (cmd_ts c))) as (l & ->). exists l. now rewrite !app_assoc.
Qed.
Lemma lines_prefix p bus xs r : lines_allowed p bus (xs ++ r) -> lines_allowed p bus xs.
Proof.
  intros H read line Hl. destruct (H read line Hl) as [A B]. destruct (told_prefix p bus read line xs r false None) as (l & E). rewrite E in A, B. cbv zeta.
  split; [eapply shorter_order; exact A|eapply shorter_room; exact B].
Qed.

Definition rest_level (p : ifspec) : pin_state := if dq_rests_high (fi_std p) then PinH else PinL.
Definition fresh_pin (p : ifspec) : pin := pin_new (pin_capacity (fi_std p)) (rest_level p) (rest_level p).

Section Calls.
Context (p : ifspec) (bus : bool) (i0 : iface) (B t : N).
Let M := Nat.max (flag_lines p) (N.to_nat (B / 8)).
Context (Sz : sizes_ok p) (N6 : fi_std p <> LPDDR6) (R0 : 0 < fi_rate p) (Tt : t * fi_rate p + 64 < two64).

Definition dbi_inv (xs : list call) (i : iface) : Prop :=
  fi_std p = DDR5 /\ if_dbi i = None \/
  lined p /\ (0 < flag_lines p)%nat /\ Nat.modulo (N.to_nat (dq_lines p)) 8 = 0%nat /\ exists dbi held x, lines_of p bus dbi held x i /\
    (forall read line r, (line < flag_lines p)%nat -> told_line p bus read line false None (xs ++ r) = told_line p bus read line false None xs ++ told_line p bus read line dbi (held read line) r) /\
    (forall read line, (line < flag_lines p)%nat -> pin_told (told_line p bus read line false None xs) (fresh_pin p) = Value (nth line (di_side x read) (fresh_pin p))) /\
    (forall read, sized M (db_side (di_dbi x) read)).

Lemma allowed_data c : dressed p bus c -> (transfers (cmd_type c) <> None -> 0 < burst_cycles p bus c) -> data_ok p c.
Proof using Sz R0.
  intros Dr C Sd. assert (transfers (cmd_type c) <> None /\ cmd_sz_bits c <> 0 /\ cmd_data c <> []) as (Tn & Z & Dn).
  { unfold sends in Sd. destruct (transfers (cmd_type c)); [|discriminate]. destruct (N.eqb_spec (cmd_sz_bits c) 0); [rewrite !andb_false_r in Sd; discriminate|]. destruct (cmd_data c); [rewrite !andb_false_r in Sd; discriminate|].
    repeat split; congruence. }
  pose proof Sz as (W0 & _). destruct (cycles_beats p bus c (C Tn) R0 W0) as [B1 B2].
  assert (burst_bits p true c = burst_bits p bus c) as Eb by (unfold burst_bits; rewrite (proj2 (N.eqb_neq _ _) Z); reflexivity).
  destruct (dr_bytes _ _ _ Dr Tn) as [H|[H1 H2]]; [contradiction|]. split; [exact H1|]. split; [exact H2|]. split; [rewrite Eb; exact B2|]. unfold burst_beats. rewrite Eb. exact (dr_end _ _ _ Dr Tn).
Qed.

Lemma dbi_next xc xs i i' : (forall c, xc = Do c -> data_ok p c) -> dbi_inv xs i -> call_do xc i = Value i' ->
  (fi_std p = DDR5 -> if_dbi i' = None) -> (forall x', if_dbi i' = Some x' -> forall read, sized M (db_side (di_dbi x') read)) -> dbi_inv (xs ++ [xc]) i'.
Proof using Sz.
  intros Ok [[V1 V2]|(Ln & Hn0 & W8 & dbi & held & x & V1 & V2 & V3 & V4)] E D5 Ss; [left; split; auto|right].
  destruct (call_told p bus (fresh_pin p) Ln Sz Hn0 xc dbi held x i i' Ok V1 E) as (dbi' & held' & x' & L' & G). split; [exact Ln|]. split; [exact Hn0|]. split; [exact W8|]. exists dbi', held', x'. split; [exact L'|].
  assert (forall read line, (line < flag_lines p)%nat -> exists l, (forall r, told_line p bus read line dbi (held read line) (xc :: r) = l ++ told_line p bus read line dbi' (held' read line) r) /\
    told_line p bus read line false None (xs ++ [xc]) = told_line p bus read line false None xs ++ l /\
    pin_told l (nth line (di_side x read) (fresh_pin p)) = Value (nth line (di_side x' read) (fresh_pin p))) as K.
  { intros read line Hl. destruct (G read line Hl) as (l & E1 & E2). exists l. split; [exact E1|]. split; [|exact E2]. rewrite V2 by exact Hl. rewrite E1. cbn [told_line]. now rewrite app_nil_r. }
  split; [|split].
  - intros read line r Hl. destruct (K read line Hl) as (l & E1 & E2 & _). rewrite E2, <- !app_assoc, V2 by exact Hl. cbn [app]. now rewrite E1.
  - intros read line Hl. destruct (K read line Hl) as (l & _ & E2 & E3). rewrite E2, told_app, V3 by exact Hl. exact E3.
  - destruct L' as (_ & _ & Lx & _). intros read. apply Ss. exact Lx.
Qed.

(* The lines take what one more call tells them. *)
Lemma line_goes xc xs x dbi (held : bool -> nat -> option N) : lines_allowed p bus (xs ++ [xc]) -> Forall (fun c => cmd_ts c <= t) (commands (xs ++ [xc])) ->
  (forall read line r, (line < flag_lines p)%nat -> told_line p bus read line false None (xs ++ r) = told_line p bus read line false None xs ++ told_line p bus read line dbi (held read line) r) ->
  (forall read line, (line < flag_lines p)%nat -> pin_told (told_line p bus read line false None xs) (fresh_pin p) = Value (nth line (di_side x read) (fresh_pin p))) ->
  forall read line, (line < flag_lines p)%nat -> exists q, pin_told (told_line p bus read line dbi (held read line) [xc]) (nth line (di_side x read) (fresh_pin p)) = Value q.
Proof using R0 Tt.
  intros La F V2 V3 read line Hl. destruct (La read line Hl) as [A Ro]. change line_storage with pin_capacity in Ro.
  assert (in_time (grouped (told_line p bus read line false None (xs ++ [xc])))) as It.
  { eapply roomy_time; [apply told_times; [exact R0|exact F]| |exact Ro]. assert (N.of_nat (pin_capacity (fi_std p)) <= 32) as C by (clear; destruct (fi_std p); cbn; lia). clear -C Tt. lia. }
  destruct (proj1 (line_exactly (pin_capacity (fi_std p)) (rest_level p) (rest_level p) _ It) (conj A Ro)) as (q & Q & _).
  change (pin_new (pin_capacity (fi_std p)) (rest_level p) (rest_level p)) with (fresh_pin p) in Q. rewrite V2, told_app, V3 in Q by exact Hl. exists q. exact Q.
Qed.

Lemma invert_ready c read xs i : calls_inv p bus i0 xs i -> dbi_inv xs i -> lines_allowed p bus (xs ++ [Do c]) -> Forall (fun c => cmd_ts c <= t) (commands (xs ++ [Do c])) ->
  transfers (cmd_type c) = Some read -> dressed p bus c -> same_size B bus c -> 0 < burst_cycles p bus c ->
  exists y, inverts c read i y /\ (fi_std p = DDR5 -> y = None) /\ (forall x', y = Some x' -> forall r, sized M (db_side (di_dbi x') r)).
Proof using Sz R0 Tt.
  intros Ci Di La F T Dr Ss C0. unfold inverts. destruct Di as [[V1 V2]|(Ln & Hn0 & W8 & dbi & held & x & V1 & V2 & V3 & V4)].
  { exists None. split; [|split; [reflexivity|discriminate]]. rewrite V2. destruct (cmd_sz_bits c =? 0); [reflexivity|]. exists None. unfold invert_data. rewrite V2. split; [reflexivity|exact I]. }
  assert (fi_std p <> DDR5) as N5 by (destruct Ln as [H|[H|H]]; rewrite H; discriminate).
  destruct V1 as (Vs & Vm & Vx & Vf). unfold invert_data. rewrite Vx, Vm, (fl_on _ _ _ _ Vf).
  destruct (N.eqb_spec (cmd_sz_bits c) 0) as [Z|Z].
  { exists (Some x). split; [reflexivity|]. split; [intros H; contradiction|]. intros x' Q. injection Q as <-. exact V4. }
  destruct (bus && dbi) eqn:On.
  2: { exists (Some x). split; [exists None; split; [reflexivity|exact I]|]. split; [intros H; contradiction|]. intros x' Q. injection Q as <-. exact V4. }
  apply andb_true_iff in On as [Eb Ed]. assert (transfers (cmd_type c) <> None) as Tn by (rewrite T; discriminate).
  pose proof (dr_data _ _ _ Dr Tn Eb) as Dn. rewrite data_of_some by exact Dn.
  assert (data_ok p c) as Ok by (apply allowed_data; [exact Dr|intros _; exact C0]).
  assert (forall r, sends r c = eqb read r) as Se.
  { intros r. unfold sends. rewrite T, (proj2 (N.eqb_neq _ _) Z). destruct (cmd_data c); [contradiction|]. now rewrite !andb_true_r. }
  assert (sends read c = true) as Sd by (rewrite Se; apply eqb_reflx).
  destruct (Ss Eb Tn) as [S1 S2].
  assert (N.to_nat (cmd_sz_bits c) = (8 * M)%nat) as HM.
  { destruct (Ok ltac:(destruct read; rewrite Sd, ?orb_true_r; reflexivity)) as (_ & _ & O3 & _).
    assert (burst_bits p true c = B) as Bb by (unfold burst_bits; rewrite (proj2 (N.eqb_neq _ _) Z), S1; destruct Ln as [H|[H|H]]; rewrite H; reflexivity). rewrite Bb in O3.
    assert (B = 8 * (B / 8)) as B8 by (apply N.div_exact; [lia|exact S2]).
    assert (flag_lines p = Nat.div (N.to_nat (dq_lines p)) 8) as Nn by (unfold flag_lines; destruct Ln as [H|[H|H]]; rewrite H; reflexivity).
    assert (flag_lines p <= N.to_nat (B / 8))%nat by (rewrite Nn; apply Nat.div_le_upper_bound; lia). unfold M. rewrite S1. lia. }
  subst dbi.
  destruct (burst_inverts p Ln Sz Hn0 held x c read (fresh_pin p) M Vf Sd Ok HM W8 V4) as (x' & l & E & El & Es).
  { intros line Hl. destruct (line_goes (Do c) xs x true held La F V2 V3 read line Hl) as (q & Q). exists q. cbn [told_line] in Q. rewrite Sd, Eb in Q. cbn [andb] in Q. rewrite app_nil_r in Q. exact Q. }
  exists (Some x'). rewrite E. cbn [bind fst snd]. split; [exists (Some l); split; [reflexivity|lia]|]. split; [intros H; contradiction|]. intros x2 Q. injection Q as <-. exact Es.
Qed.
Lemma end_ready c xs i : calls_inv p bus i0 xs i -> dbi_inv xs i -> lines_allowed p bus (xs ++ [Do c]) -> Forall (fun c => cmd_ts c <= t) (commands (xs ++ [Do c])) ->
  routing p (cmd_type c) = ToEnd ->
  exists j, end_of_simulation (cmd_ts c) i = Value j /\ (fi_std p = DDR5 -> if_dbi j = None) /\ (forall x', if_dbi j = Some x' -> forall r, sized M (db_side (di_dbi x') r)).
Proof using Sz R0 Tt.
  intros Ci Di La F Rt. destruct Di as [[V1 V2]|(Ln & Hn0 & W8 & dbi & held & x & V1 & V2 & V3 & V4)].
  { exists i. unfold end_of_simulation. rewrite V2. split; [reflexivity|]. split; [reflexivity|discriminate]. }
  assert (cmd_type c = END_OF_SIMULATION) as Ty by (clear -Rt; destruct (cmd_type c); cbn [routing] in Rt; try discriminate; try reflexivity; destruct (fi_std p); try discriminate; destruct (fi_arch p); discriminate).
  destruct V1 as (Vs & Vm & Vx & Vf). unfold end_of_simulation. rewrite Vx.
  destruct (end_goes p Ln Sz Hn0 dbi held x (cmd_ts c) (fresh_pin p) M Vf) as (x' & E & Es); [unfold M; lia|exact V4| |].
  { intros r line Hl. destruct (line_goes (Do c) xs x dbi held La F V2 V3 r line Hl) as (q & Q). exists q. cbn [told_line] in Q.
    assert (sends r c = false) as Sn by (unfold sends; rewrite Ty; reflexivity). rewrite Sn, Ty in Q. cbn [andb] in Q. rewrite app_nil_r in Q. exact Q. }
  rewrite E. cbn [bind]. eexists. split; [reflexivity|]. split; [intros H; destruct Ln as [K|[K|K]]; congruence|]. intros x2 Q. injection Q as <-. exact Es.
Qed.

Definition data_ends (xs : list call) (i : iface) : Prop := forall read, data_end bus (if_data i) read (last_end (bursts p bus read (commands xs))).

(* What is given back is long enough. *)
Lemma inverted_long c read xs i y l : calls_inv p bus i0 xs i -> dbi_inv xs i -> transfers (cmd_type c) = Some read -> dressed p bus c ->
  invert_data c read i = Value (y, Some l) -> cmd_sz_bits c <= 8 * N.of_nat (length l).
Proof using Sz R0 Tt.
  intros Ci Di T Dr E. unfold invert_data in E. destruct Di as [[V1 V2]|(Ln & Hn0 & W8 & dbi & held & x & (Vs & Vm & Vx & Vf) & _)]; [rewrite V2 in E; discriminate|].
  rewrite Vx, Vm, (fl_on _ _ _ _ Vf) in E. destruct (bus && dbi) eqn:On; [|discriminate]. apply andb_true_iff in On as [Eb Ed]. apply bind_inv in E as ([x' o] & E & Q). injection Q as _ Q. cbn [snd] in Q. subst o.
  assert (transfers (cmd_type c) <> None) as Tn by (rewrite T; discriminate). pose proof (dr_data _ _ _ Dr Tn Eb) as Dn. rewrite data_of_some in E by exact Dn.
  destruct (dr_bytes _ _ _ Dr Tn) as [H|[_ Fb]]; [contradiction|].
  destruct (N.eq_dec (cmd_sz_bits c) 0) as [Z|Z]; [rewrite Z; apply N.le_0_l|].
  assert (fi_std p <> DDR5) as N5 by (destruct Ln as [H|[H|H]]; rewrite H; discriminate).
  destruct (dbi_data_spec p x (cmd_ts c) (N.to_nat (cmd_sz_bits c)) (cmd_data c) read x' (Some l) N5 (fl_config _ _ _ _ Vf)) as (_ & _ & bytes & Q & R3 & R4 & _); auto.
  - rewrite (fl_on _ _ _ _ Vf). exact Ed.
  - lia.
  - destruct Sz as (W0 & W64 & _). rewrite (width_eq p W64). lia.
  - injection Q as <-. pose proof (Nat.div_mod (N.to_nat (cmd_sz_bits c)) 8 ltac:(lia)). lia.
Qed.

Context (Kr : ck_start (if_rdqs i0) = None) (Kw : ck_start (if_wdqs i0) = None) (Kk : two_clocks (fi_std p) = true -> fi_wck_on p = false -> ck_start (if_wck i0) = None).

Lemma six : fi_std p = LPDDR6 -> fi_groups p = 4.
Proof using N6. intros H. contradiction. Qed.

Lemma command_goes c xs i : calls_inv p bus i0 xs i -> dbi_inv xs i -> data_ends xs i -> trace_allowed p bus (commands xs) ->
  Forall (dressed p bus) (commands (xs ++ [Do c])) -> same_size B bus c -> Forall (fun c => cmd_ts c <= t) (commands (xs ++ [Do c])) ->
  trace_allowed p bus (commands (xs ++ [Do c])) -> lines_allowed p bus (xs ++ [Do c]) ->
  exists i', if_command c i = Value i' /\ calls_inv p bus i0 (xs ++ [Do c]) i' /\ dbi_inv (xs ++ [Do c]) i' /\ data_ends (xs ++ [Do c]) i'.
Proof using Sz N6 R0 Tt Kr Kw Kk.
  intros Ci Di De A0 Dr Ss F A La. rewrite commands_one in Dr, A. pose proof (allowed_fits _ _ _ Dr A) as Tf. apply Forall_app in Dr as [_ Dr]. apply Forall_inv in Dr.
  pose proof (ta_commands _ _ _ A) as Ac. apply Forall_app in Ac as [_ Ac]. apply Forall_inv in Ac.
  assert (exists y, (forall read, transfers (cmd_type c) = Some read -> inverts c read i y) /\ (routing p (cmd_type c) = ToEnd -> exists j, end_of_simulation (cmd_ts c) i = Value j /\ if_dbi j = y) /\
    (fi_std p = DDR5 -> y = None) /\ (forall x', y = Some x' -> forall r, sized M (db_side (di_dbi x') r))) as (y & Y1 & Y2 & Y3 & Y4).
  { destruct (transfers (cmd_type c)) as [read|] eqn:T.
    - destruct (invert_ready c read xs i Ci Di La F T Dr Ss) as (y & H1 & H2 & H3); [apply (ca_cycle _ _ _ Ac); rewrite T; discriminate|]. exists y. split; [intros r Q; injection Q as <-; exact H1|]. split; [|split; assumption].
      intros Rt. pose proof (transfers_routing p (cmd_type c)) as Tr. rewrite T in Tr. congruence.
    - destruct (routing p (cmd_type c)) eqn:Rt.
      3: { destruct (end_ready c xs i Ci Di La F Rt) as (j & H1 & H2 & H3). exists (if_dbi j). split; [discriminate|]. split; [intros _; exists j; split; [exact H1|reflexivity]|]. split; assumption. }
      all: exists None; (split; [discriminate|]); (split; [discriminate|]); split; [reflexivity|discriminate]. }
  destruct (inverted_step_goes p bus i0 xs c i y Sz R0 six Kr Kw Kk Tf Ci Y1 Y2) as (i' & E & Ci' & Z1 & Z2). exists i'. split; [exact E|]. split; [exact Ci'|]. split.
  - apply (dbi_next (Do c) xs i i'); [|exact Di|exact E| |].
    + intros c' Q. injection Q as <-. apply allowed_data; [exact Dr|exact (ca_cycle _ _ _ Ac)].
    + intros D5. destruct Di as [[_ Di]|(Ln & _)]; [|destruct Ln as [K|[K|K]]; congruence].
      destruct (transfers (cmd_type c)) eqn:T; [rewrite Z1 by (left; discriminate); now apply Y3|]. destruct (routing p (cmd_type c)) eqn:Rt; try (rewrite Z2; [exact Di|reflexivity|discriminate]). rewrite Z1 by now right. now apply Y3.
    + intros x' Ex. assert (if_dbi i' = y \/ if_dbi i' = if_dbi i) as [H|H].
      { destruct (transfers (cmd_type c)) eqn:T; [left; apply Z1; left; discriminate|]. destruct (routing p (cmd_type c)) eqn:Rt; try (right; apply Z2; [reflexivity|discriminate]). left. apply Z1. now right. }
      * apply Y4. congruence.
      * destruct Di as [[_ Di]|(_ & _ & _ & dbi & held & x & (_ & _ & Vx & _) & _ & _ & V4)]; [congruence|]. assert (x' = x) as -> by congruence. exact V4.
  - unfold data_ends. rewrite commands_one. refine (proj2 (inverted_step_needs p bus i0 xs c i i' Sz R0 six Ci De A0 Dr _ E)).
    intros read y' l T _ Q. exact (inverted_long c read xs i y' l Ci Di T Dr Q).
Qed.

(* The switches. *)
Lemma switch_goes xc xs i i' : plain_call xc -> (forall c, xc <> Do c) -> calls_inv p bus i0 xs i -> dbi_inv xs i -> data_ends xs i -> call_do xc i = Value i' ->
  calls_inv p bus i0 (xs ++ [xc]) i' /\ dbi_inv (xs ++ [xc]) i' /\ data_ends (xs ++ [xc]) i'.
Proof using Sz N6.
  intros Pl Nd Ci Di De E.
  assert (commands (xs ++ [xc]) = commands xs) as Cs by (rewrite commands_app; destruct xc as [c|e|a b|e|u|u]; try (destruct (Nd c eq_refl)); cbn; now rewrite app_nil_r).
  assert (if_data i' = if_data i /\ if_ranks i' = if_ranks i /\
    (if_dbi i' = if_dbi i \/ exists x d, if_dbi i = Some x /\ if_dbi i' = Some (di_with x d) /\ forall r, db_side d r = db_side (di_dbi x) r)) as (I1 & I2 & I3).
  { destruct xc as [c|e|a b|e|u|u]; try (destruct (Nd c eq_refl)); try contradiction; cbn [call_do] in E; apply value_inj in E; subst i'.
    - unfold if_enable_dbi. destruct (if_dbi i) as [x|] eqn:X; [|cbn [fst]; repeat split; now left]. destruct (match fi_std (if_spec i) with DDR4 => _ | _ => _ end); cbn [fst]; [repeat split; now left|].
      cbn [if_with_dbi if_with_data if_data if_ranks if_dbi]. repeat split. right. do 2 eexists. split; [reflexivity|]. split; [reflexivity|]. intros [|]; reflexivity.
    - repeat split. now left. }
  split; [|split].
  - destruct Ci as [C1 C2 C3]. constructor; rewrite ?Cs, ?I1, ?I2.
    + eapply run_step; try eassumption; [exact six|]. intros c H. destruct (Nd c H).
    + intros read. apply C2.
    + exact C3.
  - apply (dbi_next xc xs i i'); [intros c H; destruct (Nd c H)|exact Di|exact E| |].
    + intros D5. destruct Di as [[_ Di]|(Ln & _)]; [|destruct Ln as [K|[K|K]]; congruence]. destruct I3 as [->|(x & d & H & _)]; congruence.
    + intros x' Ex. destruct Di as [[_ Di]|(_ & _ & _ & dbi & held & x & (_ & _ & Vx & _) & _ & _ & V4)]; [destruct I3 as [H|(x & d & H & _)]; congruence|].
      destruct I3 as [H|(z & d & H1 & H2 & H3)]; [assert (x' = x) as -> by congruence; exact V4|]. assert (z = x) as -> by congruence. assert (x' = di_with x d) as -> by congruence. intros r. cbn [di_with di_dbi]. rewrite H3. apply V4.
  - intros read. rewrite Cs, I1. apply De.
Qed.
End Calls.

(* ---- the calls together ---- *)
Lemma allowed_app p bus cs cs' : trace_allowed p bus (cs ++ cs') -> trace_allowed p bus cs.
Proof.
  intros [F1 F2 F3 F4]. rewrite drives_app in F2. rewrite bursts_app in F3, F4. apply Forall_app in F1 as [F1 _]. constructor;
    [exact F1|eapply apart_app; exact F2|eapply overlap_app; exact F3|eapply overlap_app; exact F4].
Qed.
Lemma dbi_start p sim i0 B : sizes_ok p -> fi_std p <> LPDDR6 -> iface_new p sim = Value i0 -> dbi_inv p (no_toggle sim) B [] i0.
Proof.
  intros Sz N6 New. pose proof (bt_dbi _ _ _ (new_built _ _ _ New)) as D.
  assert (fi_std p = DDR5 \/ lined p) as [D5|Ln] by (unfold lined; destruct (fi_std p); auto; contradiction).
  { left. split; [exact D5|]. unfold new_dbi in D. rewrite D5 in D. now injection D as <-. }
  right. destruct (new_lines p sim i0 Ln Sz New) as (Hn0 & x & V & P). split; [exact Ln|]. split; [exact Hn0|]. destruct (lined_config p Ln Sz) as (Cd & Ca & Cs & Cc & Cw & Ci & Cn).
  assert (exists y cap, dbi_if_new (dbi_config_of p) cap (fi_rate p) false = Value y /\ if_dbi i0 = Some y) as (y & cap & Y & Iy).
  { unfold new_dbi in D. destruct Ln as [H|[H|H]]; rewrite H in *; apply bind_inv in D as (y & Y & D); injection D as <-; exists y; eexists; split; eauto. }
  unfold dbi_if_new in Y. rewrite Cn in Y. apply bind_inv in Y as (z & Z & Y). apply value_inj in Y. unfold dbi_new in Z. rewrite Cw in Z. apply check_inv in Z as [Mo Z]. apply value_inj in Z.
  apply Nat.eqb_eq in Mo. unfold chunk_size in Mo. rewrite Cs, Cd in Mo. cbn [Nat.mul Nat.add] in Mo.
  split; [exact Mo|]. exists false, (fun _ _ => None), x. split; [exact V|]. split; [reflexivity|]. split.
  - intros read line Hl. cbn [told_line pin_told]. f_equal. rewrite P. unfold fresh_pin, rest_level. now rewrite nth_repeat.
  - assert (x = y) as -> by (destruct V as (_ & _ & Vx & _); congruence). intros read. subst y z. unfold sized, db_side. destruct read; split; reflexivity.
Qed.

Theorem inverted_goes_on p sim i0 B t : sizes_ok p -> fi_std p <> LPDDR6 -> iface_new p sim = Value i0 -> t * fi_rate p + 64 < two64 ->
  forall xs, Forall plain_call xs -> Forall (dressed p (no_toggle sim)) (commands xs) -> Forall (same_size B (no_toggle sim)) (commands xs) -> Forall (fun c => cmd_ts c <= t) (commands xs) ->
  trace_allowed p (no_toggle sim) (commands xs) -> lines_allowed p (no_toggle sim) xs ->
  exists i, calls_run xs i0 = Value i /\ calls_inv p (no_toggle sim) i0 xs i /\ dbi_inv p (no_toggle sim) B xs i /\ data_ends p (no_toggle sim) xs i.
Proof.
  intros Sz N6 New Tt. destruct (start_goes p sim i0 Sz New) as (V0 & R0 & K1 & K2 & K3).
  induction xs as [|xc xs IH] using rev_ind; intros Pl Dr Ss Ft A La.
  - exists i0. split; [reflexivity|]. split; [|split; [now apply dbi_start|intros read; now apply (start_end p)]]. destruct V0 as [V1 V2 _ _ V3]. constructor; assumption.
  - apply Forall_app in Pl as [Pl1 Pl2]. apply Forall_inv in Pl2. pose proof (lines_prefix _ _ _ _ La) as La1.
    assert (trace_allowed p (no_toggle sim) (commands xs) /\ Forall (dressed p (no_toggle sim)) (commands xs) /\ Forall (same_size B (no_toggle sim)) (commands xs) /\ Forall (fun c => cmd_ts c <= t) (commands xs)) as (A1 & Dr1 & Ss1 & Ft1).
    { rewrite commands_app in *. apply Forall_app in Dr as [Dr _]. apply Forall_app in Ss as [Ss _]. apply Forall_app in Ft as [Ft _]. split; [eapply allowed_app; exact A|]. repeat split; assumption. }
    destruct (IH Pl1 Dr1 Ss1 Ft1 A1 La1) as (i & R & Ci & Di & De).
    assert (exists i', call_do xc i = Value i' /\ calls_inv p (no_toggle sim) i0 (xs ++ [xc]) i' /\ dbi_inv p (no_toggle sim) B (xs ++ [xc]) i' /\ data_ends p (no_toggle sim) (xs ++ [xc]) i') as (i' & E & Rest).
    { destruct xc as [c|e|a b|e|u|u]; try contradiction.
      - cbn [call_do]. apply (command_goes p (no_toggle sim) i0 B t Sz N6 R0 Tt K1 K2 K3); auto. rewrite commands_one in Ss. apply Forall_app in Ss as [_ Ss]. now apply Forall_inv in Ss.
      - eexists. split; [reflexivity|]. apply (switch_goes p (no_toggle sim) i0 B Sz N6 _ xs i); [exact Pl2|intros c; discriminate|exact Ci|exact Di|exact De|reflexivity].
      - eexists. split; [reflexivity|]. apply (switch_goes p (no_toggle sim) i0 B Sz N6 _ xs i); [exact Pl2|intros c; discriminate|exact Ci|exact Di|exact De|reflexivity]. }
    exists i'. split; [|exact Rest]. unfold calls_run. rewrite BusProofs.loop_app. unfold calls_run in R. rewrite R. cbn [bind loop]. rewrite E. reflexivity.
Qed.

Theorem inverted_exactly p sim i0 B t xs : sizes_ok p -> fi_std p <> LPDDR6 -> iface_new p sim = Value i0 -> t * fi_rate p + 64 < two64 ->
  Forall plain_call xs -> Forall (dressed p (no_toggle sim)) (commands xs) -> Forall (same_size B (no_toggle sim)) (commands xs) -> Forall (fun c => cmd_ts c <= t) (commands xs) ->
  ((exists i, calls_run xs i0 = Value i) <-> trace_allowed p (no_toggle sim) (commands xs) /\ lines_allowed p (no_toggle sim) xs).
Proof.
  intros Sz N6 New Tt Pl Dr Ss Ft. split.
  2: { intros [A La]. destruct (inverted_goes_on p sim i0 B t Sz N6 New Tt xs Pl Dr Ss Ft A La) as (i & R & _). now exists i. }
  intros (i & R). revert i Pl Dr Ss Ft R. destruct (start_goes p sim i0 Sz New) as (V0 & R0 & K1 & K2 & K3).
  induction xs as [|xc xs IH] using rev_ind; intros i Pl Dr Ss Ft R.
  - split; [constructor; [constructor|exact I|exact I|exact I]|]. intros read line _. cbn. split; [exact I|constructor].
  - unfold calls_run in R. rewrite BusProofs.loop_app in R. apply bind_inv in R as (j & R1 & R). cbn [loop] in R. apply bind_inv in R as (k & E & Q). apply value_inj in Q. subst k.
    assert (calls_run (xs ++ [xc]) i0 = Value i) as Rall by (unfold calls_run; rewrite BusProofs.loop_app, R1; cbn [bind loop]; rewrite E; reflexivity).
    apply Forall_app in Pl as [Pl1 Pl2]. apply Forall_inv in Pl2.
    assert (Forall (dressed p (no_toggle sim)) (commands xs) /\ Forall (same_size B (no_toggle sim)) (commands xs) /\ Forall (fun c => cmd_ts c <= t) (commands xs)) as (Dr1 & Ss1 & Ft1).
    { rewrite commands_app in *. apply Forall_app in Dr as [Dr _]. apply Forall_app in Ss as [Ss _]. apply Forall_app in Ft as [Ft _]. repeat split; assumption. }
    destruct (IH j Pl1 Dr1 Ss1 Ft1 R1) as [A1 La1].
    destruct (inverted_goes_on p sim i0 B t Sz N6 New Tt xs Pl1 Dr1 Ss1 Ft1 A1 La1) as (j' & R2 & Ci & Di & De). unfold calls_run in R2. rewrite R1 in R2. apply value_inj in R2. subst j'.
    assert (trace_allowed p (no_toggle sim) (commands (xs ++ [xc]))) as A.
    { destruct xc as [c|e|a b|e|u|u]; try contradiction; [|rewrite commands_app; cbn; now rewrite app_nil_r|rewrite commands_app; cbn; now rewrite app_nil_r].
      cbn [call_do] in E. rewrite commands_one in *. apply Forall_app in Dr as [_ Dr]. apply Forall_inv in Dr.
      refine (proj1 (inverted_step_needs p (no_toggle sim) i0 xs c j i Sz R0 (six p N6) Ci De A1 Dr _ E)).
      intros read y l T _ Q. exact (inverted_long p (no_toggle sim) i0 B t Sz R0 Tt c read xs j y l Ci Di T Dr Q). }
    split; [exact A|]. intros read line Hl. apply (flags_taken p sim i0 (xs ++ [xc]) i t Sz New); auto.
    pose proof (ta_commands _ _ _ A) as Ac. rewrite Forall_forall in *. intros c Hc. split; [now apply Ft|]. apply (allowed_data p (no_toggle sim) Sz R0); [now apply Dr|]. exact (ca_cycle _ _ _ (Ac c Hc)).
Qed.

(* ---- a full burst after a line was left inverted ---- *)
Lemma told_from p bus read line xs r : forall dbi held, exists l dbi' held', told_line p bus read line dbi held (xs ++ r) = l ++ told_line p bus read line dbi' held' r.
Proof.
  induction xs as [|x xs IH]; intros dbi held; [exists [], dbi, held; reflexivity|]. cbn [app told_line]. destruct x as [c| | | | |]; try apply IH.
  destruct (sends read c && dbi && bus).
  - destruct (IH dbi (if last (line_flags p line c) false then Some (cmd_ts c * fi_rate p + burst_beats p true c) else None)) as (l & d & h & ->). do 3 eexists. rewrite !app_assoc. reflexivity.
  - destruct (cmd_type c); try apply IH. destruct (IH dbi (still_held held (cmd_ts c))) as (l & d & h & ->). do 3 eexists. rewrite !app_assoc. reflexivity.
Qed.
Lemma told_together T l bs : bs <> [] -> exists g bits, grouped (l ++ map (fun b => (T, b)) bs) = g ++ [(T, bits)] /\ (length bs <= length bits)%nat.
Proof.
  induction bs as [|b bs IH] using rev_ind; intros N; [contradiction|]. rewrite map_app, app_assoc. cbn [map]. rewrite grouped_snoc. rewrite app_length. cbn [length].
  destruct bs as [|b' bs'] eqn:Eb.
  - cbn [map]. rewrite app_nil_r. destruct (grouped l) as [|d g] using rev_ind; [exists [], [b]; split; [reflexivity|cbn; lia]|]. clear IHg. destruct d as [t bits]. rewrite tell_last. cbn [fst snd].
    destruct (N.eqb_spec t T) as [->|Ne]; [exists g, (bits ++ [b]); split; [reflexivity|rewrite app_length; cbn; lia]|]. exists (g ++ [(t, bits)]), [b]. split; [reflexivity|cbn; lia].
  - rewrite <- Eb in *. destruct IH as (g & bits & -> & L); [rewrite Eb; discriminate|]. rewrite tell_last. cbn [fst snd]. rewrite N.eqb_refl. exists g, (bits ++ [b]). split; [reflexivity|]. rewrite app_length. cbn [length]. lia.
Qed.
Theorem full_burst p sim i0 pre a b read line t : sizes_ok p -> iface_new p sim = Value i0 -> no_toggle sim = true -> has_dbi p = true -> t * fi_rate p + 64 < two64 ->
  Forall (fun c => cmd_ts c <= t /\ data_ok p c) (commands pre ++ [a; b]) -> (line < flag_lines p)%nat -> sends read a = true -> sends read b = true ->
  last (line_flags p line a) false = true -> cmd_ts a * fi_rate p + burst_beats p true a < cmd_ts b * fi_rate p -> (pin_capacity (fi_std p) <= length (line_flags p line b))%nat ->
  forall i, calls_run (pre ++ [SetDbi true; Do a; Do b]) i0 <> Value i.
Proof.
  intros Sz New Bus Hd Tt F Hl Sa Sb Le Gap Full i R.
  assert (Forall (fun c => cmd_ts c <= t /\ data_ok p c) (commands (pre ++ [SetDbi true; Do a; Do b]))) as F' by (rewrite commands_app; exact F).
  destruct (flags_taken p sim i0 _ i t Sz New F' Tt R read line Hl) as [_ Ro].
  destruct (told_from p (no_toggle sim) read line pre [SetDbi true; Do a; Do b] false None) as (l & dbi & held & E). rewrite E in Ro. clear E.
  cbn [told_line] in Ro. rewrite Hd, Sa, Sb, Bus, Le in Ro. cbn [andb] in Ro. unfold back_to_rest at 2 in Ro. rewrite (proj2 (N.ltb_lt _ _) Gap), app_nil_r in Ro.
  set (bs := dq_rests_high (fi_std p) :: map (xorb (dq_rests_high (fi_std p))) (line_flags p line b)).
  assert ([(cmd_ts b * fi_rate p, dq_rests_high (fi_std p))] ++ map (fun b0 => (cmd_ts b * fi_rate p, xorb (dq_rests_high (fi_std p)) b0)) (line_flags p line b) = map (fun x => (cmd_ts b * fi_rate p, x)) bs) as E
    by (unfold bs; cbn [map app]; now rewrite map_map).
  rewrite E in Ro. rewrite !app_assoc in Ro.
  match type of Ro with roomy _ (grouped (?l ++ _)) => destruct (told_together (cmd_ts b * fi_rate p) l bs) as (g & bits & G & L); [discriminate|] end.
  rewrite G in Ro. apply roomy_app in Ro as [_ Ro]. apply Forall_inv in Ro. cbn [snd] in Ro. unfold bs in L. cbn [length] in L. rewrite map_length in L. lia.
Qed.
