(* The command bus of an interface shows exactly the encoded commands. *)
From Coq Require Import NArith List Bool Arith Lia.
From Verif Require Import Base Command CoreModel Bits BusModel WaveSpec BitFacts StorageProofs BusProofs BusMore ClockProofs ToggleModel DataProofs
  PinModel DbiModel DbiPinModel PatternModel PatternTables PatternSpec PatternProofs FormatModel InterfaceModel InterfaceSpec.
Import ListNotations.
Local Open Scope N_scope.
Ltac Zify.zify_post_hook ::= idtac.

(* ---- words ---- *)

Lemma words_length {A} width (p : list A) show : length (words_of width p show) = Nat.div (length p) width.
Proof. unfold words_of. now rewrite map_length, seq_length. Qed.

Lemma played_words {A} (p : list A) w (show : A -> bool) width len : (0 < width)%nat -> length p = (len * width)%nat ->
  (forall i d, nth_error p i = Some d -> N.testbit w (N.of_nat (length p - 1 - i)) = show d) ->
  played width (bytes_of_word (Nat.div (len * width + 7) 8) w) (len * width) = words_of width p show.
Proof.
  intros Hw Hl H. unfold played, payload_words, words_of. rewrite Hl, Nat.div_mul by lia.
  apply (nth_ext _ _ 0 0); [now rewrite rev_length, !map_length|].
  intros b Hb. rewrite rev_length, map_length, seq_length in Hb.
  rewrite rev_nth by (now rewrite map_length, seq_length). rewrite map_length, seq_length.
  set (f := fun i => word_of width (fun j => payload_bit _ (i * width + j))).
  set (g := fun b => word_of width (fun j => match nth_error p (b * width + (width - 1 - j)) with Some d => show d | None => false end)).
  rewrite (nth_indep _ 0 (f 0%nat)) by (rewrite map_length, seq_length; lia). rewrite map_nth, seq_nth by lia.
  rewrite (nth_indep (map g _) 0 (g 0%nat)) by (rewrite map_length, seq_length; lia). rewrite map_nth, seq_nth by lia.
  unfold f, g. cbn [Nat.add]. apply (bounded_eq width); try apply word_of_bound. intros j Hj.
  rewrite !level_word_of. rewrite (proj2 (Nat.ltb_lt _ _) Hj). cbn [andb].
  assert (len = b + S (len - S b))%nat as Hlen by lia. set (r := (len - S b)%nat) in *.
  assert (b * width + (width - 1 - j) < length p)%nat as Hp.
  { rewrite Hl, Hlen, Nat.mul_add_distr_r. cbn [Nat.mul]. lia. }
  destruct (nth_error p (b * width + (width - 1 - j))) as [d|] eqn:E; [|apply nth_error_None in E; lia].
  rewrite <- (H _ _ E). rewrite bytes_payload.
  - f_equal. f_equal. rewrite Hl, Hlen, Nat.mul_add_distr_r. cbn [Nat.mul]. lia.
  - pose proof (Nat.div_mod (len * width + 7) 8 ltac:(lia)) as D. pose proof (Nat.mod_upper_bound (len * width + 7) 8 ltac:(lia)).
    assert (r * width + j < len * width)%nat by (rewrite Hlen, Nat.mul_add_distr_r; cbn [Nat.mul]; lia). lia.
Qed.

(* ---- settings ---- *)

(* The descriptors a burst changes. *)
Definition burst_desc (s : standard) (d : desc) : bool :=
  match s, d with
  | DDR4, DC k => Nat.leb k 2
  | DDR5, DC k => Nat.eqb k 2 || Nat.eqb k 3 || Nat.eqb k 10
  | LPDDR4, DC k => Nat.eqb k 2 || Nat.eqb k 3 || Nat.eqb k 4
  | LPDDR4, DBL => true
  | LPDDR5, DC k => Nat.eqb k 0
  | _, _ => false
  end.
Definition as_spec (b : bool) : bit_spec := if b then SpecH else SpecL.
Definition spec_level (s : standard) (burst : option (N * bool)) (d : desc) : option bit_spec := option_map as_spec (fixed_level s burst d).
Definition over_inv (s : standard) (o : overrides) : Prop := forall d, burst_desc s d = false -> ov_find o d = spec_level s None d.
Definition std_overrides (s : standard) : overrides -> N -> bool -> overrides :=
  match s with DDR4 => ddr4_overrides | DDR5 => ddr5_overrides | LPDDR4 => lpddr4_overrides | _ => lpddr5_overrides end.

(* A burst fixes all of its descriptors, whatever they were before. *)
Lemma overrides_exact s o n read : over_inv s o -> s <> LPDDR6 -> forall d, ov_find (std_overrides s o n read) d = spec_level s (Some (n, read)) d.
Proof.
  intros V S d. specialize (V d). destruct s; [| | | |contradiction].
  - cbn [std_overrides]. unfold ddr4_overrides, spec_level.
    destruct (n =? 4) eqn:E, read; unfold ov_update; cbn [fold_left fst snd]; rewrite !find_assign;
      destruct d as [| | | |k|k|k|[|[|[|k]]]|k|k| |]; cbn [desc_eqb Nat.eqb fixed_level negb andb]; rewrite ?E; cbn [negb option_map as_spec]; try reflexivity; apply V; reflexivity.
  - cbn [std_overrides]. unfold ddr5_overrides, spec_level. cbv zeta.
    destruct (N.eqb_spec n 8) as [->|E8]; [|destruct (N.eqb_spec n 32) as [->|E32]]; destruct read; unfold ov_update; cbn [fold_left fst snd]; rewrite ?find_assign, ?find_remove, ?find_assign;
      destruct d as [| | | |k|k|k|[|[|[|[|[|[|[|[|[|[|[|k]]]]]]]]]]]|k|k| |]; cbn [desc_eqb Nat.eqb fixed_level negb andb];
      rewrite ?(proj2 (N.eqb_neq _ _) E8), ?(proj2 (N.eqb_neq _ _) E32); cbn [negb option_map as_spec N.eqb Pos.eqb]; try reflexivity; apply V; reflexivity.
  - cbn [std_overrides]. unfold lpddr4_overrides, spec_level.
    destruct (n =? 32) eqn:E; unfold ov_update; cbn [fold_left fst snd]; rewrite ?find_assign, ?find_remove;
      destruct d as [| | | |k|k|k|[|[|[|[|[|k]]]]]|k|k| |]; cbn [desc_eqb Nat.eqb fixed_level]; rewrite ?E; cbn [option_map as_spec]; try reflexivity; apply V; reflexivity.
  - cbn [std_overrides]. unfold lpddr5_overrides, spec_level.
    destruct (n =? 32) eqn:E; unfold ov_update; cbn [fold_left fst snd]; rewrite ?find_assign, ?find_remove;
      destruct d as [| | | |k|k|k|[|k]|k|k| |]; cbn [desc_eqb Nat.eqb fixed_level]; rewrite ?E; cbn [option_map as_spec]; try reflexivity; apply V; reflexivity.
Qed.

Lemma fixed_independent s b d : burst_desc s d = false -> fixed_level s b d = fixed_level s None d.
Proof.
  destruct b as [[n r]|]; [|reflexivity].
  destruct s, d as [| | | |k|k|k|[|[|[|[|[|[|[|[|[|[|[|k]]]]]]]]]]]|k|k| |]; cbn; intros H; try reflexivity; discriminate.
Qed.
Lemma overrides_inv s o n read : over_inv s o -> s <> LPDDR6 -> over_inv s (std_overrides s o n read).
Proof. intros V S d H. rewrite overrides_exact by assumption. unfold spec_level. now rewrite fixed_independent. Qed.

Lemma demanded_shown s burst o last c pos d : ov_find o d = spec_level s burst d -> demanded o last c pos d = shown s burst c d.
Proof.
  intros H. unfold demanded, shown. rewrite H. unfold spec_level.
  assert (settable d = false -> fixed_level s burst d = None) as F.
  { destruct burst as [[n r]|], s, d as [| | | |k|k|k|[|[|[|[|[|[|[|[|[|[|[|k]]]]]]]]]]]|k|k| |]; cbn; intros X; try reflexivity; try discriminate. }
  destruct (settable d); [|now rewrite F]. destruct (fixed_level s burst d) as [[]|]; reflexivity.
Qed.

(* Commands that are not bursts have no such descriptor. *)
Definition plain_ok (s : standard) (m : CmdType -> list desc) : bool :=
  forallb (fun t => match transfers t with Some _ => true | None => forallb (fun d => negb (burst_desc s d)) (m t) end) (COUNT :: all_cmd_types).
Definition lengths_ok (width : nat) (m : CmdType -> nat) : bool :=
  forallb (fun t => Nat.eqb (Nat.modulo (m t) width) 0) (COUNT :: all_cmd_types).
Lemma every_type t : In t (COUNT :: all_cmd_types).
Proof. destruct (all_types t) as [H| ->]; [now right|now left]. Qed.
Lemma plain_tables p : plain_ok (fi_std p) (table_of p) = true.
Proof. unfold table_of. destruct (fi_std p); [| | | |reflexivity]; try (vm_compute; reflexivity). destruct (fi_arch p); vm_compute; reflexivity. Qed.
Lemma plain_desc p t d : transfers t = None -> In d (table_of p t) -> burst_desc (fi_std p) d = false.
Proof.
  intros T I. pose proof (plain_tables p) as H. unfold plain_ok in H. rewrite forallb_forall in H. specialize (H t (every_type t)). rewrite T in H.
  rewrite forallb_forall in H. specialize (H d I). now destruct (burst_desc (fi_std p) d).
Qed.
Lemma table_lengths p : lengths_ok (ca_pins (fi_std p)) (fun t => length (table_of p t)) = true.
Proof. unfold table_of. destruct (fi_std p); [| | | |reflexivity]; try (vm_compute; reflexivity). destruct (fi_arch p); vm_compute; reflexivity. Qed.
Lemma lpddr6_lengths : lengths_ok 4 (fun t => length (lpddr6_patterns t)) = true.
Proof. vm_compute. reflexivity. Qed.
Lemma lengths_at width m t : (0 < width)%nat -> lengths_ok width m = true -> m t = (Nat.div (m t) width * width)%nat.
Proof.
  intros Hw H. unfold lengths_ok in H. rewrite forallb_forall in H. specialize (H t (every_type t)). apply Nat.eqb_eq in H.
  pose proof (Nat.div_mod (m t) width ltac:(lia)) as D. rewrite H in D. lia.
Qed.
Lemma lpddr6_third t : nth_error (lpddr6_patterns t) 2 <> Some EPAR.
Proof. destruct t; cbn; discriminate. Qed.
Definition burst_desc6 (d : desc6) : bool := match d with EC 0 | EBL => true | _ => false end.
Lemma lpddr6_plain t d : transfers t = None -> In d (lpddr6_patterns t) -> burst_desc6 d = false.
Proof.
  assert (forallb (fun t => match transfers t with Some _ => true | None => forallb (fun d => negb (burst_desc6 d)) (lpddr6_patterns t) end) (COUNT :: all_cmd_types) = true) as H
    by (vm_compute; reflexivity).
  intros T I. rewrite forallb_forall in H. specialize (H t (every_type t)). rewrite T in H. rewrite forallb_forall in H. specialize (H d I). now destruct (burst_desc6 d).
Qed.

(* ---- the encoder's state ---- *)
Definition pat_inv (p : ifspec) (h : patterns) : Prop :=
  match h with
  | Pat h => fi_std p <> LPDDR6 /\ ph_map h = table_of p /\ over_inv (fi_std p) (ph_over h)
  | Pat6 h => fi_std p = LPDDR6 /\ p6_map h = lpddr6_patterns /\ ex_groups (p6_extra h) = fi_groups p
  end.
(* Ready for this command: the settings are those of its burst. *)
Definition pat_ready (p : ifspec) (bus : bool) (c : Command) (h : patterns) : Prop :=
  match transfers (cmd_type c) with
  | None => True
  | Some read =>
      match h with
      | Pat h => forall d, ov_find (ph_over h) d = spec_level (fi_std p) (Some (burst_beats p bus c, read)) d
      | Pat6 h => ex_burst (p6_extra h) = burst_beats p bus c
      end
  end.

Lemma new_pat_inv p : pat_inv p (new_patterns p).
Proof.
  unfold new_patterns, pat_inv, table_of. destruct (fi_std p) eqn:S; cbn [ph_map ph_over ddr4_handler ddr5_handler lpddr4_handler lpddr5_handler lpddr6_handler p6_map p6_extra ex_groups];
    (split; [try discriminate; reflexivity|]); (split; [reflexivity|]); try reflexivity; intros d H;
    destruct d as [| | | |k|k|k|[|[|[|[|[|[|[|[|[|[|[|k]]]]]]]]]]]|k|k| |]; cbn in H |- *; try reflexivity; discriminate.
Qed.

Lemma check_inv {A} b (k : result A) x : check b k = Value x -> b = true /\ k = Value x.
Proof. destruct b; [auto|discriminate]. Qed.
Lemma bind_inv {A B} (m : result A) (k : A -> result B) y : bind m k = Value y -> exists x, m = Value x /\ k x = Value y.
Proof. destruct m; [eauto|discriminate]. Qed.

(* What the encoder hands to the bus plays as the words of the command. *)
Lemma command_bus_word p bus c i i' : pat_inv p (if_pat i) -> (fi_std p = LPDDR6 -> fi_groups p = 4) -> pat_ready p bus c (if_pat i) ->
  b_width (if_cmd i) = ca_pins (fi_std p) ->
  handle_command_bus c i = Value i' ->
  exists w len h b, i' = if_with_cmd i b h /\ pat_inv p h /\
    (0 < len)%nat /\ (len * ca_pins (fi_std p) <= 64)%nat /\
    bus_load (if_cmd i) (cmd_ts c) (bytes_of_word (Nat.div (len * ca_pins (fi_std p) + 7) 8) w) (len * ca_pins (fi_std p)) = Value b /\
    played (ca_pins (fi_std p)) (bytes_of_word (Nat.div (len * ca_pins (fi_std p) + 7) 8) w) (len * ca_pins (fi_std p)) = command_words p bus c.
Proof.
  intros V G R W E. unfold handle_command_bus in E. destruct (if_pat i) as [h|h].
  - destruct V as (S & M & V). destruct h as [o m last]. cbn [ph_map ph_over] in *. subst m.
    apply bind_inv in E as ([w h'] & C & E). pose proof C as C'. apply command_pattern_encode in C' as [Nn C'].
    unfold command_pattern in C. cbn [ph_map ph_over ph_last] in C.
    assert (h' = mkHandler o (table_of p) w) as ->.
    { destruct (table_of p (cmd_type c)) as [|d0 r]; [discriminate|]. apply bind_inv in C as (x & C1 & C2). congruence. }
    apply bind_inv in E as (b & L & E). cbn [fst snd] in *. unfold bus_load_word in L. apply check_inv in L as [L64 L].
    rewrite W in *. apply Nat.leb_le in L64.
    set (width := ca_pins (fi_std p)) in *. assert (0 < width)%nat as Hw by (unfold width; destruct (fi_std p); cbn; lia).
    pose proof (lengths_at width _ (cmd_type c) Hw (table_lengths p)) as Hl. cbv beta in Hl. set (len := Nat.div (length (table_of p (cmd_type c))) width) in *.
    exists w, len, (Pat (mkHandler o (table_of p) w)), b. split; [congruence|]. split; [now split|].
    split. { destruct len; [|lia]. destruct (table_of p (cmd_type c)); [contradiction|]. discriminate. }
    split; [exact L64|]. split; [exact L|].
    rewrite (played_words (table_of p (cmd_type c)) w (shown (fi_std p) (match transfers (cmd_type c) with Some read => Some (burst_beats p bus c, read) | None => None end) (coord_of c)) width len Hw Hl).
    + unfold command_words, width. destruct (fi_std p); try reflexivity. contradiction.
    + intros k d Hk. destruct (encode_places _ _ _ _ _ C') as [P _]. rewrite (P k d Hk). apply demanded_shown.
      unfold pat_ready in R. cbn [ph_over] in R. destruct (transfers (cmd_type c)) as [read|] eqn:T; [apply R|].
      apply V. apply (plain_desc p (cmd_type c)); [exact T|]. eapply nth_error_In. exact Hk.
  - destruct V as (S & M & V). destruct h as [e m last]. cbn [p6_map p6_extra] in *. subst m. specialize (G S).
    apply bind_inv in E as ([w h'] & C & E). unfold command_pattern6 in C. cbn [p6_map p6_extra p6_last] in C.
    destruct (lpddr6_patterns (cmd_type c)) as [|d0 r] eqn:Pt; [discriminate|]. rewrite <- Pt in *. assert (lpddr6_patterns (cmd_type c) <> []) as Nn by (rewrite Pt; discriminate). clear Pt.
    apply bind_inv in C as (x & C & C2). apply value_inj in C2 || injection C2 as C2 C3. subst.
    apply bind_inv in E as (b & L & E). cbn [fst snd] in *. unfold bus_load_word in L. apply check_inv in L as [L64 L].
    rewrite W in *. apply Nat.leb_le in L64. rewrite S in *. cbn [ca_pins] in *.
    pose proof (lengths_at 4 _ (cmd_type c) ltac:(lia) lpddr6_lengths) as Hl. cbv beta in Hl. set (len := Nat.div (length (lpddr6_patterns (cmd_type c))) 4) in *.
    exists w, len, (Pat6 (mkHandler6 e lpddr6_patterns w)), b. split; [congruence|]. split; [cbn [pat_inv p6_map p6_extra]; now rewrite S|].
    split. { destruct len; [|lia]. destruct (lpddr6_patterns (cmd_type c)); [contradiction|]. discriminate. }
    split; [exact L64|]. split; [exact L|].
    rewrite (played_words (lpddr6_patterns (cmd_type c)) w (demanded6 (mkExtra (burst_beats p bus c) 4 false) (coord_of c)) 4 len ltac:(lia) Hl).
    + unfold command_words. now rewrite S.
    + intros k d Hk. assert (ex_groups e = 4) as Ge by congruence. destruct (encode6_places e (coord_of c) _ _ Ge C (lpddr6_third (cmd_type c))) as [P _].
      rewrite (P k d Hk). unfold pat_ready in R. cbn [p6_extra] in R. destruct (transfers (cmd_type c)) as [read|] eqn:T.
      * destruct d as [| | | |z|z|z|[|z]|z| | |]; cbn [demanded6 ex_burst]; rewrite ?R; reflexivity.
      * pose proof (lpddr6_plain (cmd_type c) d T (nth_error_In _ _ Hk)) as B. destruct d as [| | | |z|z|z|[|z]|z| | |]; try discriminate; reflexivity.
Qed.

(* ---- one command ---- *)

(* Sizes the interface computes without overflow. *)

Record effect (p : ifspec) (bus : bool) (c : Command) (i i' : iface) : Prop := {
  ef_spec : if_spec i' = if_spec i;
  ef_clock : if_clock i' = if_clock i;
  ef_pat : pat_inv p (if_pat i');
  ef_mode : d_mode (if_data i') = d_mode (if_data i);
  ef_cmd : if silent (fi_std p) (cmd_type c) then if_cmd i' = if_cmd i
           else exists bytes len, (0 < len)%nat /\ (len * ca_pins (fi_std p) <= 64)%nat /\ (len * ca_pins (fi_std p) <= 8 * length bytes)%nat /\
             bus_load (if_cmd i) (cmd_ts c) bytes (len * ca_pins (fi_std p)) = Value (if_cmd i') /\
             played (ca_pins (fi_std p)) bytes (len * ca_pins (fi_std p)) = command_words p bus c;
  ef_rdqs : clock_run (strobe p bus wants_read [c]) (if_rdqs i) = Value (if_rdqs i');
  ef_wdqs : if two_clocks (fi_std p) then if_wdqs i' = if_wdqs i else clock_run (strobe p bus negb [c]) (if_wdqs i) = Value (if_wdqs i');
  ef_wck : if two_clocks (fi_std p) && negb (fi_wck_on p) then clock_run (strobe p bus wants_any [c]) (if_wck i) = Value (if_wck i')
           else if_wck i' = if_wck i;
  ef_data : match transfers (cmd_type c) with
            | None => if_data i' = if_data i
            | Some read =>
                if bus && (cmd_sz_bits c =? 0) then if_data i' = if_data i
                else exists payload, data_do (DLoad read (cmd_ts c) (N.to_nat (burst_bits p bus c)) payload) (if_data i) = Value (if_data i')
            end;
  ef_last : if_last i' = cmd_ts c
}.

Lemma width_eq p : dq_lines p < two64 -> data_width p = dq_lines p.
Proof. intros H. unfold data_width, u64_mul, dq_lines in *. now rewrite N.mod_small. Qed.

Lemma data_load_mode read d t n data d' : load_data d read t n data = Value d' -> d_mode d' = d_mode d.
Proof.
  unfold load_data, data_load_read, data_load_write. destruct read; intros E; apply bind_inv in E as (x & _ & E); injection E as <-; reflexivity.
Qed.
Lemma load_data_do read d t n data : load_data d read t n data = data_do (DLoad read t n data) d.
Proof. destruct read; reflexivity. Qed.

Lemma format_bits wild meta old data n inv r k : format_data wild meta old data n inv = Value (r, k) -> k = (9 * n / 8)%nat /\ (n = 256 \/ n = 512)%nat.
Proof.
  unfold format_data. intros E. apply check_inv in E as [C E]. apply orb_true_iff in C.
  assert (n = 256 \/ n = 512)%nat as Hn by (destruct C as [C|C]; apply Nat.eqb_eq in C; rewrite <- C; [left|right]; reflexivity).
  split; [|exact Hn]. destruct data as [d|].
  - destruct Hn; subst n; cbn [Nat.eqb] in E;
      apply bind_inv in E as (x & _ & E); injection E as _ <-; reflexivity.
  - destruct Hn; subst n; injection E as _ <-; reflexivity.
Qed.

(* The part that loads the data bus. *)
Lemma burst_effect p bus c read i x : if_spec i = p -> is_bus (d_mode (if_data i)) = bus -> sizes_ok p ->
  handle_burst c read i = Value x ->
  exists d y buf, x = (if_with_data i d y buf, burst_beats p bus c) /\ d_mode d = d_mode (if_data i) /\
    (if bus && (cmd_sz_bits c =? 0) then d = if_data i
     else exists payload, data_do (DLoad read (cmd_ts c) (N.to_nat (burst_bits p bus c)) payload) (if_data i) = Value d).
Proof.
  intros Sp Mo (W0 & W64 & B64) E. unfold handle_burst in E. unfold bus_lines in E. rewrite Sp in E. rewrite (width_eq p W64) in E.
  unfold burst_beats, burst_bits.
  destruct (cmd_sz_bits c =? 0) eqn:Z.
  - rewrite andb_true_r. destruct (d_mode (if_data i)) eqn:M; cbn [is_bus] in Mo; subst bus.
    + exists (if_data i), (if_dbi i), (if_buf i). apply value_inj in E || injection E as E. subst x. rewrite N.div_0_l by lia. split; [|split; [exact M|reflexivity]].
      destruct i; reflexivity.
    + unfold u64_mul in E. rewrite (N.mod_small (fi_burst p * dq_lines p)) in E by exact B64. apply bind_inv in E as (d & L & E). injection E as <-.
      exists d, (if_dbi i), (if_buf i). rewrite N.div_mul by lia. split; [reflexivity|]. split; [rewrite <- M; eapply data_load_mode; exact L|].
      cbn [andb]. exists None. rewrite <- load_data_do. exact L.
  - rewrite andb_false_r. destruct (N.eqb_spec (dq_lines p) 0); [lia|]. apply bind_inv in E as (v & _ & E). cbv zeta in E.
    set (data := match snd v with Some l => Some l | None => data_of c end) in *.
    assert (forall d y buf, load_data (if_data i) read (cmd_ts c) (N.to_nat (cmd_sz_bits c)) data = Value d -> x = (if_with_data i d y buf, cmd_sz_bits c / dq_lines p) ->
      exists d y buf, x = (if_with_data i d y buf, cmd_sz_bits c / dq_lines p) /\ d_mode d = d_mode (if_data i) /\
      exists payload, data_do (DLoad read (cmd_ts c) (N.to_nat (cmd_sz_bits c)) payload) (if_data i) = Value d) as K.
    { intros d y buf L ->. exists d, y, buf. split; [reflexivity|]. split; [eapply data_load_mode; exact L|]. exists data. rewrite <- load_data_do. exact L. }
    destruct (fi_std p); try (apply bind_inv in E as (d & L & E); injection E as <-; eapply K; [exact L|reflexivity]).
    apply bind_inv in E as ([r k] & F & E). apply format_bits in F as [Hk Hn]. cbn [fst snd] in E. apply bind_inv in E as (d & L & E). injection E as <-. subst k.
    exists d, (fst v), (match r with Some b => b | None => if_buf i end).
    assert (N.of_nat (9 * N.to_nat (cmd_sz_bits c) / 8) = 9 * cmd_sz_bits c / 8) as Q.
    { destruct Hn as [Hn|Hn]; rewrite Hn; assert (cmd_sz_bits c = N.of_nat (N.to_nat (cmd_sz_bits c))) as -> by lia; rewrite Hn; reflexivity. }
    rewrite Q. split; [reflexivity|]. split; [eapply data_load_mode; exact L|]. exists r.
    rewrite <- load_data_do. rewrite <- Q, Nat2N.id. exact L.
Qed.

Lemma pulse_run k t n rate k' : t + n / rate < two64 -> pulse k t n rate = Value k' -> clock_run [Start t; Stop (t + n / rate)] k = Value k'.
Proof.
  intros H E. unfold pulse in E. destruct (rate =? 0); [discriminate|]. apply bind_inv in E as (k1 & E1 & E2).
  unfold clock_run. cbn [loop clock_do]. rewrite E1. cbn [bind]. unfold u64_add in E2. rewrite N.mod_small in E2 by exact H. rewrite E2. reflexivity.
Qed.

Lemma strobe_one p bus want c read : transfers (cmd_type c) = Some read ->
  strobe p bus want [c] = if want read then [Start (cmd_ts c); Stop (cmd_ts c + burst_beats p bus c / fi_rate p)] else [].
Proof. intros T. unfold strobe. cbn [flat_map]. rewrite T. destruct (want read); reflexivity. Qed.
Lemma strobe_none p bus want c : transfers (cmd_type c) = None -> strobe p bus want [c] = [].
Proof. intros T. unfold strobe. cbn [flat_map]. rewrite T. reflexivity. Qed.

Lemma dqs_effect p bus c read i i' : if_spec i = p -> transfers (cmd_type c) = Some read -> cmd_ts c + burst_cycles p bus c < two64 ->
  handle_dqs c read (burst_beats p bus c) i = Value i' ->
  exists r w k, i' = if_with_clocks i r w k /\
    clock_run (strobe p bus wants_read [c]) (if_rdqs i) = Value r /\
    (if two_clocks (fi_std p) then w = if_wdqs i else clock_run (strobe p bus negb [c]) (if_wdqs i) = Value w) /\
    (if two_clocks (fi_std p) && negb (fi_wck_on p) then clock_run (strobe p bus wants_any [c]) (if_wck i) = Value k else k = if_wck i).
Proof.
  intros Sp T H E. unfold handle_dqs in E. rewrite Sp in E. rewrite !(strobe_one p bus _ c read T). unfold burst_cycles in H.
  assert (forall k, clock_run [] k = Value k) as N0 by reflexivity.
  assert (match fi_std p with LPDDR5 | LPDDR6 => True | _ => False end \/ match fi_std p with LPDDR5 | LPDDR6 => False | _ => True end) as [Q|Q] by (destruct (fi_std p); auto).
  - assert (two_clocks (fi_std p) = true) as -> by (destruct (fi_std p); try destruct Q; reflexivity).
    assert (exists r k, (if read then pulse (if_rdqs i) (cmd_ts c) (burst_beats p bus c) (fi_rate p) else Value (if_rdqs i)) = Value r /\
      (if fi_wck_on p then Value (if_wck i) else pulse (if_wck i) (cmd_ts c) (burst_beats p bus c) (fi_rate p)) = Value k /\ i' = if_with_clocks i r (if_wdqs i) k) as (r & k & E1 & E2 & ->).
    { destruct (fi_std p); try destruct Q; apply bind_inv in E as (r & E1 & E); apply bind_inv in E as (k & E2 & E); injection E as <-; eauto. }
    exists r, (if_wdqs i), k. split; [reflexivity|]. split; [|split; [reflexivity|]].
    + unfold wants_read. destruct read; [now apply pulse_run|]. rewrite N0. exact E1.
    + cbn [andb]. destruct (fi_wck_on p); cbn [negb]; [injection E2 as <-; reflexivity|]. unfold wants_any. now apply pulse_run.
  - assert (two_clocks (fi_std p) = false) as -> by (destruct (fi_std p); try destruct Q; reflexivity). cbn [andb].
    assert ((if read then k <- pulse (if_rdqs i) (cmd_ts c) (burst_beats p bus c) (fi_rate p) ;; Value (if_with_clocks i k (if_wdqs i) (if_wck i))
             else k <- pulse (if_wdqs i) (cmd_ts c) (burst_beats p bus c) (fi_rate p) ;; Value (if_with_clocks i (if_rdqs i) k (if_wck i))) = Value i') as E'
      by (destruct (fi_std p); try destruct Q; exact E).
    clear E. unfold wants_read. destruct read; cbn [negb]; apply bind_inv in E' as (k & E1 & E); injection E as <-; do 3 eexists; (split; [reflexivity|]).
    + split; [now apply pulse_run|]. split; [apply N0|reflexivity].
    + split; [apply N0|]. split; [now apply pulse_run|reflexivity].
Qed.


Lemma transfers_routing p t : match transfers t with Some read => routing p t = ToData read | None => forall read, routing p t <> ToData read end.
Proof. destruct t; cbn; try reflexivity; intros read; destruct (fi_std p); try discriminate; destruct (fi_arch p); discriminate. Qed.

Lemma bytes_length n w : length (bytes_of_word n w) = n.
Proof. unfold bytes_of_word. now rewrite map_length, seq_length. Qed.
Lemma byte_count k : (k <= 8 * Nat.div (k + 7) 8)%nat.
Proof. pose proof (Nat.div_mod (k + 7) 8 ltac:(lia)). pose proof (Nat.mod_upper_bound (k + 7) 8 ltac:(lia)). lia. Qed.

Lemma overrides_ready p bus c read i : if_spec i = p -> pat_inv p (if_pat i) -> transfers (cmd_type c) = Some read ->
  pat_inv p (if_pat (handle_overrides i (burst_beats p bus c) read)) /\
  pat_ready p bus c (if_pat (handle_overrides i (burst_beats p bus c) read)).
Proof.
  intros Sp V T. unfold handle_overrides, pat_ready. rewrite T. destruct (if_pat i) as [h|h]; cbn [if_pat if_with_pat if_with_cmd].
  - destruct V as (S & M & V). rewrite Sp.
    change (match fi_std p with DDR4 => ddr4_overrides | DDR5 => ddr5_overrides | LPDDR4 => lpddr4_overrides | _ => lpddr5_overrides end)
      with (std_overrides (fi_std p)). split; [|intros d; cbn [with_overrides ph_over]; now apply overrides_exact].
    cbn [pat_inv with_overrides ph_map ph_over]. split; [exact S|]. split; [exact M|]. now apply overrides_inv.
  - split; [exact V|reflexivity].
Qed.

Lemma overrides_spec i n read : exists h, handle_overrides i n read = if_with_pat i h.
Proof. unfold handle_overrides. destruct (if_pat i); eexists; reflexivity. Qed.

Lemma command_effect p bus c i i' : if_spec i = p -> is_bus (d_mode (if_data i)) = bus -> sizes_ok p -> pat_inv p (if_pat i) ->
  (fi_std p = LPDDR6 -> fi_groups p = 4) -> b_width (if_cmd i) = ca_pins (fi_std p) -> cmd_ts c + burst_cycles p bus c < two64 ->
  if_command c i = Value i' -> effect p bus c i i'.
Proof.
  intros Sp Mo Sz V G W T64 E. unfold if_command in E. apply bind_inv in E as (j & E & J). injection J as <-. rewrite Sp in E.
  pose proof (transfers_routing p (cmd_type c)) as R.
  assert (forall P : iface -> Prop, P (if_with_last j (cmd_ts c)) -> P (if_with_last j (cmd_ts c))) as _ by auto.
  destruct (transfers (cmd_type c)) as [read|] eqn:T.
  - rewrite R in E. unfold handle_data in E. apply bind_inv in E as (x & B & E). apply (burst_effect p bus) in B as (d & y & buf & -> & Md & Da); auto.
    cbn [fst snd] in E. apply bind_inv in E as (i1 & Q & E). apply (dqs_effect p bus c read) in Q as (r & w & k & -> & Qr & Qw & Qk); auto.
    cbn [if_rdqs if_wdqs if_wck if_with_data] in Qr, Qw, Qk.
    set (i2 := if_with_clocks (if_with_data i d y buf) r w k) in *.
    destruct (overrides_ready p bus c read i2 Sp V T) as [V3 R3]. destruct (overrides_spec i2 (burst_beats p bus c) read) as [h3 H3]. rewrite H3 in *.
    apply bind_inv in E as (i4 & C & E). apply (command_bus_word p bus) in C as (wd & len & h & b & -> & V4 & L1 & L2 & L3 & L4); auto.
    assert (exists rk, j = if_with_ranks (if_with_cmd (if_with_pat i2 h3) b h) rk) as [rk ->].
    { assert (forall z, z = if_with_ranks z (if_ranks z)) as Same by (intros []; reflexivity).
      cbn [if_with_cmd if_spec if_with_pat if_with_clocks if_with_data i2] in E. rewrite Sp in E.
      destruct (fi_std p); try (injection E as <-; eexists; apply Same).
      apply check_inv in E as [_ E]. apply bind_inv in E as (rr & _ & E). apply bind_inv in E as (rr' & _ & E). injection E as <-. eexists. reflexivity. }
    constructor; try reflexivity.
    + exact V4.
    + exact Md.
    + assert (silent (fi_std p) (cmd_type c) = false) as -> by (destruct (cmd_type c); try discriminate; reflexivity).
      eexists _, len. split; [exact L1|]. split; [exact L2|]. split; [|split; [exact L3|exact L4]]. rewrite bytes_length. apply byte_count.
    + exact Qr.
    + exact Qw.
    + exact Qk.
    + rewrite T. exact Da.
  - assert (forall want, strobe p bus want [c] = []) as Ns by (intros; now apply strobe_none).
    assert (forall j, if_spec j = if_spec i -> if_clock j = if_clock i -> pat_inv p (if_pat j) -> if_data j = if_data i ->
      if_rdqs j = if_rdqs i -> if_wdqs j = if_wdqs i -> if_wck j = if_wck i ->
      (if silent (fi_std p) (cmd_type c) then if_cmd j = if_cmd i
       else exists bytes len, (0 < len)%nat /\ (len * ca_pins (fi_std p) <= 64)%nat /\ (len * ca_pins (fi_std p) <= 8 * length bytes)%nat /\
         bus_load (if_cmd i) (cmd_ts c) bytes (len * ca_pins (fi_std p)) = Value (if_cmd j) /\
         played (ca_pins (fi_std p)) bytes (len * ca_pins (fi_std p)) = command_words p bus c) -> effect p bus c i (if_with_last j (cmd_ts c))) as K.
    { intros z H1 H2 H3 H4 H5 H6 H7 H8. constructor; cbn [if_with_last if_spec if_clock if_pat if_data if_cmd if_rdqs if_wdqs if_wck if_last];
        rewrite ?Ns, ?T, ?H1, ?H2, ?H4, ?H5, ?H6, ?H7; auto.
      - destruct (two_clocks (fi_std p)); reflexivity.
      - destruct (two_clocks (fi_std p) && negb (fi_wck_on p)); reflexivity. }
    assert (handle_command_bus c i = Value j -> silent (fi_std p) (cmd_type c) = false -> effect p bus c i (if_with_last j (cmd_ts c))) as KB.
    { intros C S. apply (command_bus_word p bus) in C as (wd & len & h & b & -> & V4 & L1 & L2 & L3 & L4); auto.
      - apply K; try reflexivity; [exact V4|]. rewrite S. eexists _, len. split; [exact L1|]. split; [exact L2|]. split; [|split; [exact L3|exact L4]]. rewrite bytes_length. apply byte_count.
      - unfold pat_ready. now rewrite T. }
    assert (j = i -> silent (fi_std p) (cmd_type c) = true -> effect p bus c i (if_with_last j (cmd_ts c))) as KN.
    { intros -> S. apply K; try reflexivity; [exact V|]. now rewrite S. }
    assert (end_of_simulation (cmd_ts c) i = Value j -> silent (fi_std p) (cmd_type c) = true -> effect p bus c i (if_with_last j (cmd_ts c))) as KE.
    { intros H S. unfold end_of_simulation in H. destruct (if_dbi i); [|apply KN; congruence]. apply bind_inv in H as (z & _ & H). injection H as <-.
      apply K; try reflexivity; [exact V|]. now rewrite S. }
    destruct (cmd_type c); try discriminate; cbn [routing] in E; destruct (fi_std p) eqn:S; try discriminate;
      first [apply KE; [exact E|reflexivity]|apply KB; [exact E|reflexivity]|apply KN; [congruence|reflexivity]|idtac].
    destruct (fi_arch p); [apply KB; [exact E|reflexivity]|apply KB; [exact E|reflexivity]|discriminate].
Qed.
