(* What the inversion lines are told. *)
From Coq Require Import NArith List Bool Lia Arith.
From Verif Require Import Base Command CoreModel Bits WaveSpec BitFacts ListFacts PinModel PinSpec PinProofs DbiModel DbiSpec DbiProofs DbiBounds DbiPinModel DbiPinSpec DbiPinProofs
  StatsModel FormatProofs BusModel ToggleModel DataProofs InterfaceModel InterfaceSpec WireSpec InterfaceCa InterfaceRun InterfaceTop WireProofs InterfaceData LineSpec LineProofs FlagSpec.
Import ListNotations.
Local Open Scope N_scope.
Ltac Zify.zify_post_hook ::= idtac.

(* ---- the calls of the inverter, line by line ---- *)
Definition calls_of (high read : bool) (line : nat) (evs : list event) : tellings :=
  map (fun e => (ev_load e, xorb high (ev_inverted e))) (filter (fun e => Bool.eqb (ev_read e) read && Nat.eqb (ev_index e) line) evs).
Lemma calls_of_app high read line a b : calls_of high read line (a ++ b) = calls_of high read line a ++ calls_of high read line b.
Proof. unfold calls_of. now rewrite filter_app, map_app. Qed.

Lemma deliver_lengths c evs : forall i i', deliver c evs i = Value i' ->
  length (di_read i') = length (di_read i) /\ length (di_write i') = length (di_write i) /\ di_rate i' = di_rate i.
Proof.
  induction evs as [|e r IH]; intros i i' E; [injection E as <-; repeat split|].
  unfold deliver in E. apply loop_cons_inv in E as (j & E1 & E2). destruct (IH _ _ E2) as (A & B & C). rewrite A, B, C.
  unfold pin_change_handler in E1. apply check_inv in E1 as [_ E1]. cbv zeta in E1. apply bind_inv in E1 as (? & _ & E1). apply bind_inv in E1 as (? & _ & E1). apply bind_inv in E1 as (pins & P & E1).
  apply put_spec in P as (_ & L & _). injection E1 as <-. cbn [di_read di_write di_rate]. destruct (ev_read e); repeat split; congruence.
Qed.

Lemma deliver_told c (high : bool) d n evs : dg_idle c = (if high then PinH else PinL) -> forall i i',
  length (di_read i) = n -> length (di_write i) = n -> deliver c evs i = Value i' ->
  forall read line, (line < n)%nat -> pin_told (calls_of high read line evs) (nth line (di_side i read) d) = Value (nth line (di_side i' read) d).
Proof.
  intros Hidle. induction evs as [|e r IH]; intros i i' Hr Hw E read line Hl; [injection E as <-; reflexivity|].
  unfold deliver in E. apply loop_cons_inv in E as (j & E1 & E2).
  unfold pin_change_handler in E1. apply check_inv in E1 as [_ E1]. cbv zeta in E1. fold (di_side i (ev_read e)) in E1.
  apply bind_inv in E1 as (p0 & P0 & E1). apply bind_inv in E1 as (p1 & P1 & E1). apply bind_inv in E1 as (pins & P2 & E1). apply value_inj in E1. subst j.
  apply fetch_nth in P0 as [Hi P0]. specialize (P0 d). apply put_spec in P2 as (_ & L & Nt).
  assert (length (di_side i (ev_read e)) = n) as Ls by (unfold di_side; destruct (ev_read e); assumption). rewrite Ls in *.
  rewrite (signal_level c high) in P1 by assumption.
  set (j := mkDbiIf (di_dbi i) (if ev_read e then pins else di_read i) (if ev_read e then di_write i else pins) (di_rate i)) in *.
  assert (length (di_read j) = n) as Jr by (unfold j; cbn [di_read]; destruct (ev_read e); assumption).
  assert (length (di_write j) = n) as Jw by (unfold j; cbn [di_write]; destruct (ev_read e); assumption).
  specialize (IH j i' Jr Jw E2 read line Hl). unfold calls_of in *. cbn [filter].
  destruct (Bool.eqb (ev_read e) read) eqn:Er; cbn [andb].
  - apply Bool.eqb_prop in Er. subst read. assert (di_side j (ev_read e) = pins) as Js by (unfold j, di_side; destruct (ev_read e); reflexivity). rewrite Js in IH.
    rewrite Nt in IH by assumption. destruct (Nat.eqb_spec (ev_index e) line) as [<-|Hne].
    + cbn [map pin_told fst snd]. rewrite P0, P1. cbn [bind]. exact IH.
    + exact IH.
  - assert (di_side j read = di_side i read) as Js by (unfold j, di_side; destruct (ev_read e), read; try discriminate; reflexivity). rewrite Js in IH. exact IH.
Qed.

(* ---- which bytes a line tells about ---- *)
Lemma mod_apart n a b : (0 < n)%nat -> Nat.modulo a n = Nat.modulo b n -> (a < b)%nat -> (a + n <= b)%nat.
Proof.
  intros Hn E L. pose proof (Nat.div_mod a n ltac:(lia)) as A. pose proof (Nat.div_mod b n ltac:(lia)) as B. rewrite E in A.
  assert (a / n < b / n)%nat by nia. nia.
Qed.
Lemma filter_none {A} (f : A -> bool) l : (forall x, In x l -> f x = false) -> filter f l = [].
Proof. induction l as [|x r IH]; intros H; [reflexivity|]. cbn [filter]. rewrite (H x) by now left. apply IH. intros y Hy. apply H. now right. Qed.
(* Among n bytes in a row exactly one belongs to the line. *)
Lemma window_one n line k : (line < n)%nat -> exists j, (k <= j < k + n)%nat /\ Nat.modulo j n = line /\
  filter (fun j => Nat.eqb (Nat.modulo j n) line) (seq k n) = [j].
Proof.
  intros Hl.
  assert (exists j, (k <= j < k + n)%nat /\ Nat.modulo j n = line) as (j & Hj & Hm).
  { pose proof (Nat.div_mod k n ltac:(lia)) as D. pose proof (Nat.mod_upper_bound k n ltac:(lia)).
    destruct (Nat.leb_spec (k mod n) line).
    - exists (n * (k / n) + line)%nat. split; [lia|]. rewrite Nat.add_comm, Nat.mul_comm, Nat.mod_add by lia. apply Nat.mod_small. lia.
    - exists (n * (k / n) + n + line)%nat. split; [lia|]. replace (n * (k / n) + n + line)%nat with (line + (k / n + 1) * n)%nat by lia. rewrite Nat.mod_add by lia. apply Nat.mod_small. lia. }
  exists j. split; [exact Hj|]. split; [exact Hm|].
  replace (seq k n) with (seq k ((j - k) + S (n - 1 - (j - k)))) by (f_equal; lia). rewrite seq_app, filter_app. cbn [seq filter].
  replace (k + (j - k))%nat with j by lia. rewrite Hm, Nat.eqb_refl.
  rewrite !filter_none; [reflexivity| |]; intros x Hx; apply in_seq in Hx; apply Nat.eqb_neq; intros E; rewrite <- Hm in E.
  - symmetry in E. apply (mod_apart n) in E; lia.
  - apply (mod_apart n) in E; lia.
Qed.
Lemma last_of_line n line m : (line < n)%nat -> (n <= m)%nat -> exists j, (m - n <= j < m)%nat /\ Nat.modulo j n = line /\
  forall (A : Type) (f : nat -> A) d, last (map f (filter (fun j => Nat.eqb (Nat.modulo j n) line) (seq 0 m))) d = f j.
Proof.
  intros Hl Hm. destruct (window_one n line (m - n) Hl) as (j & Hj & Hmod & Hf). exists j. split; [lia|]. split; [exact Hmod|].
  intros A f d. replace (seq 0 m) with (seq 0 ((m - n) + n)) by (f_equal; lia). rewrite seq_app, filter_app. cbn [Nat.add]. rewrite Hf, map_app. apply last_last.
Qed.

(* ---- returning to rest ---- *)
Definition rest_calls (t tend : N) (read : bool) (index : nat -> nat) (inv : list bool) (l : list nat) : list event :=
  flat_map (fun k => if nth k inv false then [mkEvent t tend (index k) false read] else []) l.
Lemma reset_loop_exact t tend read index l : NoDup l -> forall s r, loop (reset_chunk t tend read index) l s = Value r ->
  snd r = snd s ++ rest_calls t tend read index (fst s) l /\ length (fst r) = length (fst s) /\
  (forall k, ~ In k l -> nth k (fst r) false = nth k (fst s) false) /\ (forall k, In k l -> nth k (fst r) false = false).
Proof.
  induction 1 as [|i l Hni Hnd IH]; intros s r E.
  - injection E as <-. cbn [rest_calls flat_map]. rewrite app_nil_r. split; [reflexivity|]. split; [reflexivity|]. split; [reflexivity|intros k []].
  - cbn [loop] in E. apply bind_value in E as (s1 & E1 & E). unfold reset_chunk in E1. apply bind_value in E1 as (b & B & E1). apply bind_value in E1 as (inv & P & E1).
    injection E1 as <-. apply IH in E as (A1 & A2 & A3 & A4). cbn [fst snd] in *. apply fetch_nth in B as [Hi B]. specialize (B false). apply put_spec in P as (_ & L & Nt).
    assert (forall k, k <> i -> nth k inv false = nth k (fst s) false) as Nk.
    { intros k Hk. destruct (Nat.lt_ge_cases k (length (fst s))) as [H|H]; [|rewrite !nth_overflow by lia; reflexivity]. rewrite Nt by assumption. destruct (Nat.eqb_spec i k); [congruence|reflexivity]. }
    split; [|split; [congruence|split]].
    + rewrite A1. rewrite <- app_assoc. f_equal. cbn [rest_calls flat_map]. rewrite B. f_equal.
      unfold rest_calls. rewrite !flat_map_concat_map. f_equal. apply map_ext_in. intros k Hk. rewrite Nk; [reflexivity|]. intros ->. contradiction.
    + intros k Hk. rewrite A3 by (intros H; apply Hk; now right). apply Nk. intros ->. apply Hk. now left.
    + intros k [->|Hk]; [|now apply A4]. destruct (in_dec Nat.eq_dec k l) as [H|H]; [contradiction|]. rewrite A3 by assumption. rewrite Nt by assumption. now rewrite Nat.eqb_refl.
Qed.

(* How a line was left, as the inverter remembers it. *)
Definition side_ok (n : nat) (held : nat -> option N) (b : lastburst) : Prop :=
  lb_init b = false /\ (forall line, held line = None) \/
  lb_init b = true /\ (n <= lb_chunks b)%nat /\
  forall line j, (line < n)%nat -> (lb_chunks b - n <= j < lb_chunks b)%nat -> Nat.modulo j n = line ->
    held line = if nth j (lb_inv b) false then Some (lb_end b) else None.

Lemma rest_line high t e read inv n line k : (line < n)%nat ->
  exists j, (k <= j < k + n)%nat /\ Nat.modulo j n = line /\
  calls_of high read line (rest_calls t e read (fun k => Nat.modulo k n) inv (seq k n)) = (if nth j inv false then [(t, high)] else []).
Proof.
  intros Hl. destruct (window_one n line k Hl) as (j & Hj & Hm & Hf). exists j. split; [exact Hj|]. split; [exact Hm|].
  assert (forall l, calls_of high read line (rest_calls t e read (fun k => Nat.modulo k n) inv l) =
            flat_map (fun k => if nth k inv false then [(t, high)] else []) (filter (fun j => Nat.eqb (Nat.modulo j n) line) l)) as G.
  { induction l as [|i r IH]; [reflexivity|]. cbn [rest_calls flat_map]. rewrite calls_of_app. fold (rest_calls t e read (fun k => Nat.modulo k n) inv r). rewrite IH.
    cbn [filter]. destruct (nth i inv false) eqn:Ei.
    - unfold calls_of at 1. cbn [filter ev_read ev_index]. rewrite eqb_reflx. cbn [andb]. destruct (Nat.eqb (i mod n) line); [|reflexivity].
      cbn [map ev_load ev_inverted flat_map]. rewrite xorb_false_r, Ei. reflexivity.
    - change (calls_of high read line []) with (@nil (N * bool)). destruct (Nat.eqb (i mod n) line); [|reflexivity]. cbn [flat_map]. rewrite Ei. reflexivity. }
  rewrite G, Hf. cbn [flat_map]. apply app_nil_r.
Qed.

Lemma calls_other high read line evs : (forall e, In e evs -> ev_read e = negb read) -> calls_of high read line evs = [].
Proof.
  intros H. unfold calls_of. rewrite filter_none; [reflexivity|]. intros e He. rewrite (H e He). destruct read; reflexivity.
Qed.

(* One direction returns to rest. *)
Lemma reset_told c n (high : bool) d t read d' ev held : db_config d = c -> chunks_per_width c = Some n -> dg_callback c = true -> (0 < n)%nat ->
  side_ok n held (db_side d read) -> dbi_reset d t read = Value (d', ev) ->
  (forall line, (line < n)%nat -> calls_of high read line ev = back_to_rest high (held line) t) /\
  (forall line, calls_of high (negb read) line ev = []) /\
  side_ok n (fun line => still_held (held line) t) (db_side d' read).
Proof.
  intros Hc Hn Hcb Hn0 Hs E. pose proof (reset_spec _ _ _ _ _ E) as (_ & _ & _ & _ & _ & Hev).
  assert (forall line, calls_of high (negb read) line ev = []) as Ho.
  { intros line. apply calls_other. intros e He. destruct (Hev e He) as (_ & _ & _ & _ & R). rewrite negb_involutive. exact R. }
  unfold dbi_reset in E. rewrite Hc, Hn, Hcb in E. set (b := db_side d read) in *.
  apply check_value in E as [_ E].
  assert (forall q, held q = None \/ (lb_init b = true /\ held q = Some (lb_end b)) \/ ~ (q < n)%nat) as Hq.
  { intros q. destruct Hs as [[_ H]|(H1 & H2 & H3)]; [left; apply H|]. destruct (Nat.lt_ge_cases q n) as [L|L]; [|right; right; lia].
    destruct (window_one n q (lb_chunks b - n) L) as (j & Hj & Hm & _). rewrite (H3 q j L) by (try assumption; lia). destruct (nth j (lb_inv b) false); [right; left; split; [assumption|reflexivity]|now left]. }
  assert (lb_init b = true -> ~ lb_end b < t -> (d, []) = (d', ev) ->
    (forall line, (line < n)%nat -> calls_of high read line ev = back_to_rest high (held line) t) /\
    (forall line, calls_of high (negb read) line ev = []) /\ side_ok n (fun line => still_held (held line) t) (db_side d' read)) as Nothing.
  { intros Hi Hle X. injection X as <- <-. split; [|split; [exact Ho|]].
    - intros line Hl. destruct (Hq line) as [H|[[_ H]|H]]; [rewrite H; reflexivity| |contradiction]. rewrite H. unfold back_to_rest. rewrite (proj2 (N.ltb_ge _ _)) by lia. reflexivity.
    - destruct Hs as [[H _]|(H1 & H2 & H3)]; [congruence|]. right. split; [assumption|]. split; [assumption|]. intros line j Hl Hj Hm.
      rewrite (H3 line j Hl Hj Hm). fold b. destruct (nth j (lb_inv b) false); [|reflexivity]. cbn [still_held]. rewrite (proj2 (N.ltb_ge _ _)) by lia. reflexivity. }
  destruct (lb_init b) eqn:Ei; cbn [negb] in E.
  2: { injection E as <- <-. destruct Hs as [[_ H]|(H & _)]; [|congruence]. split; [|split; [exact Ho|]].
       - intros line _. rewrite H. reflexivity.
       - left. split; [exact Ei|]. intros line. rewrite H. reflexivity. }
  destruct (N.ltb_spec t (lb_end b)) as [H1|H1]; [apply Nothing; [reflexivity|lia|congruence]|].
  destruct (N.eqb_spec (lb_end b) t) as [H2|H2]; [apply Nothing; [reflexivity|lia|congruence]|].
  apply bind_value in E as (s & L & E). apply reset_loop_exact in L as (L1 & L2 & L3 & L4); [|apply seq_NoDup].
  cbn [fst snd app] in *. injection E as <- <-. destruct Hs as [[H _]|(_ & H4 & H5)]; [congruence|].
  split; [|split; [exact Ho|]].
  - intros line Hl. rewrite L1. destruct (rest_line high t (lb_end b) read (lb_inv b) n line (lb_chunks b - n) Hl) as (j & Hj & Hm & ->).
    rewrite (H5 line j Hl) by (try assumption; lia). destruct (nth j (lb_inv b) false); [|reflexivity]. cbn [back_to_rest]. rewrite (proj2 (N.ltb_lt _ _)) by lia. reflexivity.
  - right. assert (db_side (db_put d read (mkLast (lb_start b) (lb_end b) (lb_chunks b) true (fst s) (lb_cap b) (lb_beat b))) read =
                   mkLast (lb_start b) (lb_end b) (lb_chunks b) true (fst s) (lb_cap b) (lb_beat b)) as -> by (unfold db_side, db_put; destruct read; reflexivity).
    cbn [lb_init lb_chunks lb_inv lb_end]. split; [reflexivity|]. split; [exact H4|]. intros line j Hl Hj Hm.
    rewrite L4 by (apply in_seq; lia). rewrite (H5 line j Hl Hj Hm). destruct (nth j (lb_inv b) false); [|reflexivity]. cbn [still_held]. rewrite (proj2 (N.ltb_lt _ _)) by lia. reflexivity.
Qed.

(* ---- a burst ---- *)
Definition lined (p : ifspec) : Prop := fi_std p = DDR4 \/ fi_std p = LPDDR4 \/ fi_std p = LPDDR5.
Lemma lined_config p : lined p -> sizes_ok p -> let c := dbi_config_of p in
  dg_digits c = 8%nat /\ dg_alg c = Static /\ dg_sub c = 1%nat /\ dg_callback c = true /\
  dg_width c = Some (N.to_nat (dq_lines p)) /\ dg_idle c = (if dq_rests_high (fi_std p) then PinH else PinL) /\
  chunks_per_width c = Some (flag_lines p).
Proof.
  intros H (_ & W64 & _). unfold dbi_config_of, chunks_per_width, chunk_size, flag_lines. rewrite (width_eq p W64).
  destruct H as [H|[H|H]]; rewrite H; cbn [dg_digits dg_alg dg_sub dg_callback dg_width dg_idle dq_rests_high]; repeat split; reflexivity.
Qed.
Lemma lined_flipped p data j : lined p -> flipped p data j = inverts 8 (dq_rests_high (fi_std p)) (nth j data 0).
Proof. unfold flipped. intros [H|[H|H]]; rewrite H; reflexivity. Qed.

(* The state of the lines of an interface: the inverter is that of the standard,
   switched as [dbi], and remembers how each line was left. *)
Record flag_inv (p : ifspec) (dbi : bool) (held : bool -> nat -> option N) (x : dbi_pins_if) : Prop := {
  fl_config : db_config (di_dbi x) = dbi_config_of p;
  fl_on : db_enable (di_dbi x) = dbi;
  fl_rate : di_rate x = fi_rate p;
  fl_read : length (di_read x) = flag_lines p;
  fl_write : length (di_write x) = flag_lines p;
  fl_side : forall read, side_ok (flag_lines p) (held read) (db_side (di_dbi x) read)
}.

Definition now_held (p : ifspec) (c : Command) (line : nat) : option N :=
  if last (line_flags p line c) false then Some (cmd_ts c * fi_rate p + burst_beats p true c) else None.

Lemma burst_told p dbi held x c read x' out d : lined p -> sizes_ok p -> (0 < flag_lines p)%nat ->
  flag_inv p dbi held x -> dbi = true -> sends read c = true -> data_ok p c ->
  dbi_if_data x (cmd_ts c) (N.to_nat (cmd_sz_bits c)) (Some (cmd_data c)) read = Value (x', out) ->
  flag_inv p dbi (fun r line => if eqb r read then now_held p c line else held r line) x' /\
  forall r line, (line < flag_lines p)%nat ->
    pin_told (if eqb r read then back_to_rest (dq_rests_high (fi_std p)) (held r line) (cmd_ts c * fi_rate p) ++
                                 map (fun b => (cmd_ts c * fi_rate p, xorb (dq_rests_high (fi_std p)) b)) (line_flags p line c) else [])
             (nth line (di_side x r) d) = Value (nth line (di_side x' r) d).
Proof.
  intros Ln Sz Hn0 I -> Sd Ok E. destruct I as [Fc Fo Fr Fl Fw Fs]. destruct (lined_config p Ln Sz) as (Cd & Ca & Cs & Cc & Cw & Ci & Cn).
  set (high := dq_rests_high (fi_std p)) in *. set (n := flag_lines p) in *. set (T := cmd_ts c * fi_rate p) in *.
  destruct Ok as (O1 & O2 & O3 & O4); [destruct read; rewrite Sd; rewrite ?orb_true_r; reflexivity|].
  assert (burst_bits p true c = cmd_sz_bits c /\ cmd_sz_bits c <> 0) as [Bb Nz].
  { unfold sends in Sd. destruct (transfers (cmd_type c)); [|discriminate]. destruct (N.eqb_spec (cmd_sz_bits c) 0) as [Z|Z]; [rewrite andb_false_r in Sd; discriminate|].
    split; [|exact Z]. unfold burst_bits. rewrite (proj2 (N.eqb_neq _ _) Z). destruct Ln as [H|[H|H]]; rewrite H; reflexivity. }
  rewrite Bb in O3. unfold burst_beats in O4. rewrite Bb in O4. fold T in O4.
  unfold dbi_if_data in E. rewrite (proj2 (Nat.eqb_neq (N.to_nat (cmd_sz_bits c)) 0)), Fo in E by lia. cbn [orb negb] in E.
  assert (u64_mul (cmd_ts c) (di_rate x) = T) as TT by (rewrite Fr; apply N.mod_small; apply N.le_lt_trans with (2 := O4); apply N.le_add_r). rewrite TT in E.
  apply bind_inv in E as ([[d' evs] o] & U & E). apply bind_inv in E as (j & D & E). injection E as <- <-.
  assert (exists bytes, o = Some bytes) as [bytes ->].
  { unfold dbi_update in U. rewrite (proj2 (Nat.eqb_neq (N.to_nat (cmd_sz_bits c)) 0)), Fo, Fc in U by lia. cbn [orb negb] in U.
    assert (pin_eqb PinZ (dg_idle (dbi_config_of p)) = false) as Z by (rewrite Ci; destruct high; reflexivity). rewrite Z in U.
    apply bind_inv in U as (r & _ & U). apply check_inv in U as [_ U]. cbv zeta in U. destruct (Nat.ltb _ _) in U; [discriminate|]. apply bind_inv in U as (prev & _ & U).
    apply check_inv in U as [_ U]. destruct (grow_inversions _ _ _) in U. apply bind_inv in U as (s & _ & U). apply bind_inv in U as (te & _ & U). injection U as _ _ <-. eexists. reflexivity. }
  apply update_spec in U. cbv zeta in U.
  destruct U as (_ & _ & _ & Hm & Hmc & Hlen & d1 & ev1 & prev & s & inv & cap & Hr & Hp & Hg & Hs & _ & Hev & Hc' & He' & _ & Hoth & Hside).
  rewrite Fc in *. rewrite Cd in *. unfold chunk_size in Hside. rewrite Cs, Cd, Nat.mul_1_l, Cw in Hside.
  set (m := (N.to_nat (cmd_sz_bits c) / 8)%nat) in *.
  assert (length (firstn m (cmd_data c)) = m) as Hol by (rewrite firstn_length; lia).
  pose proof (Nat.div_mod (N.to_nat (cmd_sz_bits c)) 8 ltac:(lia)) as Hdm. fold m in Hdm. rewrite Hm in Hdm.
  assert (n <= m)%nat as Hnm.
  { assert (n = Nat.div (N.to_nat (dq_lines p)) 8) as Nn by (unfold n, flag_lines; destruct Ln as [H|[H|H]]; rewrite H; reflexivity).
    rewrite Nn. apply Nat.div_le_mono; lia. }
  assert (forall k, (k < m)%nat -> static_decision (dbi_config_of p) (nth k (firstn m (cmd_data c)) 0) = flipped p (cmd_data c) k) as Hdec.
  { intros k Hk. rewrite (lined_flipped _ _ _ Ln). rewrite nth_firstn by assumption. rewrite (decision_inverts (dbi_config_of p) high); [now rewrite Cd|exact Ci|]. rewrite Cd. now apply bounded_entry. }
  pose proof (calls_exact _ _ _ _ _ _ _ n Cs Ca Cc Cn Hn0 Hs) as Hcalls. rewrite Hol in Hcalls.
  destruct (reset_told _ n high _ T read _ _ (held read) Fc Cn Cc Hn0 (Fs read) Hr) as (R1 & R2 & _).
  assert (forall r line, (line < n)%nat -> calls_of high r line evs = if eqb r read then back_to_rest high (held r line) T ++ map (fun b => (T, xorb high b)) (line_flags p line c) else []) as Calls.
  { intros r line Hl. rewrite Hev, calls_of_app. destruct (Bool.eqb r read) eqn:Er.
    - apply Bool.eqb_prop in Er. subst r. rewrite (R1 line Hl). f_equal. rewrite Hcalls. unfold calls_of, line_flags. rewrite filter_map, !map_map.
      fold m n.
      rewrite (filter_ext _ (fun j => Nat.eqb (Nat.modulo j n) line)) by (intros k; unfold DbiPinProofs.call; cbn [ev_read ev_index]; now rewrite eqb_reflx).
      apply map_ext_in. intros k Hk. apply filter_In in Hk as [Hk _]. apply in_seq in Hk. unfold DbiPinProofs.call. cbn [ev_load ev_inverted]. rewrite Hdec by lia. reflexivity.
    - assert (r = negb read) as -> by (destruct r, read; try discriminate; reflexivity). rewrite R2. cbn [app]. rewrite Hcalls. apply calls_other.
      intros e He. apply in_map_iff in He as (k & <- & _). cbn [DbiPinProofs.call ev_read]. now rewrite negb_involutive. }
  pose proof (deliver_lengths _ _ _ _ D) as (D1 & D2 & D3). pose proof (deliver_dbi _ _ _ _ D) as D4. cbn [di_with di_read di_write di_rate di_dbi] in D1, D2, D3, D4.
  split.
  - constructor; try congruence; try (rewrite D4; first [exact Hc'|exact He']); [rewrite D1; exact Fl|rewrite D2; exact Fw|].
    fold n. intros r. rewrite D4. destruct (Bool.eqb r read) eqn:Er.
    + apply Bool.eqb_prop in Er. subst r. rewrite Hside. right. cbn [lb_init lb_chunks lb_inv lb_end]. split; [reflexivity|]. split; [exact Hnm|].
      intros line k Hl Hk Hmod. unfold now_held. destruct (last_of_line n line m Hl Hnm) as (k' & Hk' & Hmod' & Hlast).
      assert (k' = k) as ->.
      { destruct (Nat.lt_total k' k) as [L|[L|L]]; [|exact L|]; rewrite <- Hmod in Hmod'.
        - apply (mod_apart n) in Hmod'; lia.
        - symmetry in Hmod'. apply (mod_apart n) in Hmod'; lia. }
      unfold line_flags. fold n m. rewrite Hlast. rewrite (static_flags _ _ _ _ _ _ _ Cs Ca Hs) by lia. rewrite Hdec by lia.
      destruct (flipped p (cmd_data c) k); [|reflexivity]. f_equal. unfold burst_beats. rewrite Bb. fold T.
      symmetry. unfold u64_add. rewrite Nat2N.inj_div, !N2Nat.id. apply N.mod_small. exact O4.
    + assert (r = negb read) as -> by (destruct r, read; try discriminate; reflexivity). rewrite Hoth. apply Fs.
  - intros r line Hl. rewrite <- (Calls r line Hl).
    replace (nth line (di_side x r) d) with (nth line (di_side (di_with x d') r) d) by (unfold di_side, di_with; destruct r; reflexivity).
    rewrite Hc' in D. eapply deliver_told; [exact Ci| | |exact D|exact Hl]; assumption.
Qed.

(* ---- the end of a simulation ---- *)
Lemma end_told p dbi held x t x' d : lined p -> sizes_ok p -> (0 < flag_lines p)%nat -> flag_inv p dbi held x -> dbi_if_end x t = Value x' ->
  flag_inv p dbi (fun r line => still_held (held r line) t) x' /\
  forall r line, (line < flag_lines p)%nat ->
    pin_told (back_to_rest (dq_rests_high (fi_std p)) (held r line) t) (nth line (di_side x r) d) = Value (nth line (di_side x' r) d).
Proof.
  intros Ln Sz Hn0 I E. destruct I as [Fc Fo Fr Fl Fw Fs]. destruct (lined_config p Ln Sz) as (Cd & Ca & Cs & Cc & Cw & Ci & Cn).
  set (high := dq_rests_high (fi_std p)) in *. set (n := flag_lines p) in *.
  unfold dbi_if_end in E. apply bind_inv in E as ([d2 ev] & R & D). cbn [fst snd] in D.
  unfold dbi_reset_both in R. apply bind_inv in R as ([d1 e1] & R1 & R). apply bind_inv in R as ([d2' e2] & R2 & R). cbn [fst snd] in *. injection R as -> <-.
  destruct (reset_told _ n high _ t true _ _ (held true) Fc Cn Cc Hn0 (Fs true) R1) as (A1 & A2 & A3).
  pose proof (reset_spec _ _ _ _ _ R1) as (B1 & B2 & _ & B3 & _). pose proof (reset_spec _ _ _ _ _ R2) as (B4 & B5 & _ & B6 & _). cbn [negb] in *.
  assert (db_config d1 = dbi_config_of p) as Fc1 by congruence.
  assert (side_ok n (held false) (db_side d1 false)) as Fs1 by (rewrite B3; apply Fs).
  destruct (reset_told _ n high _ t false _ _ (held false) Fc1 Cn Cc Hn0 Fs1 R2) as (A4 & A5 & A6). cbn [negb] in *.
  assert (forall r line, (line < n)%nat -> calls_of high r line (e1 ++ e2) = back_to_rest high (held r line) t) as Calls.
  { intros r line Hl. rewrite calls_of_app. destruct r; [rewrite (A1 line Hl), A5; apply app_nil_r|rewrite A2; apply A4; exact Hl]. }
  pose proof (deliver_lengths _ _ _ _ D) as (D1 & D2 & D3). pose proof (deliver_dbi _ _ _ _ D) as D4. cbn [di_with di_read di_write di_rate di_dbi] in D1, D2, D3, D4.
  split.
  - constructor; [rewrite D4; congruence|rewrite D4; congruence|congruence|rewrite D1; exact Fl|rewrite D2; exact Fw|]. fold n. intros r. rewrite D4. destruct r; [rewrite B6; exact A3|exact A6].
  - intros r line Hl. rewrite <- (Calls r line Hl).
    replace (nth line (di_side x r) d) with (nth line (di_side (di_with x d2) r) d) by (unfold di_side, di_with; destruct r; reflexivity).
    rewrite B4, Fc1 in D. eapply deliver_told; [exact Ci| | |exact D|exact Hl]; assumption.
Qed.
