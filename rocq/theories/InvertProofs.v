(* The inverter of an interface goes on as long as its lines take what they are
   told. *)
From Coq Require Import NArith List Bool Lia Arith.
From Verif Require Import Base Command CoreModel Bits WaveSpec BitFacts ListFacts PinModel PinSpec PinProofs DbiModel DbiSpec DbiProofs DbiBounds DbiPinModel DbiPinSpec DbiPinProofs
  StatsModel FormatProofs BusModel ToggleModel DataProofs InterfaceModel InterfaceSpec WireSpec InterfaceCa InterfaceRun InterfaceTop WireProofs InterfaceData LineSpec LineProofs FlagSpec FlagProofs.
Import ListNotations.
Local Open Scope N_scope.
Ltac Zify.zify_post_hook ::= idtac.

(* ---- delivering ---- *)
Lemma deliver_goes c (high : bool) d n evs : dg_idle c = (if high then PinH else PinL) -> forall i,
  length (di_read i) = n -> length (di_write i) = n -> Forall (fun e => (ev_index e < n)%nat) evs ->
  (forall read line, (line < n)%nat -> exists q, pin_told (calls_of high read line evs) (nth line (di_side i read) d) = Value q) ->
  exists i', deliver c evs i = Value i'.
Proof.
  intros Hidle. induction evs as [|e r IH]; intros i Hr Hw Hall Hp; [eexists; reflexivity|].
  pose proof (Forall_inv Hall) as Ei. cbv beta in Ei. apply Forall_inv_tail in Hall.
  unfold deliver. cbn [loop]. unfold pin_change_handler at 1. rewrite Hr, Hw, (proj2 (Nat.ltb_lt _ _) Ei). cbn [orb check].
  fold (di_side i (ev_read e)).
  assert (length (di_side i (ev_read e)) = n) as Hs by (unfold di_side; destruct (ev_read e); assumption).
  destruct (fetch_ok (di_side i (ev_read e)) (ev_index e)) as [p0 Ef]; [lia|]. rewrite Ef. cbn [bind]. apply fetch_nth in Ef as [_ Ef]. specialize (Ef d).
  rewrite (signal_level c high) by assumption.
  destruct (Hp (ev_read e) _ Ei) as [q Hq]. rewrite Ef in Hq. unfold calls_of in Hq. cbn [filter] in Hq. rewrite eqb_reflx, Nat.eqb_refl in Hq. cbn [andb map pin_told fst snd] in Hq.
  apply bind_value in Hq as (p1 & H1 & Hq). rewrite H1. cbn [bind].
  destruct (put_ok (di_side i (ev_read e)) (ev_index e) p1) as [pins Ep]; [lia|]. rewrite Ep. cbn [bind].
  apply put_spec in Ep as (_ & Hl & Hnth). rewrite Hs in *.
  set (j := mkDbiIf (di_dbi i) (if ev_read e then pins else di_read i) (if ev_read e then di_write i else pins) (di_rate i)).
  apply (IH j).
  - unfold j. cbn [di_read]. destruct (ev_read e); assumption.
  - unfold j. cbn [di_write]. destruct (ev_read e); assumption.
  - assumption.
  - intros read line Hln. destruct (Hp read line Hln) as [q' Hq']. unfold calls_of in Hq'. cbn [filter] in Hq'.
    destruct (Bool.eqb (ev_read e) read) eqn:Er; cbn [andb] in Hq'.
    + apply Bool.eqb_prop in Er. subst read. assert (di_side j (ev_read e) = pins) as -> by (unfold j, di_side; destruct (ev_read e); reflexivity).
      rewrite Hnth by assumption. destruct (Nat.eqb_spec (ev_index e) line) as [<-|Hne].
      * cbn [map pin_told fst snd] in Hq'. rewrite Ef, H1 in Hq'. cbn [bind] in Hq'. exists q'. exact Hq'.
      * exists q'. exact Hq'.
    + assert (di_side j read = di_side i read) as -> by (unfold j, di_side; destruct (ev_read e), read; try discriminate; reflexivity). exists q'. exact Hq'.
Qed.

(* ---- the inverter ---- *)
Definition sized (M : nat) (b : lastburst) : Prop :=
  if lb_init b then length (lb_inv b) = M /\ lb_chunks b = M else lb_inv b = [] /\ lb_cap b = 0%nat.

Lemma reset_chunks_go t tend read index l : forall s, (forall k, In k l -> (k < length (fst s))%nat) -> exists r, loop (reset_chunk t tend read index) l s = Value r /\ length (fst r) = length (fst s).
Proof.
  induction l as [|k l IH]; intros s H; [exists s; split; reflexivity|]. cbn [loop]. unfold reset_chunk at 1.
  destruct (fetch_ok (fst s) k) as [b ->]; [apply H; now left|]. cbn [bind]. destruct (put_ok (fst s) k false) as [inv P]; [apply H; now left|]. rewrite P. cbn [bind].
  apply put_spec in P as (_ & L & _). destruct (IH (inv, snd s ++ (if b then [mkEvent t tend (index k) false read] else []))) as (r & E & Lr).
  - cbn [fst]. rewrite L. intros x Hx. apply H. now right.
  - exists r. split; [exact E|]. rewrite Lr. exact L.
Qed.
Lemma reset_goes d t read n M : chunks_per_width (db_config d) = Some n -> dg_callback (db_config d) = true -> (0 < n <= M)%nat -> sized M (db_side d read) ->
  exists d' ev, dbi_reset d t read = Value (d', ev) /\ sized M (db_side d' read) /\ lb_cap (db_side d' read) = lb_cap (db_side d read).
Proof.
  intros Hn Hc HM S. unfold dbi_reset. rewrite Hn, Hc. set (b := db_side d read) in *. unfold sized in S. destruct (lb_init b) eqn:Hi; cbn [negb orb].
  2: { exists d, []. cbn [check]. split; [reflexivity|]. fold b. split; [unfold sized; rewrite Hi; exact S|reflexivity]. }
  destruct S as [S1 S2]. rewrite S2. rewrite (proj2 (Nat.leb_le n M)) by lia. cbn [check].
  assert (sized M b) as Sb by (unfold sized; rewrite Hi; split; assumption).
  destruct (t <? lb_end b); [exists d, []; split; [reflexivity|split; [exact Sb|reflexivity]]|].
  destruct (lb_end b =? t); [exists d, []; split; [reflexivity|split; [exact Sb|reflexivity]]|].
  destruct (reset_chunks_go t (lb_end b) read (fun k => Nat.modulo k n) (seq (M - n) n) (lb_inv b, [])) as (r & -> & L).
  { cbn [fst]. intros k Hk. apply in_seq in Hk. lia. }
  cbn [bind]. do 2 eexists. split; [reflexivity|]. cbn [fst] in L.
  assert (forall l, db_side (db_put d read l) read = l) as -> by (intros l; unfold db_side, db_put; destruct read; reflexivity).
  unfold sized. cbn [lb_init lb_inv lb_chunks lb_cap]. split; [split; [lia|reflexivity]|reflexivity].
Qed.

Lemma compute_goes c prev t read orig inv n : dg_sub c = 1%nat -> dg_alg c = Static -> chunks_per_width c = Some n -> (0 < n)%nat -> length inv = length orig ->
  exists s, compute c prev t read (mkScan orig 0 0 0 0 inv []) = Value s /\ length (sc_inv s) = length inv.
Proof.
  intros Hk Ha Hn Hn0 Hl. unfold compute. rewrite Ha. cbn [sc_data].
  destruct (loop_total (static_step c t read) (fun i s => scan_inv c t read orig inv i s) (length orig) 0 (mkScan orig 0 0 0 0 inv [])) as (s & E & I).
  - apply scan_start. lia.
  - intros i s Hi I.
    assert (exists s', static_step c t read i s = Value s') as (s' & E).
    { unfold static_step. destruct (fetch_ok (sc_data s) i) as [v ->]; [rewrite (si_len _ _ _ _ _ _ _ I); lia|]. cbn [bind].
      unfold is_last. rewrite Hk, Nat.mod_1_r. cbn [Nat.eqb]. unfold visit. cbn [set_counters sc_chunk sc_inv sc_data sc_events].
      pose proof (si_chunk _ _ _ _ _ _ _ I) as Hch. rewrite Hk, Nat.div_1_r in Hch. rewrite Hch.
      match goal with |- context [announce c t i ?b read] => generalize b end. intros b.
      assert (exists e, announce c t i b read = Value e) as (e & ->).
      { unfold announce. rewrite Hn, (proj2 (Nat.eqb_neq n 0)) by lia. destruct (dg_callback c); eexists; reflexivity. }
      cbn [bind]. destruct (put_ok (sc_inv s) i b) as [iv ->]; [rewrite (si_inv _ _ _ _ _ _ _ I), Hl; lia|]. cbn [bind].
      assert (exists dd, (if b then invert_chunk c (sc_data s) i else Value (sc_data s)) = Value dd) as (dd & ->).
      { destruct b; [|eexists; reflexivity]. apply invert_chunk_ok. rewrite Hk, (si_len _ _ _ _ _ _ _ I). lia. }
      cbn [bind]. eexists. reflexivity. }
    exists s'. split; [exact E|]. eapply static_inv; eauto; lia.
  - exists s. split; [exact E|]. apply (si_inv _ _ _ _ _ _ _ I).
Qed.

Lemma reset_index d t read d' ev n : chunks_per_width (db_config d) = Some n -> (0 < n)%nat -> dbi_reset d t read = Value (d', ev) -> Forall (fun e => (ev_index e < n)%nat) ev.
Proof.
  intros Hn Hn0 E. unfold dbi_reset in E. rewrite Hn in E. apply check_value in E as [_ E].
  destruct (negb _); [injection E as _ <-; constructor|]. destruct (_ <? _); [injection E as _ <-; constructor|]. destruct (_ =? _); [injection E as _ <-; constructor|].
  destruct (dg_callback _); [|injection E as _ <-; constructor]. apply bind_value in E as (s & L & E). injection E as _ <-.
  apply reset_loop_exact in L as (-> & _); [|apply seq_NoDup]. cbn [snd fst app]. apply Forall_forall. intros e He. unfold rest_calls in He. apply in_flat_map in He as (k & _ & He).
  destruct (nth k _ false); [|destruct He]. destruct He as [<-|[]]. cbn [ev_index]. apply Nat.mod_upper_bound. lia.
Qed.

Section Burst.
Context (p : ifspec) (Ln : lined p) (Sz : sizes_ok p) (Hn0 : (0 < flag_lines p)%nat).

Lemma update_goes d t data read M : db_config d = dbi_config_of p -> db_enable d = true -> (0 < M)%nat -> (flag_lines p <= M)%nat -> (M <= length data)%nat ->
  Nat.modulo (N.to_nat (dq_lines p)) 8 = 0%nat -> sized M (db_side d read) ->
  exists d' evs out, dbi_update d t (8 * M) (Some data) read = Value (d', evs, Some out) /\ length out = M /\ sized M (db_side d' read).
Proof using Ln Sz Hn0.
  intros Hc He HM Hw Hd Hw8 S. destruct (lined_config p Ln Sz) as (Cd & Ca & Cs & Cc & Cw & Ci & Cn).
  assert (flag_lines p = Nat.div (N.to_nat (dq_lines p)) 8) as Nn by (unfold flag_lines; destruct Ln as [H|[H|H]]; rewrite H; reflexivity).
  unfold dbi_update. rewrite (proj2 (Nat.eqb_neq (8 * M) 0)), He, Hc by lia. cbn [orb negb].
  assert (pin_eqb PinZ (dg_idle (dbi_config_of p)) = false) as -> by (rewrite Ci; destruct (dq_rests_high _); reflexivity).
  assert (chunks_per_width (db_config d) = Some (flag_lines p) /\ dg_callback (db_config d) = true) as [K1 K2] by (rewrite Hc; split; assumption).
  destruct (reset_goes d t read (flag_lines p) M K1 K2) as (d1 & ev & R & S1 & Cap); [lia|exact S|]. rewrite R. cbn [bind fst snd].
  pose proof (reset_spec _ _ _ _ _ R) as (_ & _ & _ & _ & (_ & _ & _ & Hin & _) & _).
  unfold chunk_size. rewrite Cd, Cs, Nat.mul_1_l. rewrite (Nat.mul_comm 8 M), Nat.mod_mul, Nat.div_mul by lia. cbn [Nat.eqb check].
  rewrite (proj2 (Nat.ltb_ge _ _)) by exact Hd.
  set (b := save_last (dbi_config_of p) (db_data d1) t (db_side d1 read)).
  assert (lb_inv b = lb_inv (db_side d1 read) /\ lb_cap b = lb_cap (db_side d1 read) /\ lb_init b = lb_init (db_side d1 read)) as (B1 & B2 & B3).
  { unfold b, save_last. destruct (seamless _ _ _ _); [|repeat split]. rewrite Cw. repeat split. }
  assert (exists prev, previous_data (dbi_config_of p) (firstn M data) t b = Value prev) as (prev & ->).
  { unfold previous_data. destruct (seamless _ _ _ _); [eexists; reflexivity|]. rewrite Cw, Cd. rewrite firstn_length, (Nat.min_l M) by lia. rewrite (proj2 (Nat.leb_le _ _)) by lia. eexists. reflexivity. }
  cbn [bind]. destruct (grow_inversions (dbi_config_of p) b M) as [inv cap] eqn:G.
  assert (length inv = M) as Li.
  { unfold grow_inversions in G. rewrite B1, B2 in G. unfold sized in S1. destruct (lb_init (db_side d1 read)).
    - destruct S1 as [S1 _]. destruct (Nat.ltb _ _); injection G as <- _; [|exact S1]. rewrite app_length, firstn_length, repeat_length. lia.
    - destruct S1 as [S1 S2]. rewrite S1, S2 in G. rewrite (proj2 (Nat.ltb_lt 0 M)) in G by lia. injection G as <- _. rewrite firstn_nil. cbn [app length]. rewrite repeat_length. lia. }
  assert (length inv = length (firstn M data)) as Lf by (rewrite firstn_length; lia).
  destruct (compute_goes (dbi_config_of p) prev t read (firstn M data) inv (flag_lines p) Cs Ca Cn Hn0 Lf) as (s & E & Ls). rewrite E. cbn [bind]. rewrite Cw.
  rewrite (proj2 (Nat.eqb_neq (N.to_nat (dq_lines p)) 0)) by (destruct Sz as (W0 & _); lia). cbn [bind]. do 3 eexists. split; [reflexivity|].
  pose proof (compute_inv _ _ _ _ _ _ _ ltac:(rewrite Cs; lia) E) as I. split; [rewrite (si_len _ _ _ _ _ _ _ I); lia|].
  unfold sized, db_side, db_put. destruct read; cbn [db_read db_write lb_init lb_inv lb_chunks]; lia.
Qed.

Lemma burst_inverts held x c read d M : flag_inv p true held x -> sends read c = true -> data_ok p c -> N.to_nat (cmd_sz_bits c) = (8 * M)%nat ->
  Nat.modulo (N.to_nat (dq_lines p)) 8 = 0%nat -> (forall r, sized M (db_side (di_dbi x) r)) ->
  (forall line, (line < flag_lines p)%nat -> exists q, pin_told (back_to_rest (dq_rests_high (fi_std p)) (held read line) (cmd_ts c * fi_rate p) ++
       map (fun b => (cmd_ts c * fi_rate p, xorb (dq_rests_high (fi_std p)) b)) (line_flags p line c)) (nth line (di_side x read) d) = Value q) ->
  exists x' l, dbi_if_data x (cmd_ts c) (N.to_nat (cmd_sz_bits c)) (Some (cmd_data c)) read = Value (x', Some l) /\ length l = M /\ (forall r, sized M (db_side (di_dbi x') r)).
Proof using Ln Sz Hn0.
  intros Iv Sd Ok HM Hw8 Ss Tk. pose proof Iv as [Fc Fo Fr Fl Fw Fs]. destruct (lined_config p Ln Sz) as (Cd & Ca & Cs & Cc & Cw & Ci & Cn).
  set (high := dq_rests_high (fi_std p)) in *. set (n := flag_lines p) in *. set (T := cmd_ts c * fi_rate p) in *.
  assert (n = Nat.div (N.to_nat (dq_lines p)) 8) as Nn by (unfold n, flag_lines; destruct Ln as [H|[H|H]]; rewrite H; reflexivity).
  destruct Ok as (O1 & O2 & O3 & O4); [destruct read; rewrite Sd; rewrite ?orb_true_r; reflexivity|].
  assert (burst_bits p true c = cmd_sz_bits c /\ cmd_sz_bits c <> 0) as [Bb Nz].
  { unfold sends in Sd. destruct (transfers (cmd_type c)); [|discriminate]. destruct (N.eqb_spec (cmd_sz_bits c) 0) as [Z|Z]; [rewrite andb_false_r in Sd; discriminate|].
    split; [|exact Z]. unfold burst_bits. rewrite (proj2 (N.eqb_neq _ _) Z). destruct Ln as [H|[H|H]]; rewrite H; reflexivity. }
  rewrite Bb in O3. unfold burst_beats in O4. rewrite Bb in O4. fold T in O4.
  unfold dbi_if_data. rewrite (proj2 (Nat.eqb_neq (N.to_nat (cmd_sz_bits c)) 0)), Fo by lia. cbn [orb negb].
  assert (u64_mul (cmd_ts c) (di_rate x) = T) as -> by (rewrite Fr; apply N.mod_small; apply N.le_lt_trans with (2 := O4); apply N.le_add_r).
  assert (n <= M)%nat as Hnm. { rewrite Nn. apply Nat.div_le_upper_bound; lia. }
  destruct (update_goes (di_dbi x) T (cmd_data c) read M Fc Fo) as (d' & evs & out & U & Lo & So); [lia|exact Hnm|lia|exact Hw8|apply Ss|]. rewrite HM, U. cbn [bind].
  pose proof (update_spec _ _ _ _ _ _ _ _ U) as Us. cbv zeta in Us.
  destruct Us as (_ & _ & _ & Hm & Hmc & Hlen & d1 & ev1 & prev & s & inv & cap & Hr & Hp & Hg & Hs & _ & Hev & Hc' & He' & _ & Hoth & Hside).
  rewrite Fc in *. rewrite Cd in *. rewrite (Nat.mul_comm 8 M), Nat.div_mul in * by lia.
  assert (length (firstn M (cmd_data c)) = M) as Hol by (rewrite firstn_length; lia).
  assert (forall k, (k < M)%nat -> static_decision (dbi_config_of p) (nth k (firstn M (cmd_data c)) 0) = flipped p (cmd_data c) k) as Hdec.
  { intros k Hk. rewrite (lined_flipped _ _ _ Ln). rewrite nth_firstn by assumption. rewrite (decision_inverts (dbi_config_of p) high); [now rewrite Cd|exact Ci|]. rewrite Cd. now apply bounded_entry. }
  pose proof (calls_exact _ _ _ _ _ _ _ n Cs Ca Cc Cn Hn0 Hs) as Hcalls. rewrite Hol in Hcalls.
  destruct (reset_told _ n high _ T read _ _ (held read) Fc Cn Cc Hn0 (Fs read) Hr) as (R1 & R2 & _).
  assert (forall r line, (line < n)%nat -> calls_of high r line evs = if eqb r read then back_to_rest high (held r line) T ++ map (fun b => (T, xorb high b)) (line_flags p line c) else []) as Calls.
  { intros r line Hl. rewrite Hev, calls_of_app. destruct (Bool.eqb r read) eqn:Er.
    - apply Bool.eqb_prop in Er. subst r. rewrite (R1 line Hl). f_equal. rewrite Hcalls. unfold calls_of, line_flags. rewrite filter_map, !map_map.
      replace (N.to_nat (cmd_sz_bits c)) with (M * 8)%nat by lia; rewrite Nat.div_mul by lia. fold n.
      rewrite (filter_ext _ (fun j => Nat.eqb (Nat.modulo j n) line)) by (intros k; unfold DbiPinProofs.call; cbn [ev_read ev_index]; now rewrite eqb_reflx).
      apply map_ext_in. intros k Hk. apply filter_In in Hk as [Hk _]. apply in_seq in Hk. unfold DbiPinProofs.call. cbn [ev_load ev_inverted]. rewrite Hdec by lia. reflexivity.
    - assert (r = negb read) as -> by (destruct r, read; try discriminate; reflexivity). rewrite R2. cbn [app]. rewrite Hcalls. apply calls_other.
      intros e He. apply in_map_iff in He as (k & <- & _). cbn [DbiPinProofs.call ev_read]. now rewrite negb_involutive. }
  rewrite Hc'. destruct (deliver_goes (dbi_config_of p) high d n evs Ci (di_with x d')) as (x' & D).
  - exact Fl.
  - exact Fw.
  - rewrite Hev. apply Forall_app. split; [eapply reset_index; [|exact Hn0|exact Hr]; rewrite Fc; exact Cn|]. rewrite Hcalls. apply Forall_forall. intros e He. apply in_map_iff in He as (k & <- & _).
    cbn [DbiPinProofs.call ev_index]. apply Nat.mod_upper_bound. lia.
  - intros r line Hl. replace (nth line (di_side (di_with x d') r) d) with (nth line (di_side x r) d) by (unfold di_side, di_with; destruct r; reflexivity).
    rewrite (Calls r line Hl). destruct (Bool.eqb r read) eqn:Er; [|eexists; reflexivity]. apply Bool.eqb_prop in Er. subst r. apply Tk. exact Hl.
  - rewrite D. cbn [bind]. exists x', out. split; [reflexivity|]. split; [exact Lo|]. intros r. rewrite (deliver_dbi _ _ _ _ D). cbn [di_with di_dbi].
    destruct (Bool.eqb r read) eqn:Er; [apply Bool.eqb_prop in Er; subst r; exact So|]. assert (r = negb read) as -> by (destruct r, read; try discriminate; reflexivity). rewrite Hoth. apply Ss.
Qed.

Lemma end_goes dbi held x t d M : flag_inv p dbi held x -> (flag_lines p <= M)%nat -> (forall r, sized M (db_side (di_dbi x) r)) ->
  (forall r line, (line < flag_lines p)%nat -> exists q, pin_told (back_to_rest (dq_rests_high (fi_std p)) (held r line) t) (nth line (di_side x r) d) = Value q) ->
  exists x', dbi_if_end x t = Value x' /\ (forall r, sized M (db_side (di_dbi x') r)).
Proof using Ln Sz Hn0.
  intros [Fc Fo Fr Fl Fw Fs] Hnm Ss Tk. destruct (lined_config p Ln Sz) as (Cd & Ca & Cs & Cc & Cw & Ci & Cn).
  set (high := dq_rests_high (fi_std p)) in *. set (n := flag_lines p) in *.
  destruct (reset_goes (di_dbi x) t true n M) as (d1 & e1 & R1 & S1 & _); [rewrite Fc; exact Cn|rewrite Fc; exact Cc|lia|apply Ss|].
  pose proof (reset_spec _ _ _ _ _ R1) as (B1 & B2 & _ & B3 & _). cbn [negb] in B3.
  assert (db_config d1 = dbi_config_of p) as Fc1 by congruence.
  destruct (reset_goes d1 t false n M) as (d2 & e2 & R2 & S2 & _); [rewrite Fc1; exact Cn|rewrite Fc1; exact Cc|lia|rewrite B3; apply Ss|].
  pose proof (reset_spec _ _ _ _ _ R2) as (B4 & B5 & _ & B6 & _). cbn [negb] in B6.
  destruct (reset_told _ n high _ t true _ _ (held true) Fc Cn Cc Hn0 (Fs true) R1) as (A1 & A2 & A3).
  assert (side_ok n (held false) (db_side d1 false)) as Fs1 by (rewrite B3; apply Fs).
  destruct (reset_told _ n high _ t false _ _ (held false) Fc1 Cn Cc Hn0 Fs1 R2) as (A4 & A5 & A6). cbn [negb] in *.
  unfold dbi_if_end, dbi_reset_both. rewrite R1. cbn [bind fst snd]. rewrite R2. cbn [bind fst snd]. rewrite B4, Fc1.
  destruct (deliver_goes (dbi_config_of p) high d n (e1 ++ e2) Ci (di_with x d2)) as (x' & D).
  - exact Fl.
  - exact Fw.
  - apply Forall_app. split; [eapply reset_index; [|exact Hn0|exact R1]; rewrite Fc; exact Cn|eapply reset_index; [|exact Hn0|exact R2]; rewrite Fc1; exact Cn].
  - intros r line Hl. replace (nth line (di_side (di_with x d2) r) d) with (nth line (di_side x r) d) by (unfold di_side, di_with; destruct r; reflexivity).
    rewrite calls_of_app. destruct (Tk r line Hl) as (q & Q). exists q. destruct r; [rewrite (A1 line Hl), A5, app_nil_r|rewrite A2, (A4 line Hl)]; exact Q.
  - exists x'. split; [exact D|]. intros r. rewrite (deliver_dbi _ _ _ _ D). cbn [di_with di_dbi]. destruct r; [rewrite B6; exact S1|exact S2].
Qed.
End Burst.
