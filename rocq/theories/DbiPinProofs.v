(* The pins of an interface follow the data. *)
From Coq Require Import NArith List Bool Lia Arith.
From Verif Require Import Base Bits WaveSpec BitFacts ListFacts PinModel PinSpec PinProofs DbiModel DbiSpec DbiProofs DbiBounds DbiPinModel DbiPinSpec.
Import ListNotations.
Local Open Scope N_scope.
Ltac Zify.zify_post_hook ::= idtac.

(* ---- the calls of one burst ---- *)

Definition call (c : dbi_config) (t : N) (n : nat) (read : bool) (data : list N) (ch : nat) : event :=
  mkEvent t (u64_add t (N.of_nat (Nat.div ch n))) (Nat.modulo ch n) (static_decision c (nth ch data 0)) read.

Lemma map_seq_ext {A} (f g : nat -> A) n : (forall i, (i < n)%nat -> f i = g i) -> map f (seq 0 n) = map g (seq 0 n).
Proof. intros H. apply map_ext_in. intros i Hi. apply in_seq in Hi. apply H. lia. Qed.

Lemma calls_exact c prev t read orig inv s n : dg_sub c = 1%nat -> dg_alg c = Static -> dg_callback c = true ->
  chunks_per_width c = Some n -> (0 < n)%nat ->
  compute c prev t read (mkScan orig 0 0 0 0 inv []) = Value s ->
  sc_events s = map (call c t n read orig) (seq 0 (length orig)).
Proof.
  intros Hk Halg Hcb Hn Hn0 H. unfold compute in H. rewrite Halg in H. cbn [sc_data] in H.
  apply (loop_range _ (fun i s => scan_inv c t read orig inv i s /\ sc_a s = 0 /\ sc_b s = 0 /\
           sc_events s = map (call c t n read orig) (seq 0 i))) in H.
  - destruct H as (_ & _ & _ & H). exact H.
  - split; [apply scan_start; lia|]. split; [reflexivity|]. split; reflexivity.
  - intros i a a' Hi (I & Ha & Hb & Hd) E. split; [eapply static_inv; eauto; lia|].
    unfold static_step in E. destruct (fetch (sc_data a) i) as [v|] eqn:Ef; [|discriminate]. cbn [bind] in E.
    apply fetch_nth in Ef as [_ Hv]. specialize (Hv 0).
    rewrite (si_data _ _ _ _ _ _ _ I i) in Hv by lia. rewrite Hk, Nat.div_1_r in Hv.
    assert (reached 1 i i = false) as Hr by (apply Nat.ltb_ge; lia). rewrite Hr in Hv. cbn [andb] in Hv. subst v.
    unfold is_last in E. rewrite Hk, Nat.mod_1_r, Nat.eqb_refl in E. rewrite Ha, Hb, !N.add_0_l in E.
    apply bind_value in E as (s1 & Ev & E). injection E as <-.
    apply visit_spec in Ev as (ev & Han & Hev & _). cbn [set_counters sc_chunk sc_inv sc_events] in *.
    assert (sc_events (next_entry c (set_counters s1 0 0)) = sc_events s1) as ->
      by (unfold next_entry; destruct (Nat.leb _ _); reflexivity).
    unfold next_entry, set_counters. split; [destruct (Nat.leb _ _); reflexivity|]. split; [destruct (Nat.leb _ _); reflexivity|].
    pose proof (si_chunk _ _ _ _ _ _ _ I) as Hch. rewrite Hk, Nat.div_1_r in Hch. rewrite Hch in *.
    unfold announce in Han. rewrite Hcb, Hn in Han. rewrite (proj2 (Nat.eqb_neq n 0)) in Han by lia. injection Han as <-.
    rewrite Hev, Hd. rewrite seq_S, map_app. reflexivity.
Qed.

Lemma filter_map {A B} (f : A -> B) (g : B -> bool) l : filter g (map f l) = map f (filter (fun x => g (f x)) l).
Proof. induction l as [|x r IH]; [reflexivity|]. cbn [map filter]. destruct (g (f x)); cbn [map]; now rewrite IH. Qed.

Lemma filter_one n p from : (p < n)%nat ->
  filter (fun ch => Nat.eqb (Nat.modulo ch n) p) (seq (from * n) n) = [(from * n + p)%nat].
Proof.
  intros Hp. assert (seq (from * n) n = seq (from * n) (p + S (n - p - 1))) as -> by (f_equal; lia). rewrite seq_app, filter_app. cbn [seq filter].
  assert ((from * n + p) mod n = p)%nat as Hm by (rewrite Nat.add_comm, Nat.mod_add by lia; apply Nat.mod_small; lia).
  rewrite Hm, Nat.eqb_refl.
  assert (forall a k, (forall x, (a <= x < a + k)%nat -> Nat.modulo x n <> p) ->
            filter (fun ch => Nat.eqb (Nat.modulo ch n) p) (seq a k) = []) as Hnil.
  { intros a k. revert a. induction k as [|k IH]; intros a H; [reflexivity|]. cbn [seq filter].
    rewrite (proj2 (Nat.eqb_neq (a mod n) p)) by (apply H; lia). apply IH. intros x Hx. apply H. lia. }
  rewrite !Hnil; [reflexivity| |].
  - intros x Hx E. replace x with (x - from * n + from * n)%nat in E by lia. rewrite Nat.mod_add in E by lia. rewrite Nat.mod_small in E by lia. lia.
  - intros x Hx E. replace x with (x - from * n + from * n)%nat in E by lia. rewrite Nat.mod_add in E by lia. rewrite Nat.mod_small in E by lia. lia.
Qed.
Lemma filter_pin n p beats : (p < n)%nat ->
  filter (fun ch => Nat.eqb (Nat.modulo ch n) p) (seq 0 (beats * n)) = map (fun b => (b * n + p)%nat) (seq 0 beats).
Proof.
  intros Hp. induction beats as [|b IH]; [reflexivity|].
  replace (S b * n)%nat with (b * n + n)%nat by lia. rewrite seq_app, filter_app, IH. cbn [Nat.add].
  rewrite filter_one by assumption. rewrite seq_S, map_app. reflexivity.
Qed.

(* ---- delivering calls ---- *)

Definition di_side (i : dbi_pins_if) (read : bool) : list pin := if read then di_read i else di_write i.

Definition levels_for (high : bool) (p : nat) (evs : list event) : list bool :=
  map (fun e => xorb high (ev_inverted e)) (filter (fun e => Nat.eqb (ev_index e) p) evs).

Lemma signal_level c (high b : bool) : dg_idle c = (if high then PinH else PinL) -> pin_signal c b = driven_level (xorb high b).
Proof. intros H. unfold pin_signal. rewrite H. destruct high, b; reflexivity. Qed.

Lemma deliver_ok c (high : bool) t read n d evs : dg_idle c = (if high then PinH else PinL) -> forall i,
  length (di_read i) = n -> length (di_write i) = n ->
  Forall (fun e => ev_load e = t /\ ev_read e = read /\ (ev_index e < n)%nat) evs ->
  (forall p, (p < n)%nat -> exists q, pin_send t (levels_for high p evs) (nth p (di_side i read) d) = Value q) ->
  exists i', deliver c evs i = Value i' /\ di_dbi i' = di_dbi i /\ di_rate i' = di_rate i /\
    di_side i' (negb read) = di_side i (negb read) /\ length (di_read i') = n /\ length (di_write i') = n /\
    forall p, (p < n)%nat -> pin_send t (levels_for high p evs) (nth p (di_side i read) d) = Value (nth p (di_side i' read) d).
Proof.
  intros Hidle. induction evs as [|e r IH]; intros i Hr Hw Hall Hp.
  { exists i. split; [reflexivity|]. split; [reflexivity|]. split; [reflexivity|]. split; [reflexivity|].
    split; [assumption|]. split; [assumption|]. reflexivity. }
  pose proof (Forall_inv Hall) as (El & Er & Ei). apply Forall_inv_tail in Hall.
  unfold deliver. cbn [loop]. unfold pin_change_handler at 1. rewrite Hr, Hw, (proj2 (Nat.ltb_lt _ _) Ei). cbn [orb check].
  rewrite Er. fold (di_side i read).
  assert (length (di_side i read) = n) as Hs by (destruct read; assumption).
  destruct (fetch_ok (di_side i read) (ev_index e)) as [p0 Ef]; [lia|]. rewrite Ef. cbn [bind]. apply fetch_nth in Ef as [_ Ef]. specialize (Ef d).
  rewrite El, (signal_level c high) by assumption.
  destruct (Hp _ Ei) as [q Hq]. rewrite Ef in Hq. unfold levels_for in Hq. cbn [filter] in Hq. rewrite Nat.eqb_refl in Hq. cbn [map pin_send] in Hq.
  apply bind_value in Hq as (p1 & H1 & Hq). rewrite H1. cbn [bind].
  destruct (put_ok (di_side i read) (ev_index e) p1) as [pins Ep]; [lia|]. rewrite Ep. cbn [bind].
  apply put_spec in Ep as (_ & Hl & Hnth). rewrite Hs in *.
  set (i1 := mkDbiIf (di_dbi i) (if read then pins else di_read i) (if read then di_write i else pins) (di_rate i)).
  assert (di_side i1 read = pins) as Hi1 by (destruct read; reflexivity).
  assert (forall p, (p < n)%nat -> pin_send t (levels_for high p (e :: r)) (nth p (di_side i read) d) = pin_send t (levels_for high p r) (nth p pins d)) as Hstep.
  { intros p Hpn. unfold levels_for. cbn [filter]. rewrite Hnth by assumption. destruct (Nat.eqb_spec (ev_index e) p) as [<-|Hne].
    - cbn [map pin_send]. rewrite Ef, H1. reflexivity.
    - reflexivity. }
  destruct (IH i1) as (i' & Hd & Hdb & Hra & Hos & Hlr & Hlw & Hres).
  - unfold i1. cbn [di_read]. destruct read; assumption.
  - unfold i1. cbn [di_write]. destruct read; assumption.
  - assumption.
  - intros p Hpn. rewrite Hi1, <- Hstep by assumption. now apply Hp.
  - exists i'. split; [exact Hd|]. split; [exact Hdb|]. split; [exact Hra|].
    split; [rewrite Hos; unfold i1, di_side; destruct read; reflexivity|]. split; [assumption|]. split; [assumption|].
    intros p Hpn. rewrite Hstep by assumption. rewrite <- Hi1. now apply Hres.
Qed.

(* ---- no call to return to idle ---- *)

Lemma reset_quiet c n d t read ev d' : db_config d = c -> chunks_per_width c = Some n ->
  lb_init (db_side d read) = false \/ lb_end (db_side d read) = t \/
    (forall p, (p < n)%nat -> nth (lb_chunks (db_side d read) - n + p) (lb_inv (db_side d read)) false = false) ->
  dbi_reset d t read = Value (d', ev) -> ev = [].
Proof.
  intros Hc Hn Hq H. unfold dbi_reset in H. rewrite Hc, Hn in H. set (b := db_side d read) in *.
  apply check_value in H as [_ H].
  destruct (lb_init b) eqn:Ei; cbn [negb] in H; [|now injection H].
  destruct (t <? lb_end b); [now injection H|].
  destruct (N.eqb_spec (lb_end b) t) as [E|E]; [now injection H|].
  destruct (dg_callback c); [|now injection H].
  apply bind_value in H as (s & Hs & H). injection H as _ <-.
  destruct Hq as [Hq|[Hq|Hq]]; [discriminate|contradiction|].
  apply (loop_range _ (fun k s => snd s = [] /\ forall j, (k <= j < lb_chunks b - n + n)%nat -> nth j (fst s) false = false)) in Hs; [apply Hs| |].
  - split; [reflexivity|]. cbn [fst]. intros j Hj. replace j with (lb_chunks b - n + (j - (lb_chunks b - n)))%nat by lia. apply Hq. lia.
  - intros k a a' Hk (Hev & Hz) Ha. unfold reset_chunk in Ha. apply bind_value in Ha as (x & Hx & Ha).
    apply bind_value in Ha as (inv & Hinv & Ha). injection Ha as <-. cbn [fst snd].
    apply fetch_nth in Hx as [Hlt Hx]. specialize (Hx false). rewrite Hz in Hx by lia. subst x. rewrite Hev.
    split; [reflexivity|]. apply put_spec in Hinv as (_ & Hl & Hnt). intros j Hj.
    destruct (Nat.lt_ge_cases j (length (fst a))) as [Hlj|Hlj].
    + rewrite Hnt by assumption. destruct (Nat.eqb k j); [reflexivity|]. apply Hz. lia.
    + apply nth_overflow. lia.
Qed.

(* ---- series of bursts ---- *)

Lemma pin_run_app l l' : forall p, pin_run (l ++ l') p = bind (pin_run l p) (pin_run l').
Proof.
  induction l as [|x r IH]; intros p; [reflexivity|]. cbn [app pin_run]. destruct (pin_send (fst x) (snd x) p); [|reflexivity].
  cbn [bind]. apply IH.
Qed.
Lemma if_run_app bits l l' : forall i, dbi_if_run bits (l ++ l') i = bind (dbi_if_run bits l i) (dbi_if_run bits l').
Proof.
  induction l as [|x r IH]; intros i; [reflexivity|]. cbn [app dbi_if_run]. destruct (dbi_if_data _ _ _ _ _); [|reflexivity].
  cbn [bind]. apply IH.
Qed.
Lemma bursts_ok_app max l l' : forall from, bursts_ok max from (l ++ l') -> bursts_ok max from l.
Proof. induction l as [|x r IH]; intros from H; [exact I|]. cbn [app bursts_ok] in *. intuition eauto. Qed.
Lemma bursts_ok_last max l x : forall from, bursts_ok max from (l ++ [x]) -> fst x + N.of_nat (length (snd x)) < two64.
Proof. induction l as [|y r IH]; intros from H; cbn [app bursts_ok] in H; intuition eauto. Qed.
Lemma last_burst_app l x : last_burst (l ++ [x]) = fst x.
Proof. unfold last_burst. now rewrite fold_left_app. Qed.

Lemma bursts_ok_pin digits high rate n beats p p' max l : forall from,
  bursts_ok max from (pin_bursts digits high rate n beats p l) -> bursts_ok max from (pin_bursts digits high rate n beats p' l).
Proof.
  induction l as [|o r IH]; intros from; [trivial|]. cbn [pin_bursts map bursts_ok fst snd]. rewrite !map_length. intros (A & B & C & D).
  split; [assumption|]. split; [assumption|]. split; [assumption|]. apply IH. exact D.
Qed.

Lemma of_side_snoc read l o : of_side read (l ++ [o]) = of_side read l ++ (if Bool.eqb (tr_read o) read then [o] else []).
Proof. unfold of_side. rewrite filter_app. cbn [filter]. now destruct (Bool.eqb (tr_read o) read). Qed.

Lemma settled_app digits high rate n beats l l' : settled digits high rate n beats (l ++ l') -> settled digits high rate n beats l.
Proof. intros H a o o' b ->. apply (H a o o' (b ++ l')). now rewrite <- app_assoc. Qed.

Lemma decision_inverts c (high : bool) v : dg_idle c = (if high then PinH else PinL) -> bounded (dg_digits c) v ->
  static_decision c v = inverts (dg_digits c) high v.
Proof.
  intros Hidle Hb. destruct (consuming_popcount _ _ Hb) as [Hcf Hct]. pose proof (popcount_le _ _ Hb) as Hple.
  unfold static_decision, inverts. rewrite Hidle. destruct high.
  - rewrite Hct. destruct (N.ltb_spec (popcount v) (N.of_nat (dg_digits c) - popcount v)), (N.ltb_spec (N.of_nat (dg_digits c)) (2 * (N.of_nat (dg_digits c) - popcount v))); try reflexivity; lia.
  - rewrite Hcf. destruct (N.ltb_spec (N.of_nat (dg_digits c) - popcount v) (popcount v)), (N.ltb_spec (N.of_nat (dg_digits c)) (2 * popcount v)); try reflexivity; lia.
Qed.

Lemma idle_driven (high : bool) : pin_eqb PinZ (if high then PinH else PinL) = false.
Proof. now destruct high. Qed.

Section Series.
Context (c : dbi_config) (high : bool) (n beats max : nat) (rate : N).
Hypothesis Hcok : dbi_config_ok c.
Hypothesis Hsub : dg_sub c = 1%nat.
Hypothesis Halg : dg_alg c = Static.
Hypothesis Hcb : dg_callback c = true.
Hypothesis Hidle : dg_idle c = (if high then PinH else PinL).
Hypothesis Hwidth : dg_width c = Some (n * dg_digits c)%nat.
Hypothesis Hbeats : (1 <= beats)%nat.
Hypothesis Hmax : (1 <= max)%nat.

Let bits := (beats * (n * dg_digits c))%nat.
Let m := (beats * n)%nat.
Let hist := pin_bursts (dg_digits c) high rate n beats.
Let fresh := pin_new max (dg_idle c) (dg_idle c).

Lemma n_pos : (0 < n)%nat.
Proof. destruct Hcok as (Hd & Hs & Hw). rewrite Hwidth in Hw. destruct Hw as (k & Hk & E). nia. Qed.
Lemma pins_n : chunks_per_width c = Some n.
Proof.
  destruct Hcok as (Hd & _ & _). unfold chunks_per_width, chunk_size. rewrite Hwidth, Hsub, Nat.mul_1_l, Nat.div_mul by lia. reflexivity.
Qed.

(* What holds of one direction after its bursts [l]. *)
Definition last_seen (l : list transfer) (b : lastburst) : Prop :=
  l = [] /\ lb_init b = false \/
  exists l0 o, l = l0 ++ [o] /\ lb_end b = tr_time o * rate + N.of_nat beats /\ lb_chunks b = m /\
    forall p, (p < n)%nat -> nth ((beats - 1) * n + p) (lb_inv b) false = inverts (dg_digits c) high (nth ((beats - 1) * n + p) (tr_data o) 0).
Definition follows (l : list transfer) (pins : list pin) : Prop :=
  forall p, (p < n)%nat -> pin_run (hist p l) fresh = Value (nth p pins fresh).
Record if_inv (done : list transfer) (i : dbi_pins_if) : Prop := {
  ii_ok : dbi_ok c m (di_dbi i);
  ii_on : db_enable (di_dbi i) = true;
  ii_rate : di_rate i = rate;
  ii_nr : length (di_read i) = n;
  ii_nw : length (di_write i) = n;
  ii_last : forall read, last_seen (of_side read done) (db_side (di_dbi i) read);
  ii_pins : forall read, follows (of_side read done) (di_side i read)
}.

Definition burst_ok (o : transfer) : Prop := (m <= length (tr_data o))%nat /\ entries_ok (dg_digits c) (tr_data o).

Lemma hist_snoc p l o : hist p (l ++ [o]) = hist p l ++ hist p [o].
Proof. unfold hist, pin_bursts. now rewrite map_app. Qed.

Lemma if_step done o i : if_inv done i -> burst_ok o ->
  bursts_ok max 0 (hist 0 (of_side (tr_read o) (done ++ [o]))) ->
  settled (dg_digits c) high rate n beats (of_side (tr_read o) (done ++ [o])) ->
  exists i' out, dbi_if_data i (tr_time o) bits (Some (tr_data o)) (tr_read o) = Value (i', out) /\ if_inv (done ++ [o]) i'.
Proof.
  intros I (Hlen & Hent) Hbok Hset. destruct I. pose proof n_pos as Hn0. pose proof Hcok as (Hdg & _ & _).
  set (read := tr_read o) in *. rewrite of_side_snoc in Hbok, Hset. fold read in Hbok, Hset. rewrite Bool.eqb_reflx in Hbok, Hset.
  set (l := of_side read done) in *.
  pose proof Hbok as Hlast. rewrite hist_snoc in Hlast. cbn [pin_bursts map] in Hlast. apply bursts_ok_last in Hlast.
  cbn [fst snd] in Hlast. rewrite map_length, seq_length in Hlast.
  unfold dbi_if_data. rewrite ii_on0. assert (bits <> 0)%nat as Hbz by (unfold bits; nia).
  rewrite (proj2 (Nat.eqb_neq bits 0)) by assumption. cbn [negb orb]. rewrite ii_rate0.
  assert (u64_mul (tr_time o) rate = tr_time o * rate) as -> by (apply N.mod_small; lia).
  set (T := tr_time o * rate) in *.
  assert (fits c m) as Hfit.
  { unfold fits, dbi_pins. rewrite Hwidth, Hsub, Nat.mul_1_l, Nat.div_mul by lia. unfold m. nia. }
  assert (bits = m * chunk_size c)%nat as Hbm by (unfold bits, m, chunk_size; rewrite Hsub; lia).
  destruct (update_ok c m (di_dbi i) T (tr_data o) read Hcok Hfit ii_ok0) as (d' & ev & out & Hu & Hok'); [unfold m; nia|rewrite Hsub; lia|].
  rewrite <- Hbm in Hu.
  assert (exists out', out = Some out') as [out' ->].
  { unfold dbi_update in Hu. rewrite (proj1 ii_ok0), ii_on0 in Hu. rewrite (proj2 (Nat.eqb_neq bits 0)) in Hu by assumption. cbn [orb negb] in Hu.
    assert (pin_eqb PinZ (dg_idle c) = false) as E by (rewrite Hidle; apply idle_driven). rewrite E in Hu.
    apply bind_value in Hu as (r & _ & Hu). apply check_value in Hu as (_ & Hu). destruct (Nat.ltb _ _) in Hu; [discriminate|].
    apply bind_value in Hu as (pr & _ & Hu). apply check_value in Hu as (_ & Hu). destruct (grow_inversions _ _ _) in Hu.
    apply bind_value in Hu as (s & _ & Hu). apply bind_value in Hu as (te & _ & Hu). injection Hu as _ _ <-. eauto. }
  rewrite Hu. cbn [bind]. pose proof Hu as Hup. apply update_spec in Hup. cbv zeta in Hup. rewrite (proj1 ii_ok0) in Hup.
  destruct Hup as (_ & _ & _ & _ & _ & _ & d1 & ev1 & prev & s & inv & cap & Hr & Hp & Hg & Hs & Hout & Hev & Hc' & Hen' & _ & Hoth & Hside).
  assert (bits / dg_digits c = m)%nat as Hdiv by (unfold bits, m; rewrite Nat.mul_assoc; apply Nat.div_mul; lia).
  rewrite Hdiv in *.
  assert (ev1 = []) as ->.
  { refine (reset_quiet c n (di_dbi i) T read ev1 d1 (proj1 ii_ok0) pins_n _ Hr).
    destruct (ii_last0 read) as [[_ Hinit]|(l0 & o0 & El & He & Hch & Hfl)]; [now left|right].
    fold l in El. rewrite El in Hset. rewrite <- app_assoc in Hset.
    destruct (Hset l0 o0 o [] eq_refl) as [Hs1|Hs1]; [left; rewrite He; fold T in Hs1; lia|right].
    intros p Hpn. rewrite Hch. replace (m - n + p)%nat with ((beats - 1) * n + p)%nat by (unfold m; nia). rewrite Hfl by assumption. now apply Hs1. }
  cbn [app] in Hev.
  set (orig := firstn m (tr_data o)) in *.
  assert (length orig = m) as Hol by (unfold orig; rewrite firstn_length; lia).
  assert (forall k, (k < m)%nat -> static_decision c (nth k orig 0) = inverts (dg_digits c) high (nth k (tr_data o) 0)) as Hdec.
  { intros k Hk. unfold orig. rewrite nth_firstn by assumption. apply decision_inverts; [assumption|now apply bounded_entry]. }
  pose proof (calls_exact c prev T read orig inv s n Hsub Halg Hcb pins_n Hn0 Hs) as Hcalls. rewrite Hol in Hcalls.
  assert (forall p, (p < n)%nat -> levels_for high p ev = map (fun b => xorb high (inverts (dg_digits c) high (nth (b * n + p) (tr_data o) 0))) (seq 0 beats)) as Hlev.
  { intros p Hpn. rewrite Hev, Hcalls. unfold levels_for. rewrite filter_map, map_map. unfold call. cbn [ev_index ev_inverted].
    unfold m. rewrite filter_pin by assumption. rewrite map_map. apply map_seq_ext. intros b Hb. rewrite Hdec; [reflexivity|]. unfold m. nia. }
  destruct (deliver_ok c high T read n fresh ev Hidle (di_with i d')) as (i' & Hdel & Hdb & Hra & Hos & Hlr & Hlw & Hres).
  - exact ii_nr0.
  - exact ii_nw0.
  - rewrite Hev, Hcalls. apply Forall_forall. intros e He. apply in_map_iff in He as (ch & <- & Hch). cbn [call ev_load ev_read ev_index].
    split; [reflexivity|]. split; [reflexivity|]. apply Nat.mod_upper_bound. lia.
  - intros p Hpn. rewrite Hlev by assumption.
    assert (exists q, pin_run (hist p (l ++ [o])) fresh = Value q) as [q Hq].
    { destruct (pin_counts max (dg_idle c) (dg_idle c) (hist p (l ++ [o])) T 1 Hmax) as (q & Hq & _); [| | |exists q; exact Hq].
      - eapply bursts_ok_pin. exact Hbok.
      - rewrite hist_snoc. unfold hist at 2. cbn [pin_bursts map]. rewrite last_burst_app. cbn [fst]. fold T. lia.
      - lia. }
    rewrite hist_snoc, pin_run_app in Hq. pose proof (ii_pins0 read p Hpn) as Hpr. fold l in Hpr. rewrite Hpr in Hq. cbn [bind] in Hq.
    unfold hist, pin_bursts in Hq. cbn [map pin_run fst snd] in Hq. apply bind_value in Hq as (q' & Hq' & _). exists q'. exact Hq'.
  - rewrite Hc'. rewrite Hdel. cbn [bind]. exists i', (Some out'). split; [reflexivity|].
    assert (forall r, r <> read -> of_side r (done ++ [o]) = of_side r done) as Hother.
    { intros r Hne. rewrite of_side_snoc. fold read. assert (Bool.eqb read r = false) as -> by (apply Bool.eqb_false_iff; congruence). apply app_nil_r. }
    assert (of_side read (done ++ [o]) = l ++ [o]) as Hsame by (rewrite of_side_snoc; fold read; rewrite Bool.eqb_reflx; reflexivity).
    constructor.
    + rewrite Hdb. exact Hok'.
    + rewrite Hdb. exact Hen'.
    + rewrite Hra. exact ii_rate0.
    + assumption.
    + assumption.
    + intros r. rewrite Hdb. cbn [di_with di_dbi]. destruct (Bool.bool_dec r read) as [->|Hne].
      * rewrite Hsame. right. exists l, o. split; [reflexivity|]. rewrite Hside, Hwidth. cbn [lb_end lb_chunks lb_inv].
        split.
        -- assert (bits / (n * dg_digits c) = beats)%nat as -> by (apply Nat.div_mul; nia). apply N.mod_small. exact Hlast.
        -- split; [rewrite Hbm; apply Nat.div_mul; unfold chunk_size; nia|]. intros p Hpn.
           rewrite (static_flags _ _ _ _ _ _ _ Hsub Halg Hs) by (rewrite Hol; unfold m; nia). apply Hdec. unfold m. nia.
      * rewrite (Hother r Hne). rewrite (other_side r read Hne), Hoth. apply (ii_last0 (negb read)).
    + intros r. destruct (Bool.bool_dec r read) as [->|Hne].
      * rewrite Hsame. intros p Hpn. rewrite hist_snoc, pin_run_app. pose proof (ii_pins0 read p Hpn) as Hpr. fold l in Hpr. rewrite Hpr. cbn [bind].
        unfold hist, pin_bursts. cbn [map pin_run fst snd]. fold T.
        pose proof (Hres p Hpn) as Hx. rewrite Hlev in Hx by assumption.
        assert (di_side (di_with i d') read = di_side i read) as Hy by (destruct read; reflexivity). rewrite Hy in Hx. rewrite Hx. reflexivity.
      * rewrite (Hother r Hne). rewrite (other_side r read Hne), Hos. apply (ii_pins0 (negb read)).
Qed.

Lemma if_new : exists i, dbi_if_new c max rate true = Value i /\ if_inv [] i.
Proof.
  unfold dbi_if_new, dbi_new. rewrite Hwidth. pose proof Hcok as (Hdg & _ & _).
  assert ((n * dg_digits c) mod chunk_size c = 0)%nat as -> by (unfold chunk_size; rewrite Hsub, Nat.mul_1_l; apply Nat.mod_mul; lia).
  rewrite Nat.eqb_refl. cbn [check bind]. rewrite pins_n. eexists. split; [reflexivity|].
  constructor; cbn [di_dbi di_read di_write di_rate].
  - split; [reflexivity|]. split; left; repeat split.
  - reflexivity.
  - reflexivity.
  - apply repeat_length.
  - apply repeat_length.
  - intros read. left. split; [reflexivity|]. destruct read; reflexivity.
  - intros read p Hp. cbn [of_side filter hist pin_bursts map pin_run]. unfold di_side. cbn [di_read di_write].
    replace (if read then _ else _) with (repeat (pin_new max (dg_idle c) (dg_idle c)) n) by now destruct read.
    fold fresh. f_equal. symmetry. apply (repeat_spec n). apply nth_In. now rewrite repeat_length.
Qed.

Lemma if_run ops : Forall burst_ok ops ->
  (forall read, bursts_ok max 0 (hist 0 (of_side read ops)) /\ settled (dg_digits c) high rate n beats (of_side read ops)) ->
  exists i0 i, dbi_if_new c max rate true = Value i0 /\ dbi_if_run bits ops i0 = Value i /\ if_inv ops i.
Proof.
  induction ops as [|o ops IH] using rev_ind; intros Hall H.
  - destruct if_new as (i & Hi & Hinv). exists i, i. split; [assumption|]. split; [reflexivity|assumption].
  - apply Forall_app in Hall as (Hall & Ho). apply Forall_inv in Ho.
    destruct IH as (i0 & i & H0 & Hr & Hinv); [assumption| |].
    + intros read. destruct (H read) as (Hb & Hs). rewrite of_side_snoc in Hb, Hs. split.
      * destruct (Bool.eqb (tr_read o) read); [|now rewrite app_nil_r in Hb]. rewrite hist_snoc in Hb. eapply bursts_ok_app. exact Hb.
      * eapply settled_app. exact Hs.
    + destruct (H (tr_read o)) as (Hb & Hs). destruct (if_step ops o i Hinv Ho Hb Hs) as (i' & out & Hst & Hinv').
      exists i0, i'. split; [assumption|]. split; [|assumption]. rewrite if_run_app, Hr. cbn [bind dbi_if_run]. rewrite Hst. reflexivity.
Qed.

Lemma sum_stats pins t q (f : nat -> bus_stats) : forall k,
  (forall p, (p < length pins)%nat -> pin_stats_at (nth p pins fresh) t q = Value (wrap_stats (f (k + p)%nat))) ->
  loop (fun p s => x <- pin_stats_at p t q ;; Value (stats_add s x)) pins (wrap_stats (sum_pins k f)) = Value (wrap_stats (sum_pins (k + length pins) f)).
Proof.
  induction pins as [|p r IH]; intros k H; cbn [loop length].
  - now rewrite Nat.add_0_r.
  - pose proof (H 0%nat) as H0. cbn [nth length] in H0. rewrite H0 by lia. cbn [bind]. rewrite stats_add_wrap. rewrite Nat.add_0_r.
    change (add_exact (sum_pins k f) (f k)) with (sum_pins (S k) f). rewrite IH.
    + do 3 f_equal. lia.
    + intros j Hj. specialize (H (S j)). cbn [nth length] in H. rewrite H by lia. do 3 f_equal. lia.
Qed.

Theorem interface_pins ops : Forall burst_ok ops ->
  (forall read, bursts_ok max 0 (hist 0 (of_side read ops)) /\ settled (dg_digits c) high rate n beats (of_side read ops)) ->
  exists i0 i, dbi_if_new c max rate true = Value i0 /\ dbi_if_run bits ops i0 = Value i /\
    forall read t q, last_burst (hist 0 (of_side read ops)) <= t * q -> t * q < two64 ->
      dbi_if_stats i t q read = Value (wrap_stats (sum_pins n (fun p => pin_wave (dg_idle c) (dg_idle c) (hist p (of_side read ops)) (t * q)))).
Proof.
  intros Hall H. destruct (if_run ops Hall H) as (i0 & i & H0 & Hr & Hinv). exists i0, i. split; [assumption|]. split; [assumption|].
  intros read t q Hl Ht. destruct Hinv. unfold dbi_if_stats. fold (di_side i read).
  assert (length (di_side i read) = n) as Hs by (destruct read; assumption).
  pose proof (sum_stats (di_side i read) t q (fun p => pin_wave (dg_idle c) (dg_idle c) (hist p (of_side read ops)) (t * q)) 0) as Hx.
  cbn [sum_pins Nat.add] in Hx. rewrite Hs in Hx. change (wrap_stats (mkStats 0 0 0 0 0)) with stats0 in Hx. apply Hx.
  intros p Hp. destruct (pin_counts max (dg_idle c) (dg_idle c) (hist p (of_side read ops)) t q Hmax) as (x & Hrun & Hst); try assumption.
  - eapply bursts_ok_pin. apply H.
  - assert (last_burst (hist p (of_side read ops)) = last_burst (hist 0 (of_side read ops))) as ->; [|assumption].
    destruct (of_side read ops) as [|o r] using rev_ind; [reflexivity|]. rewrite !hist_snoc. unfold hist. cbn [pin_bursts map]. rewrite !last_burst_app. reflexivity.
  - fold fresh in Hrun. pose proof (ii_pins0 read p Hp) as Hpr. rewrite Hpr in Hrun. injection Hrun as <-. exact Hst.
Qed.
End Series.
