(* Bounds on what the inverters put on the wires, and when they succeed. *)
From Coq Require Import NArith List Bool Lia Arith.
From Verif Require Import Base Bits WaveSpec BitFacts ListFacts PinModel DbiModel DbiSpec DbiProofs.
Import ListNotations.
Local Open Scope N_scope.
Ltac Zify.zify_post_hook ::= idtac.

(* ---- static inversion, one entry per chunk ---- *)

Lemma consuming_flip c high v : consuming (dg_digits c) high (flip_entry c v) + consuming (dg_digits c) high v = N.of_nat (dg_digits c).
Proof.
  unfold consuming. rewrite (lines_ext _ (fun j => xorb high (level (flip_entry c v) j)) (fun j => negb (xorb high (level v j)))).
  - rewrite N.add_comm. apply lines_negb.
  - intros j Hj. rewrite level_flip. apply Nat.ltb_lt in Hj. rewrite Hj. now destruct high, (level v j).
Qed.

(* What the algorithm decides for an entry. *)
Definition static_decision (c : dbi_config) (v : N) : bool :=
  match dg_idle c with
  | PinL => N.of_nat (dg_digits c) - popcount v <? popcount v
  | PinH => popcount v <? N.of_nat (dg_digits c) - popcount v
  | PinZ => false
  end.

Lemma static_flags c prev t read orig inv s : dg_sub c = 1%nat -> dg_alg c = Static ->
  compute c prev t read (mkScan orig 0 0 0 0 inv []) = Value s ->
  forall i, (i < length orig)%nat -> nth i (sc_inv s) false = static_decision c (nth i orig 0).
Proof.
  intros Hk Halg H. unfold compute in H. rewrite Halg in H. cbn [sc_data] in H.
  apply (loop_range _ (fun i s => scan_inv c t read orig inv i s /\ sc_a s = 0 /\ sc_b s = 0 /\
           forall j, (j < i)%nat -> nth j (sc_inv s) false = static_decision c (nth j orig 0))) in H.
  - destruct H as (_ & _ & _ & H). exact H.
  - split; [apply scan_start; lia|]. split; [reflexivity|]. split; [reflexivity|]. intros j Hj. lia.
  - intros i a a' Hi (I & Ha & Hb & Hd) E. split; [eapply static_inv; eauto; lia|].
    unfold static_step in E. destruct (fetch (sc_data a) i) as [v|] eqn:Ef; [|discriminate]. cbn [bind] in E.
    apply fetch_nth in Ef as [_ Hv]. specialize (Hv 0).
    rewrite (si_data _ _ _ _ _ _ _ I i) in Hv by lia. rewrite Hk, Nat.div_1_r in Hv.
    assert (reached 1 i i = false) as Hr by (apply Nat.ltb_ge; lia). rewrite Hr in Hv. cbn [andb] in Hv. subst v.
    unfold is_last in E. rewrite Hk, Nat.mod_1_r, Nat.eqb_refl in E. rewrite Ha, Hb, !N.add_0_l in E.
    apply bind_value in E as (s1 & Ev & E). injection E as <-.
    apply visit_spec in Ev as (ev & _ & _ & Hc & Hl & Hn & _). cbn [set_counters sc_chunk sc_inv] in *.
    rewrite inv_next. unfold next_entry, set_counters. split; [destruct (Nat.leb _ _); reflexivity|]. split; [destruct (Nat.leb _ _); reflexivity|].
    pose proof (si_chunk _ _ _ _ _ _ _ I) as Hch. rewrite Hk, Nat.div_1_r in Hch. rewrite Hch in *.
    intros j Hj. destruct (Nat.lt_ge_cases j (length (sc_inv a))) as [Hjl|Hjl].
    + rewrite Hn by assumption. destruct (Nat.eqb_spec i j) as [<-|Hne]; [reflexivity|]. apply Hd. lia.
    + assert (j < i \/ j = i)%nat as [Hj'| ->] by lia; [|lia].
      pose proof (si_room _ _ _ _ _ _ _ I j) as Hroom. rewrite Hk in Hroom. rewrite (si_inv _ _ _ _ _ _ _ I) in Hjl.
      exfalso. assert (reached 1 i j = true) as X by (apply Nat.ltb_lt; lia). apply Hroom in X. lia.
Qed.

Lemma bounded_entry digits data i : entries_ok digits data -> bounded digits (nth i data 0).
Proof.
  intros H. destruct (Nat.lt_ge_cases i (length data)) as [Hi|Hi].
  - apply lt_bounded. unfold entries_ok in H. rewrite Forall_forall in H. apply H. now apply nth_In.
  - rewrite nth_overflow by assumption. apply bounded_0.
Qed.

Lemma consuming_popcount digits v : bounded digits v ->
  consuming digits false v = popcount v /\ consuming digits true v = N.of_nat digits - popcount v.
Proof.
  intros Hb. unfold consuming. rewrite (popcount_lines digits) by assumption. split.
  - apply lines_ext. intros j _. apply xorb_false_l.
  - rewrite <- (lines_negb digits (level v)).
    rewrite (lines_ext digits (fun j => xorb true (level v j)) (fun j => negb (level v j))) by (intros; apply xorb_true_l).
    generalize (lines digits (level v)) (lines digits (fun j => negb (level v j))). intros. lia.
Qed.

(* The flags and the data after an update, one entry per chunk. *)
Lemma single_entry d t n_bits data read d' ev out : let c := db_config d in
  dbi_config_ok c -> dg_sub c = 1%nat -> dbi_update d t n_bits (Some data) read = Value (d', ev, Some out) ->
  exists prev inv s, compute c prev t read (mkScan (firstn (Nat.div n_bits (dg_digits c)) data) 0 0 0 0 inv []) = Value s /\
    out = sc_data s /\ lb_inv (db_side d' read) = sc_inv s /\ length out = Nat.div n_bits (dg_digits c) /\
    length (firstn (Nat.div n_bits (dg_digits c)) data) = length out /\
    forall i, (i < length out)%nat -> (i < length (sc_inv s))%nat /\ nth i (firstn (Nat.div n_bits (dg_digits c)) data) 0 = nth i data 0 /\
      nth i out 0 = if nth i (sc_inv s) false then flip_entry c (nth i data 0) else nth i data 0.
Proof.
  intros c Hok Hk H. pose proof Hok as (Hdg & Hsb & Hw). apply update_spec in H. cbv zeta in H. fold c in H.
  destruct H as (_ & Hnz & _ & Hm & Hmc & Hlen & d1 & ev1 & prev & s & inv & cap & Hr & Hp & Hg & Hs & -> & -> & Hc' & _ & _ & _ & Hside).
  exists prev, inv, s. split; [exact Hs|]. split; [reflexivity|]. rewrite Hside. cbn [lb_inv]. split; [reflexivity|].
  pose proof (compute_inv _ _ _ _ _ _ _ Hsb Hs) as I. set (n := (n_bits / dg_digits c)%nat) in *.
  assert (length (firstn n data) = n) as Hol by (rewrite firstn_length; lia).
  pose proof (si_len _ _ _ _ _ _ _ I) as Hdl. split; [congruence|]. split; [congruence|]. intros i Hi. rewrite Hdl in Hi.
  assert (reached (dg_sub c) (length (firstn n data)) (i / dg_sub c) = true) as Hre.
  { rewrite Hk, Nat.div_1_r. apply Nat.ltb_lt. lia. }
  pose proof (si_room _ _ _ _ _ _ _ I _ Hre) as Hroom. rewrite Hk, Nat.div_1_r in Hroom.
  rewrite (si_inv _ _ _ _ _ _ _ I). split; [assumption|].
  assert (nth i (firstn n data) 0 = nth i data 0) as Hno by (apply nth_firstn; lia). split; [assumption|].
  rewrite (si_data _ _ _ _ _ _ _ I i) by assumption. rewrite Hre, Hno. rewrite Hk, Nat.div_1_r. reflexivity.
Qed.

Theorem static_bounds d t n_bits data read d' ev out (high : bool) : let c := db_config d in
  dbi_config_ok c -> dg_sub c = 1%nat -> dg_alg c = Static -> dg_idle c = (if high then PinH else PinL) ->
  entries_ok (dg_digits c) data ->
  dbi_update d t n_bits (Some data) read = Value (d', ev, Some out) ->
  forall i, (i < length out)%nat ->
    2 * consuming (dg_digits c) high (nth i out 0) <= N.of_nat (dg_digits c) /\
    consuming (dg_digits c) high (nth i out 0) <= consuming (dg_digits c) high (nth i data 0) /\
    (nth_error (lb_inv (db_side d' read)) i = Some true <->
     N.of_nat (dg_digits c) < 2 * consuming (dg_digits c) high (nth i data 0)).
Proof.
  intros c Hok Hk Halg Hidle Hent H i Hi. apply single_entry in H; try assumption. fold c in H.
  destruct H as (prev & inv & s & Hs & -> & -> & Hlen & Hfl & Hall).
  destruct (Hall i Hi) as (Hroom & Hno & Hout).
  pose proof (static_flags _ _ _ _ _ _ _ Hk Halg Hs i) as Hf. rewrite Hno in Hf. rewrite Hf in Hout by lia. specialize (Hf ltac:(lia)).
  set (v := nth i data 0) in *. pose proof (bounded_entry _ _ i Hent) as Hb. fold v in Hb.
  destruct (consuming_popcount _ _ Hb) as [Hcf Hct]. pose proof (popcount_le _ _ Hb) as Hple.
  pose proof (consuming_flip c high v) as Hflip.
  assert (static_decision c v = (N.of_nat (dg_digits c) - consuming (dg_digits c) high v <? consuming (dg_digits c) high v)) as Hdec.
  { unfold static_decision. rewrite Hidle. destruct high.
    - rewrite Hct. f_equal. lia.
    - rewrite Hcf. reflexivity. }
  assert (nth_error (sc_inv s) i = Some (static_decision c v)) as Hne by (rewrite <- Hf; now apply nth_error_nth').
  rewrite Hne, Hout, Hdec. clear Hne Hout Hdec Hf Hcf Hct.
  destruct (N.ltb_spec (N.of_nat (dg_digits c) - consuming (dg_digits c) high v) (consuming (dg_digits c) high v)) as [Hd|Hd].
  - split; [lia|]. split; [lia|]. split; [lia|reflexivity].
  - split; [lia|]. split; [lia|]. split; [discriminate|lia].
Qed.

(* ---- dynamic inversion, one entry per chunk ---- *)

Lemma toggling_flip c p v : toggling (dg_digits c) p (flip_entry c v) + toggling (dg_digits c) p v = N.of_nat (dg_digits c).
Proof.
  unfold toggling. rewrite (lines_ext _ (fun j => xorb (level p j) (level (flip_entry c v) j)) (fun j => negb (xorb (level p j) (level v j)))).
  - rewrite N.add_comm. apply lines_negb.
  - intros j Hj. rewrite level_flip. apply Nat.ltb_lt in Hj. rewrite Hj. now destruct (level p j), (level v j).
Qed.
Lemma toggling_popcount digits p v : bounded digits p -> bounded digits v -> popcount (N.lxor v p) = toggling digits p v.
Proof.
  intros Hp Hv. rewrite (popcount_lines digits) by (apply bounded_lxor; assumption). apply lines_ext. intros j _.
  rewrite level_lxor. apply xorb_comm.
Qed.
Lemma bounded_flip c v : bounded (dg_digits c) v -> bounded (dg_digits c) (flip_entry c v).
Proof.
  intros H j Hj. specialize (H j Hj). pose proof (level_flip c v j) as E. unfold level in *. rewrite E, H.
  now rewrite (proj2 (Nat.ltb_ge j (dg_digits c))) by lia.
Qed.

Definition dynamic_bound (c : dbi_config) (k : N) : N := N.max k (N.of_nat (dg_digits c) - k - 1).

Lemma dynamic_calm c k prev t read orig inv s : dg_sub c = 1%nat -> dg_alg c = Dynamic k -> (1 <= length prev)%nat ->
  entries_ok (dg_digits c) orig -> entries_ok (dg_digits c) prev ->
  compute c (Some prev) t read (mkScan orig 0 0 0 0 inv []) = Value s ->
  length (sc_data s) = length orig /\ entries_ok (dg_digits c) (sc_data s) /\
  forall i, (i < length orig)%nat -> toggling (dg_digits c) (nth i (prev ++ sc_data s) 0) (nth i (sc_data s) 0) <= dynamic_bound c k.
Proof.
  intros Hk Halg Hpl Ho Hp H. unfold compute in H. rewrite Halg in H. cbn [sc_data] in H.
  apply (loop_range _ (fun i s => scan_inv c t read orig inv i s /\ sc_a s = 0 /\ (forall j, bounded (dg_digits c) (nth j (sc_data s) 0)) /\
           forall j, (j < i)%nat -> toggling (dg_digits c) (nth j (prev ++ sc_data s) 0) (nth j (sc_data s) 0) <= dynamic_bound c k)) in H.
  - destruct H as (I & _ & Hb & H). pose proof (si_len _ _ _ _ _ _ _ I). split; [assumption|]. split; [|exact H].
    apply Forall_forall. intros x Hx. apply (In_nth _ _ 0) in Hx as (j & _ & <-). apply bounded_lt. apply Hb.
  - split; [apply scan_start; lia|]. split; [reflexivity|]. split; [intros j; now apply bounded_entry|]. intros j Hj. lia.
  - intros i a a' Hi (I & Ha & Hb & Hd) E. split; [eapply dynamic_inv; eauto; lia|].
    unfold dynamic_step in E. destruct (fetch (sc_data a) i) as [v|] eqn:Ef; [|discriminate]. cbn [bind] in E.
    apply fetch_nth in Ef as [Hil Hv]. specialize (Hv 0).
    destruct (concat_entry prev (sc_data a) i) as [p|] eqn:Ec; [|discriminate]. cbn [bind] in E.
    assert (nth i (prev ++ sc_data a) 0 = p /\ bounded (dg_digits c) p) as [Hpn Hpb].
    { unfold concat_entry in Ec. destruct (Nat.ltb_spec i (length prev)) as [Hl|Hl].
      - apply fetch_nth in Ec as [_ Ec]. rewrite app_nth1 by assumption. split; [apply Ec|]. rewrite <- (Ec 0). now apply bounded_entry.
      - apply fetch_nth in Ec as [_ Ec]. rewrite app_nth2 by lia. split; [apply Ec|]. rewrite <- (Ec 0). apply Hb. }
    unfold is_last in E. rewrite Hk, Nat.mod_1_r, Nat.eqb_refl in E. rewrite Ha, N.add_0_l in E.
    apply bind_value in E as (s1 & Ev & E). injection E as <-.
    apply visit_spec in Ev as (ev & _ & _ & _ & _ & _ & Hdl & Hdn & _). cbn [set_counters sc_chunk sc_data] in *.
    pose proof (si_chunk _ _ _ _ _ _ _ I) as Hch. rewrite Hk, Nat.div_1_r in Hch. rewrite Hch, Hk in Hdn.
    assert (forall x y, sc_data (next_entry c (set_counters s1 x y)) = sc_data s1) as Hnx
      by (intros; unfold next_entry; destruct (Nat.leb _ _); reflexivity).
    assert (forall x y, sc_a (next_entry c (set_counters s1 x y)) = x) as Hnx2
      by (intros; unfold next_entry; destruct (Nat.leb _ _); reflexivity).
    rewrite Hnx, Hnx2. split; [reflexivity|].
    assert (forall j, (j < length (sc_data a))%nat -> nth j (sc_data s1) 0 =
              if (k <? popcount (N.lxor v p)) && Nat.eqb i j then flip_entry c (nth j (sc_data a) 0) else nth j (sc_data a) 0) as Hn1.
    { intros j Hj. rewrite Hdn by assumption. rewrite in_chunk by lia. rewrite Nat.div_1_r. reflexivity. }
    split.
    + intros j. destruct (Nat.lt_ge_cases j (length (sc_data a))) as [Hj|Hj].
      * rewrite Hn1 by assumption. destruct (_ && _); [apply bounded_flip|]; apply Hb.
      * rewrite nth_overflow by lia. apply bounded_0.
    + intros j Hj.
      assert (forall m, (m < i)%nat -> nth m (sc_data s1) 0 = nth m (sc_data a) 0) as Hold.
      { intros m Hm. rewrite Hn1 by lia. rewrite (proj2 (Nat.eqb_neq i m)) by lia. now rewrite andb_false_r. }
      assert (nth j (prev ++ sc_data s1) 0 = nth j (prev ++ sc_data a) 0) as ->.
      { destruct (Nat.lt_ge_cases j (length prev)); [now rewrite !app_nth1 by assumption|]. rewrite !app_nth2 by assumption. apply Hold. lia. }
      destruct (Nat.eq_dec j i) as [->|Hne].
      * rewrite Hn1 by assumption. rewrite Nat.eqb_refl, andb_true_r, Hpn, Hv.
        rewrite (toggling_popcount (dg_digits c)) by (try assumption; rewrite <- Hv; apply Hb).
        pose proof (toggling_flip c p v). unfold dynamic_bound.
        destruct (N.ltb_spec k (toggling (dg_digits c) p v)); lia.
      * rewrite Hold by lia. apply Hd. lia.
Qed.

(* ---- a series of bursts in one direction ---- *)

(* What is remembered of the last burst. *)
Definition remembers (c : dbi_config) (read : bool) (beats per_beat : nat) (before : option (N * list N)) (d : dbi) : Prop :=
  db_config d = c /\
  match before with
  | None => lb_init (db_side d read) = false
  | Some (e, last) =>
      lb_init (db_side d read) = true /\ lb_end (db_side d read) = e /\ e <> lb_start (db_side d read) /\
      lb_start (db_side d read) <= e /\ e < two64 /\
      length (db_data d) = (beats * per_beat)%nat /\ last = beat_of per_beat (db_data d) (beats - 1) /\
      entries_ok (dg_digits c) (db_data d)
  end.

Lemma beat_last per_beat beats (data : list N) : (1 <= beats)%nat -> length data = (beats * per_beat)%nat ->
  beat_of per_beat data (beats - 1) = skipn (length data - per_beat) data /\ length (beat_of per_beat data (beats - 1)) = per_beat.
Proof.
  intros Hb Hl. unfold beat_of. assert (length data - per_beat = (beats - 1) * per_beat)%nat as E by nia.
  rewrite E. assert (length (skipn ((beats - 1) * per_beat) data) = per_beat) as Hs by (rewrite skipn_length; nia).
  rewrite firstn_all2 by lia. now split.
Qed.

Lemma entries_skipn digits n data : entries_ok digits data -> entries_ok digits (skipn n data).
Proof. unfold entries_ok. rewrite !Forall_forall. intros H x Hx. apply H. rewrite <- (firstn_skipn n data). apply in_or_app. now right. Qed.
Lemma entries_firstn digits n data : entries_ok digits data -> entries_ok digits (firstn n data).
Proof. unfold entries_ok. rewrite !Forall_forall. intros H x Hx. apply H. rewrite <- (firstn_skipn n data). apply in_or_app. now left. Qed.

Lemma idle_entries c w (high : bool) : dg_idle c = (if high then PinH else PinL) ->
  idle_data c w = repeat (idle_word (dg_digits c) high) (Nat.div w (dg_digits c)) /\ entries_ok (dg_digits c) (idle_data c w).
Proof.
  intros Hi. unfold idle_data. rewrite Hi.
  assert ((match (if high then PinH else PinL) with PinH => N.ones (N.of_nat (dg_digits c)) | _ => 0 end) = idle_word (dg_digits c) high) as ->.
  { apply (bounded_eq (dg_digits c)).
    - destruct high; [|apply bounded_0]. apply lt_bounded. rewrite N.ones_equiv. pose proof (N.pow_nonzero 2 (N.of_nat (dg_digits c))). lia.
    - apply word_of_bound.
    - intros j Hj. unfold idle_word. rewrite level_word_of. rewrite (proj2 (Nat.ltb_lt j (dg_digits c)) Hj). cbn [andb].
      destruct high; unfold level; [apply N.ones_spec_low; lia|apply N.bits_0]. }
  split; [reflexivity|]. apply Forall_forall. intros x Hx. apply repeat_spec in Hx. subst x. apply word_of_bounded.
Qed.

Theorem dynamic_series c k (high : bool) read per_beat beats ops : forall before d d' outs,
  dg_sub c = 1%nat -> dg_alg c = Dynamic k -> dg_idle c = (if high then PinH else PinL) -> (0 < dg_digits c)%nat ->
  dg_width c = Some (per_beat * dg_digits c)%nat -> (0 < per_beat)%nat -> (2 <= beats)%nat ->
  Forall (fun o => tr_read o = read /\ entries_ok (dg_digits c) (tr_data o) /\ tr_time o + N.of_nat beats < two64) ops ->
  db_enable d = true -> remembers c read beats per_beat before d ->
  dbi_run (beats * per_beat * dg_digits c) ops d = Value (d', outs) ->
  calm (dg_digits c) beats per_beat (idle_word (dg_digits c) high) (dynamic_bound c k) before ops outs.
Proof.
  induction ops as [|o ops IH]; intros before d d' outs Hk Halg Hidle Hdg Hw Hpb Hbeats Hops Hen Hrem Hrun; cbn [dbi_run] in Hrun.
  - injection Hrun as <- <-. exact I.
  - apply bind_value in Hrun as ([[d1 ev] out] & Hu & Hrun). apply bind_value in Hrun as ([d2 outs'] & Hrest & Hrun).
    cbn [fst snd] in Hrun. injection Hrun as <- <-.
    pose proof (Forall_inv Hops) as (Hrd & Hent & Ht). apply Forall_inv_tail in Hops.
    set (bits := (beats * per_beat * dg_digits c)%nat) in *.
    destruct Hrem as (Hc & Hrem).
    destruct out as [out|].
    2:{ exfalso. unfold dbi_update in Hu. rewrite Hen, Hc, Hidle in Hu. cbn [negb] in Hu.
        assert (bits <> 0)%nat as Hnz by (unfold bits; nia). apply Nat.eqb_neq in Hnz. rewrite Hnz in Hu. cbn [orb] in Hu.
        assert (pin_eqb PinZ (if high then PinH else PinL) = false) as E by now destruct high. rewrite E in Hu.
        apply bind_value in Hu as (? & _ & Hu). apply check_value in Hu as (_ & Hu). destruct (Nat.ltb _ _); [discriminate|].
        apply bind_value in Hu as (? & _ & Hu). apply check_value in Hu as (_ & Hu). destruct (grow_inversions _ _ _).
        apply bind_value in Hu as (? & _ & Hu). apply bind_value in Hu as (? & _ & Hu). discriminate. }
    apply update_spec in Hu. cbv zeta in Hu. rewrite Hc in Hu.
    destruct Hu as (_ & Hnz & _ & Hm & Hmc & Hlen & d0 & ev1 & prev & s & inv & cap & Hr & Hp & Hg & Hs & -> & _ & Hc' & Hen' & Hdata & _ & Hside).
    rewrite Hrd in *.
    assert (bits / dg_digits c = beats * per_beat)%nat as Hn by (unfold bits; apply Nat.div_mul; lia). rewrite Hn in *.
    set (orig := firstn (beats * per_beat) (tr_data o)) in *.
    assert (length orig = beats * per_beat)%nat as Hol by (unfold orig; rewrite firstn_length; lia).
    pose proof (reset_spec _ _ _ _ _ Hr) as (_ & _ & Hd0 & _ & (Hst & Hend & _ & Hin & _ & Hbt & _) & _).
    assert (per_beat * dg_digits c / dg_digits c = per_beat)%nat as Hpd by (apply Nat.div_mul; lia).
    set (first := match before with Some (e, last) => if e =? tr_time o then last else repeat (idle_word (dg_digits c) high) per_beat
                  | None => repeat (idle_word (dg_digits c) high) per_beat end).
    assert (prev = Some first /\ length first = per_beat /\ entries_ok (dg_digits c) first) as (-> & Hfl & Hfe).
    { destruct (idle_entries c (per_beat * dg_digits c) high Hidle) as [Hid Hide]. rewrite Hpd in Hid.
      assert (forall b, seamless c orig (tr_time o) b = false -> previous_data c orig (tr_time o) b = Value prev ->
              prev = Some (repeat (idle_word (dg_digits c) high) per_beat)) as Hidp.
      { intros b Hsm Hpr. unfold previous_data in Hpr. rewrite Hsm, Hw, Hpd in Hpr.
        destruct (Nat.leb_spec per_beat (length orig)); [|discriminate]. injection Hpr as <-. now rewrite Hid. }
      rewrite Hid in Hide.
      assert (prev = Some (repeat (idle_word (dg_digits c) high) per_beat) -> first = repeat (idle_word (dg_digits c) high) per_beat ->
              prev = Some first /\ length first = per_beat /\ entries_ok (dg_digits c) first) as Hidle_case.
      { intros -> ->. split; [reflexivity|]. split; [apply repeat_length|assumption]. }
      unfold first in *. destruct before as [[e last]|].
      - destruct Hrem as (Hi1 & He1 & Hne & Hle & Hsm & Hdl & Hlast & Hde).
        rewrite Hi1 in Hin. rewrite He1 in Hend.
        destruct (N.eqb_spec e (tr_time o)) as [Eq|Eq].
        + assert (forall data b, lb_init b = true -> lb_end b = e -> lb_start b = lb_start (db_side d read) -> length data = (beats * per_beat)%nat ->
                    seamless c data (tr_time o) b = true) as Hseam.
          { intros data b Hb1 Hb2 Hb3 Hb4. unfold seamless. rewrite Hb1, Hb2, Hb3, Eq, N.eqb_refl, Hw, Hpd, Hb4. cbn [andb].
            apply andb_true_iff. split; [|apply Nat.ltb_lt; nia]. apply negb_true_iff. apply N.eqb_neq.
            rewrite <- Eq. unfold u64_sub. rewrite (N.mod_small (lb_start _)) by lia.
            replace (e + two64 - lb_start (db_side d read)) with (e - lb_start (db_side d read) + 1 * two64) by lia.
            rewrite N.mod_add by apply two64_pos. rewrite N.mod_small by lia. lia. }
          assert (seamless c (db_data d0) (tr_time o) (db_side d0 read) = true) as Hs0 by (apply Hseam; congruence).
          unfold previous_data, save_last in Hp. rewrite Hs0, Hw, Hpd in Hp.
          rewrite Hseam in Hp; [|cbn; congruence|cbn; congruence|cbn; congruence|assumption].
          cbn [lb_beat] in Hp. injection Hp as <-. rewrite Hd0.
          destruct (beat_last per_beat beats (db_data d)) as [Hb1 Hb2]; [lia|assumption|].
          rewrite Hlast, Hb1. rewrite Hb1 in Hb2. split; [reflexivity|]. split; [assumption|]. now apply entries_skipn.
        + apply Hidle_case; [|reflexivity].
          assert (forall data b, lb_end b = e -> seamless c data (tr_time o) b = false) as Hseam.
          { intros data b Hb. unfold seamless. rewrite Hb, (proj2 (N.eqb_neq e (tr_time o)) Eq), andb_false_r. reflexivity. }
          unfold save_last in Hp. rewrite Hseam in Hp by congruence. apply (Hidp (db_side d0 read)); [now apply Hseam|exact Hp].
      - apply Hidle_case; [|reflexivity]. rewrite Hrem in Hin.
        assert (forall data, seamless c data (tr_time o) (db_side d0 read) = false) as Hseam by (intros; unfold seamless; now rewrite Hin).
        unfold save_last in Hp. rewrite Hseam in Hp. apply (Hidp _ (Hseam _) Hp). }
    apply (dynamic_calm c k first) in Hs; try assumption; [|lia|now apply entries_firstn]. destruct Hs as (Hsl & Hse & Hsb).
    cbn [calm]. fold first. split.
    + intros i Hi. apply Hsb. lia.
    + eapply IH; eauto. split; [assumption|].
      rewrite Hside, Hdata. cbn [lb_init lb_end lb_start]. rewrite Hw.
      assert (bits / (per_beat * dg_digits c) = beats)%nat as Hbb.
      { unfold bits. rewrite <- Nat.mul_assoc. apply Nat.div_mul. nia. }
      rewrite Hbb. assert (u64_add (tr_time o) (N.of_nat beats) = tr_time o + N.of_nat beats) as -> by (apply N.mod_small; assumption).
      split; [reflexivity|]. split; [reflexivity|]. split; [lia|]. split; [lia|]. split; [assumption|]. split; [congruence|].
      split; [reflexivity|assumption].
Qed.

(* ---- success ---- *)

Lemma announce_ok c t ch b read : dbi_config_ok c -> exists ev, announce c t ch b read = Value ev.
Proof.
  intros (Hd & Hs & Hw). unfold announce, chunks_per_width, chunk_size. destruct (dg_callback c); [|eauto].
  destruct (dg_width c) as [w|]; [|eauto]. destruct Hw as (n & Hn & ->). rewrite Nat.div_mul by nia.
  rewrite (proj2 (Nat.eqb_neq n 0)) by lia. eauto.
Qed.

Lemma visit_ok c t read b s m : dbi_config_ok c -> length (sc_data s) = (m * dg_sub c)%nat -> (sc_chunk s < m)%nat ->
  (m <= length (sc_inv s))%nat -> exists s', visit c t read b s = Value s'.
Proof.
  intros Hok Hl Hc Hi. unfold visit. destruct (announce_ok c t (sc_chunk s) b read Hok) as [ev ->]. cbn [bind].
  destruct (put_ok (sc_inv s) (sc_chunk s) b) as [inv ->]; [lia|]. cbn [bind].
  destruct b.
  - destruct (invert_chunk_ok c (sc_data s) (sc_chunk s)) as [data ->]; [rewrite Hl; nia|]. cbn [bind]. eauto.
  - cbn [bind]. eauto.
Qed.

Lemma compute_ok c prev t read orig inv m : dbi_config_ok c -> length orig = (m * dg_sub c)%nat -> (m <= length inv)%nat ->
  exists s, compute c prev t read (mkScan orig 0 0 0 0 inv []) = Value s /\ length (sc_inv s) = length inv /\ length (sc_data s) = length orig.
Proof.
  intros Hok Hl Hi. pose proof Hok as (_ & Hs & _). unfold compute. cbn [sc_data].
  assert (forall i, (0 <= i < 0 + length orig)%nat -> (i / dg_sub c < m)%nat) as Hdiv.
  { intros i Hr. apply Nat.div_lt_upper_bound; lia. }
  assert (exists s, loop (match dg_alg c with Static => static_step c t read | Dynamic k => dynamic_step c k prev t read end) (seq 0 (length orig))
            (mkScan orig 0 0 0 0 inv []) = Value s /\ scan_inv c t read orig inv (0 + length orig) s) as (s & E & I).
  { destruct (dg_alg c) as [|k].
    - apply (loop_total _ (scan_inv c t read orig inv)); [now apply scan_start|]. intros i a Hr I.
      assert (exists a', static_step c t read i a = Value a') as [a' Ea].
      { unfold static_step. destruct (fetch_ok (sc_data a) i) as [v ->]; [rewrite (si_len _ _ _ _ _ _ _ I); lia|]. cbn [bind].
        destruct (is_last c a); [|eauto].
        match goal with |- context [visit c t read ?b ?s] => destruct (visit_ok c t read b s m) as [s' ->] end; [assumption| | | |cbn [bind]; eauto];
          cbn [set_counters sc_data sc_chunk sc_inv].
        + rewrite (si_len _ _ _ _ _ _ _ I). assumption.
        + rewrite (si_chunk _ _ _ _ _ _ _ I). now apply Hdiv.
        + rewrite (si_inv _ _ _ _ _ _ _ I). assumption. }
      exists a'. split; [assumption|]. eapply static_inv; eauto. lia.
    - destruct prev as [prev|].
      + apply (loop_total _ (scan_inv c t read orig inv)); [now apply scan_start|]. intros i a Hr I.
        assert (exists a', dynamic_step c k (Some prev) t read i a = Value a') as [a' Ea].
        { unfold dynamic_step. destruct (fetch_ok (sc_data a) i) as [v ->]; [rewrite (si_len _ _ _ _ _ _ _ I); lia|]. cbn [bind].
          assert (exists p, concat_entry prev (sc_data a) i = Value p) as [p ->].
          { unfold concat_entry. destruct (Nat.ltb_spec i (length prev)); apply fetch_ok; [assumption|]. rewrite (si_len _ _ _ _ _ _ _ I). lia. }
          cbn [bind]. destruct (is_last c a); [|eauto].
          match goal with |- context [visit c t read ?b ?s] => destruct (visit_ok c t read b s m) as [s' ->] end; [assumption| | | |cbn [bind]; eauto];
            cbn [set_counters sc_data sc_chunk sc_inv].
          + rewrite (si_len _ _ _ _ _ _ _ I). assumption.
          + rewrite (si_chunk _ _ _ _ _ _ _ I). now apply Hdiv.
          + rewrite (si_inv _ _ _ _ _ _ _ I). assumption. }
        exists a'. split; [assumption|]. eapply dynamic_inv; eauto. lia.
      + destruct (loop_total (dynamic_step c k None t read) (silent_inv c t read orig inv) (length orig) 0 (mkScan orig 0 0 0 0 inv [])) as (s & E & I & _); [| |eauto].
        * split; [now apply scan_start|]. intros ch Hr. unfold reached in Hr. apply Nat.ltb_lt in Hr. lia.
        * intros i a Hr [I Hz].
          assert (exists a', dynamic_step c k None t read i a = Value a') as [a' Ea].
          { unfold dynamic_step. destruct (visit_ok c t read false a m) as [s' ->]; [assumption| | | |cbn [bind]; eauto].
            - rewrite (si_len _ _ _ _ _ _ _ I). assumption.
            - rewrite (si_chunk _ _ _ _ _ _ _ I). now apply Hdiv.
            - rewrite (si_inv _ _ _ _ _ _ _ I). assumption. }
          exists a'. split; [assumption|]. eapply silent_step; eauto; [lia|]. now split. }
  exists s. split; [exact E|]. split; [apply (si_inv _ _ _ _ _ _ _ I)|apply (si_len _ _ _ _ _ _ _ I)].
Qed.

(* A side that has only seen bursts of m chunks. *)
Definition side_ok (m : nat) (b : lastburst) : Prop :=
  lb_init b = false /\ lb_inv b = [] /\ lb_cap b = 0%nat \/ lb_init b = true /\ lb_chunks b = m /\ length (lb_inv b) = m.
Definition dbi_ok (c : dbi_config) (m : nat) (d : dbi) : Prop :=
  db_config d = c /\ side_ok m (db_read d) /\ side_ok m (db_write d).

Lemma reset_loop_ok t tend read index l : forall s, Forall (fun i => (i < length (fst s))%nat) l ->
  exists r, loop (reset_chunk t tend read index) l s = Value r /\ length (fst r) = length (fst s).
Proof.
  induction l as [|i l IH]; intros s H; cbn [loop]; [eauto|].
  pose proof (Forall_inv H) as Hi. apply Forall_inv_tail in H. unfold reset_chunk at 1.
  destruct (fetch_ok (fst s) i) as [b ->]; [assumption|]. cbn [bind].
  destruct (put_ok (fst s) i false) as [inv Ei]; [assumption|]. rewrite Ei. cbn [bind].
  apply put_spec in Ei as (_ & Hl & _). match goal with |- context [loop _ l ?x] => destruct (IH x) as (r & Er & Hr) end.
  - cbn [fst]. now rewrite Hl.
  - exists r. split; [exact Er|]. cbn [fst] in Hr. congruence.
Qed.

Lemma other_side (x y : bool) : x <> y -> x = negb y.
Proof. intros H. destruct x, y; try reflexivity; now contradiction H. Qed.
Lemma side_put d read b : db_side (db_put d read b) read = b /\ db_side (db_put d read b) (negb read) = db_side d (negb read).
Proof. destruct read; split; reflexivity. Qed.
Lemma ok_sides c m d : dbi_ok c m d <-> db_config d = c /\ forall read, side_ok m (db_side d read).
Proof.
  unfold dbi_ok. split.
  - intros (H & Hr & Hw). split; [assumption|]. intros [|]; assumption.
  - intros (H & Hs). split; [assumption|]. split; [apply (Hs true)|apply (Hs false)].
Qed.

(* The chunk count fits the bus. *)
Definition fits (c : dbi_config) (m : nat) : Prop := match dbi_pins c with Some n => (n <= m)%nat | None => True end.

Lemma reset_ok c m d t read : dbi_config_ok c -> fits c m -> dbi_ok c m d ->
  exists d' ev, dbi_reset d t read = Value (d', ev) /\ dbi_ok c m d'.
Proof.
  intros Hok Hfit H. pose proof Hok as (Hd & Hs & Hw). apply ok_sides in H as (Hc & H). pose proof (H read) as Hb. unfold dbi_reset. rewrite Hc.
  set (b := db_side d read) in *. unfold fits, dbi_pins in Hfit. unfold chunks_per_width, chunk_size.
  destruct Hb as [(Hi & _)|(Hi & Hch & Hl)]; rewrite Hi; cbn [negb orb check].
  { do 2 eexists. split; [reflexivity|]. apply ok_sides. now split. }
  assert ((match match dg_width c with Some w => Some (w / (dg_sub c * dg_digits c))%nat | None => None end with
           | Some n => (n <=? lb_chunks b)%nat | None => true end) = true) as ->.
  { destruct (dg_width c); [|reflexivity]. rewrite Hch. now apply Nat.leb_le. }
  cbn [check].
  destruct (t <? lb_end b); [do 2 eexists; split; [reflexivity|]; apply ok_sides; now split|].
  destruct (lb_end b =? t); [do 2 eexists; split; [reflexivity|]; apply ok_sides; now split|].
  destruct (dg_callback c); [|do 2 eexists; split; [reflexivity|]; apply ok_sides; now split].
  assert (exists s, (match match dg_width c with Some w => Some (w / (dg_sub c * dg_digits c))%nat | None => None end with
           | Some n => loop (reset_chunk t (lb_end b) read (fun k => Nat.modulo k n)) (seq (lb_chunks b - n) n) (lb_inv b, [])
           | None => loop (reset_chunk t (lb_end b) read (fun k => k)) (seq 0 (lb_chunks b)) (lb_inv b, [])
           end) = Value s /\ length (fst s) = m) as (s & -> & Hsl).
  { destruct (dg_width c) as [w|].
    - destruct (reset_loop_ok t (lb_end b) read (fun k => Nat.modulo k (w / (dg_sub c * dg_digits c))) (seq (lb_chunks b - w / (dg_sub c * dg_digits c)) (w / (dg_sub c * dg_digits c))) (lb_inv b, [])) as (s & E & El).
      + apply Forall_forall. intros x Hx. apply in_seq in Hx. cbn [fst]. rewrite Hch in Hx. generalize dependent (w / (dg_sub c * dg_digits c))%nat. intros. lia.
      + exists s. split; [exact E|]. cbn [fst] in El. congruence.
    - destruct (reset_loop_ok t (lb_end b) read (fun k => k) (seq 0 (lb_chunks b)) (lb_inv b, [])) as (s & E & El).
      + apply Forall_forall. intros x Hx. apply in_seq in Hx. cbn [fst]. lia.
      + exists s. split; [exact E|]. cbn [fst] in El. congruence. }
  cbn [bind]. do 2 eexists. split; [reflexivity|]. apply ok_sides. split; [unfold db_put; cbn [db_config]; assumption|].
  intros r. destruct (Bool.bool_dec r read) as [->|Hne].
  - rewrite (proj1 (side_put _ _ _)). right. cbn [lb_init lb_chunks lb_inv]. repeat split; assumption.
  - assert (r = negb read) as -> by (apply other_side; assumption). rewrite (proj2 (side_put _ _ _)). apply H.
Qed.

Lemma update_ok c m d t data read : dbi_config_ok c -> fits c m -> dbi_ok c m d -> (0 < m)%nat ->
  (m * dg_sub c <= length data)%nat ->
  exists d' ev out, dbi_update d t (m * chunk_size c) (Some data) read = Value (d', ev, out) /\ dbi_ok c m d'.
Proof.
  intros Hok Hfit H Hm Hlen. pose proof Hok as (Hd & Hs & Hw). unfold dbi_update. rewrite (proj1 H).
  destruct (_ || _ || _); [do 3 eexists; split; [reflexivity|assumption]|].
  destruct (reset_ok c m d t read Hok Hfit H) as (d1 & ev1 & -> & H1). cbn [bind fst snd].
  assert (m * chunk_size c = (m * dg_sub c) * dg_digits c)%nat as Hbits by (unfold chunk_size; nia).
  assert ((m * chunk_size c) mod dg_digits c = 0)%nat as -> by (rewrite Hbits; apply Nat.mod_mul; lia).
  rewrite Nat.eqb_refl. cbn [check].
  assert (m * chunk_size c / dg_digits c = m * dg_sub c)%nat as -> by (rewrite Hbits; apply Nat.div_mul; lia).
  rewrite (proj2 (Nat.ltb_ge (length data) (m * dg_sub c))) by assumption.
  set (orig := firstn (m * dg_sub c) data). assert (length orig = m * dg_sub c)%nat as Hol by (unfold orig; rewrite firstn_length; lia).
  assert (exists prev, previous_data c orig t (save_last c (db_data d1) t (db_side d1 read)) = Value prev) as [prev ->].
  { unfold previous_data. destruct (seamless _ _ _ _); [eauto|]. destruct (dg_width c) as [w|] eqn:Ew; [|eauto].
    destruct Hw as (n & Hn & ->). unfold fits, dbi_pins in Hfit. rewrite Ew, Nat.div_mul in Hfit by nia.
    assert (n * (dg_sub c * dg_digits c) / dg_digits c = n * dg_sub c)%nat as -> by (rewrite Nat.mul_assoc; apply Nat.div_mul; lia).
    rewrite (proj2 (Nat.leb_le (n * dg_sub c) (length orig))) by nia. eauto. }
  cbn [bind]. rewrite Nat.mod_mul by (unfold chunk_size; nia). rewrite Nat.eqb_refl. cbn [check].
  rewrite Nat.div_mul by (unfold chunk_size; nia).
  pose proof (proj2 (proj1 (ok_sides c m d1) H1) read) as Hside.
  destruct (grow_inversions c (save_last c (db_data d1) t (db_side d1 read)) m) as [inv cap] eqn:Eg.
  assert (length inv = m) as Hil.
  { unfold grow_inversions in Eg.
    assert (lb_inv (save_last c (db_data d1) t (db_side d1 read)) = lb_inv (db_side d1 read) /\
            lb_cap (save_last c (db_data d1) t (db_side d1 read)) = lb_cap (db_side d1 read)) as [Ei Ec].
    { unfold save_last. destruct (seamless _ _ _ _); [|now split]. destruct (dg_width c); now split. }
    rewrite Ei, Ec in Eg. destruct Hside as [(_ & Hi & Hcap)|(_ & _ & Hi)].
    - rewrite Hcap, Hi in Eg. rewrite (proj2 (Nat.ltb_lt 0 m)) in Eg by assumption. rewrite firstn_nil in Eg. cbn [app length] in Eg.
      injection Eg as <- _. rewrite repeat_length. lia.
    - destruct (Nat.ltb _ _); injection Eg as <- _; [|assumption]. rewrite app_length, firstn_length, repeat_length. lia. }
  destruct (compute_ok c prev t read orig inv m Hok Hol ltac:(lia)) as (s & -> & Hsi & Hsd). cbn [bind].
  assert (exists tend, match dg_width c with Some w => if Nat.eqb w 0 then Fails UB else Value (u64_add t (N.of_nat (m * chunk_size c / w)))
            | None => Value (u64_add t (N.of_nat (dg_length c))) end = Value tend) as [tend ->].
  { destruct (dg_width c) as [w|]; [|eauto]. destruct Hw as (n & Hn & ->). rewrite (proj2 (Nat.eqb_neq _ 0)) by nia. eauto. }
  cbn [bind]. do 3 eexists. split; [reflexivity|]. apply ok_sides. cbn [db_config]. split; [reflexivity|].
  apply ok_sides in H1 as (Hc1 & H1).
  intros r. unfold db_side, db_put. cbn [db_read db_write]. specialize (H1 r). unfold db_side in H1.
  destruct r, read; try assumption; right; cbn [lb_init lb_chunks lb_inv]; (split; [reflexivity|]; split; [reflexivity|congruence]).
Qed.

Theorem run_ok c m ops : forall d, dbi_config_ok c -> fits c m -> (0 < m)%nat -> dbi_ok c m d ->
  Forall (fun o => (m * dg_sub c <= length (tr_data o))%nat) ops ->
  exists d' outs, dbi_run (m * chunk_size c) ops d = Value (d', outs) /\ length outs = length ops.
Proof.
  induction ops as [|o ops IH]; intros d Hok Hfit Hm H Hall; cbn [dbi_run].
  - do 2 eexists. split; reflexivity.
  - destruct (update_ok c m d (tr_time o) (tr_data o) (tr_read o) Hok Hfit H Hm (Forall_inv Hall)) as (d1 & ev & out & -> & H1).
    cbn [bind]. destruct (IH d1 Hok Hfit Hm H1 (Forall_inv_tail Hall)) as (d2 & outs & -> & Hl). cbn [bind fst snd].
    do 2 eexists. split; [reflexivity|]. cbn [length]. congruence.
Qed.

Lemma new_ok c m enable d : dbi_new c enable = Value d -> dbi_ok c m d /\ db_enable d = enable.
Proof.
  unfold dbi_new. intros H. apply check_value in H as (_ & H). injection H as <-. split; [|reflexivity].
  split; [reflexivity|]. split; left; repeat split.
Qed.

Lemma update_disabled d t n_bits data read : db_enable d = false -> dbi_update d t n_bits data read = Value (d, [], None).
Proof. intros H. unfold dbi_update. destruct data; [|reflexivity]. rewrite H. cbn [negb]. now rewrite orb_true_r. Qed.

Lemma dynamic_from_new c k (high : bool) read per_beat beats ops d d' outs :
  dg_sub c = 1%nat -> dg_alg c = Dynamic k -> dg_idle c = (if high then PinH else PinL) -> (0 < dg_digits c)%nat ->
  dg_width c = Some (per_beat * dg_digits c)%nat -> (0 < per_beat)%nat -> (2 <= beats)%nat ->
  Forall (fun o => tr_read o = read /\ entries_ok (dg_digits c) (tr_data o) /\ tr_time o + N.of_nat beats < two64) ops ->
  dbi_new c true = Value d -> dbi_run (beats * per_beat * dg_digits c) ops d = Value (d', outs) ->
  calm (dg_digits c) beats per_beat (idle_word (dg_digits c) high)
       (N.max k (N.of_nat (dg_digits c) - k - 1)) None ops outs.
Proof.
  intros Hs Ha Hi Hd Hw Hp Hb Hops Hnew Hrun.
  pose proof (dynamic_series c k high read per_beat beats ops None d d' outs Hs Ha Hi Hd Hw Hp Hb Hops) as H.
  unfold dbi_new in Hnew. apply check_value in Hnew as (_ & Hnew). injection Hnew as <-.
  apply H; [reflexivity| |assumption]. split; [reflexivity|]. now destruct read.
Qed.
