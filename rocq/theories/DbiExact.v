(* The inverters decide exactly as the rules of DbiExactSpec say, for any number
   of entries per chunk. *)
From Coq Require Import NArith List Bool Lia Arith.
From Verif Require Import Base Bits WaveSpec BitFacts ListFacts PinModel DbiModel DbiSpec DbiProofs DbiBounds DbiExactSpec.
Import ListNotations.
Local Open Scope N_scope.
Ltac Zify.zify_post_hook ::= idtac.

Lemma tally_app f l1 l2 : tally f (l1 ++ l2) = tally f l1 + tally f l2.
Proof. unfold tally. rewrite map_app, fold_right_app. induction (map f l1) as [|x l IH]; cbn [fold_right]; [reflexivity|]. rewrite IH. lia. Qed.
Lemma tally_ext f g l : (forall i, In i l -> f i = g i) -> tally f l = tally g l.
Proof.
  unfold tally. induction l as [|x l IH]; intros H; [reflexivity|]. cbn [map fold_right]. rewrite (H x) by now left.
  rewrite IH; [reflexivity|]. intros i Hi. apply H. now right.
Qed.
Lemma tally_sum f g h l : (forall i, In i l -> f i + g i = h) -> tally f l + tally g l = h * N.of_nat (length l).
Proof.
  unfold tally. induction l as [|x l IH]; intros H; [cbn; lia|]. cbn [map fold_right length]. specialize (H x) as Hx.
  specialize (IH ltac:(intros i Hi; apply H; now right)). specialize (Hx ltac:(now left)).
  rewrite Nat2N.inj_succ, N.mul_succ_r. lia.
Qed.

(* Places looked at since the last decision, before entry i. *)
Definition pending (k i : nat) : list nat :=
  match i with O => [] | S j => seq (Nat.div j k * k + 1) (j - Nat.div j k * k) end.

Lemma pending_starts k i : (0 < k)%nat -> Nat.modulo i k = 0%nat -> pending k i = earlier k (Nat.div i k).
Proof.
  intros Hk Hm. pose proof (Nat.div_mod i k ltac:(lia)) as E. rewrite Hm in E.
  destruct i as [|j]; cbn [pending]; [now rewrite Nat.div_small by lia|].
  destruct (Nat.div (S j) k) as [|q] eqn:Eq; [lia|]. cbn [earlier].
  assert (Nat.div j k = q) as -> by (symmetry; apply (Nat.div_unique j k q (k - 1)); lia).
  f_equal. lia.
Qed.
Lemma pending_stays k i : (0 < k)%nat -> Nat.modulo i k <> 0%nat -> pending k (S i) = pending k i ++ [i].
Proof.
  intros Hk Hm. pose proof (Nat.div_mod i k ltac:(lia)) as E. pose proof (Nat.mod_upper_bound i k ltac:(lia)) as B.
  destruct i as [|j]; [rewrite Nat.mod_0_l in Hm by lia; lia|]. cbn [pending].
  assert (Nat.div j k = Nat.div (S j) k) as -> by (symmetry; apply (Nat.div_unique j k (S j / k) (S j mod k - 1)); lia).
  replace (S j - S j / k * k)%nat with (S (j - S j / k * k)) by lia. rewrite seq_S. f_equal. f_equal. lia.
Qed.
Lemma pending_fresh k i : (0 < k)%nat -> Nat.modulo i k = 0%nat -> pending k (S i) = [].
Proof.
  intros Hk Hm. pose proof (Nat.div_mod i k ltac:(lia)) as E. cbn [pending]. replace (i - i / k * k)%nat with O by lia. reflexivity.
Qed.
Lemma pending_below k i j : (0 < k)%nat -> In j (pending k i) -> (j < i)%nat.
Proof. intros Hk. destruct i as [|m]; cbn [pending In]; [tauto|]. rewrite in_seq. pose proof (Nat.div_mod m k ltac:(lia)). lia. Qed.
Lemma earlier_below k ch j : In j (earlier k ch) -> (j < ch * k)%nat.
Proof. destruct ch as [|q]; cbn [earlier In]; [tauto|]. rewrite in_seq. lia. Qed.

(* Sum of a measure of the entries at some places of the data. *)
Definition sum_of (h : list N -> nat -> N -> N) (d : list N) (l : list nat) : N := tally (fun i => h d i (nth i d 0)) l.
Lemma sum_below (h : list N -> nat -> N -> N) d1 d2 l m :
  (forall d1 d2 i v, (forall j, (j < i)%nat -> nth j d1 0 = nth j d2 0) -> h d1 i v = h d2 i v) ->
  (forall i, In i l -> (i < m)%nat) -> (forall j, (j < m)%nat -> nth j d1 0 = nth j d2 0) -> sum_of h d1 l = sum_of h d2 l.
Proof.
  intros Hh Hl Hd. unfold sum_of. apply tally_ext. intros i Hi. specialize (Hl i Hi). rewrite (Hd i) by assumption.
  apply Hh. intros j Hj. apply Hd. lia.
Qed.

Section Scan.
  Variables (c : dbi_config) (t : N) (read : bool) (orig : list N) (inv0 : list bool).
  Variables (f g : list N -> nat -> N -> N) (rule : N -> N -> bool).
  Hypothesis (Hk : (0 < dg_sub c)%nat).
  Hypothesis (Hf : forall d1 d2 i v, (forall j, (j < i)%nat -> nth j d1 0 = nth j d2 0) -> f d1 i v = f d2 i v).
  Hypothesis (Hg : forall d1 d2 i v, (forall j, (j < i)%nat -> nth j d1 0 = nth j d2 0) -> g d1 i v = g d2 i v).

  Definition verdict (d : list N) (ch : nat) : bool :=
    rule (sum_of f d (earlier (dg_sub c) ch) + f d (ch * dg_sub c) (nth (ch * dg_sub c) orig 0))
         (sum_of g d (earlier (dg_sub c) ch) + g d (ch * dg_sub c) (nth (ch * dg_sub c) orig 0)).
  Definition exact_inv (i : nat) (s : scan) : Prop :=
    scan_inv c t read orig inv0 i s /\
    sc_a s = sum_of f (sc_data s) (pending (dg_sub c) i) /\ sc_b s = sum_of g (sc_data s) (pending (dg_sub c) i) /\
    forall ch, reached (dg_sub c) i ch = true -> nth ch (sc_inv s) false = verdict (sc_data s) ch.

  Lemma verdict_below d1 d2 ch : (forall j, (j < ch * dg_sub c)%nat -> nth j d1 0 = nth j d2 0) -> verdict d1 ch = verdict d2 ch.
  Proof using Hf Hg.
    intros Hd. unfold verdict.
    rewrite (sum_below f d1 d2 _ (ch * dg_sub c)), (sum_below g d1 d2 _ (ch * dg_sub c)); try assumption;
      try (intros i; apply earlier_below).
    now rewrite (Hf d1 d2), (Hg d1 d2).
  Qed.

  Lemma exact_step i s s' : (i < length orig)%nat -> exact_inv i s ->
    (exists v, fetch (sc_data s) i = Value v /\
     let a := sc_a s + f (sc_data s) i v in let b := sc_b s + g (sc_data s) i v in
     (if is_last c s then s1 <- visit c t read (rule a b) (set_counters s a b) ;; Value (next_entry c (set_counters s1 0 0))
      else Value (next_entry c (set_counters s a b))) = Value s') ->
    exact_inv (S i) s'.
  Proof using Hk Hf Hg.
    intros Hi (I & Ha & Hb & Hd) (v & Ef & E). cbv zeta in E.
    apply fetch_nth in Ef as [Hil Hv]. specialize (Hv 0).
    set (a := sc_a s + f (sc_data s) i v) in *. set (b := sc_b s + g (sc_data s) i v) in *.
    assert (scan_inv c t read orig inv0 i (set_counters s a b)) as I1 by (destruct I; now constructor).
    unfold is_last in E. rewrite (si_sub _ _ _ _ _ _ _ I), Nat.mod_mod in E by lia. unfold exact_inv.
    assert (forall x y z, sc_data (next_entry c (set_counters x y z)) = sc_data x) as N1 by (intros; unfold next_entry; destruct (Nat.leb _ _); reflexivity).
    assert (forall x y z, sc_a (next_entry c (set_counters x y z)) = y) as N2 by (intros; unfold next_entry; destruct (Nat.leb _ _); reflexivity).
    assert (forall x y z, sc_b (next_entry c (set_counters x y z)) = z) as N3 by (intros; unfold next_entry; destruct (Nat.leb _ _); reflexivity).
    destruct (Nat.eqb_spec (i mod dg_sub c) 0) as [Em|Em].
    - apply bind_value in E as (s1 & Ev & E). injection E as <-.
      split; [eapply inv_decide; eauto|]. rewrite N1, N2, N3, inv_next, pending_fresh by assumption.
      split; [reflexivity|]. split; [reflexivity|].
      pose proof (Nat.div_mod i (dg_sub c) ltac:(lia)) as Ei. rewrite Em in Ei.
      pose proof (si_chunk _ _ _ _ _ _ _ I) as Hch.
      assert (nth i (sc_data s) 0 = nth i orig 0) as Horig.
      { rewrite (si_data _ _ _ _ _ _ _ I i Hi). unfold reached. rewrite (proj2 (Nat.ltb_ge _ _)) by lia. reflexivity. }
      assert (rule a b = verdict (sc_data s) (i / dg_sub c)) as Hr.
      { unfold verdict, a, b. rewrite Ha, Hb, pending_starts by assumption.
        replace (i / dg_sub c * dg_sub c)%nat with i by lia. now rewrite <- Horig, Hv. }
      apply visit_spec in Ev as (ev & _ & _ & Hc & Hl & Hn & Hdl & Hdn & _). cbn [set_counters sc_chunk sc_inv sc_data] in *.
      rewrite Hch in *.
      assert (forall j, (j < i)%nat -> nth j (sc_data s1) 0 = nth j (sc_data s) 0) as Hold.
      { intros j Hj. rewrite Hdn by lia. rewrite (proj2 (Nat.leb_gt _ _)) by lia. cbn [andb]. now rewrite andb_false_r. }
      intros ch Hre. unfold reached in Hre. apply Nat.ltb_lt in Hre.
      assert (ch <= i / dg_sub c)%nat as Hle by nia.
      rewrite (verdict_below (sc_data s1) (sc_data s)) by (intros j Hj; apply Hold; lia).
      rewrite Hn by lia. destruct (Nat.eqb_spec (i / dg_sub c) ch) as [<-|Hne]; [exact Hr|].
      apply Hd. unfold reached. apply Nat.ltb_lt. nia.
    - injection E as <-. split; [now apply inv_pass|]. rewrite N1, N2, N3, inv_next, pending_stays by assumption.
      unfold sum_of. rewrite !tally_app. fold (sum_of f (sc_data s) (pending (dg_sub c) i)) (sum_of g (sc_data s) (pending (dg_sub c) i)).
      unfold tally. cbn [map fold_right]. rewrite <- Ha, <- Hb, Hv. unfold a, b. split; [lia|]. split; [lia|].
      intros ch Hre. apply Hd. rewrite reached_next in Hre by assumption. apply Nat.eqb_neq in Em. rewrite Em in Hre.
      now rewrite orb_false_r in Hre.
  Qed.

  Lemma exact_start : exact_inv 0 (mkScan orig 0 0 0 0 inv0 []).
  Proof using Hk.
    split; [now apply scan_start|]. split; [reflexivity|]. split; [reflexivity|]. intros ch H. discriminate H.
  Qed.
  Lemma exact_end s : exact_inv (length orig) s -> length (sc_data s) = length orig /\
    (forall ch, (ch * dg_sub c < length orig)%nat -> (ch < length (sc_inv s))%nat /\ nth ch (sc_inv s) false = verdict (sc_data s) ch) /\
    follows (dg_digits c) (dg_sub c) (verdict (sc_data s)) orig (sc_data s).
  Proof using Hk.
    clear Hf Hg. intros (I & _ & _ & Hd). pose proof (si_len _ _ _ _ _ _ _ I) as Hl. split; [exact Hl|].
    assert (forall ch, (ch * dg_sub c < length orig)%nat -> reached (dg_sub c) (length orig) ch = true) as Hre
      by (intros ch H; now apply Nat.ltb_lt).
    split.
    - intros ch H. apply Hre in H. rewrite (si_inv _ _ _ _ _ _ _ I). split; [now apply (si_room _ _ _ _ _ _ _ I)|now apply Hd].
    - intros i Hi. rewrite Hl in Hi. rewrite (si_data _ _ _ _ _ _ _ I i Hi).
      pose proof (Nat.div_mod i (dg_sub c) ltac:(lia)) as Ei.
      assert (reached (dg_sub c) (length orig) (i / dg_sub c) = true) as R by (apply Hre; lia).
      rewrite R, (Hd _ R). reflexivity.
  Qed.
End Scan.

(* ---- static ---- *)

Definition ones_of (d : list N) (i : nat) (v : N) : N := popcount v.
Definition zeros_of (digits : nat) (d : list N) (i : nat) (v : N) : N := N.of_nat digits - popcount v.
Definition static_says (c : dbi_config) (a b : N) : bool :=
  match dg_idle c with PinL => b <? a | PinH => a <? b | PinZ => false end.

Lemma static_exact c prev t read orig inv s : (0 < dg_sub c)%nat -> dg_alg c = Static ->
  compute c prev t read (mkScan orig 0 0 0 0 inv []) = Value s ->
  exact_inv c t read orig inv ones_of (zeros_of (dg_digits c)) (static_says c) (length orig) s.
Proof.
  intros Hk Halg H. unfold compute in H. rewrite Halg in H. cbn [sc_data] in H.
  apply (loop_range _ (exact_inv c t read orig inv ones_of (zeros_of (dg_digits c)) (static_says c))) in H.
  - exact H.
  - now apply exact_start.
  - intros i a a' Hi X E. unfold static_step in E. destruct (fetch (sc_data a) i) as [v|] eqn:Ef; [|discriminate]. cbn [bind] in E.
    eapply exact_step; try eassumption; try reflexivity; [lia|]. exists v. split; [assumption|exact E].
Qed.

Lemma entries_kept c rule orig out : entries_ok (dg_digits c) orig -> length out = length orig ->
  follows (dg_digits c) (dg_sub c) rule orig out -> entries_ok (dg_digits c) out.
Proof.
  intros H Hl F. apply Forall_forall. intros x Hx. apply (In_nth _ _ 0) in Hx as (j & Hj & <-). apply bounded_lt.
  rewrite (F j Hj). pose proof (bounded_entry _ _ j H) as B. destruct (rule _); [apply (bounded_flip c)|]; exact B.
Qed.

Lemma static_verdict c orig out (high : bool) ch : dg_idle c = (if high then PinH else PinL) ->
  entries_ok (dg_digits c) orig -> entries_ok (dg_digits c) out ->
  verdict c orig ones_of (zeros_of (dg_digits c)) (static_says c) out ch = static_rule (dg_digits c) (dg_sub c) high orig out ch.
Proof.
  intros Hi Ho Hu. unfold verdict, static_rule, static_says. rewrite Hi.
  set (l := earlier (dg_sub c) ch). set (v := nth (ch * dg_sub c) orig 0).
  pose proof (bounded_entry _ _ (ch * dg_sub c) Ho) as Bv. fold v in Bv.
  assert (forall x, bounded (dg_digits c) x -> popcount x + (N.of_nat (dg_digits c) - popcount x) = N.of_nat (dg_digits c)) as Hpz
    by (intros x B; pose proof (popcount_le _ _ B); lia).
  assert (sum_of ones_of out l + sum_of (zeros_of (dg_digits c)) out l = N.of_nat (dg_digits c) * N.of_nat (length l)) as Hs.
  { apply tally_sum. intros i _. apply Hpz. now apply bounded_entry. }
  assert (tally (fun i => consuming (dg_digits c) high (nth i out 0)) l =
          if high then sum_of (zeros_of (dg_digits c)) out l else sum_of ones_of out l) as ->.
  { unfold sum_of. destruct high; apply tally_ext; intros i _; unfold zeros_of, ones_of;
      destruct (consuming_popcount _ _ (bounded_entry _ _ i Hu)) as [X Y]; assumption. }
  destruct (consuming_popcount _ _ Bv) as [X Y]. specialize (Hpz v Bv).
  rewrite Nat2N.inj_succ, N.mul_succ_r.
  generalize dependent (N.of_nat (dg_digits c) * N.of_nat (length l)). intros m Hs.
  destruct high; [rewrite Y|rewrite X];
    match goal with |- ?p = ?q => destruct p eqn:P, q eqn:Q; try reflexivity; exfalso end;
    repeat match goal with H : (_ <? _) = true |- _ => apply N.ltb_lt in H | H : (_ <? _) = false |- _ => apply N.ltb_ge in H end;
    change (ones_of out (ch * dg_sub c) v) with (popcount v) in *;
    change (zeros_of (dg_digits c) out (ch * dg_sub c) v) with (N.of_nat (dg_digits c) - popcount v) in *; lia.
Qed.

Theorem static_exactly d t n_bits data read d' ev out (high : bool) : let c := db_config d in
  dbi_config_ok c -> dg_alg c = Static -> dg_idle c = (if high then PinH else PinL) -> entries_ok (dg_digits c) data ->
  dbi_update d t n_bits (Some data) read = Value (d', ev, Some out) ->
  let rule := static_rule (dg_digits c) (dg_sub c) high data out in
  length out = Nat.div n_bits (dg_digits c) /\
  follows (dg_digits c) (dg_sub c) rule data out /\
  forall ch, (ch * dg_sub c < length out)%nat -> nth_error (lb_inv (db_side d' read)) ch = Some (rule ch).
Proof.
  intros c Hok Halg Hidle Hent H. cbv zeta. pose proof Hok as (Hdg & Hsb & Hw). apply update_spec in H. cbv zeta in H. fold c in H.
  destruct H as (_ & Hnz & _ & Hm & Hmc & Hlen & d1 & ev1 & prev & s & inv & cap & Hr & Hp & Hg & Hs & -> & -> & Hc' & _ & _ & _ & Hside).
  rewrite Hside. cbn [lb_inv]. set (n := (n_bits / dg_digits c)%nat) in *.
  assert (length (firstn n data) = n) as Hol by (rewrite firstn_length; lia).
  apply static_exact in Hs; try assumption. apply exact_end in Hs; [|assumption]. destruct Hs as (Hl & Hflags & Hfol).
  rewrite Hol in *. split; [assumption|].
  pose proof (entries_firstn _ n _ Hent) as Hof.
  pose proof (entries_kept _ _ _ _ Hof (eq_trans Hl (eq_sym Hol)) Hfol) as Hout.
  assert (forall ch, (ch * dg_sub c < n)%nat -> static_rule (dg_digits c) (dg_sub c) high data (sc_data s) ch =
            verdict c (firstn n data) ones_of (zeros_of (dg_digits c)) (static_says c) (sc_data s) ch) as Hv.
  { intros ch Hch. rewrite (static_verdict _ _ _ high) by assumption. unfold static_rule. now rewrite nth_firstn. }
  split.
  - intros i Hi. rewrite (Hfol i Hi). rewrite Hl in Hi. pose proof (Nat.div_mod i (dg_sub c) ltac:(lia)) as Ei.
    rewrite Hv by lia. now rewrite nth_firstn by assumption.
  - intros ch Hch. rewrite Hl in Hch. destruct (Hflags ch Hch) as [R E]. rewrite Hv by assumption. rewrite <- E. now apply nth_error_nth'.
Qed.

(* ---- dynamic ---- *)

Definition changes_of (prev d : list N) (i : nat) (v : N) : N := popcount (N.lxor v (nth i (prev ++ d) 0)).
Definition nothing_of (d : list N) (i : nat) (v : N) : N := 0.
Definition dynamic_says (k a b : N) : bool := k <? a.

Lemma changes_below prev d1 d2 i v : (1 <= length prev)%nat -> (forall j, (j < i)%nat -> nth j d1 0 = nth j d2 0) ->
  changes_of prev d1 i v = changes_of prev d2 i v.
Proof.
  intros Hp H. unfold changes_of. f_equal. f_equal. destruct (Nat.lt_ge_cases i (length prev)).
  - now rewrite !app_nth1 by assumption.
  - rewrite !app_nth2 by assumption. apply H. lia.
Qed.

Lemma dynamic_exact c k prev t read orig inv s : (0 < dg_sub c)%nat -> dg_alg c = Dynamic k -> (1 <= length prev)%nat ->
  compute c (Some prev) t read (mkScan orig 0 0 0 0 inv []) = Value s ->
  exact_inv c t read orig inv (changes_of prev) nothing_of (dynamic_says k) (length orig) s.
Proof.
  intros Hk Halg Hp H. unfold compute in H. rewrite Halg in H. cbn [sc_data] in H.
  apply (loop_range _ (exact_inv c t read orig inv (changes_of prev) nothing_of (dynamic_says k))) in H.
  - exact H.
  - now apply exact_start.
  - intros i a a' Hi X E. unfold dynamic_step in E. destruct (fetch (sc_data a) i) as [v|] eqn:Ef; [|discriminate]. cbn [bind] in E.
    destruct (concat_entry prev (sc_data a) i) as [p|] eqn:Ec; [|discriminate]. cbn [bind] in E.
    assert (nth i (prev ++ sc_data a) 0 = p) as Hpn.
    { unfold concat_entry in Ec. destruct (Nat.ltb_spec i (length prev)) as [L|L]; apply fetch_nth in Ec as [_ Ec].
      - rewrite app_nth1 by assumption. apply Ec.
      - rewrite app_nth2 by lia. apply Ec. }
    eapply exact_step; try eassumption; try reflexivity.
    + intros. now apply changes_below.
    + lia.
    + exists v. split; [assumption|]. cbv zeta. unfold changes_of at 1 2 3, nothing_of, dynamic_says. rewrite Hpn.
      destruct X as (_ & _ & Hb & _). rewrite Hb. unfold sum_of, nothing_of.
      assert (tally (fun _ : nat => 0) (pending (dg_sub c) i) = 0) as ->
        by (clear; unfold tally; induction (pending (dg_sub c) i) as [|x l IH]; [reflexivity|]; cbn [map fold_right]; now rewrite IH).
      exact E.
Qed.

Lemma dynamic_verdict c k prev orig out ch : entries_ok (dg_digits c) prev ->
  entries_ok (dg_digits c) orig -> entries_ok (dg_digits c) out ->
  verdict c orig (changes_of prev) nothing_of (dynamic_says k) out ch = dynamic_rule (dg_digits c) (dg_sub c) k prev orig out ch.
Proof.
  intros Hp Ho Hu. unfold verdict, dynamic_rule, dynamic_says, sum_of, changes_of.
  assert (entries_ok (dg_digits c) (prev ++ out)) as Hb by (apply Forall_app; now split).
  f_equal. f_equal.
  - apply tally_ext. intros i _. apply toggling_popcount; now apply bounded_entry.
  - apply toggling_popcount; now apply bounded_entry.
Qed.

Lemma dynamic_burst c k prev t read orig inv s : (0 < dg_sub c)%nat -> dg_alg c = Dynamic k -> (1 <= length prev)%nat ->
  entries_ok (dg_digits c) prev -> entries_ok (dg_digits c) orig ->
  compute c (Some prev) t read (mkScan orig 0 0 0 0 inv []) = Value s ->
  length (sc_data s) = length orig /\ entries_ok (dg_digits c) (sc_data s) /\
  follows (dg_digits c) (dg_sub c) (dynamic_rule (dg_digits c) (dg_sub c) k prev orig (sc_data s)) orig (sc_data s).
Proof.
  intros Hk Halg Hp Hpe Ho H. apply (dynamic_exact c k) in H; try assumption. apply exact_end in H; [|assumption].
  destruct H as (Hl & _ & F). split; [exact Hl|].
  pose proof (entries_kept _ _ _ _ Ho Hl F) as Hu. split; [exact Hu|].
  intros i Hi. rewrite (F i Hi), dynamic_verdict by assumption. reflexivity.
Qed.

(* What is remembered, in both directions. *)
Definition recalls (c : dbi_config) (beats per_beat : nat) (ended : bool -> option N) (wires : list N) (d : dbi) : Prop :=
  db_config d = c /\ db_data d = wires /\
  forall read, match ended read with
  | None => lb_init (db_side d read) = false
  | Some e =>
      lb_init (db_side d read) = true /\ lb_end (db_side d read) = e /\ e <> lb_start (db_side d read) /\
      lb_start (db_side d read) <= e /\ e < two64 /\ length wires = (beats * per_beat)%nat /\ entries_ok (dg_digits c) wires
  end.

Theorem dynamic_exactly c k (high : bool) per_beat beats ops : forall ended wires d d' outs,
  (0 < dg_sub c)%nat -> dg_alg c = Dynamic k -> dg_idle c = (if high then PinH else PinL) -> (0 < dg_digits c)%nat ->
  dg_width c = Some (per_beat * dg_digits c)%nat -> (0 < per_beat)%nat -> (1 <= beats)%nat ->
  Forall (fun o => entries_ok (dg_digits c) (tr_data o) /\ tr_time o + N.of_nat beats < two64) ops ->
  db_enable d = true -> recalls c beats per_beat ended wires d ->
  dbi_run (beats * per_beat * dg_digits c) ops d = Value (d', outs) ->
  decided (dg_digits c) (dg_sub c) beats per_beat (idle_word (dg_digits c) high) k ended wires ops outs.
Proof.
  induction ops as [|o ops IH]; intros ended wires d d' outs Hk Halg Hidle Hdg Hw Hpb Hbeats Hops Hen Hrem Hrun; cbn [dbi_run] in Hrun.
  - injection Hrun as <- <-. exact I.
  - apply bind_value in Hrun as ([[d1 ev] out] & Hu & Hrun). apply bind_value in Hrun as ([d2 outs'] & Hrest & Hrun).
    cbn [fst snd] in Hrun. injection Hrun as <- <-.
    pose proof (Forall_inv Hops) as (Hent & Ht). apply Forall_inv_tail in Hops.
    set (bits := (beats * per_beat * dg_digits c)%nat) in *.
    destruct Hrem as (Hc & Hwires & Hrem).
    destruct out as [out|].
    2:{ exfalso. unfold dbi_update in Hu. rewrite Hen, Hc, Hidle in Hu. cbn [negb] in Hu.
        assert (bits <> 0)%nat as Hnz by (unfold bits; nia). apply Nat.eqb_neq in Hnz. rewrite Hnz in Hu. cbn [orb] in Hu.
        assert (pin_eqb PinZ (if high then PinH else PinL) = false) as E by now destruct high. rewrite E in Hu.
        apply bind_value in Hu as (? & _ & Hu). apply check_value in Hu as (_ & Hu). destruct (Nat.ltb _ _); [discriminate|].
        apply bind_value in Hu as (? & _ & Hu). apply check_value in Hu as (_ & Hu). destruct (grow_inversions _ _ _).
        apply bind_value in Hu as (? & _ & Hu). apply bind_value in Hu as (? & _ & Hu). discriminate. }
    apply update_spec in Hu. cbv zeta in Hu. rewrite Hc in Hu.
    destruct Hu as (_ & Hnz & _ & Hm & Hmc & Hlen & d0 & ev1 & prev & s & inv & cap & Hr & Hp & Hg & Hs & -> & _ & Hc' & Hen' & Hdata & Hother & Hside).
    set (read := tr_read o) in *.
    assert (bits / dg_digits c = beats * per_beat)%nat as Hn by (unfold bits; apply Nat.div_mul; lia). rewrite Hn in *.
    set (orig := firstn (beats * per_beat) (tr_data o)) in *.
    assert (length orig = beats * per_beat)%nat as Hol by (unfold orig; rewrite firstn_length; lia).
    pose proof (reset_spec _ _ _ _ _ Hr) as (_ & _ & Hd0 & _ & (Hst & Hend & _ & Hin & _ & Hbt & _) & _).
    assert (per_beat * dg_digits c / dg_digits c = per_beat)%nat as Hpd by (apply Nat.div_mul; lia).
    set (first := before_burst beats per_beat (idle_word (dg_digits c) high) ended wires o).
    assert (prev = Some first /\ length first = per_beat /\ entries_ok (dg_digits c) first) as (-> & Hfl & Hfe).
    { destruct (idle_entries c (per_beat * dg_digits c) high Hidle) as [Hid Hide]. rewrite Hpd in Hid.
      assert (forall b, seamless c orig (tr_time o) b = false -> previous_data c orig (tr_time o) b = Value prev ->
              prev = Some (repeat (idle_word (dg_digits c) high) per_beat)) as Hidp.
      { intros b Hsm Hpr. unfold previous_data in Hpr. rewrite Hsm, Hw, Hpd in Hpr.
        destruct (Nat.leb_spec per_beat (length orig)); [|discriminate]. injection Hpr as <-. now rewrite Hid. }
      rewrite Hid in Hide.
      assert (prev = Some (repeat (idle_word (dg_digits c) high) per_beat) -> first = repeat (idle_word (dg_digits c) high) per_beat ->
              prev = Some first /\ length first = per_beat /\ entries_ok (dg_digits c) first) as Hidle_case.
      { intros -> ->. split; [reflexivity|]. split; [apply repeat_length|assumption]. }
      specialize (Hrem read). unfold first, before_burst in *. fold read in Hidle_case |- *. destruct (ended read) as [e|].
      - destruct Hrem as (Hi1 & He1 & Hne & Hle & Hsm & Hdl & Hde).
        rewrite Hi1 in Hin. rewrite He1 in Hend.
        destruct (N.eqb_spec e (tr_time o)) as [Eq|Eq]; cbn [andb] in *; [destruct (Nat.leb_spec 2 beats) as [B2|B2]|].
        + assert (forall data b, lb_init b = true -> lb_end b = e -> lb_start b = lb_start (db_side d read) -> length data = (beats * per_beat)%nat ->
                    seamless c data (tr_time o) b = true) as Hseam.
          { intros data b Hb1 Hb2 Hb3 Hb4. unfold seamless. rewrite Hb1, Hb2, Hb3, Eq, N.eqb_refl, Hw, Hpd, Hb4. cbn [andb].
            apply andb_true_iff. split; [|apply Nat.ltb_lt; nia]. apply negb_true_iff. apply N.eqb_neq.
            rewrite <- Eq. unfold u64_sub. rewrite (N.mod_small (lb_start _)) by lia.
            replace (e + two64 - lb_start (db_side d read)) with (e - lb_start (db_side d read) + 1 * two64) by lia.
            rewrite N.mod_add by apply two64_pos. rewrite N.mod_small by lia. lia. }
          assert (seamless c (db_data d0) (tr_time o) (db_side d0 read) = true) as Hs0 by (apply Hseam; congruence).
          unfold previous_data, save_last in Hp. rewrite Hs0, Hw, Hpd in Hp.
          rewrite Hseam in Hp; [|cbn; congruence|cbn; congruence|cbn; congruence|assumption].
          cbn [lb_beat] in Hp. injection Hp as <-. rewrite Hd0, Hwires.
          destruct (beat_last per_beat beats wires) as [Hb1 Hb2]; [lia|assumption|].
          rewrite Hb1. rewrite Hb1 in Hb2. split; [reflexivity|]. split; [assumption|]. now apply entries_skipn.
        + apply Hidle_case; [|reflexivity].
          assert (forall data b, length data = (beats * per_beat)%nat -> seamless c data (tr_time o) b = false) as Hseam.
          { intros data b L. unfold seamless. rewrite Hw, Hpd, L. rewrite (proj2 (Nat.ltb_ge _ _)) by nia. now rewrite !andb_false_r. }
          unfold save_last in Hp. rewrite Hseam in Hp by congruence. apply (Hidp (db_side d0 read)); [now apply Hseam|exact Hp].
        + apply Hidle_case; [|reflexivity].
          assert (forall data b, lb_end b = e -> seamless c data (tr_time o) b = false) as Hseam.
          { intros data b Hb. unfold seamless. rewrite Hb, (proj2 (N.eqb_neq e (tr_time o)) Eq), andb_false_r. reflexivity. }
          unfold save_last in Hp. rewrite Hseam in Hp by congruence. apply (Hidp (db_side d0 read)); [now apply Hseam|exact Hp].
      - apply Hidle_case; [|reflexivity]. rewrite Hrem in Hin.
        assert (forall data, seamless c data (tr_time o) (db_side d0 read) = false) as Hseam by (intros; unfold seamless; now rewrite Hin).
        unfold save_last in Hp. rewrite Hseam in Hp. apply (Hidp _ (Hseam _) Hp). }
    apply (dynamic_burst c k first) in Hs; try assumption; [|lia|now apply entries_firstn]. destruct Hs as (Hsl & Hse & Hsf).
    cbn [decided]. fold first. split; [congruence|]. split.
    + intros i Hi. rewrite (Hsf i Hi). rewrite Hsl, Hol in Hi.
      pose proof (Nat.div_mod i (dg_sub c) ltac:(lia)) as Ei. unfold dynamic_rule, orig. rewrite !nth_firstn by lia. reflexivity.
    + eapply IH; eauto. split; [assumption|]. split; [assumption|].
      intros r. destruct (Bool.eqb_spec r (tr_read o)) as [->|Hr'].
      * fold read. rewrite Hside. cbn [lb_init lb_end lb_start]. rewrite Hw.
        assert (bits / (per_beat * dg_digits c) = beats)%nat as Hbb.
        { unfold bits. rewrite <- Nat.mul_assoc. apply Nat.div_mul. nia. }
        rewrite Hbb. assert (u64_add (tr_time o) (N.of_nat beats) = tr_time o + N.of_nat beats) as -> by (apply N.mod_small; assumption).
        split; [reflexivity|]. split; [reflexivity|]. split; [lia|]. split; [lia|]. split; [assumption|]. split; [congruence|assumption].
      * fold read in Hr'. assert (r = negb read) as -> by (clear - Hr'; destruct r, read; try reflexivity; now elim Hr'). rewrite Hother. specialize (Hrem (negb read)).
        destruct (ended (negb read)); [|assumption]. destruct Hrem as (X1 & X2 & X3 & X4 & X5 & _ & _).
        repeat (split; [assumption|]). split; [congruence|assumption].
Qed.

Theorem dynamic_exactly_new c k (high : bool) per_beat beats ops d d' outs :
  (0 < dg_sub c)%nat -> dg_alg c = Dynamic k -> dg_idle c = (if high then PinH else PinL) -> (0 < dg_digits c)%nat ->
  dg_width c = Some (per_beat * dg_digits c)%nat -> (0 < per_beat)%nat -> (1 <= beats)%nat ->
  Forall (fun o => entries_ok (dg_digits c) (tr_data o) /\ tr_time o + N.of_nat beats < two64) ops ->
  dbi_new c true = Value d ->
  dbi_run (beats * per_beat * dg_digits c) ops d = Value (d', outs) ->
  decided (dg_digits c) (dg_sub c) beats per_beat (idle_word (dg_digits c) high) k (fun _ => None) [] ops outs.
Proof.
  intros Hk Ha Hi Hd Hw Hp Hb Ho Hn Hr. unfold dbi_new in Hn. apply check_value in Hn as [_ Hn]. injection Hn as <-.
  eapply dynamic_exactly; try eassumption; try reflexivity.
  split; [reflexivity|]. split; [reflexivity|]. intros []; reflexivity.
Qed.
