(* The statistics of a pin for any tellings. *)
From Coq Require Import NArith List Bool Lia Arith.
From Verif Require Import Base Bits WaveSpec BitFacts PinModel PinSpec PinProofs LineSpec.
Import ListNotations.
Local Open Scope N_scope.
Ltac Zify.zify_post_hook ::= idtac.

(* ---- groups ---- *)

Lemma grouped_snoc l x : grouped (l ++ [x]) = tell (grouped l) x.
Proof. unfold grouped. now rewrite fold_left_app. Qed.
Lemma tell_last bs t bits x : tell (bs ++ [(t, bits)]) x =
  if t =? fst x then bs ++ [(t, bits ++ [snd x])] else (bs ++ [(t, bits)]) ++ [(fst x, [snd x])].
Proof. unfold tell. rewrite rev_unit, rev_involutive. reflexivity. Qed.
Lemma told_last_snoc l x : told_last (l ++ [x]) = fst x.
Proof. unfold told_last. now rewrite fold_left_app. Qed.

Lemma onwards_snoc l x : forall from, onwards from (l ++ [x]) <-> onwards from l /\ fold_left (fun _ x => fst x) l from <= fst x.
Proof.
  induction l as [|y r IH]; intros from; cbn [app onwards fold_left]; [tauto|]. rewrite IH. tauto.
Qed.

(* ---- the waveform ---- *)

Lemma find_skip {A} (f : A -> bool) l l' : (forall x, In x l -> f x = false) -> find f (l ++ l') = find f l'.
Proof.
  induction l as [|x r IH]; intros H; [reflexivity|]. cbn [app find]. rewrite (H x) by now left. apply IH. intros y Hy. apply H. now right.
Qed.

Lemma shown_early idle bs more i : (forall d, In d more -> i < fst d) -> shown idle (bs ++ more) i = shown idle bs i.
Proof.
  intros H. unfold shown. rewrite rev_app_distr, find_skip; [reflexivity|]. intros d Hd. apply in_rev in Hd. apply N.leb_gt. now apply H.
Qed.
Lemma cut_early bs more i : (forall d, In d more -> i < fst d) -> cut_short (bs ++ more) i = cut_short bs i.
Proof.
  intros H. unfold cut_short. rewrite rev_app_distr, find_skip.
  - rewrite existsb_app. assert (existsb (fun d : N * list bool => fst d =? i) more = false) as ->; [|now rewrite orb_false_r].
    apply not_true_is_false. intros E. apply existsb_exists in E as (d & Hd & E). apply N.eqb_eq in E. specialize (H d Hd). lia.
  - intros d Hd. apply in_rev in Hd. apply N.ltb_ge. specialize (H d Hd). lia.
Qed.
Lemma before_early init idle bs more i : (forall d, In d more -> i < fst d) -> shown_before init idle (bs ++ more) i = shown_before init idle bs i.
Proof.
  intros H. unfold shown_before. rewrite cut_early by assumption. destruct (i =? 0); [reflexivity|]. destruct (cut_short bs i); [reflexivity|].
  apply shown_early. intros d Hd. specialize (H d Hd). lia.
Qed.
Lemma told_early init idle bs more n : (forall d, In d more -> n <= fst d) -> told_wave init idle (bs ++ more) n = told_wave init idle bs n.
Proof.
  intros H. unfold told_wave. apply sum_beats_ext. intros i Hi.
  rewrite shown_early, before_early by (intros d Hd; specialize (H d Hd); lia). reflexivity.
Qed.
Lemma told_split init idle bs m n : m <= n ->
  told_wave init idle bs n =
  add_exact (told_wave init idle bs m)
            (sum_beats (fun i => pin_beat (shown_before init idle bs (m + i)) (shown idle bs (m + i))) (N.to_nat (n - m))).
Proof.
  intros H. unfold told_wave. replace (N.to_nat n) with (N.to_nat m + N.to_nat (n - m))%nat by lia.
  rewrite sum_beats_split. rewrite N2Nat.id. reflexivity.
Qed.

Lemma shown_last idle bs t bits i : t <= i ->
  shown idle (bs ++ [(t, bits)]) i = match nth_error bits (N.to_nat (i - t)) with Some b => driven_level b | None => idle end.
Proof. intros H. unfold shown. rewrite rev_unit. cbn [find fst snd]. apply N.leb_le in H. now rewrite H. Qed.
Lemma shown_in idle bs t bits i : t <= i -> i < t + N.of_nat (length bits) ->
  shown idle (bs ++ [(t, bits)]) i = driven_level (nth (N.to_nat (i - t)) bits false).
Proof.
  intros H1 H2. rewrite shown_last by assumption. rewrite (nth_error_nth' bits false) by lia. reflexivity.
Qed.
Lemma shown_out idle bs t bits i : t + N.of_nat (length bits) <= i -> shown idle (bs ++ [(t, bits)]) i = idle.
Proof.
  intros H. rewrite shown_last by lia. rewrite (proj2 (nth_error_None bits (N.to_nat (i - t)))) by lia. reflexivity.
Qed.
Definition before_all (bs : bursts) (t : N) : Prop := forall d, In d bs -> fst d < t.
Lemma before_last init idle bs t bits i : before_all bs t -> t < i ->
  shown_before init idle (bs ++ [(t, bits)]) i = shown idle (bs ++ [(t, bits)]) (i - 1).
Proof.
  intros Hb H. unfold shown_before. destruct (N.eqb_spec i 0); [lia|]. unfold cut_short.
  assert (existsb (fun d : N * list bool => fst d =? i) (bs ++ [(t, bits)]) = false) as ->; [|reflexivity].
  apply not_true_is_false. intros E. apply existsb_exists in E as (d & Hd & E). apply N.eqb_eq in E.
  apply in_app_or in Hd as [Hd|[<-|[]]]; cbn [fst] in *; [|lia]. specialize (Hb d Hd). lia.
Qed.
(* The level a group is compared with does not depend on the group. *)
Lemma before_any init idle bs t bits bits' :
  shown_before init idle (bs ++ [(t, bits)]) t = shown_before init idle (bs ++ [(t, bits')]) t.
Proof.
  unfold shown_before, cut_short. destruct (N.eqb_spec t 0); [reflexivity|]. rewrite !existsb_app. cbn [existsb fst].
  rewrite !rev_unit. cbn [find fst]. rewrite N.ltb_irrefl, !N.eqb_refl.
  rewrite !shown_early by (intros d [<-|[]]; cbn [fst]; lia). reflexivity.
Qed.
Lemma before_next init idle bs t bits u x : t < u -> (1 <= length bits)%nat ->
  shown_before init idle ((bs ++ [(t, bits)]) ++ [(u, x)]) u =
  if u =? t + N.of_nat (length bits) then driven_level (nth (length bits - 1) bits false) else idle.
Proof.
  intros H Hl. unfold shown_before, cut_short. destruct (N.eqb_spec u 0); [lia|].
  rewrite existsb_app. cbn [existsb fst]. rewrite N.eqb_refl, !orb_true_r, rev_unit, rev_unit. cbn [find fst snd andb].
  rewrite N.ltb_irrefl, (proj2 (N.ltb_lt t u)) by assumption. cbn [fst snd].
  rewrite shown_early by (intros d [<-|[]]; cbn [fst]; lia).
  destruct (N.eqb_spec u (t + N.of_nat (length bits))) as [->|Hne].
  - rewrite N.ltb_irrefl. rewrite shown_in by lia. do 2 f_equal. lia.
  - destruct (N.ltb_spec u (t + N.of_nat (length bits))) as [|Hge]; [reflexivity|]. rewrite shown_out by lia. reflexivity.
Qed.

(* ---- the pin ---- *)

Record line_inv (max : nat) (init idle : pin_state) (bs : bursts) (t : N) (bits : list bool) (p : pin) : Prop := {
  li_max : pn_max p = max;
  li_idle : pn_idle p = idle;
  li_init : pn_init p = false;
  li_set : pn_set_at p = t;
  li_pend : pn_pend_set p = true;
  li_time : pn_pend_time p = t;
  li_from : pn_pend_from p = shown_before init idle (bs ++ [(t, bits)]) t;
  li_to : pn_pend_to p = driven_level (nth 0 bits false);
  li_state : pn_state p = driven_level (nth (length bits - 1) bits false);
  li_load : bt_load (pn_store p) = t;
  li_holds : holds (pn_store p) bits;
  li_stats : pn_stats p = wrap_stats (told_wave init idle bs t);
  li_before : before_all bs t;
  li_len : (1 <= length bits <= max)%nat;
  li_fit : t + N.of_nat (length bits) < two64
}.

Lemma line_advance max init idle bs t bits p u : line_inv max init idle bs t bits p -> t <= u -> u < two64 ->
  pin_advance p u 1 (pn_stats p) = Value (wrap_stats (told_wave init idle (bs ++ [(t, bits)]) u)).
Proof.
  intros I Htu Hu. destruct I. unfold pin_advance.
  assert (u64_mul u 1 = u) as -> by (unfold u64_mul; rewrite N.mul_1_r; apply N.mod_small; assumption).
  rewrite li_set0. assert ((t <=? u) = true) as -> by (apply N.leb_le; lia). cbn [check].
  rewrite li_init0. cbn [andb]. unfold pin_add_pending. rewrite li_pend0, li_time0. cbn [andb].
  rewrite li_stats0, li_from0, li_to0, li_idle0. unfold pin_count.
  destruct (N.leb_spec u t) as [Hut|Hut].
  - assert (u = t) by lia. subst u. rewrite N.ltb_irrefl. f_equal. f_equal. symmetry. apply told_early.
    intros d [<-|[]]. cbn [fst]. lia.
  - assert (t <? u = true) as -> by (apply N.ltb_lt; lia).
    unfold bit_store_end. destruct li_holds0 as [Hc Hb]. rewrite li_load0, Hc.
    rewrite (u64_add_small t) by lia.
    assert (t <? t + N.of_nat (length bits) = true) as -> by (apply N.ltb_lt; lia).
    rewrite li_max0. rewrite (storage_counts max (pn_store p) bits t u); try (split; assumption); try assumption; try lia.
    cbn [bind]. set (m := Nat.min (N.to_nat (u - t)) (length bits)). set (f := fun j => nth j bits false).
    rewrite stats_add_wrap_l. rewrite stats_add_wrap_l.
    rewrite <- add_exact_assoc.
    assert (1 <= m)%nat as Hm by (subst m; lia).
    set (all := bs ++ [(t, bits)]) in *.
    assert (forall i, t <= i -> i < t + N.of_nat (length bits) -> shown idle all i = driven_level (f (N.to_nat (i - t)))) as Hlev
      by (intros i Hi1 Hi2; unfold all; apply shown_in; assumption).
    assert (add_exact (pin_change (shown_before init idle all t) (driven_level (nth 0 bits false))) (inner m f)
            = sum_beats (fun i => pin_beat (shown_before init idle all (t + i)) (shown idle all (t + i))) m) as Hburst.
    { change (nth 0 bits false) with (f 0%nat). apply burst_beats; [assumption| |].
      - rewrite N.add_0_r. rewrite Hlev by lia. rewrite N.sub_diag. reflexivity.
      - intros i Hi. rewrite (Hlev (t + N.of_nat i)) by (subst m; lia).
        unfold all. rewrite before_last by (try assumption; lia). fold all.
        rewrite Hlev by (subst m; lia). f_equal; f_equal; f_equal; lia. }
    rewrite Hburst.
    assert (told_wave init idle bs t = told_wave init idle all t) as ->.
    { symmetry. apply told_early. intros d [<-|[]]. cbn [fst]. lia. }
    destruct (N.ltb_spec (t + N.of_nat (length bits)) u) as [Hend|Hend].
    + assert (m = length bits) as Hml by (subst m; lia).
      unfold bit_store_get. rewrite Hc. assert ((0 <? length bits)%nat = true) as -> by (apply Nat.ltb_lt; lia).
      cbn [check bind]. rewrite Nat.sub_0_r. f_equal. rewrite stats_add_wrap_l.
      rewrite dwell_wrap by lia. f_equal.
      rewrite (told_split init idle all t u) by lia. rewrite <- !add_exact_assoc. f_equal.
      replace (N.to_nat (u - t)) with (m + N.to_nat (u - (t + N.of_nat m)))%nat by (rewrite Hml; lia).
      rewrite sum_beats_split. f_equal.
      change (N.testbit (bt_bits (pn_store p)) (N.of_nat (length bits - 1))) with (level (bt_bits (pn_store p)) (length bits - 1)).
      rewrite Hb by lia. fold (driven_level (nth (length bits - 1) bits false)).
      rewrite Hml. rewrite <- (N2Nat.id (u - (t + N.of_nat (length bits)))) at 1. apply idle_beats; [lia| |].
      * rewrite N.add_0_r. unfold all. rewrite before_last by (try assumption; lia). fold all.
        rewrite Hlev by lia. f_equal.
        { f_equal. unfold f. f_equal. lia. }
        unfold all. apply shown_out. lia.
      * intros i Hi. unfold all. rewrite before_last by (try assumption; lia).
        f_equal; apply shown_out; lia.
    + f_equal. unfold pin_dwell.
      assert (t + N.of_nat (length bits) <? u = false) as -> by (apply N.ltb_ge; lia).
      f_equal. rewrite (told_split init idle all t u) by lia. f_equal. f_equal. subst m. lia.
Qed.

Lemma line_early max init idle bs t bits p u q : line_inv max init idle bs t bits p -> u < t -> pin_set p u q 1 = Fails Assertion.
Proof.
  intros I H. destruct I. unfold pin_set, pin_advance. unfold u64_mul at 1 2. rewrite !N.mul_1_r.
  rewrite N.mod_small by (apply N.mod_lt; unfold two64; lia). rewrite N.mod_small by lia. rewrite li_set0.
  assert (t <=? u = false) as -> by (apply N.leb_gt; lia). reflexivity.
Qed.

(* One more level for the current time. *)
Lemma line_more max init idle bs t bits p b : line_inv max init idle bs t bits p -> t + N.of_nat (S (length bits)) < two64 ->
  if Nat.ltb (length bits) max
  then exists p', pin_set p t (driven_level b) 1 = Value p' /\ line_inv max init idle bs t (bits ++ [b]) p'
  else pin_set p t (driven_level b) 1 = Fails Assertion.
Proof.
  intros I Hf. pose proof (line_advance max init idle bs t bits p t I ltac:(lia) ltac:(lia)) as Ha. destruct I.
  unfold pin_set. assert (u64_mul t 1 = t) as -> by (unfold u64_mul; rewrite N.mul_1_r; apply N.mod_small; lia).
  rewrite Ha. cbn [bind]. rewrite li_max0.
  assert (pin_eqb PinH (driven_level b) = b) as -> by now destruct b.
  destruct (Nat.ltb_spec (length bits) max) as [Hl|Hl].
  - destruct (push_same max (pn_store p) bits t b li_holds0 li_load0 Hl) as [s' [Hp [Hh Hld]]].
    rewrite Hp. cbn [bind]. eexists. split; [reflexivity|].
    rewrite li_set0, li_init0, li_pend0, li_time0, N.eqb_refl, N.ltb_irrefl. cbn [negb orb andb].
    constructor; cbn [pn_max pn_idle pn_init pn_set_at pn_pend_set pn_pend_time pn_pend_from pn_pend_to pn_state pn_store pn_stats];
      try assumption; try reflexivity.
    + rewrite li_from0. apply before_any.
    + rewrite li_to0. rewrite app_nth1 by lia. reflexivity.
    + rewrite app_length. cbn [length]. rewrite app_nth2 by lia. replace (length bits + 1 - 1 - length bits)%nat with 0%nat by lia. reflexivity.
    + f_equal. apply told_early. intros d [<-|[]]. cbn [fst]. lia.
    + rewrite app_length. cbn [length]. lia.
    + rewrite app_length. cbn [length]. lia.
  - unfold bit_store_push. rewrite li_load0, N.eqb_refl. rewrite (proj1 li_holds0).
    assert ((length bits + 1 <=? max)%nat = false) as -> by (apply Nat.leb_gt; lia). reflexivity.
Qed.

(* A level for a later time. *)
Lemma line_next max init idle bs t bits p u b : line_inv max init idle bs t bits p -> t < u -> u + 1 < two64 ->
  exists p', pin_set p u (driven_level b) 1 = Value p' /\ line_inv max init idle (bs ++ [(t, bits)]) u [b] p'.
Proof.
  intros I Hu Hf. pose proof (line_advance max init idle bs t bits p u I ltac:(lia) ltac:(lia)) as Ha. destruct I.
  unfold pin_set. assert (u64_mul u 1 = u) as -> by (unfold u64_mul; rewrite N.mul_1_r; apply N.mod_small; lia).
  rewrite Ha. cbn [bind]. rewrite li_max0.
  destruct (push_new max (pn_store p) u b) as [s' [Hp [Hh Hld]]]; [left; rewrite li_load0; lia|lia|].
  assert (pin_eqb PinH (driven_level b) = b) as -> by now destruct b.
  rewrite Hp. cbn [bind]. eexists. split; [reflexivity|].
  destruct li_holds0 as [Hc Hb].
  rewrite li_set0, li_init0, li_pend0, li_time0, li_state0, li_idle0, Hc. rewrite (u64_add_small t) by lia.
  assert (t =? u = false) as -> by (apply N.eqb_neq; lia). cbn [negb orb andb]. rewrite orb_false_r.
  constructor; cbn [pn_max pn_idle pn_init pn_set_at pn_pend_set pn_pend_time pn_pend_from pn_pend_to pn_state pn_store pn_stats];
    try assumption; try reflexivity.
  - symmetry. apply before_next; [assumption|lia].
  - intros d Hd. apply in_app_or in Hd as [Hd|[<-|[]]]; cbn [fst]; [|lia]. specialize (li_before0 d Hd). lia.
  - cbn [length]. lia.
Qed.

Lemma line_first max init idle u b : u + 1 < two64 ->
  if Nat.leb 1 max
  then exists p', pin_set (pin_new max init idle) u (driven_level b) 1 = Value p' /\ line_inv max init idle [] u [b] p'
  else pin_set (pin_new max init idle) u (driven_level b) 1 = Fails Assertion.
Proof.
  intros Hf. pose proof (new_advance max init idle u ltac:(lia)) as Ha.
  unfold pin_set. assert (u64_mul u 1 = u) as -> by (unfold u64_mul; rewrite N.mul_1_r; apply N.mod_small; lia).
  cbn [pin_new pn_stats]. fold (pin_new max init idle). rewrite Ha. cbn [bind].
  cbn [pin_new pn_max pn_idle pn_init pn_set_at pn_pend_set pn_pend_time pn_pend_from pn_pend_to pn_state pn_store pn_stats].
  assert (pin_eqb PinH (driven_level b) = b) as -> by now destruct b.
  destruct (Nat.leb_spec 1 max) as [Hm|Hm].
  - destruct (push_new max bit_store0 u b) as [s' [Hp [Hh Hld]]]; [now right|lia|].
    rewrite Hp. cbn [bind]. eexists. split; [reflexivity|].
    rewrite orb_true_r. cbn [bit_store0 bt_count N.of_nat]. change (u64_add 0 0) with 0. cbn [andb].
    constructor; cbn [pn_max pn_idle pn_init pn_set_at pn_pend_set pn_pend_time pn_pend_from pn_pend_to pn_state pn_store pn_stats];
      try assumption; try reflexivity.
    + unfold shown_before. cbn [app]. destruct (N.eqb_spec u 0) as [->|Hu]; [reflexivity|]. unfold cut_short. cbn [rev app find fst existsb].
      rewrite N.ltb_irrefl, andb_false_r. unfold shown. cbn [rev app find fst]. assert (u <=? u - 1 = false) as -> by (apply N.leb_gt; lia). reflexivity.
    + intros d [].
    + cbn [length]. lia.
  - unfold bit_store_push. assert (max = 0)%nat as -> by lia.
    assert (bt_count (if u =? bt_load bit_store0 then bit_store0 else mkBitStore (bt_bits bit_store0) 0 u) = 0%nat) as E by (destruct (u =? bt_load bit_store0); reflexivity).
    cbv zeta. rewrite E. reflexivity.
Qed.

(* ---- any tellings ---- *)

Lemma told_app l l' : forall p, pin_told (l ++ l') p = bind (pin_told l p) (pin_told l').
Proof. induction l as [|x r IH]; intros p; [reflexivity|]. cbn [app pin_told]. destruct (pin_set p (fst x) (driven_level (snd x)) 1); [apply IH|reflexivity]. Qed.

Lemma in_time_app bs bs' : in_time (bs ++ bs') <-> in_time bs /\ in_time bs'.
Proof. apply Forall_app. Qed.
Lemma roomy_app max bs bs' : roomy max (bs ++ bs') <-> roomy max bs /\ roomy max bs'.
Proof. apply Forall_app. Qed.

(* Growing groups only grow. *)
Lemma shorter_time l x : in_time (grouped (l ++ [x])) -> in_time (grouped l).
Proof.
  rewrite grouped_snoc. destruct (grouped l) as [|d bs] using rev_ind; [constructor|]. clear IHbs. destruct d as [t bits].
  rewrite tell_last. destruct (t =? fst x).
  - rewrite !in_time_app. intros [A B]. split; [assumption|]. apply Forall_inv in B. cbn [fst snd] in B. rewrite app_length in B. cbn [length] in B.
    repeat constructor. cbn [fst snd]. lia.
  - rewrite in_time_app. tauto.
Qed.

Lemma accepted_dec max l : (onwards 0 l /\ roomy max (grouped l)) \/ ~ (onwards 0 l /\ roomy max (grouped l)).
Proof.
  assert (forall l from, onwards from l \/ ~ onwards from l) as D1.
  { induction l0 as [|y r IHr]; intros from; cbn [onwards]; [tauto|].
    destruct (N.le_gt_cases from (fst y)) as [A|A]; [|right; intros [B _]; lia]. destruct (IHr (fst y)); tauto. }
  assert (forall bs, roomy max bs \/ ~ roomy max bs) as D2.
  { induction bs as [|y r IHr]; [left; constructor|].
    destruct (Nat.leb_spec (length (snd y)) max) as [A|A].
    - destruct IHr as [B|B]; [left; constructor; assumption|right; intros C; apply B; now apply Forall_inv_tail in C].
    - right. intros C. apply Forall_inv in C. cbv beta in C. lia. }
  destruct (D1 l 0), (D2 (grouped l)); tauto.
Qed.

Theorem line_exactly max init idle l : in_time (grouped l) ->
  (onwards 0 l /\ roomy max (grouped l) ->
     exists p, pin_told l (pin_new max init idle) = Value p /\
       (l = [] /\ p = pin_new max init idle \/
        exists bs bits, grouped l = bs ++ [(told_last l, bits)] /\ line_inv max init idle bs (told_last l) bits p)) /\
  (~ (onwards 0 l /\ roomy max (grouped l)) -> pin_told l (pin_new max init idle) = Fails Assertion).
Proof.
  induction l as [|x l IH] using rev_ind; intros Ht.
  - split.
    + intros _. eexists. split; [reflexivity|]. left. split; reflexivity.
    + intros H. exfalso. apply H. split; constructor.
  - pose proof (shorter_time l x Ht) as Ht'. specialize (IH Ht'). destruct IH as (IHy & IHn).
    destruct (accepted_dec max l) as [Hyes|Hno].
    2: { specialize (IHn Hno). split.
         - intros (Ho & Hr). exfalso. apply Hno. split; [now apply onwards_snoc in Ho|].
           rewrite grouped_snoc in Hr. destruct (grouped l) as [|d bs] using rev_ind; [constructor|]. clear IHbs. destruct d as [t bits].
           rewrite tell_last in Hr. destruct (t =? fst x).
           + apply roomy_app in Hr as [A B]. apply roomy_app. split; [assumption|]. apply Forall_inv in B. cbn [fst snd] in B. rewrite app_length in B. cbn [length] in B.
             repeat constructor. cbn [fst snd]. lia.
           + apply roomy_app in Hr. tauto.
         - intros _. rewrite told_app, IHn. reflexivity. }
    destruct (IHy Hyes) as (p & Hp & Hst). rewrite told_app, Hp. cbn [bind]. rewrite told_last_snoc. rewrite grouped_snoc in *.
    destruct Hyes as [Ho Hr]. destruct x as [u b].
    destruct Hst as [[-> ->]|(bs & bits & Eg & Hinv)].
    + change (tell (grouped []) (u, b)) with [(u, [b])] in *.
      pose proof (Forall_inv Ht) as Hu. cbn [fst snd length] in Hu. cbn [pin_told fst snd].
      pose proof (line_first max init idle u b ltac:(lia)) as F. destruct (Nat.leb_spec 1 max) as [Hm|Hm].
      * destruct F as (p' & E & I). rewrite E. cbn [bind]. split.
        -- intros _. eexists. split; [reflexivity|]. right. exists [], [b]. split; [reflexivity|]. exact I.
        -- intros N. exfalso. apply N. split; [cbn; lia|]. repeat constructor. exact Hm.
      * rewrite F. cbn [bind]. split; [|reflexivity]. intros [_ N]. apply Forall_inv in N. cbn [snd length] in N. lia.
    + rewrite Eg in *. rewrite tell_last in *. cbn [fst snd] in *. set (t := told_last l) in *.
      pose proof (li_len _ _ _ _ _ _ _ Hinv) as Hlen. apply roomy_app in Hr as [Hr1 _].
      assert (onwards 0 (l ++ [(u, b)]) <-> t <= u) as Hon by (rewrite onwards_snoc; unfold t, told_last; cbn [fst]; tauto).
      cbn [pin_told fst snd]. destruct (N.eqb_spec t u) as [<-|Hne].
      * apply in_time_app in Ht as [_ Ht]. apply Forall_inv in Ht. cbn [fst snd] in Ht. rewrite app_length in Ht. cbn [length] in Ht.
        pose proof (line_more max init idle bs t bits p b Hinv ltac:(lia)) as F. destruct (Nat.ltb_spec (length bits) max) as [Hm|Hm].
        -- destruct F as (p' & E & I). rewrite E. cbn [bind]. split.
           ++ intros _. eexists. split; [reflexivity|]. right. exists bs, (bits ++ [b]). split; [reflexivity|exact I].
           ++ intros N. exfalso. apply N. split; [apply Hon; lia|]. apply roomy_app. split; [assumption|].
              repeat constructor. cbn [snd]. rewrite app_length. cbn [length]. lia.
        -- rewrite F. cbn [bind]. split; [|reflexivity]. intros [_ N]. apply roomy_app in N as [_ N]. apply Forall_inv in N. cbn [snd] in N.
           rewrite app_length in N. cbn [length] in N. lia.
      * apply in_time_app in Ht as [_ Ht]. apply Forall_inv in Ht. cbn [fst snd length] in Ht.
        destruct (N.lt_ge_cases u t) as [Hlt|Hge].
        -- rewrite (line_early _ _ _ _ _ _ _ u _ Hinv Hlt). cbn [bind]. split; [|reflexivity]. intros [N _]. apply Hon in N. lia.
        -- destruct (line_next max init idle bs t bits p u b Hinv) as (p' & E & I); [lia|lia|]. rewrite E. cbn [bind]. split.
           ++ intros _. eexists. split; [reflexivity|]. right. exists (bs ++ [(t, bits)]), [b]. split; [reflexivity|exact I].
           ++ intros N. exfalso. apply N. split; [apply Hon; lia|]. apply roomy_app. split; [apply roomy_app; split; [assumption|]|].
              ** repeat constructor. cbn [snd]. lia.
              ** repeat constructor. cbn [snd length]. lia.
Qed.

Theorem line_stats max init idle l p t rate : in_time (grouped l) -> pin_told l (pin_new max init idle) = Value p -> t * rate < two64 ->
  pin_stats_at p t rate = if told_last l <=? t * rate then Value (wrap_stats (told_wave init idle (grouped l) (t * rate))) else Fails Assertion.
Proof.
  intros Ht Hp Hr. pose proof (line_exactly max init idle l Ht) as [Hy Hn].
  assert (onwards 0 l /\ roomy max (grouped l)) as Hok.
  { destruct (accepted_dec max l) as [A|A]; [exact A|]. rewrite (Hn A) in Hp. discriminate. }
  destruct (Hy Hok) as (p' & E & Hst). rewrite Hp in E. injection E as <-.
  destruct Hst as [[-> ->]|(bs & bits & Eg & I)].
  - cbn [told_last fold_left grouped]. rewrite (proj2 (N.leb_le 0 (t * rate))) by lia.
    rewrite stats_at_advance; [|cbn [pin_new pn_set_at]; lia|assumption|now right|reflexivity].
    rewrite <- N.mul_1_r at 1. rewrite N.mul_1_r. rewrite (new_advance max init idle) by assumption. do 2 f_equal.
  - set (u := told_last l) in *. rewrite Eg. pose proof (li_set _ _ _ _ _ _ _ I) as Hset. pose proof (li_time _ _ _ _ _ _ _ I) as Htime.
    destruct (N.leb_spec u (t * rate)) as [Hle|Hgt].
    + rewrite stats_at_advance; [|lia|assumption|left; congruence|rewrite (li_init _ _ _ _ _ _ _ I); discriminate].
      apply (line_advance max init idle bs u bits p (t * rate) I); assumption.
    + unfold pin_stats_at. assert (u64_mul t rate = t * rate) as -> by (apply N.mod_small; assumption). rewrite Hset.
      assert (u <=? t * rate = false) as -> by (apply N.leb_gt; lia). reflexivity.
Qed.

Theorem line_takes max init idle l : in_time (grouped l) ->
  (onwards 0 l /\ roomy max (grouped l) -> exists p, pin_told l (pin_new max init idle) = Value p) /\
  (~ (onwards 0 l /\ roomy max (grouped l)) -> pin_told l (pin_new max init idle) = Fails Assertion).
Proof.
  intros T. destruct (line_exactly max init idle l T) as [Y N]. split; [|exact N]. intros H. destruct (Y H) as (p & E & _). exists p. exact E.
Qed.
