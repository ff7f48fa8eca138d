(* Inverting and undoing it. *)
From Coq Require Import NArith List Bool Lia Arith.
From Verif Require Import Base Bits WaveSpec BitFacts ListFacts PinModel DbiModel DbiSpec.
Import ListNotations.
Local Open Scope N_scope.
Ltac Zify.zify_post_hook ::= idtac.

(* ---- loops and vectors ---- *)

Lemma loop_range {A} (f : nat -> A -> result A) (P : nat -> A -> Prop) n : forall from a r,
  P from a -> (forall i a a', (from <= i < from + n)%nat -> P i a -> f i a = Value a' -> P (S i) a') ->
  loop f (seq from n) a = Value r -> P (from + n)%nat r.
Proof.
  induction n as [|n IH]; intros from a r H0 Hs Hl; cbn [seq loop] in Hl.
  - injection Hl as <-. now rewrite Nat.add_0_r.
  - destruct (f from a) as [a'|] eqn:E; [|discriminate]. cbn [bind] in Hl.
    replace (from + S n)%nat with (S from + n)%nat by lia.
    apply (IH _ a'); [|intros i b b' Hi; apply Hs; lia|exact Hl]. apply (Hs from a); [lia|assumption|assumption].
Qed.

Lemma loop_total {A} (f : nat -> A -> result A) (P : nat -> A -> Prop) n : forall from a,
  P from a -> (forall i a, (from <= i < from + n)%nat -> P i a -> exists a', f i a = Value a' /\ P (S i) a') ->
  exists r, loop f (seq from n) a = Value r /\ P (from + n)%nat r.
Proof.
  induction n as [|n IH]; intros from a H0 Hs; cbn [seq loop].
  - exists a. split; [reflexivity|]. now rewrite Nat.add_0_r.
  - destruct (Hs from a) as [a' [E Pa]]; [lia|assumption|]. rewrite E. cbn [bind].
    replace (from + S n)%nat with (S from + n)%nat by lia. apply IH; [assumption|]. intros i b Hi. apply Hs. lia.
Qed.

Lemma put_spec {A} (l : list A) i x l' : put l i x = Value l' ->
  (i < length l)%nat /\ length l' = length l /\ forall j d, (j < length l)%nat -> nth j l' d = if Nat.eqb i j then x else nth j l d.
Proof.
  unfold put. destruct (Nat.ltb_spec i (length l)) as [H|]; [|discriminate]. intros E. injection E as <-.
  split; [assumption|]. split; [apply length_upd|]. intros j d Hj.
  destruct (Nat.eqb_spec i j) as [<-|Hne].
  - clear Hj. revert i H. induction l as [|y r IH]; intros i H; [cbn in H; lia|].
    destruct i; [reflexivity|]. cbn [upd nth]. apply IH. cbn [length] in H. lia.
  - revert i j H Hj Hne. induction l as [|y r IH]; intros i j H Hj Hne; [cbn in H; lia|].
    destruct i, j; try reflexivity; [lia|]. cbn [upd nth]. cbn [length] in *. apply IH; lia.
Qed.
Lemma put_ok {A} (l : list A) i x : (i < length l)%nat -> exists l', put l i x = Value l'.
Proof. intros H. unfold put. apply Nat.ltb_lt in H. rewrite H. eauto. Qed.
Lemma fetch_nth {A} (l : list A) i x : fetch l i = Value x -> (i < length l)%nat /\ forall d, nth i l d = x.
Proof.
  unfold fetch. destruct (nth_error l i) eqn:E; [|discriminate]. intros H. injection H as <-.
  split; [apply nth_error_Some; congruence|]. intros d. now apply nth_error_nth.
Qed.
Lemma fetch_ok {A} (l : list A) i : (i < length l)%nat -> exists x, fetch l i = Value x.
Proof. intros H. unfold fetch. destruct (nth_error l i) eqn:E; [eauto|]. apply nth_error_None in E. lia. Qed.

Lemma level_flip c v j : level (flip_entry c v) j = if Nat.ltb j (dg_digits c) then negb (level v j) else level v j.
Proof.
  unfold flip_entry. rewrite level_lxor. unfold level at 2. destruct (Nat.ltb_spec j (dg_digits c)) as [H|H].
  - rewrite N.ones_spec_low by lia. apply xorb_true_r.
  - rewrite N.ones_spec_high by lia. apply xorb_false_r.
Qed.

(* invertChunk complements the entries of the chunk. *)
Lemma invert_chunk_spec c data chunk data' : invert_chunk c data chunk = Value data' ->
  length data' = length data /\
  forall j, (j < length data)%nat ->
    nth j data' 0 = if (Nat.leb (chunk * dg_sub c) j && Nat.ltb j (chunk * dg_sub c + dg_sub c))%nat
                    then flip_entry c (nth j data 0) else nth j data 0.
Proof.
  intros H. unfold invert_chunk in H. set (a := (chunk * dg_sub c)%nat) in *.
  apply (loop_range _ (fun i d => length d = length data /\ forall j, (j < length data)%nat ->
           nth j d 0 = if (Nat.leb a j && Nat.ltb j i)%nat then flip_entry c (nth j data 0) else nth j data 0)) in H; [exact H| |].
  - split; [reflexivity|]. intros j Hj. destruct (Nat.leb_spec a j), (Nat.ltb_spec j a); try reflexivity; lia.
  - intros i d d' Hi [Hl Hd] E. destruct (fetch d i) as [v|] eqn:Ev; [|discriminate]. cbn [bind] in E.
    apply fetch_nth in Ev as [Hil Hv]. apply put_spec in E as (_ & Hlen & Hp). split; [congruence|].
    intros j Hj. rewrite Hp by lia. destruct (Nat.eqb_spec i j) as [<-|Hne].
    + specialize (Hd i ltac:(lia)). destruct (Nat.leb_spec a i); [|lia].
      rewrite (proj2 (Nat.ltb_lt i (S i))) by lia. cbn [andb].
      rewrite (Hv 0) in Hd. rewrite Hd. rewrite (proj2 (Nat.ltb_ge i i)) by lia. rewrite andb_false_r. reflexivity.
    + rewrite Hd by lia. destruct (Nat.ltb_spec j i), (Nat.ltb_spec j (S i)); try reflexivity; lia.
Qed.
Lemma invert_chunk_ok c data chunk : (chunk * dg_sub c + dg_sub c <= length data)%nat -> exists data', invert_chunk c data chunk = Value data'.
Proof.
  intros H. unfold invert_chunk.
  destruct (loop_total (fun i data => v <- fetch data i ;; put data i (flip_entry c v)) (fun _ d => length d = length data)
             (dg_sub c) (chunk * dg_sub c) data) as [r [E _]]; [reflexivity| |eauto].
  intros i d Hi Hl. destruct (fetch_ok d i) as [v Ev]; [lia|]. rewrite Ev. cbn [bind].
  destruct (put_ok d i (flip_entry c v)) as [d' Ed]; [lia|]. exists d'. split; [assumption|].
  apply put_spec in Ed as (_ & Hlen & _). congruence.
Qed.

(* ---- one burst ---- *)

(* Chunk number ch has been reached before entry i. *)
Definition reached (k i ch : nat) : bool := Nat.ltb (ch * k) i.

(* State of the scan before entry i: data, decisions, calls. *)
Record scan_inv (c : dbi_config) (t : N) (read : bool) (orig : list N) (inv0 : list bool) (i : nat) (s : scan) : Prop := {
  si_len : length (sc_data s) = length orig;
  si_chunk : sc_chunk s = Nat.div i (dg_sub c);
  si_sub : sc_sub s = Nat.modulo i (dg_sub c);
  si_inv : length (sc_inv s) = length inv0;
  si_room : forall ch, reached (dg_sub c) i ch = true -> (ch < length inv0)%nat;
  si_data : forall j, (j < length orig)%nat ->
    nth j (sc_data s) 0 = if reached (dg_sub c) i (Nat.div j (dg_sub c)) && nth (Nat.div j (dg_sub c)) (sc_inv s) false
                          then flip_entry c (nth j orig 0) else nth j orig 0;
  si_events : forall e, In e (sc_events s) -> exists ch, reached (dg_sub c) i ch = true /\ announce c t ch (nth ch (sc_inv s) false) read = Value [e];
  si_told : dg_callback c = true -> forall ch, reached (dg_sub c) i ch = true ->
    exists e, In e (sc_events s) /\ announce c t ch (nth ch (sc_inv s) false) read = Value [e]
}.

Lemma div_mod_next k i : (0 < k)%nat ->
  if Nat.leb k (S (Nat.modulo i k)) then Nat.div (S i) k = S (Nat.div i k) /\ Nat.modulo (S i) k = 0%nat
  else Nat.div (S i) k = Nat.div i k /\ Nat.modulo (S i) k = S (Nat.modulo i k).
Proof.
  intros Hk. pose proof (Nat.div_mod i k ltac:(lia)) as H. pose proof (Nat.mod_upper_bound i k ltac:(lia)) as Hm.
  destruct (Nat.leb_spec k (S (i mod k))).
  - split.
    + symmetry. apply (Nat.div_unique _ _ _ 0); lia.
    + symmetry. apply (Nat.mod_unique _ _ (S (i / k))); lia.
  - split.
    + symmetry. apply (Nat.div_unique _ _ _ (S (i mod k))); lia.
    + symmetry. apply (Nat.mod_unique _ _ (i / k)); lia.
Qed.

Lemma reached_next k i ch : (0 < k)%nat -> reached k (S i) ch = reached k i ch || (Nat.eqb (Nat.modulo i k) 0 && Nat.eqb ch (Nat.div i k)).
Proof.
  intros Hk. unfold reached. pose proof (Nat.div_mod i k ltac:(lia)) as H. pose proof (Nat.mod_upper_bound i k ltac:(lia)) as Hm.
  destruct (Nat.ltb_spec (ch * k) i) as [H1|H1], (Nat.ltb_spec (ch * k) (S i)) as [H2|H2]; cbn [orb]; [reflexivity|exfalso; lia| |].
  - assert (ch * k = i)%nat by lia. assert (ch = i / k)%nat by (apply (Nat.div_unique i k ch 0); lia).
    subst ch. assert (i mod k = 0)%nat as -> by lia. rewrite !Nat.eqb_refl. reflexivity.
  - symmetry. apply andb_false_iff. destruct (Nat.eqb_spec (i mod k) 0); [|now left]. right. apply Nat.eqb_neq. intros ->. lia.
Qed.

(* The visitor's effect. *)
Lemma visit_spec c t read b s s' : visit c t read b s = Value s' ->
  exists ev, announce c t (sc_chunk s) b read = Value ev /\ sc_events s' = sc_events s ++ ev /\
    (sc_chunk s < length (sc_inv s))%nat /\ length (sc_inv s') = length (sc_inv s) /\
    (forall j, (j < length (sc_inv s))%nat -> nth j (sc_inv s') false = if Nat.eqb (sc_chunk s) j then b else nth j (sc_inv s) false) /\
    length (sc_data s') = length (sc_data s) /\
    (forall j, (j < length (sc_data s))%nat -> nth j (sc_data s') 0 =
       if b && (Nat.leb (sc_chunk s * dg_sub c) j && Nat.ltb j (sc_chunk s * dg_sub c + dg_sub c))%nat
       then flip_entry c (nth j (sc_data s) 0) else nth j (sc_data s) 0) /\
    sc_chunk s' = sc_chunk s /\ sc_sub s' = sc_sub s /\ sc_a s' = sc_a s /\ sc_b s' = sc_b s.
Proof.
  intros H. unfold visit in H. destruct (announce c t (sc_chunk s) b read) as [ev|]; [|discriminate]. cbn [bind] in H.
  destruct (put (sc_inv s) (sc_chunk s) b) as [inv|] eqn:Ei; [|discriminate]. cbn [bind] in H.
  apply put_spec in Ei as (Hc & Hl & Hn).
  destruct (if b then invert_chunk c (sc_data s) (sc_chunk s) else Value (sc_data s)) as [data|] eqn:Ed; [|discriminate].
  cbn [bind] in H. injection H as <-. exists ev.
  cbn [sc_events sc_inv sc_data sc_chunk sc_sub sc_a sc_b].
  split; [reflexivity|]. split; [reflexivity|]. split; [assumption|]. split; [assumption|].
  split; [intros j Hj; now apply Hn|].
  destruct b.
  - apply invert_chunk_spec in Ed as [Hdl Hd]. split; [assumption|]. split; [exact Hd|]. repeat split.
  - injection Ed as <-. split; [reflexivity|]. split; [reflexivity|]. repeat split.
Qed.

Lemma in_chunk k j ch : (0 < k)%nat -> (Nat.leb (ch * k) j && Nat.ltb j (ch * k + k))%nat = Nat.eqb ch (Nat.div j k).
Proof.
  intros Hk. pose proof (Nat.div_mod j k ltac:(lia)) as H. pose proof (Nat.mod_upper_bound j k ltac:(lia)) as Hm.
  destruct (Nat.eqb_spec ch (j / k)) as [->|Hne].
  - apply andb_true_iff. split; [apply Nat.leb_le|apply Nat.ltb_lt]; nia.
  - apply andb_false_iff. destruct (Nat.leb_spec (ch * k) j); [right; apply Nat.ltb_ge|now left].
    destruct (Nat.le_gt_cases (ch * k + k) j); [assumption|]. exfalso. apply Hne. apply (Nat.div_unique j k ch (j - ch * k)); nia.
Qed.

(* An entry that starts a chunk: the decision, whatever it is. *)
Lemma inv_decide c t read orig inv0 i s b s' a' b' : (0 < dg_sub c)%nat -> scan_inv c t read orig inv0 i s ->
  Nat.modulo i (dg_sub c) = 0%nat -> (i < length orig)%nat ->
  visit c t read b s = Value s' ->
  scan_inv c t read orig inv0 (S i) (next_entry c (set_counters s' a' b')).
Proof.
  intros Hk I Hm Hi H. destruct I. apply visit_spec in H as (ev & Ha & He & Hc & Hl & Hn & Hdl & Hd & Hch & Hsub & _ & _).
  set (k := dg_sub c) in *. rewrite si_chunk0 in *.
  assert (reached k i (i / k) = false) as Hnot.
  { unfold reached. apply Nat.ltb_ge. pose proof (Nat.div_mod i k ltac:(lia)). lia. }
  assert (forall ch, reached k (S i) ch = reached k i ch || Nat.eqb ch (i / k)) as Hr.
  { intros ch. rewrite reached_next by assumption. rewrite Hm, Nat.eqb_refl. reflexivity. }
  pose proof (div_mod_next k i Hk) as Hdm. unfold next_entry, set_counters. cbn [sc_sub sc_chunk sc_data sc_inv sc_events sc_a sc_b].
  rewrite Hsub, si_sub0. fold k. fold k in Hdm. rewrite Hch.
  assert (forall u v, scan_inv c t read orig inv0 (S i) (mkScan (sc_data s') u v a' b' (sc_inv s') (sc_events s')) <->
          (u = Nat.div (S i) k /\ v = Nat.modulo (S i) k)) as Hcore.
  { intros u v. split; [intros []; now split|]. intros [-> ->].
    constructor; cbn [sc_sub sc_chunk sc_data sc_inv sc_events]; fold k; try reflexivity.
    - congruence.
    - congruence.
    - intros ch Hrc. rewrite Hr in Hrc. apply orb_true_iff in Hrc as [Hrc|Hrc]; [now apply si_room0|].
      apply Nat.eqb_eq in Hrc. rewrite Hrc. lia.
    - intros j Hj. rewrite Hd by lia. rewrite in_chunk by assumption. rewrite Hr.
      assert (forall ch, (reached k i ch || Nat.eqb ch (i / k)) && nth ch (sc_inv s') false
              = if Nat.eqb (i / k) ch then b else reached k i ch && nth ch (sc_inv s) false) as Hnth.
      { intros ch. destruct (Nat.eqb_spec (i / k) ch) as [<-|Hne].
        - rewrite Nat.eqb_refl, orb_true_r. cbn [andb]. rewrite Hn by lia. now rewrite Nat.eqb_refl.
        - assert (Nat.eqb ch (i / k) = false) as -> by (apply Nat.eqb_neq; congruence). rewrite orb_false_r.
          destruct (Nat.lt_ge_cases ch (length (sc_inv s))).
          + rewrite Hn by assumption. assert (Nat.eqb (i / k) ch = false) as -> by (now apply Nat.eqb_neq). reflexivity.
          + rewrite !nth_overflow by lia. reflexivity. }
      rewrite Hnth. destruct (Nat.eqb_spec (i / k) (j / k)) as [E|E].
      + rewrite andb_true_r. rewrite si_data0 by assumption. fold k. rewrite <- E, Hnot. reflexivity.
      + rewrite andb_false_r. rewrite si_data0 by assumption. reflexivity.
    - intros e Hin. rewrite He in Hin. apply in_app_or in Hin as [Hin|Hin].
      + destruct (si_events0 e Hin) as [ch [Hrc Hac]]. exists ch. rewrite Hr, Hrc. split; [reflexivity|].
        assert ((i / k =? ch)%nat = false) as Ene by (apply Nat.eqb_neq; intros E; rewrite <- E in Hrc; congruence).
        destruct (Nat.lt_ge_cases ch (length (sc_inv s))).
        * rewrite Hn, Ene by assumption. exact Hac.
        * rewrite nth_overflow by lia. rewrite nth_overflow in Hac by lia. exact Hac.
      + exists (i / k)%nat. rewrite Hr, Nat.eqb_refl, orb_true_r. split; [reflexivity|]. rewrite Hn, Nat.eqb_refl by assumption.
        rewrite Ha. f_equal. unfold announce in Ha. destruct (dg_callback c); [|injection Ha as <-; contradiction Hin].
        destruct (chunks_per_width c) as [[|n]|]; cbn [Nat.eqb] in Ha; try discriminate; injection Ha as <-; destruct Hin as [<-|[]]; reflexivity.
    - intros Hcb ch Hrc. rewrite Hr in Hrc. destruct (Nat.eqb_spec ch (i / k)) as [E|Hne].
      + rewrite E. rewrite Hn, Nat.eqb_refl by assumption. rewrite Ha.
        unfold announce in Ha. rewrite Hcb in Ha. destruct (chunks_per_width c) as [[|n]|]; cbn [Nat.eqb] in Ha; try discriminate;
          injection Ha as <-; eexists; (split; [rewrite He; apply in_or_app; right; left; reflexivity|reflexivity]).
      + rewrite orb_false_r in Hrc. destruct (si_told0 Hcb ch Hrc) as [e [Hin Hac]]. exists e. split; [rewrite He; apply in_or_app; now left|].
        assert ((i / k =? ch)%nat = false) as Ene by (apply Nat.eqb_neq; congruence).
        destruct (Nat.lt_ge_cases ch (length (sc_inv s))).
        * rewrite Hn, Ene by assumption. exact Hac.
        * rewrite nth_overflow by lia. rewrite nth_overflow in Hac by lia. exact Hac. }
  destruct (k <=? S (i mod k))%nat; apply Hcore; destruct Hdm as [-> ->]; now split.
Qed.

(* An entry inside a chunk. *)
Lemma inv_pass c t read orig inv0 i s a' b' : (0 < dg_sub c)%nat -> scan_inv c t read orig inv0 i s ->
  Nat.modulo i (dg_sub c) <> 0%nat -> scan_inv c t read orig inv0 (S i) (next_entry c (set_counters s a' b')).
Proof.
  intros Hk I Hm. destruct I. set (k := dg_sub c) in *.
  assert (forall ch, reached k (S i) ch = reached k i ch) as Hr.
  { intros ch. rewrite reached_next by assumption. apply Nat.eqb_neq in Hm. rewrite Hm. apply orb_false_r. }
  pose proof (div_mod_next k i Hk) as Hdm. unfold next_entry, set_counters. cbn [sc_sub sc_chunk sc_data sc_inv sc_events sc_a sc_b].
  rewrite si_sub0. fold k. rewrite si_chunk0.
  destruct (k <=? S (i mod k))%nat; destruct Hdm as [Hq Hrm];
    (constructor; cbn [sc_sub sc_chunk sc_data sc_inv sc_events]; fold k; rewrite ?Hq, ?Hrm; try reflexivity; try assumption;
     [intros ch Hch; rewrite Hr in Hch; now apply si_room0|intros j Hj; rewrite Hr; now apply si_data0|intros e He; destruct (si_events0 e He) as [ch [H1 H2]]; exists ch; now rewrite Hr
     |intros Hcb ch Hch; rewrite Hr in Hch; now apply si_told0]).
Qed.

(* The scan of one burst. *)
Lemma static_inv c t read orig inv0 i s s' : (0 < dg_sub c)%nat -> (i < length orig)%nat -> scan_inv c t read orig inv0 i s ->
  static_step c t read i s = Value s' -> scan_inv c t read orig inv0 (S i) s'.
Proof.
  intros Hk Hi I H. unfold static_step in H. destruct (fetch (sc_data s) i) as [v|]; [|discriminate]. cbn [bind] in H.
  set (a := sc_a s + popcount v) in *. set (b := sc_b s + (N.of_nat (dg_digits c) - popcount v)) in *.
  assert (scan_inv c t read orig inv0 i (set_counters s a b)) as I1 by (destruct I; now constructor).
  unfold is_last in H. rewrite (si_sub _ _ _ _ _ _ _ I) in H.
  rewrite Nat.mod_mod in H by lia.
  destruct (Nat.eqb_spec (i mod dg_sub c) 0) as [E|E].
  - destruct (visit c t read _ (set_counters s a b)) as [s1|] eqn:Ev; [|discriminate]. cbn [bind] in H. injection H as <-.
    eapply inv_decide; eauto.
  - injection H as <-. apply inv_pass; assumption.
Qed.

Lemma dynamic_inv c k prev t read orig inv0 i s s' : (0 < dg_sub c)%nat -> (i < length orig)%nat ->
  scan_inv c t read orig inv0 i s -> dynamic_step c k (Some prev) t read i s = Value s' -> scan_inv c t read orig inv0 (S i) s'.
Proof.
  intros Hk Hi I H. unfold dynamic_step in H. destruct (fetch (sc_data s) i) as [v|]; [|discriminate]. cbn [bind] in H.
  destruct (concat_entry prev (sc_data s) i) as [p|]; [|discriminate]. cbn [bind] in H.
  set (a := sc_a s + popcount (N.lxor v p)) in *.
  assert (scan_inv c t read orig inv0 i (set_counters s a 0)) as I1 by (destruct I; now constructor).
  unfold is_last in H. rewrite (si_sub _ _ _ _ _ _ _ I) in H.
  rewrite Nat.mod_mod in H by lia.
  destruct (Nat.eqb_spec (i mod dg_sub c) 0) as [E|E].
  - destruct (visit c t read _ (set_counters s a 0)) as [s1|] eqn:Ev; [|discriminate]. cbn [bind] in H. injection H as <-.
    eapply inv_decide; eauto.
  - injection H as <-. apply inv_pass; assumption.
Qed.

(* Without previous data every entry reports its chunk as not inverted. *)
Definition silent_inv (c : dbi_config) (t : N) (read : bool) (orig : list N) (inv0 : list bool) (i : nat) (s : scan) : Prop :=
  scan_inv c t read orig inv0 i s /\ forall ch, reached (dg_sub c) i ch = true -> nth ch (sc_inv s) false = false.

Lemma inv_next c s a b : sc_inv (next_entry c (set_counters s a b)) = sc_inv s.
Proof. unfold next_entry. destruct (Nat.leb _ _); reflexivity. Qed.

Lemma silent_step c k t read orig inv0 i s s' : (0 < dg_sub c)%nat -> (i < length orig)%nat ->
  silent_inv c t read orig inv0 i s -> dynamic_step c k None t read i s = Value s' -> silent_inv c t read orig inv0 (S i) s'.
Proof.
  intros Hk Hi [I Hz] H. unfold dynamic_step in H. destruct (visit c t read false s) as [s1|] eqn:Ev; [|discriminate].
  cbn [bind] in H. injection H as <-.
  replace s1 with (set_counters s1 (sc_a s1) (sc_b s1)) by (destruct s1; reflexivity).
  pose proof (visit_spec _ _ _ _ _ _ Ev) as (ev & Ha & He & Hc & Hl & Hn & Hdl & Hd & Hch & Hsub & _ & _).
  assert (forall ch, reached (dg_sub c) i ch = true -> nth ch (sc_inv s1) false = false) as Hz1.
  { intros ch Hr. destruct (Nat.lt_ge_cases ch (length (sc_inv s))).
    - rewrite Hn by assumption. rewrite Hz by assumption. now destruct (Nat.eqb (sc_chunk s) ch).
    - apply nth_overflow. lia. }
  destruct (Nat.eq_dec (i mod dg_sub c) 0) as [E|E].
  - split.
    + eapply inv_decide; eauto.
    + intros ch Hr. rewrite reached_next in Hr by assumption. rewrite E, Nat.eqb_refl in Hr. cbn [andb] in Hr.
      rewrite inv_next;
        (destruct (Nat.eqb_spec ch (i / dg_sub c)) as [Ec|Ec];
          [destruct (Nat.lt_ge_cases ch (length (sc_inv s)));
             [rewrite Hn by assumption; rewrite (si_chunk _ _ _ _ _ _ _ I), Ec, Nat.eqb_refl; reflexivity|apply nth_overflow; lia]
          |rewrite orb_false_r in Hr; now apply Hz1]).
  - assert (reached (dg_sub c) i (i / dg_sub c) = true) as Hreach.
    { unfold reached. apply Nat.ltb_lt. pose proof (Nat.div_mod i (dg_sub c) ltac:(lia)). nia. }
    assert (forall ch, nth ch (sc_inv s1) false = nth ch (sc_inv s) false) as Hsame.
    { intros ch. destruct (Nat.lt_ge_cases ch (length (sc_inv s))).
      - rewrite Hn by assumption. rewrite (si_chunk _ _ _ _ _ _ _ I). destruct (Nat.eqb_spec (i / dg_sub c) ch) as [<-|]; [|reflexivity].
        symmetry. now apply Hz.
      - rewrite !nth_overflow by lia. reflexivity. }
    assert (scan_inv c t read orig inv0 i s1) as I1.
    { destruct I. constructor; try congruence.
      - assumption.
      - intros j Hj. rewrite Hd by lia. cbn [andb]. rewrite Hsame. now apply si_data0.
      - intros e Hin. rewrite He in Hin. apply in_app_or in Hin as [Hin|Hin].
        + destruct (si_events0 e Hin) as [ch [H1 H2]]. exists ch. rewrite Hsame. now split.
        + exists (i / dg_sub c)%nat. split; [assumption|]. rewrite Hsame, Hz by assumption. rewrite <- si_chunk0, Ha. f_equal.
          unfold announce in Ha. destruct (dg_callback c); [|injection Ha as <-; contradiction Hin].
          destruct (chunks_per_width c) as [[|n]|]; cbn [Nat.eqb] in Ha; try discriminate; injection Ha as <-; destruct Hin as [<-|[]]; reflexivity.
      - intros Hcb ch Hr. destruct (si_told0 Hcb ch Hr) as [e [Hin Hac]]. exists e. rewrite Hsame. split; [rewrite He; apply in_or_app; now left|assumption]. }
    split; [apply inv_pass; assumption|]. intros ch Hr. rewrite reached_next in Hr by assumption.
    apply Nat.eqb_neq in E. rewrite E, orb_false_r in Hr.
    rewrite inv_next. now apply Hz1.
Qed.

Lemma scan_start c t read orig inv : (0 < dg_sub c)%nat -> scan_inv c t read orig inv 0 (mkScan orig 0 0 0 0 inv []).
Proof.
  intros Hk. assert (forall ch, reached (dg_sub c) 0 ch = false) as Hr by (intros; apply Nat.ltb_ge; lia).
  constructor; cbn [sc_data sc_chunk sc_sub sc_inv sc_events]; try reflexivity.
  - now rewrite Nat.div_0_l by lia.
  - now rewrite Nat.mod_0_l by lia.
  - intros ch H. rewrite Hr in H. discriminate.
  - intros e [].
  - intros _ ch H. rewrite Hr in H. discriminate.
Qed.

Lemma compute_inv c prev t read orig inv s : (0 < dg_sub c)%nat ->
  compute c prev t read (mkScan orig 0 0 0 0 inv []) = Value s -> scan_inv c t read orig inv (length orig) s.
Proof.
  intros Hk H. unfold compute in H. cbn [sc_data] in H.
  destruct (dg_alg c) as [|k].
  - apply (loop_range _ (scan_inv c t read orig inv)) in H; [exact H|now apply scan_start|].
    intros i a a' Hi I E. eapply static_inv; eauto. lia.
  - destruct prev as [prev|].
    + apply (loop_range _ (scan_inv c t read orig inv)) in H; [exact H|now apply scan_start|].
      intros i a a' Hi I E. eapply dynamic_inv; eauto. lia.
    + apply (loop_range _ (silent_inv c t read orig inv)) in H; [exact (proj1 H)| |].
      * split; [now apply scan_start|]. intros ch Hr. unfold reached in Hr. apply Nat.ltb_lt in Hr. lia.
      * intros i a a' Hi I E. eapply silent_step; eauto. lia.
Qed.

(* ---- the calls ---- *)

Lemma heard_app pins t ev ev' ch : heard pins t (ev ++ ev') ch =
  fold_left (fun known e => if signals pins t ch e then Some (ev_inverted e) else known) ev' (heard pins t ev ch).
Proof. apply fold_left_app. Qed.

Lemma heard_none pins t ev ch : (forall e, In e ev -> signals pins t ch e = false) -> heard pins t ev ch = None.
Proof.
  unfold heard. generalize (@None bool). induction ev as [|e r IH]; intros o H; [reflexivity|]. cbn [fold_left].
  rewrite (H e) by now left. apply IH. intros x Hx. apply H. now right.
Qed.

Lemma heard_agree pins t ch b ev : (forall e, In e ev -> signals pins t ch e = true -> ev_inverted e = b) ->
  (exists e, In e ev /\ signals pins t ch e = true) ->
  forall o, fold_left (fun known e => if signals pins t ch e then Some (ev_inverted e) else known) ev o = Some b.
Proof.
  induction ev as [|e r IH] using rev_ind; intros H [x [Hx Sx]] o; [destruct Hx|].
  rewrite fold_left_app. cbn [fold_left]. destruct (signals pins t ch e) eqn:E.
  - f_equal. apply H; [apply in_or_app; right; now left|assumption].
  - apply IH.
    + intros y Hy. apply H. apply in_or_app. now left.
    + apply in_app_or in Hx as [Hx|[<-|[]]]; [eauto|congruence].
Qed.

Lemma reset_loop t tend read index l : forall s r, loop (reset_chunk t tend read index) l s = Value r ->
  length (fst r) = length (fst s) /\ (forall ch b, nth ch (fst r) b = nth ch (fst s) b \/ nth ch (fst r) b = false) /\
  (forall e, In e (snd r) -> In e (snd s) \/ ev_time e = tend /\ ev_inverted e = false /\ ev_load e = t /\ ev_read e = read).
Proof.
  induction l as [|i l IH]; intros s r H; cbn [loop] in H.
  - injection H as <-. split; [reflexivity|]. split; [now left|]. intros e He. now left.
  - destruct (reset_chunk t tend read index i s) as [s1|] eqn:E; [|discriminate]. cbn [bind] in H.
    unfold reset_chunk in E. destruct (fetch (fst s) i) as [b|]; [|discriminate]. cbn [bind] in E.
    destruct (put (fst s) i false) as [inv|] eqn:Ep; [|discriminate]. cbn [bind] in E. injection E as <-.
    apply IH in H as (H1 & H2 & H3). cbn [fst snd] in *. apply put_spec in Ep as (Hi & Hl & Hn).
    split; [congruence|]. split.
    + intros ch d. specialize (H2 ch d). destruct (Nat.lt_ge_cases ch (length (fst s))).
      * rewrite Hn in H2 by assumption. destruct (Nat.eqb i ch); [right; destruct H2; congruence|assumption].
      * left. rewrite !nth_overflow by lia. reflexivity.
    + intros e He. apply H3 in He as [He|He]; [|now right]. apply in_app_or in He as [He|He]; [now left|].
      destruct b; [|contradiction He]. destruct He as [<-|[]]. right. repeat split.
Qed.

(* Resetting changes no time, and calls back for the end of the last burst only. *)
Lemma reset_spec d t read d' ev : dbi_reset d t read = Value (d', ev) ->
  db_config d' = db_config d /\ db_enable d' = db_enable d /\ db_data d' = db_data d /\
  db_side d' (negb read) = db_side d (negb read) /\
  (let b := db_side d read in let b' := db_side d' read in
   lb_start b' = lb_start b /\ lb_end b' = lb_end b /\ lb_chunks b' = lb_chunks b /\ lb_init b' = lb_init b /\
   lb_cap b' = lb_cap b /\ lb_beat b' = lb_beat b /\ length (lb_inv b') = length (lb_inv b) /\
   (forall ch x, nth ch (lb_inv b') x = nth ch (lb_inv b) x \/ nth ch (lb_inv b') x = false)) /\
  (forall e, In e ev -> ev_time e = lb_end (db_side d read) /\ ev_time e < t /\ ev_inverted e = false /\ ev_load e = t /\ ev_read e = read).
Proof.
  intros H. unfold dbi_reset in H.
  destruct (negb (lb_init (db_side d read)) || _); [|discriminate]. cbn [check] in H.
  assert (Value (d, []) = Value (d', ev) -> d' = d /\ ev = []) as Hid by (intros E; injection E as <- <-; now split).
  destruct (negb (lb_init (db_side d read))).
  { apply Hid in H as [-> ->]. repeat split; auto; contradiction. }
  destruct (N.ltb_spec t (lb_end (db_side d read))) as [H1|H1].
  { apply Hid in H as [-> ->]. repeat split; auto; contradiction. }
  destruct (N.eqb_spec (lb_end (db_side d read)) t) as [H2|H2].
  { apply Hid in H as [-> ->]. repeat split; auto; contradiction. }
  destruct (dg_callback (db_config d)).
  2:{ apply Hid in H as [-> ->]. repeat split; auto; contradiction. }
  destruct (match chunks_per_width (db_config d) with Some n => _ | None => _ end) as [s|] eqn:E; [|discriminate].
  cbn [bind] in H. injection H as <- <-.
  assert (length (fst s) = length (lb_inv (db_side d read)) /\
    (forall ch b, nth ch (fst s) b = nth ch (lb_inv (db_side d read)) b \/ nth ch (fst s) b = false) /\
    (forall e, In e (snd s) -> ev_time e = lb_end (db_side d read) /\ ev_inverted e = false /\ ev_load e = t /\ ev_read e = read)) as (L1 & L2 & L3).
  { destruct (chunks_per_width (db_config d)); apply reset_loop in E as (E1 & E2 & E3); cbn [fst snd] in *;
      (split; [assumption|]; split; [assumption|]; intros e He; apply E3 in He as [[]|He]; exact He). }
  unfold db_put, db_side. destruct read; cbn [negb db_config db_enable db_data db_read db_write lb_start lb_end lb_chunks lb_init lb_cap lb_beat lb_inv];
    (repeat split; try reflexivity; try assumption; try (apply L2); apply L3 in H as (E1 & E2 & E3 & E4); unfold db_side in *; try assumption; rewrite E1; lia).
Qed.

(* ---- what updateDBI returns ---- *)

Lemma announce_signal c t ch b read e : dbi_config_ok c -> announce c t ch b read = Value [e] ->
  t + N.of_nat ch < two64 ->
  ev_inverted e = b /\ ev_read e = read /\ ev_load e = t /\
  forall ch', t + N.of_nat ch' < two64 -> signals (dbi_pins c) t ch' e = Nat.eqb ch ch'.
Proof.
  intros (Hd & Hs & Hw) H Ht. unfold announce in H. destruct (dg_callback c); [|discriminate].
  unfold chunks_per_width, chunk_size in H. unfold dbi_pins.
  destruct (dg_width c) as [w|].
  - destruct Hw as (n & Hn & ->). rewrite Nat.div_mul in * by nia.
    destruct (Nat.eqb_spec n 0); [lia|]. injection H as <-. cbn [ev_inverted ev_read ev_load].
    split; [reflexivity|]. split; [reflexivity|]. split; [reflexivity|].
    intros ch' Ht'. unfold signals. cbn [ev_time ev_index].
    pose proof (Nat.div_mod ch n ltac:(lia)). pose proof (Nat.div_mod ch' n ltac:(lia)).
    assert (u64_add t (N.of_nat (ch / n)) = t + N.of_nat (ch / n)) as ->.
    { apply N.mod_small. assert (ch / n <= ch)%nat by (apply Nat.div_le_upper_bound; nia). lia. }
    destruct (Nat.eqb_spec ch ch') as [->|Hne]; [now rewrite N.eqb_refl, Nat.eqb_refl|].
    apply andb_false_iff. destruct (N.eqb_spec (t + N.of_nat (ch / n)) (t + N.of_nat (ch' / n))); [right|now left].
    apply Nat.eqb_neq. intros E. apply Hne. assert (ch / n = ch' / n)%nat by lia. congruence.
  - injection H as <-. cbn [ev_inverted ev_read ev_load].
    split; [reflexivity|]. split; [reflexivity|]. split; [reflexivity|].
    intros ch' _. unfold signals. cbn [ev_time ev_index]. now rewrite N.eqb_refl.
Qed.

Lemma check_value {A} b (k : result A) v : check b k = Value v -> b = true /\ k = Value v.
Proof. destruct b; [auto|discriminate]. Qed.
Lemma bind_value {A B} (m : result A) (k : A -> result B) v : bind m k = Value v -> exists a, m = Value a /\ k a = Value v.
Proof. destruct m; [eauto|discriminate]. Qed.

(* Unfolding of a successful update. *)
Lemma update_spec d t n_bits data read d' ev out : dbi_update d t n_bits (Some data) read = Value (d', ev, Some out) ->
  let c := db_config d in
  let n := Nat.div n_bits (dg_digits c) in
  db_enable d = true /\ n_bits <> 0%nat /\ dg_idle c <> PinZ /\ Nat.modulo n_bits (dg_digits c) = 0%nat /\ Nat.modulo n_bits (chunk_size c) = 0%nat /\
  (n <= length data)%nat /\
  exists d1 ev1 prev s inv cap,
    dbi_reset d t read = Value (d1, ev1) /\
    let b := save_last c (db_data d1) t (db_side d1 read) in
    previous_data c (firstn n data) t b = Value prev /\
    grow_inversions c b (Nat.div n_bits (chunk_size c)) = (inv, cap) /\
    compute c prev t read (mkScan (firstn n data) 0 0 0 0 inv []) = Value s /\
    out = sc_data s /\ ev = ev1 ++ sc_events s /\ db_config d' = c /\ db_enable d' = true /\ db_data d' = sc_data s /\
    db_side d' (negb read) = db_side d (negb read) /\
    db_side d' read = mkLast t (match dg_width c with Some w => u64_add t (N.of_nat (Nat.div n_bits w)) | None => u64_add t (N.of_nat (dg_length c)) end)
                       (Nat.div n_bits (chunk_size c)) true (sc_inv s) cap (lb_beat b).
Proof.
  intros H. cbv zeta. unfold dbi_update in H.
  destruct (Nat.eqb_spec n_bits 0) as [|Hnz]; [discriminate|]. cbn [orb] in H.
  destruct (db_enable d) eqn:Een; [|discriminate]. cbn [negb orb] in H.
  destruct (pin_eqb PinZ (dg_idle (db_config d))) eqn:Eid; [discriminate|].
  apply bind_value in H as ([d1 ev1] & Hr & H). cbn [fst snd] in H.
  pose proof (reset_spec _ _ _ _ _ Hr) as (Hc1 & He1 & _ & Hs1 & _).
  apply check_value in H as (Hm & H).
  destruct (Nat.ltb_spec (length data) (n_bits / dg_digits (db_config d))) as [|Hlen]; [discriminate|].
  apply bind_value in H as (prev & Hp & H).
  apply check_value in H as (Hm2 & H).
  destruct (grow_inversions (db_config d) (save_last (db_config d) (db_data d1) t (db_side d1 read)) (n_bits / chunk_size (db_config d))) as [inv cap] eqn:Eg.
  apply bind_value in H as (s & Hs & H). apply bind_value in H as (tend & Htend & H). injection H as <- <- <-.
  split; [reflexivity|]. split; [assumption|]. split; [intros E; rewrite E in Eid; discriminate|].
  split; [now apply Nat.eqb_eq|]. split; [now apply Nat.eqb_eq|]. split; [assumption|].
  exists d1, ev1, prev, s, inv, cap.
  split; [exact Hr|]. split; [exact Hp|]. split; [exact Eg|]. split; [exact Hs|].
  cbn [db_config db_enable db_data]. split; [reflexivity|]. split; [reflexivity|]. split; [reflexivity|].
  split; [unfold db_put; cbn [db_enable]; congruence|]. split; [reflexivity|].
  split.
  - rewrite <- Hs1. unfold db_side, db_put. destruct read; reflexivity.
  - assert (tend = match dg_width (db_config d) with Some w => u64_add t (N.of_nat (Nat.div n_bits w)) | None => u64_add t (N.of_nat (dg_length (db_config d))) end) as ->.
    { destruct (dg_width (db_config d)) as [w|]; [destruct (Nat.eqb w 0); [discriminate|]|]; now injection Htend as <-. }
    unfold db_side, db_put. destruct read; reflexivity.
Qed.

Lemma nth_firstn {A} n : forall (l : list A) i d, (i < n)%nat -> nth i (firstn n l) d = nth i l d.
Proof.
  induction n; intros l i d H; [lia|]. destruct l; [now destruct i|]. destruct i; [reflexivity|]. cbn [firstn nth]. apply IHn. lia.
Qed.

Theorem update_decodes d t n_bits data read d' ev out : let c := db_config d in
  dbi_config_ok c -> t + N.of_nat n_bits < two64 ->
  dbi_update d t n_bits (Some data) read = Value (d', ev, Some out) ->
  length out = Nat.div n_bits (dg_digits c) /\
  forall i, (i < length out)%nat ->
    exists b, nth_error (lb_inv (db_side d' read)) (Nat.div i (dg_sub c)) = Some b /\
      (dg_callback c = true -> heard (dbi_pins c) t ev (Nat.div i (dg_sub c)) = Some b) /\
      forall j, (j < dg_digits c)%nat -> received b (nth i out 0) j = level (nth i data 0) j.
Proof.
  intros c Hok Ht H. pose proof Hok as (Hdg & Hsb & Hw).
  apply update_spec in H. cbv zeta in H. fold c in H.
  destruct H as (_ & Hnz & _ & Hm & Hmc & Hlen & d1 & ev1 & prev & s & inv & cap & Hr & Hp & Hg & Hs & -> & -> & Hc' & _ & _ & _ & Hside).
  set (n := (n_bits / dg_digits c)%nat) in *. set (orig := firstn n data) in *.
  assert (length orig = n) as Hol by (unfold orig; rewrite firstn_length; lia).
  apply compute_inv in Hs; [|assumption]. rewrite Hside. cbn [lb_inv].
  pose proof (si_len _ _ _ _ _ _ _ Hs) as Hdl. split; [congruence|]. intros i Hi. rewrite Hdl, Hol in Hi. clear Hdl.
  set (k := dg_sub c) in *.
  assert (reached k (length orig) (i / k) = true) as Hre.
  { unfold reached. apply Nat.ltb_lt. pose proof (Nat.div_mod i k ltac:(lia)). nia. }
  assert (nth i orig 0 = nth i data 0) as Hno by (apply nth_firstn; assumption).
  assert (nth i (sc_data s) 0 = if nth (i / k) (sc_inv s) false then flip_entry c (nth i data 0) else nth i data 0) as Hd.
  { rewrite (si_data _ _ _ _ _ _ _ Hs i) by lia. fold k. rewrite Hre, Hno. reflexivity. }
  assert (i / k < length (sc_inv s))%nat as Hin.
  { rewrite (si_inv _ _ _ _ _ _ _ Hs). now apply (si_room _ _ _ _ _ _ _ Hs). }
  exists (nth (i / k) (sc_inv s) false). split; [now apply nth_error_nth'|]. split.
  - intros Hcb. rewrite heard_app.
    assert (forall ch, reached k (length orig) ch = true -> t + N.of_nat ch < two64) as Hsmall.
    { intros ch Hch. unfold reached in Hch. apply Nat.ltb_lt in Hch. rewrite Hol in Hch.
      assert (n <= n_bits)%nat by (apply Nat.div_le_upper_bound; nia). nia. }
    rewrite heard_none.
    + apply heard_agree.
      * intros e He Hsig. destruct (si_events _ _ _ _ _ _ _ Hs e He) as (ch & Hch & Ha).
        apply announce_signal in Ha as (Hb & _ & _ & Hsg); [|assumption|now apply Hsmall].
        rewrite Hsg in Hsig by now apply Hsmall. apply Nat.eqb_eq in Hsig. now subst ch.
      * destruct (si_told _ _ _ _ _ _ _ Hs Hcb (i / k)%nat Hre) as (e & He & Ha). exists e. split; [assumption|].
        apply announce_signal in Ha as (_ & _ & _ & Hsg); [|assumption|now apply Hsmall].
        rewrite Hsg by now apply Hsmall. apply Nat.eqb_refl.
    + intros e He. apply reset_spec in Hr as (_ & _ & _ & _ & _ & Hev). apply Hev in He as (_ & Hlt & _).
      unfold signals. destruct (dbi_pins c) as [np|]; apply andb_false_iff; left; apply N.eqb_neq; intros E; rewrite E in Hlt; clear - Hlt.
      * generalize dependent (N.of_nat (i / k / np)). intros. lia.
      * lia.
  - intros j Hj. unfold received. rewrite Hd. destruct (nth (i / k) (sc_inv s) false).
    + rewrite level_flip. apply Nat.ltb_lt in Hj. rewrite Hj. now rewrite xorb_true_l, negb_involutive.
    + apply xorb_false_l.
Qed.
