(* Bursts that leave room for one level more never overfill a line. *)
From Coq Require Import NArith List Bool Lia Arith.
From Verif Require Import Base Command CoreModel Bits ListFacts PinModel PinSpec InterfaceModel InterfaceSpec WireSpec InterfaceData InterfaceRun LineSpec LineProofs FlagSpec FlagProofs FlagTop
  ProgressSpec ProgressProofs TakenSpec StorageSpec InvertSpec InvertTop.
Import ListNotations.
Local Open Scope N_scope.
Ltac Zify.zify_post_hook ::= idtac.

(* ---- groups ---- *)
Lemma group_more T bs : forall l g bits, grouped l = g ++ [(T, bits)] -> grouped (l ++ map (pair T) bs) = g ++ [(T, bits ++ bs)].
Proof.
  induction bs as [|b bs IH] using rev_ind; intros l g bits E; [cbn [map]; now rewrite !app_nil_r|]. rewrite map_app, app_assoc. cbn [map]. rewrite grouped_snoc, (IH l g bits E), tell_last. cbn [fst snd].
  rewrite N.eqb_refl, <- app_assoc. reflexivity.
Qed.
Lemma group_new T bs l : bs <> [] -> (forall g u bits, grouped l = g ++ [(u, bits)] -> u <> T) -> grouped (l ++ map (pair T) bs) = grouped l ++ [(T, bs)].
Proof.
  intros N H. destruct bs as [|b bs]; [contradiction|]. assert (grouped (l ++ [(T, b)]) = grouped l ++ [(T, [b])]) as E.
  { rewrite grouped_snoc. destruct (grouped l) as [|d g] using rev_ind; [reflexivity|]. clear IHg. destruct d as [u bits]. rewrite tell_last. cbn [fst snd]. specialize (H g u bits eq_refl). now rewrite (proj2 (N.eqb_neq _ _) H). }
  cbn [map]. change (l ++ (T, b) :: map (pair T) bs) with (l ++ [(T, b)] ++ map (pair T) bs). rewrite app_assoc, (group_more T bs _ _ _ E). reflexivity.
Qed.
Lemma last_fold (l : tellings) T bs from : bs <> [] -> fold_left (fun _ x => fst x) (l ++ map (pair T) bs) from = T.
Proof. intros N. destruct bs as [|b bs] using rev_ind; [contradiction|]. rewrite map_app, app_assoc, fold_left_app. reflexivity. Qed.
Lemma onwards_more T bs : forall l from, onwards from l -> fold_left (fun _ x => fst x) l from <= T -> onwards from (l ++ map (pair T) bs).
Proof.
  induction l as [|x l IH]; intros from H L.
  - cbn [app fold_left] in *. clear H. revert from L. induction bs as [|b bs IH]; intros from L; [exact I|]. split; [exact L|]. apply IH. apply N.le_refl.
  - destruct H as [H1 H2]. split; [exact H1|]. apply IH; assumption.
Qed.

(* ---- flags of one line ---- *)
Lemma one_in_n n line : (0 < n)%nat -> forall k from, (k <= n)%nat -> (length (filter (fun j => Nat.eqb (Nat.modulo j n) line) (seq (n * from) k)) <= 1)%nat.
Proof.
  intros N. assert (forall k from, (k <= n)%nat -> filter (fun j => Nat.eqb (Nat.modulo j n) line) (seq (n * from) k) = if Nat.ltb line k then [(n * from + line)%nat] else []) as H.
  { induction k as [|k IH]; intros from Hk; [reflexivity|]. rewrite seq_S, filter_app, IH by lia. cbn [filter].
    assert (Nat.modulo (n * from + k) n = k) as -> by (rewrite Nat.add_comm, Nat.mul_comm, Nat.mod_add by lia; apply Nat.mod_small; lia).
    destruct (Nat.eqb_spec k line) as [->|Ne].
    - rewrite (proj2 (Nat.ltb_ge line line)), (proj2 (Nat.ltb_lt line (S line))) by lia. reflexivity.
    - rewrite app_nil_r. destruct (Nat.ltb_spec line k), (Nat.ltb_spec line (S k)); try reflexivity; lia. }
  intros k from Hk. rewrite H by exact Hk. destruct (Nat.ltb line k); cbn; lia.
Qed.
Lemma one_in_n_of n line m k : (0 < n)%nat -> (m <= n * k)%nat -> (length (filter (fun j => Nat.eqb (Nat.modulo j n) line) (seq 0 m)) <= k)%nat.
Proof.
  intros N. revert m. induction k as [|k IH]; intros m Hm; [replace m with 0%nat by lia; cbn; lia|]. destruct (Nat.le_gt_cases m (n * k)) as [L|L]; [specialize (IH m L); lia|].
  replace m with (n * k + (m - n * k))%nat by lia. rewrite seq_app, filter_app, app_length. cbn [Nat.add]. pose proof (IH (n * k)%nat ltac:(lia)). pose proof (one_in_n n line N (m - n * k) k ltac:(lia)). lia.
Qed.
Lemma short_flags p line c : fi_std p <> LPDDR6 -> (line < flag_lines p)%nat -> Nat.modulo (N.to_nat (dq_lines p)) 8 = 0%nat -> short_burst p c -> (S (length (line_flags p line c)) <= pin_capacity (fi_std p))%nat.
Proof.
  intros N6 Hl W8 Sh. unfold line_flags. rewrite map_length. set (cap := pin_capacity (fi_std p)) in *. assert (0 < cap)%nat as C0 by (unfold cap; destruct (fi_std p); cbn; lia).
  assert (dq_lines p = 8 * N.of_nat (flag_lines p)) as Nn.
  { unfold flag_lines in *. destruct (fi_std p); try lia; pose proof (Nat.div_mod (N.to_nat (dq_lines p)) 8 ltac:(lia)); lia. }
  enough (length (filter (fun j => Nat.eqb (Nat.modulo j (flag_lines p)) line) (seq 0 (Nat.div (N.to_nat (cmd_sz_bits c)) 8))) <= cap - 1)%nat by lia.
  apply one_in_n_of; [lia|]. apply Nat.div_le_upper_bound; [lia|]. unfold short_burst in Sh. change line_storage with pin_capacity in Sh. fold cap in Sh. rewrite Nn in Sh. lia.
Qed.

(* ---- a line ---- *)
Lemma some_room s : (1 <= pin_capacity s)%nat.
Proof. destruct s; cbn; lia. Qed.

Section Short.
Context (p : ifspec) (bus read : bool) (line : nat) (Hl : (line < flag_lines p)%nat) (R0 : 0 < fi_rate p).
Let cap := pin_capacity (fi_std p).

Definition room (l : tellings) (held : option N) (E now : N) : Prop :=
  onwards 0 l /\ roomy cap (grouped l) /\
  (l = [] /\ held = None \/ exists g u bits, grouped l = g ++ [(u, bits)] /\ told_last l = u /\
     (u < E /\ (forall e, held = Some e -> u < e <= E) \/ held = None /\ (length bits <= 1)%nat /\ u <= now)).

Lemma room_later l held E E' now now' : E <= E' -> now <= now' -> room l held E now -> room l held E' now'.
Proof.
  intros L1 L2 (A & B & C). split; [exact A|]. split; [exact B|]. destruct C as [C|(g & u & bits & C1 & C2 & C)]; [now left|right]. exists g, u, bits. split; [exact C1|]. split; [exact C2|].
  destruct C as [[C C']|(C3 & C4 & C5)]; [left|right].
  - split; [lia|]. intros e He. specialize (C' e He). lia.
  - split; [exact C3|]. split; [exact C4|lia].
Qed.
(* Levels told for a time not before the last. *)
Lemma room_tell l held E now T bs : room l held E now -> E <= T -> now <= T -> bs <> [] -> (length bs <= cap)%nat -> (held = None -> (S (length bs) <= cap)%nat) ->
  onwards 0 (l ++ map (pair T) bs) /\ roomy cap (grouped (l ++ map (pair T) bs)) /\ exists g bits, grouped (l ++ map (pair T) bs) = g ++ [(T, bits)] /\ told_last (l ++ map (pair T) bs) = T.
Proof.
  intros (A & B & C) L1 L2 Nb Lb Lb'.
  assert (told_last l <= T) as Tl.
  { destruct C as [[-> _]|(g & u & bits & _ & -> & C)]; [apply N.le_0_l|]. destruct C as [[C _]|(_ & _ & C)]; lia. }
  split; [apply onwards_more; [exact A|exact Tl]|].
  assert (told_last (l ++ map (pair T) bs) = T) as Tn by (apply last_fold; exact Nb).
  destruct C as [[-> Hh]|(g & u & bits & C1 & C2 & C)].
  - assert (grouped ([] ++ map (pair T) bs) = [] ++ [(T, bs)]) as G by (apply (group_new T bs []); [exact Nb|]; intros g u bits H; destruct g; discriminate).
    split; [rewrite G; repeat constructor; exact Lb|]. exists [], bs. split; [exact G|exact Tn].
  - destruct (N.eq_dec u T) as [->|Ne].
    + destruct C as [[C _]|(C3 & C4 & C5)]; [lia|]. rewrite (group_more T bs l g bits C1). rewrite C1 in B. apply roomy_app in B as [B1 _].
      split; [apply roomy_app; split; [exact B1|]; repeat constructor; cbn [snd]; rewrite app_length; specialize (Lb' C3); lia|]. exists g, (bits ++ bs). split; [reflexivity|exact Tn].
    + assert (grouped (l ++ map (pair T) bs) = grouped l ++ [(T, bs)]) as G.
      { apply group_new; [exact Nb|]. intros g' u' bits' H. rewrite C1 in H. apply app_inj_tail in H as [_ H]. congruence. }
      rewrite G. split; [apply roomy_app; split; [exact B|]; repeat constructor; exact Lb|]. exists (grouped l), bs. split; [reflexivity|exact Tn].
Qed.

Lemma room_goes xs : forall dbi held l E now, room l held E now -> in_order now (commands xs) -> no_overlap E (bursts p bus read (commands xs)) ->
  Forall (fun c => (transfers (cmd_type c) <> None -> 0 < burst_beats p bus c) /\ (bus = true -> transfers (cmd_type c) <> None -> (S (length (line_flags p line c)) <= cap)%nat)) (commands xs) ->
  onwards 0 (l ++ told_line p bus read line dbi held xs) /\ roomy cap (grouped (l ++ told_line p bus read line dbi held xs)).
Proof using Hl R0.
  induction xs as [|x xs IH]; intros dbi held l E now Q O B F.
  - cbn [told_line]. rewrite app_nil_r. destruct Q as (Q1 & Q2 & _). now split.
  - destruct x as [c|e|a b|e|u|u]; cbn [told_line]; try (apply (IH _ _ _ E now); assumption).
    rewrite commands_cons in *. cbn [app] in *. destruct O as [O1 O2]. apply Forall_cons_iff in F as [[F1 F2] F].
    change (c :: commands xs) with ([c] ++ commands xs) in B. rewrite bursts_app in B.
    assert (cmd_ts c <= cmd_ts c * fi_rate p) as Lr by nia.
    destruct (transfers (cmd_type c)) as [r|] eqn:T.
    + assert (cmd_type c <> END_OF_SIMULATION) as Ne by (intros H; rewrite H in T; discriminate).
      rewrite (bursts_one p bus read r c T) in B. specialize (F1 ltac:(discriminate)).
      assert (forall h, (if sends read c && dbi && bus then h else match cmd_type c with END_OF_SIMULATION => back_to_rest (dq_rests_high (fi_std p)) held (cmd_ts c) ++ told_line p bus read line dbi (still_held held (cmd_ts c)) xs | _ => told_line p bus read line dbi held xs end)
        = if sends read c && dbi && bus then h else told_line p bus read line dbi held xs) as -> by (intros h; destruct (sends read c && dbi && bus); [reflexivity|]; destruct (cmd_type c); try reflexivity; contradiction).
      destruct (sends read c && dbi && bus) eqn:On.
      * apply andb_true_iff in On as [On Eb]. apply andb_true_iff in On as [Sd _]. assert (r = read) as ->.
        { unfold sends in Sd. rewrite T in Sd. apply andb_true_iff in Sd as [Sd _]. apply andb_true_iff in Sd as [Sd _]. now apply eqb_prop in Sd. }
        rewrite eqb_reflx in B. cbn [app no_overlap fst snd] in B. destruct B as [B1 B2]. specialize (F2 Eb ltac:(discriminate)). set (t := cmd_ts c * fi_rate p) in *. set (high := dq_rests_high (fi_std p)).
        rewrite Eb in *.
        assert (burst_beats p true c = burst_beats p bus c) as Bb by now rewrite Eb.
        assert (exists bs, back_to_rest high held t ++ map (fun b => (t, xorb high b)) (line_flags p line c) = map (pair t) bs /\ (length bs <= cap)%nat /\ (held = None -> (S (length bs) <= cap)%nat) /\ (bs = [] -> line_flags p line c = [])) as (bs & Ebs & L1 & L2 & L3).
        { unfold back_to_rest. destruct held as [e|]; [destruct (e <? t)|].
          - exists (high :: map (xorb high) (line_flags p line c)). split; [cbn [map app]; now rewrite map_map|]. cbn [length]. rewrite map_length. split; [exact F2|]. split; discriminate.
          - exists (map (xorb high) (line_flags p line c)). split; [cbn [app]; now rewrite map_map|]. rewrite map_length. split; [lia|]. split; [discriminate|]. intros H. now apply map_eq_nil in H.
          - exists (map (xorb high) (line_flags p line c)). split; [cbn [app]; now rewrite map_map|]. rewrite map_length. split; [lia|]. split; [intros _; exact F2|]. intros H. now apply map_eq_nil in H. }
        set (held' := if last (line_flags p line c) false then Some (t + burst_beats p true c) else None).
        rewrite !app_assoc. rewrite <- (app_assoc l), Ebs.
        apply (IH dbi held' _ (t + burst_beats p true c) (cmd_ts c)); [|exact O2|exact B2|exact F].
        destruct bs as [|b0 bs0] eqn:Eqb.
        -- cbn [map]. rewrite app_nil_r. assert (held' = None) as -> by (unfold held'; rewrite (L3 eq_refl); reflexivity).
           pose proof (room_later l held E (t + burst_beats p true c) now (cmd_ts c) ltac:(lia) O1 Q) as (Q1 & Q2 & Q3). split; [exact Q1|]. split; [exact Q2|]. destruct Q3 as [[Q3 _]|(g & u & bits & Q3 & Q4 & Q5)]; [left; now split|right].
           exists g, u, bits. split; [exact Q3|]. split; [exact Q4|]. destruct Q5 as [[Q5 _]|(_ & Q5)]; [left; split; [exact Q5|discriminate]|right; split; [reflexivity|exact Q5]].
        -- rewrite <- Eqb in *. destruct (room_tell l held E now t bs Q B1 ltac:(lia) ltac:(rewrite Eqb; discriminate) L1 L2) as (K1 & K2 & g & bits & K3 & K4). split; [exact K1|]. split; [exact K2|]. right.
           exists g, t, bits. split; [exact K3|]. split; [exact K4|]. left. split; [lia|]. intros e. unfold held'. destruct (last _ _); intros H; [injection H as <-; lia|discriminate].
      * apply (IH dbi held l (if eqb r read then cmd_ts c * fi_rate p + burst_beats p bus c else E) (cmd_ts c)); [|exact O2| |exact F].
        -- apply (room_later l held E _ now); [|exact O1|exact Q]. destruct (eqb r read); [cbn [app no_overlap fst snd] in B; destruct B as [B1 _]; lia|apply N.le_refl].
        -- destruct (eqb r read); [exact (proj2 B)|exact B].
    + assert (sends read c = false) as Sn by (unfold sends; now rewrite T). rewrite Sn. cbn [andb]. rewrite (bursts_none p bus read c T) in B. cbn [app] in B.
      destruct (CmdType_eq_dec (cmd_type c) END_OF_SIMULATION) as [Ty|Ty].
      2: { assert (forall A (x y : A), (match cmd_type c with END_OF_SIMULATION => x | _ => y end) = y) as -> by (intros; destruct (cmd_type c); try reflexivity; contradiction).
           apply (IH dbi held l E (cmd_ts c)); auto. apply (room_later l held E E now); auto. apply N.le_refl. }
      rewrite Ty. unfold back_to_rest, still_held. destruct held as [e|]; [|cbn [app]; apply (IH dbi None l E (cmd_ts c)); auto; apply (room_later l None E E now); auto; apply N.le_refl].
      destruct (N.ltb_spec e (cmd_ts c)) as [Lt|Ge].
      2: { cbn [app]. apply (IH dbi (Some e) l E (cmd_ts c)); auto. apply (room_later l (Some e) E E now); auto. apply N.le_refl. }
      rewrite app_assoc. apply (IH dbi None _ E (cmd_ts c)); auto.
      destruct Q as (Q1 & Q2 & [[_ Q3]|(g & u & bits & Q3 & Q4 & [[_ Q5]|(Q5 & _)])]); [discriminate| |discriminate]. specialize (Q5 e eq_refl).
      set (bs := [dq_rests_high (fi_std p)]). change [(cmd_ts c, dq_rests_high (fi_std p))] with (map (pair (cmd_ts c)) bs).
      assert (grouped (l ++ map (pair (cmd_ts c)) bs) = grouped l ++ [(cmd_ts c, bs)]) as G.
      { apply group_new; [discriminate|]. intros g' u' bits' H. rewrite Q3 in H. apply app_inj_tail in H as [_ H]. injection H as <- _. lia. }
      split; [apply onwards_more; [exact Q1|]; unfold told_last in Q4; rewrite Q4; lia|]. rewrite G. split.
      * apply roomy_app. split; [exact Q2|]. repeat constructor. exact (some_room (fi_std p)).
      * right. exists (grouped l), (cmd_ts c), bs. split; [reflexivity|]. split; [apply last_fold; discriminate|]. right. split; [reflexivity|]. split; [cbn; lia|apply N.le_refl].
Qed.
End Short.

Theorem short_lines p bus xs : fi_std p <> LPDDR6 -> 0 < fi_rate p -> dq_lines p <> 0 -> Nat.modulo (N.to_nat (dq_lines p)) 8 = 0%nat ->
  in_order 0 (commands xs) -> trace_allowed p bus (commands xs) -> (bus = true -> Forall (fun c => transfers (cmd_type c) <> None -> short_burst p c) (commands xs)) -> lines_allowed p bus xs.
Proof.
  intros N6 R0 W0 W8 O [A1 _ A3 A4] Sh read line Hl.
  refine (room_goes p bus read line Hl R0 xs false None [] 0 0 _ O _ _).
  - split; [exact I|]. split; [constructor|]. left. split; reflexivity.
  - destruct read; assumption.
  - rewrite Forall_forall in *. intros c Hc. split.
    + intros T. apply (cycles_beats p bus c (ca_cycle _ _ _ (A1 c Hc) T) R0). lia.
    + intros Eb T. apply short_flags; auto.
Qed.
Theorem short_goes p sim i0 B t xs : sizes_ok p -> fi_std p <> LPDDR6 -> iface_new p sim = Value i0 -> t * fi_rate p + 64 < two64 ->
  Forall plain_call xs -> Forall (dressed p (no_toggle sim)) (commands xs) -> Forall (same_size B (no_toggle sim)) (commands xs) -> Forall (fun c => cmd_ts c <= t) (commands xs) ->
  in_order 0 (commands xs) -> (no_toggle sim = true -> Forall (fun c => transfers (cmd_type c) <> None -> short_burst p c) (commands xs)) ->
  ((exists i, calls_run xs i0 = Value i) <-> trace_allowed p (no_toggle sim) (commands xs)).
Proof.
  intros Sz N6 New Tt Pl Dr Ss Ft O Sh. rewrite (inverted_exactly p sim i0 B t xs Sz N6 New Tt Pl Dr Ss Ft). split; [tauto|]. intros A. split; [exact A|].
  destruct (start_goes p sim i0 Sz New) as (_ & R0 & _).
  destruct (dbi_start p sim i0 B Sz N6 New) as [[D5 _]|(_ & _ & W8 & _)]; [intros read line Hl; unfold flag_lines in Hl; rewrite D5 in Hl; inversion Hl|].
  apply short_lines; auto. destruct Sz as (W0 & _). lia.
Qed.
