(* C30: an interface written and read back. *)
From Coq Require Import NArith List Bool Arith Lia.
From Verif Require Import Base Command CoreModel Bits BusModel ToggleModel PinModel DbiModel DbiPinModel PatternModel PatternTables PatternProofs
  FormatModel StatsModel InterfaceModel InterfaceSpec InterfaceCa SerialModel SerialProofs SerialSpec SerialAlike.
Import ListNotations.
Local Open Scope N_scope.
Ltac Zify.zify_post_hook ::= idtac.

Lemma loop_keeps {A I} (P : A -> Prop) (f : I -> A -> result A) l : (forall i a a', In i l -> P a -> f i a = Value a' -> P a') ->
  forall a a', P a -> loop f l a = Value a' -> P a'.
Proof.
  induction l as [|i l IH]; intros H a a' Pa E; cbn [loop] in E.
  - apply (f_equal (fun r => match r with Value x => x | Fails _ => a end)) in E. now subst.
  - apply bind_inv in E as (b & E1 & E2). eapply IH; [|eapply H; [now left|exact Pa|exact E1]|exact E2].
    intros j x y J. apply H. now right.
Qed.
Lemma value_eq {A} (a b : A) : Value a = Value b -> a = b.
Proof. congruence. Qed.

(* ---- buses ---- *)

Lemma small_bits n v : (forall k, n <= k -> N.testbit v k = false) -> v < 2 ^ n.
Proof.
  intros H. replace v with (v mod 2 ^ n).
  - apply N.mod_lt, N.pow_nonzero. discriminate.
  - apply N.bits_inj. intros k. destruct (N.lt_ge_cases k n); [now apply N.mod_pow2_bits_low|]. rewrite N.mod_pow2_bits_high by assumption. symmetry. now apply H.
Qed.
Lemma set_bit_fits max v i b r : v < 2 ^ N.of_nat max -> set_bit max v i b = Value r -> r < 2 ^ N.of_nat max.
Proof.
  intros L E. unfold set_bit in E. destruct (Nat.ltb_spec i max); [|discriminate]. apply value_eq in E. subst r.
  apply small_bits. intros k K. assert (N.testbit v k = false) as Z.
  { apply N.bits_above_log2. destruct (N.eq_dec v 0) as [->|Nz]; [|]. { cbn. assert (i < max)%nat by assumption. lia. }
    apply N.log2_lt_pow2; [lia|]. eapply N.lt_le_trans; [exact L|]. apply N.pow_le_mono_r; [discriminate|exact K]. }
  assert (N.of_nat i <> k) as D by lia. destruct b; [rewrite N.setbit_neq|rewrite N.clearbit_neq]; assumption.
Qed.
Definition fits_with (max width : nat) (c : container) : Prop := store_fits max c /\ bc_width c = width.
Lemma fits_nth max c i : store_fits max c -> storage_read c i < 2 ^ N.of_nat max.
Proof.
  intros F. unfold storage_read. destruct (Nat.lt_ge_cases i (length (bc_bursts c))) as [L|L].
  - unfold store_fits in F. rewrite Forall_forall in F. apply F. now apply nth_In.
  - rewrite nth_overflow by assumption. apply pow2_pos.
Qed.
Lemma upd_forall {A} (P : A -> Prop) f : (forall x, P x -> P (f x)) -> forall l i, Forall P l -> Forall P (upd i f l).
Proof. intros H. induction l as [|x l IH]; intros [|i] F; cbn; try constructor; inversion F; subst; auto. Qed.
Lemma insert_fits max c t width data n inv c' w : fits_with max w c -> insert_data max c t width data n inv = Value c' -> fits_with max w c'.
Proof.
  intros F E. unfold insert_data in E. destruct width as [|wd]; [discriminate|].
  apply bind_inv in E as (cu & E & V). apply value_eq in V. subst c'. cut (fits_with max w (cu_store cu)); [auto|].
  refine (loop_keeps (fun cu => fits_with max w (cu_store cu)) _ _ _ _ _ _ E); [|exact F].
  clear. intros i a a' _ [F W] E. unfold insert_burst in E.
  refine (loop_keeps (fun cu => fits_with max w (cu_store cu)) _ _ _ _ _ _ E).
  - clear. intros j a a' _ [F W] E. unfold insert_bit in E. destruct (Nat.ltb _ n); [|apply value_eq in E; subst; now split].
    destruct (nth_error data (cu_byte a)) as [byte|]; [|discriminate]. apply bind_inv in E as (b & B & E). apply value_eq in E. subst a'. cbn [cu_store].
    split; [|exact W]. unfold store_fits, storage_write. cbn [bc_bursts]. apply upd_forall; [|exact F]. intros _ _.
    eapply set_bit_fits; [|exact B]. now apply fits_nth.
  - cbn [cu_store]. split; [|exact W]. unfold store_fits, storage_resize. cbn [bc_bursts]. apply Forall_app. split; [exact F|].
    apply Forall_forall. intros x X. apply repeat_spec in X. subst. apply pow2_pos.
Qed.
Definition bus_like (b0 b : bus) : Prop := bus_static b0 = bus_static b /\ store_fits (b_max b) (b_store b).
Lemma load_like b0 b t data n b' : bus_like b0 b -> bus_load b t data n = Value b' -> bus_like b0 b'.
Proof.
  intros [E F] H. unfold bus_load in H. destruct (b_enabled b); [|apply value_eq in H; subst; now split].
  destruct (b_datarate b =? 0); [discriminate|]. apply check_inv in H as [_ H]. cbv zeta in H. apply check_inv in H as [_ H].
  apply bind_inv in H as (b1 & H1 & H). unfold add_previous_stats in H1. apply check_inv in H1 as [_ H1]. cbv zeta in H1.
  apply bind_inv in H1 as (s & _ & H1). apply bind_inv in H1 as (l & _ & H1). apply value_eq in H1. subst b1.
  unfold add_data in H. apply bind_inv in H as (c & C & H). cbn [with_store with_stats b_max b_store b_width] in C.
  assert (fits_with (b_max b) (bc_width (b_store b)) c) as [G W].
  { eapply insert_fits; [|exact C]. now split. }
  cbv zeta in H. apply bind_inv in H as (q & _ & H). apply bind_inv in H as (l' & _ & H). apply value_eq in H. subst b'.
  split; [|exact G]. rewrite E. unfold bus_static. cbn. now rewrite W.
Qed.
Lemma load_word_like b0 b t w n b' : bus_like b0 b -> bus_load_word b t w n = Value b' -> bus_like b0 b'.
Proof. intros L H. unfold bus_load_word in H. apply check_inv in H as [_ H]. eapply load_like; eassumption. Qed.
Definition data_like (d0 d : data_bus) : Prop := bus_like (d_read d0) (d_read d) /\ bus_like (d_write d0) (d_write d).
Lemma load_data_like d0 d read t n data d' : data_like d0 d -> load_data d read t n data = Value d' -> data_like d0 d'.
Proof.
  intros [R W] H.
  assert (forall b0 b h x, bus_like b0 b -> data_load (d_mode d) b h t n data = Value x -> bus_like b0 (fst x)) as K.
  { intros b0 b h x B X. unfold data_load in X. destruct (d_mode d).
    - destruct data as [l|]; [|apply value_eq in X; now subst]. destruct (Nat.eqb n 0); [apply value_eq in X; now subst|].
      apply bind_inv in X as (b' & X & V). apply value_eq in V. subst x. eapply load_like; eassumption.
    - apply bind_inv in X as (h' & _ & V). apply value_eq in V. now subst x. }
  unfold load_data, data_load_read, data_load_write in H. destruct read; apply bind_inv in H as (x & X & V); apply value_eq in V; subst d'; split; cbn; try assumption; eapply K; eassumption.
Qed.
Lemma bus_new_like max width rate idle en b : bus_new max width rate idle en = Value b -> bus_like b b.
Proof. unfold bus_new. intros H. apply bind_inv in H as (x & _ & V). apply value_eq in V. subst b. split; [reflexivity|constructor]. Qed.

(* ---- clocks ---- *)

Lemma start_rate k t k' : clock_start k t = Value k' -> ck_rate k' = ck_rate k.
Proof. unfold clock_start. destruct (ck_start k); [discriminate|]. intros H. apply value_eq in H. now subst. Qed.
Lemma stop_rate k t k' : clock_stop k t = Value k' -> ck_rate k' = ck_rate k.
Proof. unfold clock_stop. destruct (ck_start k); [|discriminate]. intros H. apply check_inv in H as [_ H]. apply value_eq in H. now subst. Qed.
Lemma pulse_rate k t n r k' : pulse k t n r = Value k' -> ck_rate k' = ck_rate k.
Proof. unfold pulse. destruct (r =? 0); [discriminate|]. intros H. apply bind_inv in H as (x & X & H). apply start_rate in X. apply stop_rate in H. congruence. Qed.

(* ---- the inverter and its pins ---- *)

Definition pin_like (p0 p : pin) : Prop :=
  pin_static p0 = pin_static p /\ bt_bits (pn_store p0) < 2 ^ N.of_nat (pn_max p) /\ bt_bits (pn_store p) < 2 ^ N.of_nat (pn_max p).
Lemma pin_set_like p0 p t s r p' : pin_like p0 p -> pin_set p t s r = Value p' -> pin_like p0 p'.
Proof.
  intros (E & F0 & F) H. unfold pin_set in H. cbv zeta in H. apply bind_inv in H as (st & _ & H). apply bind_inv in H as (b & B & H). apply value_eq in H. subst p'.
  split; [exact E|]. split; [exact F0|]. cbn [pn_store pn_max].
  unfold bit_store_push in B. cbv zeta in B. apply check_inv in B as [_ B]. apply bind_inv in B as (bits & B & V). apply value_eq in V. subst b. cbn [bt_bits].
  eapply set_bit_fits; [|exact B]. destruct (_ =? bt_load (pn_store p)); exact F.
Qed.
Definition pins_like : list pin -> list pin -> Prop := Forall2 pin_like.
Lemma pins_put l0 l k p' l' : pins_like l0 l -> put l k p' = Value l' -> (forall p p0, nth_error l k = Some p -> pin_like p0 p -> pin_like p0 p') -> pins_like l0 l'.
Proof.
  intros F H K. unfold put in H. destruct (Nat.ltb_spec k (length l)) as [L|L]; [|discriminate]. apply value_eq in H. subst l'.
  revert k L K. induction F as [|x y l0 l Fx F IH]; intros k L K; [cbn in L; lia|]. destruct k as [|k]; cbn.
  - constructor; [|exact F]. eapply K; [reflexivity|exact Fx].
  - constructor; [exact Fx|]. apply IH; [cbn in L; lia|]. intros p p0 P. apply K. exact P.
Qed.
Definition side_ok (c : dbi_config) (b : lastburst) : Prop := cap_ok c b.
Definition sides_ok (d : dbi) : Prop := cap_ok (db_config d) (db_read d) /\ cap_ok (db_config d) (db_write d).
Definition dbi_like (x0 x : dbi_pins_if) : Prop :=
  db_config (di_dbi x0) = db_config (di_dbi x) /\ di_rate x0 = di_rate x /\ pins_like (di_read x0) (di_read x) /\ pins_like (di_write x0) (di_write x) /\ sides_ok (di_dbi x).
Lemma put_length {A} (l : list A) k x l' : put l k x = Value l' -> length l' = length l.
Proof. unfold put. destruct (Nat.ltb k (length l)); [|discriminate]. intros H. apply value_eq in H. subst. apply upd_length. Qed.
Lemma put_sides d read b : sides_ok d -> cap_ok (db_config d) b -> sides_ok (db_put d read b).
Proof. intros [R W] B. unfold db_put, sides_ok. destruct read; cbn; split; assumption. Qed.
Lemma side_cap d read : sides_ok d -> cap_ok (db_config d) (db_side d read).
Proof. intros [R W]. destruct read; assumption. Qed.
Lemma cap_length c b s e k i inv beat : cap_ok c b -> length inv = length (lb_inv b) -> cap_ok c (mkLast s e k i inv (lb_cap b) beat).
Proof. unfold cap_ok. cbn [lb_cap lb_inv]. intros H L. now rewrite L. Qed.
Lemma reset_like d t read d' evs : sides_ok d -> dbi_reset d t read = Value (d', evs) -> sides_ok d' /\ db_config d' = db_config d.
Proof.
  intros S H. unfold dbi_reset in H. cbv zeta in H. apply check_inv in H as [_ H].
  destruct (negb (lb_init (db_side d read))); [apply value_eq in H; injection H as <- _; auto|].
  destruct (t <? lb_end (db_side d read)); [apply value_eq in H; injection H as <- _; auto|].
  destruct (lb_end (db_side d read) =? t); [apply value_eq in H; injection H as <- _; auto|].
  destruct (dg_callback (db_config d)); [|apply value_eq in H; injection H as <- _; auto].
  apply bind_inv in H as (s & X & H). apply value_eq in H. injection H as <- _.
  split; [|reflexivity]. apply put_sides; [exact S|]. apply cap_length; [now apply side_cap|].
  assert (forall tend index l s', loop (reset_chunk t tend read index) l (lb_inv (db_side d read), []) = Value s' -> length (fst s') = length (lb_inv (db_side d read))) as K.
  { intros tend index l s' E. refine (loop_keeps (fun x => length (fst x) = length (lb_inv (db_side d read))) _ _ _ _ _ _ E); [|reflexivity].
    clear. intros i a a' _ L E. unfold reset_chunk in E. apply bind_inv in E as (b & _ & E). apply bind_inv in E as (inv & P & E). apply value_eq in E. subst a'. cbn [fst].
    apply put_length in P. congruence. }
  destruct (chunks_per_width (db_config d)); eapply K; exact X.
Qed.
Lemma grow_cap c b n s e k i beat inv cap : cap_ok c b -> grow_inversions c b n = (inv, cap) -> forall l, length l = length inv -> cap_ok c (mkLast s e k i l cap beat).
Proof.
  intros C H l L. unfold grow_inversions in H. unfold cap_ok in *. cbn [lb_cap lb_inv]. destruct (Nat.ltb_spec (lb_cap b) n) as [G|G]; injection H as <- <-; rewrite L.
  - rewrite app_length, firstn_length, repeat_length. replace (Nat.min n (length (lb_inv b)) + (n - length (lb_inv b)))%nat with n by lia.
    destruct (Nat.ltb_spec 0 n); [reflexivity|lia].
  - exact C.
Qed.
Lemma visit_length c t read inv s s' : visit c t read inv s = Value s' -> length (sc_inv s') = length (sc_inv s).
Proof.
  unfold visit. intros H. apply bind_inv in H as (ev & _ & H). apply bind_inv in H as (l & P & H). apply bind_inv in H as (dt & _ & H). apply value_eq in H. subst s'. cbn.
  eapply put_length. exact P.
Qed.
Lemma next_length c s : length (sc_inv (next_entry c s)) = length (sc_inv s).
Proof. unfold next_entry. destruct (Nat.leb _ _); reflexivity. Qed.
Lemma compute_length c prev t read s s' : compute c prev t read s = Value s' -> length (sc_inv s') = length (sc_inv s).
Proof.
  unfold compute. intros E. refine (loop_keeps (fun x => length (sc_inv x) = length (sc_inv s)) _ _ _ _ _ _ E); [|reflexivity].
  intros i a a' _ L H. rewrite <- L. clear L E. destruct (dg_alg c) as [|k].
  - unfold static_step in H. apply bind_inv in H as (v & _ & H). cbv zeta in H. destruct (is_last c a).
    + apply bind_inv in H as (b & B & H). apply value_eq in H. subst a'. rewrite next_length. apply visit_length in B. exact B.
    + apply value_eq in H. subst a'. rewrite next_length. reflexivity.
  - unfold dynamic_step in H. destruct prev as [prev|].
    + apply bind_inv in H as (v & _ & H). apply bind_inv in H as (q & _ & H). cbv zeta in H. destruct (is_last c a).
      * apply bind_inv in H as (b & B & H). apply value_eq in H. subst a'. rewrite next_length. apply visit_length in B. exact B.
      * apply value_eq in H. subst a'. rewrite next_length. reflexivity.
    + apply bind_inv in H as (b & B & H). apply value_eq in H. subst a'. rewrite next_length. eapply visit_length. exact B.
Qed.
Lemma update_like d t n data read d' evs out : sides_ok d -> dbi_update d t n data read = Value (d', evs, out) -> sides_ok d' /\ db_config d' = db_config d.
Proof.
  intros S H. unfold dbi_update in H. cbv zeta in H. destruct data as [l|]; [|apply value_eq in H; injection H as <- _ _; auto].
  destruct (_ || _); [apply value_eq in H; injection H as <- _ _; auto|].
  apply bind_inv in H as ([d1 ev] & R & H). cbn [fst snd] in H. destruct (reset_like _ _ _ _ _ S R) as [S1 C1]. rewrite <- C1 in *.
  apply check_inv in H as [_ H]. destruct (Nat.ltb (length l) _); [discriminate|].
  apply bind_inv in H as (prev & _ & H). apply check_inv in H as [_ H].
  set (b := save_last (db_config d1) (db_data d1) t (db_side d1 read)) in *.
  destruct (grow_inversions (db_config d1) b _) as [inv cap] eqn:G.
  apply bind_inv in H as (s & K & H). apply bind_inv in H as (tend & _ & H). apply value_eq in H. injection H as <- _ _.
  apply compute_length in K. cbn [sc_inv] in K. split; [|reflexivity].
  assert (cap_ok (db_config d1) b) as B.
  { unfold b, save_last. pose proof (side_cap d1 read S1) as B. destruct (seamless _ _ _ _); [|exact B]. destruct (dg_width _); [|exact B]. now apply cap_length. }
  pose proof (grow_cap (db_config d1) b _ t tend (Nat.div n (chunk_size (db_config d1))) true (lb_beat b) inv cap B G (sc_inv s) K) as B'.
  pose proof (put_sides d1 read _ S1 B') as [P Q]. split; cbn [db_config db_read db_write]; assumption.
Qed.
Lemma deliver_like c evs x0 x x' : dbi_like x0 x -> deliver c evs x = Value x' -> dbi_like x0 x'.
Proof.
  intros L H. unfold deliver in H. refine (loop_keeps (dbi_like x0) _ _ _ _ _ L H). clear. intros e a a' _ (C & Rt & R & W & S) E.
  unfold pin_change_handler in E. apply check_inv in E as [_ E]. cbv zeta in E. apply bind_inv in E as (p & P & E). apply bind_inv in E as (p' & P' & E).
  apply bind_inv in E as (l & Q & E). apply value_eq in E. subst a'.
  assert (forall q q0, nth_error (if ev_read e then di_read a else di_write a) (ev_index e) = Some q -> pin_like q0 q -> pin_like q0 p') as K.
  { intros q q0 X Y. unfold fetch in P. rewrite X in P. apply value_eq in P. subst q. eapply pin_set_like; eassumption. }
  destruct (ev_read e); (split; [exact C|]; split; [exact Rt|]); cbn [di_read di_write di_dbi].
  - split; [eapply pins_put; eassumption|]. split; assumption.
  - split; [assumption|]. split; [eapply pins_put; eassumption|assumption].
Qed.
Lemma with_like x0 x d : dbi_like x0 x -> sides_ok d -> db_config d = db_config (di_dbi x) -> dbi_like x0 (di_with x d).
Proof. intros (C & Rt & R & W & S) S' E. unfold dbi_like, di_with. cbn. rewrite E. auto. Qed.
Lemma if_data_like x0 x t n data read y : dbi_like x0 x -> dbi_if_data x t n data read = Value y -> dbi_like x0 (fst y).
Proof.
  intros L H. unfold dbi_if_data in H. destruct data as [l|]; [|apply value_eq in H; now subst].
  destruct (_ || _); [apply value_eq in H; now subst|].
  apply bind_inv in H as ([[d evs] out] & U & H). apply bind_inv in H as (x' & D & H). apply value_eq in H. subst y. cbn [fst].
  destruct (update_like _ _ _ _ _ _ _ _ (proj2 (proj2 (proj2 (proj2 L)))) U) as [S C].
  eapply deliver_like; [|exact D]. now apply with_like.
Qed.
Lemma if_end_like x0 x t y : dbi_like x0 x -> dbi_if_end x t = Value y -> dbi_like x0 y.
Proof.
  intros L H. unfold dbi_if_end in H. apply bind_inv in H as ([d evs] & U & H). cbn [fst snd] in H.
  unfold dbi_reset_both in U. apply bind_inv in U as ([d1 e1] & U1 & U). apply bind_inv in U as ([d2 e2] & U2 & U). apply value_eq in U. cbn [fst snd] in *. injection U as <- <-.
  destruct (reset_like _ _ _ _ _ (proj2 (proj2 (proj2 (proj2 L)))) U1) as [S1 C1]. destruct (reset_like _ _ _ _ _ S1 U2) as [S2 C2].
  eapply deliver_like; [|exact H]. apply with_like; congruence || assumption.
Qed.

(* ---- an interface and the one it was made as ---- *)

Definition dbi_both (x0 x : option dbi_pins_if) : Prop :=
  match x0, x with Some a, Some b => dbi_like a b | None, None => True | _, _ => False end.
Record same_build (i0 i : iface) : Prop := {
  sb_spec : if_spec i = if_spec i0;
  sb_cmd : bus_like (if_cmd i0) (if_cmd i);
  sb_data : data_like (if_data i0) (if_data i);
  sb_rdqs : ck_rate (if_rdqs i) = ck_rate (if_rdqs i0);
  sb_wdqs : ck_rate (if_wdqs i) = ck_rate (if_wdqs i0);
  sb_wck : ck_rate (if_wck i) = ck_rate (if_wck i0);
  sb_clock : ck_rate (if_clock i) = ck_rate (if_clock i0);
  sb_dbi : dbi_both (if_dbi i0) (if_dbi i);
  sb_ranks : length (if_ranks i) = length (if_ranks i0);
  sb_pat : pat_inv (if_spec i0) (if_pat i)
}.
Lemma command_bus_build i0 c i i' : same_build i0 i -> handle_command_bus c i = Value i' -> same_build i0 i'.
Proof.
  intros [] H. unfold handle_command_bus in H. destruct (if_pat i) as [h|h] eqn:P.
  - apply bind_inv in H as ([w h'] & C & H). apply bind_inv in H as (b & B & H). apply value_eq in H. subst i'. cbn [fst snd] in *.
    assert (ph_map h' = ph_map h /\ ph_over h' = ph_over h) as [M O].
    { unfold command_pattern in C. destruct (ph_map h (cmd_type c)) eqn:Q; [discriminate|]. apply bind_inv in C as (x & _ & C). apply value_eq in C. injection C as _ <-. auto. }
    constructor; cbn; try assumption; [eapply load_word_like; eassumption|]. cbn in sb_pat0. rewrite M, O. exact sb_pat0.
  - apply bind_inv in H as ([w h'] & C & H). apply bind_inv in H as (b & B & H). apply value_eq in H. subst i'. cbn [fst snd] in *.
    assert (p6_map h' = p6_map h /\ p6_extra h' = p6_extra h) as [M O].
    { unfold command_pattern6 in C. destruct (p6_map h (cmd_type c)) eqn:Q; [discriminate|]. apply bind_inv in C as (x & _ & C). apply value_eq in C. injection C as _ <-. auto. }
    constructor; cbn; try assumption; [eapply load_word_like; eassumption|]. cbn in sb_pat0. rewrite M, O. exact sb_pat0.
Qed.
Lemma burst_build i0 c read i x : same_build i0 i -> handle_burst c read i = Value x -> same_build i0 (fst x).
Proof.
  intros B H. unfold handle_burst in H. cbv zeta in H. destruct (cmd_sz_bits c =? 0).
  - destruct (d_mode (if_data i)).
    + apply value_eq in H. now subst x.
    + apply bind_inv in H as (d & D & H). apply value_eq in H. subst x. destruct B. constructor; cbn; try assumption. eapply load_data_like; eassumption.
  - destruct (bus_lines i =? 0); [discriminate|]. apply bind_inv in H as ([y l] & I & H). cbn [fst snd] in H.
    assert (dbi_both (if_dbi i0) y) as Y.
    { pose proof (sb_dbi _ _ B) as D. unfold invert_data in I. destruct (if_dbi i) as [x1|]; [|apply value_eq in I; injection I as <- _; exact D].
      destruct (is_bus _ && _).
      - apply bind_inv in I as ([x2 o] & I & V). apply value_eq in V. injection V as <- _. cbn [fst]. destruct (if_dbi i0) as [x0|]; [|contradiction].
        exact (if_data_like _ _ _ _ _ _ _ D I).
      - apply value_eq in I. injection I as <- _. exact D. }
    destruct (fi_std (if_spec i)).
    5: { apply bind_inv in H as ([f n] & F & H). apply bind_inv in H as (d & D & H). apply value_eq in H. subst x. destruct B. constructor; cbn; try assumption. eapply load_data_like; eassumption. }
    all: apply bind_inv in H as (d & D & H); apply value_eq in H; subst x; destruct B; constructor; cbn; try assumption; eapply load_data_like; eassumption.
Qed.
Lemma dqs_build i0 c read n i i' : same_build i0 i -> handle_dqs c read n i = Value i' -> same_build i0 i'.
Proof.
  intros B H. unfold handle_dqs in H. cbv zeta in H.
  destruct (fi_std (if_spec i)).
  1-3: destruct read; apply bind_inv in H as (k & K & H); apply value_eq in H; subst i'; apply pulse_rate in K; destruct B; constructor; cbn; try assumption; congruence.
  all: apply bind_inv in H as (r & R & H); apply bind_inv in H as (k & K & H); apply value_eq in H; subst i'; destruct B; constructor; cbn; try assumption;
    [destruct read; [apply pulse_rate in R; congruence|apply value_eq in R; congruence]|destruct (fi_wck_on _); [apply value_eq in K; congruence|apply pulse_rate in K; congruence]].
Qed.
Lemma overrides_build i0 n read i : same_build i0 i -> same_build i0 (handle_overrides i n read).
Proof.
  intros []. unfold handle_overrides. rewrite sb_spec0. destruct (if_pat i) as [h|h].
  - fold (std_overrides (fi_std (if_spec i0))). constructor; cbn; try assumption. destruct sb_pat0 as (S & M & V). split; [exact S|]. split; [exact M|]. now apply overrides_inv.
  - constructor; cbn; try assumption.
Qed.
Lemma data_build i0 c read i i' : same_build i0 i -> handle_data c read i = Value i' -> same_build i0 i'.
Proof.
  intros B H. unfold handle_data in H. apply bind_inv in H as ([x n] & X & H). cbn [fst snd] in H. apply bind_inv in H as (y & Y & H). apply bind_inv in H as (z & Z & H).
  apply burst_build with (i0 := i0) in X; [|exact B]. cbn [fst] in X. apply dqs_build with (i0 := i0) in Y; [|exact X].
  apply command_bus_build with (i0 := i0) in Z; [|now apply overrides_build]. destruct (fi_std (if_spec z)); try (apply value_eq in H; now subst).
  apply check_inv in H as [_ H]. apply bind_inv in H as (r & _ & H). apply bind_inv in H as (r' & _ & H). apply value_eq in H. subst i'.
  destruct Z. constructor; cbn; try assumption. now rewrite upd_length.
Qed.
Lemma call_build i0 x i i' : same_build i0 i -> call_do x i = Value i' -> same_build i0 i'.
Proof.
  intros B H. destruct x as [c|e|a b|e|t|t]; cbn [call_do] in H.
  - unfold if_command in H. apply bind_inv in H as (y & Y & H). apply value_eq in H. subst i'.
    cut (same_build i0 y); [intros []; constructor; cbn; assumption|].
    destruct (routing (if_spec i) (cmd_type c)); try discriminate.
    + eapply command_bus_build; eassumption.
    + eapply data_build; eassumption.
    + unfold end_of_simulation in Y. pose proof (sb_dbi _ _ B) as D. destruct (if_dbi i) as [x1|] eqn:I.
      * apply bind_inv in Y as (x2 & X & Y). apply value_eq in Y. subst y. destruct (if_dbi i0) as [x0|] eqn:I0; [|contradiction].
        destruct B. constructor; cbn; try assumption. rewrite I0. exact (if_end_like _ _ _ _ D X).
      * apply value_eq in Y. now subst.
    + apply value_eq in Y. now subst.
  - apply value_eq in H. subst i'. unfold if_enable_dbi. pose proof (sb_dbi _ _ B) as D. destruct (if_dbi i) as [x1|] eqn:I; [|exact B].
    destruct (match fi_std (if_spec i) with DDR4 => _ | _ => _ end); [exact B|]. destruct (if_dbi i0) as [x0|] eqn:I0; [|contradiction].
    destruct B. constructor; cbn; try assumption. rewrite I0. cbn. apply with_like; [exact D| |reflexivity]. destruct D as (_ & _ & _ & _ & [S1 S2]). split; assumption.
  - apply value_eq in H. subst i'. destruct B. constructor; cbn; assumption.
  - unfold if_set_parity in H. apply check_inv in H as [_ H]. destruct (if_pat i) as [h|h] eqn:P; apply value_eq in H; subst i'; [exact B|].
    destruct B. constructor; cbn; try assumption. rewrite P in sb_pat0. exact sb_pat0.
  - unfold if_enable in H. destruct (if_enabled i); [apply value_eq in H; now subst|]. apply bind_inv in H as (k & K & H). apply bind_inv in H as (k' & K' & H). apply value_eq in H. subst i'.
    apply start_rate in K'. destruct B. constructor; cbn; try assumption; [|congruence]. destruct (fi_wck_on _); [apply start_rate in K; congruence|apply value_eq in K; congruence].
  - unfold if_disable in H. destruct (if_enabled i); [|apply value_eq in H; now subst]. apply bind_inv in H as (k & K & H). apply bind_inv in H as (k' & K' & H). apply value_eq in H. subst i'.
    apply stop_rate in K'. destruct B. constructor; cbn; try assumption; [|congruence]. destruct (fi_wck_on _); [apply stop_rate in K; congruence|apply value_eq in K; congruence].
Qed.
Lemma pins_repeat p n : pin_like p p -> pins_like (repeat p n) (repeat p n).
Proof. intros L. induction n; constructor; auto. Qed.
Lemma new_build p sim i0 : iface_new p sim = Value i0 -> same_build i0 i0 /\ if_spec i0 = p /\
  (forall x, if_dbi i0 = Some x -> db_read (di_dbi x) = lastburst0 /\ db_write (di_dbi x) = lastburst0 /\ db_enable (di_dbi x) = false).
Proof.
  unfold iface_new. cbv zeta. intros H. apply bind_inv in H as (cmd & C & H). apply bind_inv in H as (max & _ & H). apply bind_inv in H as (data & D & H).
  apply bind_inv in H as (wck & _ & H). apply bind_inv in H as (d & E & H). apply value_eq in H. subst i0.
  assert (forall c m r x, dbi_if_new c m r false = Value x -> dbi_like x x /\ db_read (di_dbi x) = lastburst0 /\ db_write (di_dbi x) = lastburst0 /\ db_enable (di_dbi x) = false) as K.
  { clear. intros c m r x H. unfold dbi_if_new in H. apply bind_inv in H as (y & Y & H). unfold dbi_new in Y. apply check_inv in Y as [_ Y]. apply value_eq in Y. subst y.
    destruct (chunks_per_width c) as [n|]; [|discriminate]. cbv zeta in H. apply value_eq in H. subst x. cbn. split; [|auto].
    assert (pins_like (repeat (pin_new m (dg_idle c) (dg_idle c)) n) (repeat (pin_new m (dg_idle c) (dg_idle c)) n)) as P.
    { apply pins_repeat. split; [reflexivity|]. split; apply pow2_pos. }
    unfold dbi_like. cbn. repeat split; try exact P. }
  assert (match d with Some x => dbi_like x x /\ db_read (di_dbi x) = lastburst0 /\ db_write (di_dbi x) = lastburst0 /\ db_enable (di_dbi x) = false | None => True end) as X.
  { unfold new_dbi in E. destruct (fi_std p); try (apply bind_inv in E as (x & E & V); apply value_eq in V; subst d; exact (K _ _ _ _ E)).
    - apply value_eq in E. now subst d.
    - apply bind_inv in E as (x & E & V). apply value_eq in V. subst d. unfold dbi_new in E. apply check_inv in E as [_ E]. apply value_eq in E. subst x. cbn.
      split; [|auto]. unfold dbi_like. cbn. repeat split; constructor. }
  split; [|split; [reflexivity|]].
  - constructor; cbn; try reflexivity.
    + eapply bus_new_like. exact C.
    + unfold data_new in D. repeat (apply bind_inv in D as (? & ? & D)). apply value_eq in D. subst data. split; cbn; eapply bus_new_like; eassumption.
    + destruct d; cbn; [exact (proj1 X)|exact I].
    + apply new_pat_inv.
  - cbn [if_dbi]. intros x ->. exact (proj2 X).
Qed.
Lemma run_build p sim i0 xs i : iface_new p sim = Value i0 -> calls_run xs i0 = Value i -> same_build i0 i.
Proof.
  intros N H. refine (loop_keeps (same_build i0) _ _ _ _ _ _ H); [|exact (proj1 (new_build _ _ _ N))].
  intros x a a' _ B E. eapply call_build; eassumption.
Qed.

(* ---- what is not written ---- *)

Definition asleep (x : option dbi_pins_if) : Prop :=
  forall y, x = Some y -> db_read (di_dbi y) = lastburst0 /\ db_write (di_dbi y) = lastburst0 /\ db_enable (di_dbi y) = false.
Record hidden (i0 i : iface) : Prop := {
  hd_spec : if_spec i = if_spec i0;
  hd_meta : if_meta i = if_meta i0;
  hd_on : if_enabled i = if_enabled i0;
  hd_dbi : fi_std (if_spec i0) <> DDR4 -> if_dbi i = if_dbi i0;
  hd_ranks : fi_std (if_spec i0) <> DDR4 -> if_ranks i = if_ranks i0;
  hd_wck : has_wck (fi_std (if_spec i0)) = false -> if_wck i = if_wck i0;
  hd_wdqs : has_wck (fi_std (if_spec i0)) = true -> if_wdqs i = if_wdqs i0
}.
Lemma end_asleep x t y : asleep (Some x) -> dbi_if_end x t = Value y -> y = x.
Proof.
  intros A H. destruct (A x eq_refl) as (R & W & _). unfold dbi_if_end, dbi_reset_both in H.
  assert (forall read, dbi_reset (di_dbi x) t read = Value (di_dbi x, [])) as Z.
  { intros read. unfold dbi_reset. destruct read; cbn [db_side]; [rewrite R|rewrite W]; reflexivity. }
  rewrite Z in H. cbn [bind fst snd] in H. rewrite Z in H. cbn [bind fst snd app deliver loop] in H. unfold deliver in H. cbn [loop] in H. apply value_eq in H. subst y. now destruct x.
Qed.
Lemma call_hidden i0 x i i' : asleep (if_dbi i0) -> (fi_std (if_spec i0) = DDR5 -> if_dbi i0 = None) -> kept (fi_std (if_spec i0)) x = true -> if_enabled i0 = true -> hidden i0 i -> call_do x i = Value i' -> hidden i0 i'.
Proof.
  intros A D5 K On B H. destruct x as [c|e|a b|e|t|t]; cbn [call_do] in H; try discriminate K.
  - unfold if_command in H. apply bind_inv in H as (y & Y & H). apply value_eq in H. subst i'.
    cut (hidden i0 y); [intros []; constructor; cbn; assumption|].
    destruct (routing (if_spec i) (cmd_type c)) as [|read| | | |]; try discriminate.
    + unfold handle_command_bus in Y. destruct (if_pat i) as [h|h]; apply bind_inv in Y as (w & _ & Y); apply bind_inv in Y as (v & _ & Y); apply value_eq in Y; subst y; destruct B; constructor; cbn; assumption.
    + unfold handle_data in Y. apply bind_inv in Y as ([x n] & X & Y). cbn [fst snd] in Y. apply bind_inv in Y as (y2 & Y2 & Y). apply bind_inv in Y as (z & Z & Y).
      assert (hidden i0 x) as Bx.
      { clear Y2 Z Y. unfold handle_burst in X. cbv zeta in X. destruct (cmd_sz_bits c =? 0).
        - destruct (d_mode (if_data i)).
          + apply value_eq in X. injection X as <- _. exact B.
          + apply bind_inv in X as (d & _ & X). apply value_eq in X. injection X as <- _. destruct B. constructor; cbn; assumption.
        - destruct (bus_lines i =? 0); [discriminate|]. apply bind_inv in X as ([v l] & I & X). cbn [fst snd] in X.
          assert (fi_std (if_spec i0) <> DDR4 -> v = if_dbi i0) as V.
          { intros S. pose proof (hd_dbi _ _ B S) as D. unfold invert_data in I. rewrite D in I. destruct (if_dbi i0) as [x1|] eqn:I0; [|apply value_eq in I; congruence].
            destruct (A x1 eq_refl) as (_ & _ & E). rewrite E, andb_false_r in I. apply value_eq in I. congruence. }
          assert (exists d buf, x = if_with_data i d v buf) as (d & buf & ->).
          { destruct (fi_std (if_spec i)).
            5: { apply bind_inv in X as (f & _ & X). apply bind_inv in X as (d & _ & X). apply value_eq in X. injection X as <- _. eauto. }
            all: apply bind_inv in X as (d & _ & X); apply value_eq in X; injection X as <- _; eauto. }
          destruct B. constructor; cbn; assumption. }
      assert (hidden i0 y2) as By.
      { clear - Y2 Bx. unfold handle_dqs in Y2. cbv zeta in Y2. pose proof (hd_spec _ _ Bx) as S. rewrite S in Y2.
        destruct (fi_std (if_spec i0)) eqn:St.
        1-3: destruct read; apply bind_inv in Y2 as (k & _ & Y2); apply value_eq in Y2; subst y2; destruct Bx; rewrite St in *; constructor; cbn; rewrite ?St; try assumption; discriminate.
        all: apply bind_inv in Y2 as (r & _ & Y2); apply bind_inv in Y2 as (k & _ & Y2); apply value_eq in Y2; subst y2; destruct Bx; rewrite St in *; constructor; cbn; rewrite ?St; try assumption; discriminate. }
      assert (hidden i0 z) as Bz.
      { clear - Z By. destruct (overrides_spec y2 n read) as [h E]. rewrite E in Z. unfold handle_command_bus in Z. cbn [if_pat if_with_pat if_with_cmd] in Z.
        destruct h as [h|h]; apply bind_inv in Z as (w & _ & Z); apply bind_inv in Z as (v & _ & Z); apply value_eq in Z; subst z; destruct By; constructor; cbn; assumption. }
      clear - Y Bz. pose proof (hd_spec _ _ Bz) as S. rewrite S in Y. destruct (fi_std (if_spec i0)) eqn:St; try (apply value_eq in Y; now subst).
      apply check_inv in Y as [_ Y]. apply bind_inv in Y as (r & _ & Y). apply bind_inv in Y as (r' & _ & Y). apply value_eq in Y. subst y.
      destruct Bz; rewrite St in *; constructor; cbn; rewrite ?St; try assumption; intros F; now contradict F.
    + unfold end_of_simulation in Y. destruct (if_dbi i) as [x1|] eqn:I; [|apply value_eq in Y; now subst].
      apply bind_inv in Y as (x2 & X & Y). apply value_eq in Y. subst y. destruct B as [S M O D R W1 W2]. constructor; cbn; try assumption.
      intros F. rewrite <- (D F), I. f_equal. eapply end_asleep; [|exact X]. rewrite <- I. rewrite (D F). exact A.
    + apply value_eq in Y. now subst.
  - apply value_eq in H. subst i'. unfold if_enable_dbi. destruct (if_dbi i) as [x1|] eqn:I; [|exact B].
    destruct (match fi_std (if_spec i) with DDR4 => _ | _ => _ end); [exact B|].
    destruct B as [S M O D R W1 W2]. constructor; cbn; try assumption. intros F. rewrite <- (D F), I. f_equal.
    assert (if_dbi i0 = Some x1) as I0 by (rewrite <- (D F); exact I).
    destruct (A x1 I0) as (_ & _ & E). destruct x1 as [[cf en r w lr da] pr pw rt]. cbn in *. unfold di_with. cbn. f_equal. f_equal. rewrite E.
    cbn [kept] in K. destruct (fi_std (if_spec i0)) eqn:Std; try (now destruct e).
    rewrite (D5 eq_refl) in I0. discriminate.
  - unfold if_set_parity in H. apply check_inv in H as [_ H]. destruct (if_pat i) as [h|h]; apply value_eq in H; subst i'; [exact B|]. destruct B. constructor; cbn; assumption.
  - unfold if_enable in H. rewrite (hd_on _ _ B), On in H. apply value_eq in H. now subst.
Qed.
Lemma run_hidden p sim i0 xs i : iface_new p sim = Value i0 -> calls_run xs i0 = Value i -> forallb (kept (fi_std p)) xs = true -> hidden i0 i.
Proof.
  intros N H K. destruct (new_build _ _ _ N) as (_ & S & A).
  assert ((fi_std (if_spec i0) = DDR5 -> if_dbi i0 = None) /\ if_enabled i0 = true) as [D5 On].
  { unfold iface_new in N. cbv zeta in N. repeat (apply bind_inv in N as (? & ? & N)). apply value_eq in N. subst i0. cbn in *. split; [|reflexivity].
    intros E. unfold new_dbi in *. rewrite E in *. congruence. }
  refine (loop_keeps (hidden i0) _ _ _ _ _ _ H).
  - intros x a a' X B E. rewrite forallb_forall in K. eapply call_hidden; try eassumption. rewrite S. now apply K.
  - constructor; auto.
Qed.

(* ---- the round trip ---- *)

Lemma fold_settings l : NoDup (map fst l) -> forall acc d,
  ov_find (fold_left (fun o e => ov_update o [e]) l acc) d = match ov_find l d with Some s => Some s | None => ov_find acc d end.
Proof.
  induction l as [|[k s] l IH]; intros ND acc d; [reflexivity|]. cbn [map fst] in ND. inversion ND as [|? ? Nin ND']; subst.
  cbn [fold_left ov_find]. rewrite IH by exact ND'. unfold ov_update. cbn [fold_left fst snd]. rewrite find_assign.
  destruct (desc_eqb k d) eqn:E; [|reflexivity]. apply desc_eqb_spec in E. subst d.
  destruct (ov_find l k) as [s'|] eqn:F; [|reflexivity]. exfalso. apply Nin. clear - F. induction l as [|[k' s''] l IH]; [discriminate|]. cbn [ov_find] in F. cbn [map fst].
  destruct (desc_eqb k' k) eqn:E; [left; now apply desc_eqb_spec|]. right. now apply IH.
Qed.
Lemma reads_settings order o : traversal order o -> exists o', reads r_settings (w_settings order) o' /\ forall d, ov_find o' d = ov_find o d.
Proof.
  intros [ND E]. exists (fold_left (fun o e => ov_update o [e]) order []). split.
  - unfold w_settings, r_settings. eapply reads_bind; [apply reads_size|].
    eapply reads_bind_last; [|apply reads_ret]. apply reads_times. apply Forall_forall. intros [d s] _. intro. reflexivity.
  - intros d. rewrite fold_settings by exact ND. rewrite E. now destruct (ov_find o d).
Qed.
Lemma reads_patterns p order h0 h : pat_inv p h0 -> pat_inv p h -> traversal order (settings_of h) ->
  exists h', reads (r_patterns h0) (w_patterns order h) h' /\ pat_like p h h'.
Proof.
  intros V0 V T. destruct h0 as [a0|a0], h as [a|a].
  - cbn [settings_of] in T. destruct (reads_settings _ _ T) as (o & R & E). exists (Pat (mkHandler o (ph_map a0) (ph_last a0))). split.
    + cbn [r_patterns w_patterns]. eapply reads_bind_last; [exact R|]. apply reads_ret.
    + split; [exact V|]. split; [|exact I]. destruct V0 as (S & M & _), V as (_ & _ & V). split; [exact S|]. split; [exact M|].
      intros d D. cbn [ph_over]. rewrite E. now apply V.
  - destruct V0, V; contradiction.
  - destruct V0, V; contradiction.
  - exists (Pat6 (mkHandler6 (mkExtra (ex_burst (p6_extra a)) (ex_groups (p6_extra a0)) (ex_parity (p6_extra a))) (p6_map a0) (p6_last a0))). split.
    + cbn [r_patterns w_patterns]. cbn [app]. do 2 (eapply reads_bind_one; [item|]). eapply reads_bind_last; [apply reads_size|]. apply reads_ret.
    + destruct V0 as (S & M & G), V as (S' & M' & G'). unfold pat_like, pat_inv. cbn. rewrite G, <- G'. destruct (p6_extra a). cbn. auto 10.
Qed.
Definition beats_ok (i : iface) : bool :=
  match fi_std (if_spec i), if_dbi i with
  | DDR4, Some x => beat_ok (db_read (di_dbi x)) && beat_ok (db_write (di_dbi x))
  | _, _ => true
  end.
Lemma pins_reads l0 l : pins_like l0 l -> Forall2 (fun t x => reads (r_pin t) (w_pin x) x) l0 l.
Proof. induction 1 as [|a b l0 l (E & F0 & F) _ IH]; constructor; [|exact IH]. now apply reads_pin. Qed.
Lemma ranks_reads : forall l0 l, length l = length l0 -> Forall2 (fun t x => reads (r_rank_if t) (w_rank_if x) x) l0 l.
Proof. induction l0 as [|a l0 IH]; intros [|b l] E; try discriminate; constructor; [apply reads_rank_if|apply IH]. cbn in E. lia. Qed.
Lemma reads_dbi_part i0 i : same_build i0 i -> hidden i0 i -> asleep (if_dbi i0) -> (fi_std (if_spec i0) = DDR4 -> if_dbi i0 <> None) -> beats_ok i = true ->
  reads (r_dbi_part i0) (w_dbi_part i) (if_dbi i, if_ranks i).
Proof.
  intros B Hd A D4 K. pose proof (sb_spec _ _ B) as S. unfold r_dbi_part, w_dbi_part, beats_ok in *. rewrite S in *. pose proof (sb_dbi _ _ B) as D. pose proof (sb_ranks _ _ B) as R.
  pose proof (hd_dbi _ _ Hd) as E1. pose proof (hd_ranks _ _ Hd) as E2.
  destruct (fi_std (if_spec i0)) eqn:St; try (rewrite E1, E2 by discriminate; apply reads_ret).
  clear E1 E2. destruct (if_dbi i0) as [x0|]; [|exfalso; now apply D4]. destruct (if_dbi i) as [x|] eqn:Ix; [|contradiction].
  destruct D as (C & Rt & P & Q & [C1 C2]). destruct (A x0 eq_refl) as (A1 & A2 & _). apply andb_true_iff in K as [K1 K2].
  eapply reads_bind; [apply reads_dbi; rewrite ?A1, ?A2; try reflexivity; eassumption|].
  eapply reads_bind; [apply reads_each, ranks_reads, R|]. eapply reads_bind; [apply reads_each, pins_reads, P|].
  eapply reads_bind_last; [apply reads_each, pins_reads, Q|]. rewrite Rt. destruct x. apply reads_ret.
Qed.
Lemma bad_dbi_part i0 i rest : same_build i0 i -> asleep (if_dbi i0) -> beats_ok i = false -> r_dbi_part i0 (w_dbi_part i ++ rest) = BadBool.
Proof.
  intros B A K. pose proof (sb_spec _ _ B) as S. unfold r_dbi_part, w_dbi_part, beats_ok in *. rewrite S in *. pose proof (sb_dbi _ _ B) as D.
  destruct (fi_std (if_spec i0)); try discriminate K. destruct (if_dbi i) as [x|]; [|discriminate K]. destruct (if_dbi i0) as [x0|]; [|contradiction].
  destruct D as (C & Rt & P & Q & [C1 C2]). destruct (A x0 eq_refl) as (A1 & A2 & _).
  apply bad_bind. rewrite <- app_assoc. apply bad_dbi; [now rewrite A1|exact C|exact C1|exact K].
Qed.
Lemma same_clock k k0 : ck_rate k = ck_rate k0 -> mkClock (ck_start k) (ck_stats k) (ck_rate k0) = k.
Proof. intros <-. now destruct k. Qed.
(* Everything before the inverter. *)
Lemma read_front order i0 i : same_build i0 i0 -> same_build i0 i -> hidden i0 i -> traversal order (settings_of (if_pat i)) ->
  exists h', pat_like (if_spec i0) (if_pat i) h' /\ forall rest, r_iface i0 (w_iface order i ++ rest) =
    r_bind (r_dbi_part i0) (fun x => r_ret (mkIface (if_spec i) (if_cmd i) (if_data i) (if_rdqs i) (if_wdqs i) (if_wck i) (if_clock i)
      (fst x) (snd x) h' (if_last i) (if_meta i) (if_buf i0) (if_enabled i))) (w_dbi_part i ++ rest).
Proof.
  intros B0 B Hd T. destruct (reads_patterns (if_spec i0) order (if_pat i0) (if_pat i) (sb_pat _ _ B0) (sb_pat _ _ B) T) as (h' & R & L). exists h'. split; [exact L|].
  intros rest. unfold w_iface, r_iface. rewrite <- !app_assoc. cbn [app].
  change (I_u64 (if_last i) :: ?l) with ([I_u64 (if_last i)] ++ l). rewrite run_bind with (x := if_last i) by item.
  rewrite run_bind with (x := h') by exact R.
  rewrite run_bind with (x := if_cmd i) by (destruct (sb_cmd _ _ B); now apply reads_bus).
  rewrite run_bind with (x := if_data i) by (destruct (sb_data _ _ B) as [[X1 X2] [X3 X4]]; now apply reads_data).
  rewrite (run_bind _ _ _ _ _ (reads_clock (if_rdqs i0) (if_rdqs i))). rewrite (same_clock _ _ (sb_rdqs _ _ B)).
  rewrite (run_bind _ _ _ _ _ (reads_clock (second_clock i0) (second_clock i))).
  rewrite (run_bind _ _ _ _ _ (reads_clock (if_clock i0) (if_clock i))). rewrite (same_clock _ _ (sb_clock _ _ B)).
  unfold second_clock. rewrite (sb_spec _ _ B), (hd_meta _ _ Hd), (hd_on _ _ Hd).
  pose proof (hd_wck _ _ Hd) as W1. pose proof (hd_wdqs _ _ Hd) as W2. destruct (has_wck (fi_std (if_spec i0))) eqn:Hw.
  - rewrite (same_clock _ _ (sb_wck _ _ B)), (W2 eq_refl). reflexivity.
  - rewrite (same_clock _ _ (sb_wdqs _ _ B)), (W1 eq_refl). reflexivity.
Qed.
Lemma new_ddr4 p sim i0 : iface_new p sim = Value i0 -> fi_std (if_spec i0) = DDR4 -> if_dbi i0 <> None.
Proof.
  unfold iface_new. cbv zeta. intros N. repeat (apply bind_inv in N as (? & ? & N)). apply value_eq in N. subst i0. cbn in *.
  intros E. unfold new_dbi in *. rewrite E in *. match goal with H : bind (dbi_if_new _ _ _ _) _ = Value ?x |- ?x <> None => apply bind_inv in H as (? & _ & H); apply value_eq in H; subst x end. discriminate.
Qed.
Lemma checkpoint_alike p sim i0 xs i order rest :
  iface_new p sim = Value i0 -> calls_run xs i0 = Value i -> forallb (kept (fi_std p)) xs = true -> traversal order (settings_of (if_pat i)) ->
  if beats_ok i then exists j, r_iface i0 (w_iface order i ++ rest) = Got j rest /\ alike (if_spec i0) i j
  else r_iface i0 (w_iface order i ++ rest) = BadBool.
Proof.
  intros N H K T. destruct (new_build _ _ _ N) as (B0 & S & A). pose proof (run_build _ _ _ _ _ N H) as B. pose proof (run_hidden _ _ _ _ _ N H K) as Hd.
  destruct (read_front order i0 i B0 B Hd T) as (h' & L & R). destruct (beats_ok i) eqn:E.
  - eexists. split.
    + rewrite R. rewrite (run_bind _ _ _ _ _ (reads_dbi_part i0 i B Hd A (new_ddr4 _ _ _ N) E)). reflexivity.
    + split; [exact (sb_spec _ _ B)|]. split; [reflexivity|exact L].
  - rewrite R. apply bad_bind. now apply bad_dbi_part.
Qed.
Lemma checkpoint p sim i0 xs i order rest :
  iface_new p sim = Value i0 -> calls_run xs i0 = Value i -> forallb (kept (fi_std p)) xs = true -> traversal order (settings_of (if_pat i)) ->
  if beats_ok i then exists j, r_iface i0 (w_iface order i ++ rest) = Got j rest /\ forall later, watch later j = watch later i
  else r_iface i0 (w_iface order i ++ rest) = BadBool.
Proof.
  intros N H K T. pose proof (checkpoint_alike p sim i0 xs i order rest N H K T) as C. destruct (beats_ok i); [|exact C].
  destruct C as (j & R & A). exists j. split; [exact R|]. intros later. exact (watch_alike _ later i j A).
Qed.

Lemma beats_kept i : beats_ok i = true <-> Forall (fun b => b <= 1) (kept_beats i).
Proof.
  unfold beats_ok, kept_beats, beat_ok. destruct (fi_std (if_spec i)), (if_dbi i); try (split; [constructor|reflexivity]).
  rewrite andb_true_iff, !forallb_forall, Forall_app, !Forall_forall. setoid_rewrite N.leb_le. reflexivity.
Qed.
Lemma checkpoint_kept p sim i0 xs i order rest :
  iface_new p sim = Value i0 -> calls_run xs i0 = Value i -> forallb (kept (fi_std p)) xs = true -> traversal order (settings_of (if_pat i)) ->
  Forall (fun b => b <= 1) (kept_beats i) ->
  exists j, r_iface i0 (w_iface order i ++ rest) = Got j rest /\ forall later, watch later j = watch later i.
Proof. intros N H K T B. apply beats_kept in B. pose proof (checkpoint p sim i0 xs i order rest N H K T) as C. now rewrite B in C. Qed.
Lemma checkpoint_undefined p sim i0 xs i order rest :
  iface_new p sim = Value i0 -> calls_run xs i0 = Value i -> forallb (kept (fi_std p)) xs = true -> traversal order (settings_of (if_pat i)) ->
  Exists (fun b => 1 < b) (kept_beats i) -> r_iface i0 (w_iface order i ++ rest) = BadBool.
Proof.
  intros N H K T B. pose proof (checkpoint p sim i0 xs i order rest N H K T) as C. destruct (beats_ok i) eqn:E; [|exact C].
  apply beats_kept in E. rewrite Forall_forall in E. apply Exists_exists in B as (b & B1 & B2). specialize (E b B1). lia.
Qed.

(* Without inversion there is no last beat. *)
Lemma call_asleep x i i' : asleep (if_dbi i) -> no_inversion x = true -> call_do x i = Value i' -> asleep (if_dbi i').
Proof.
  intros A K H. destruct x as [c|e|a b|e|t|t]; cbn [call_do] in H.
  - unfold if_command in H. apply bind_inv in H as (y & Y & H). apply value_eq in H. subst i'. cbn [if_with_last if_dbi].
    destruct (routing (if_spec i) (cmd_type c)) as [|read| | | |]; try discriminate.
    + unfold handle_command_bus in Y. destruct (if_pat i) as [h|h]; apply bind_inv in Y as (w & _ & Y); apply bind_inv in Y as (v & _ & Y); apply value_eq in Y; subst y; exact A.
    + unfold handle_data in Y. apply bind_inv in Y as ([x n] & X & Y). cbn [fst snd] in Y. apply bind_inv in Y as (y2 & Y2 & Y). apply bind_inv in Y as (z & Z & Y).
      assert (asleep (if_dbi x)) as Ax.
      { clear Y2 Z Y. unfold handle_burst in X. cbv zeta in X. destruct (cmd_sz_bits c =? 0).
        - destruct (d_mode (if_data i)).
          + apply value_eq in X. injection X as <- _. exact A.
          + apply bind_inv in X as (d & _ & X). apply value_eq in X. injection X as <- _. exact A.
        - destruct (bus_lines i =? 0); [discriminate|]. apply bind_inv in X as ([v l] & I & X). cbn [fst snd] in X.
          assert (v = if_dbi i) as ->.
          { unfold invert_data in I. destruct (if_dbi i) as [x1|] eqn:I0; [|apply value_eq in I; congruence].
            destruct (A x1 eq_refl) as (_ & _ & E). rewrite E, andb_false_r in I. apply value_eq in I. congruence. }
          destruct (fi_std (if_spec i)).
          5: { apply bind_inv in X as (f & _ & X). apply bind_inv in X as (d & _ & X). apply value_eq in X. injection X as <- _. exact A. }
          all: apply bind_inv in X as (d & _ & X); apply value_eq in X; injection X as <- _; exact A. }
      assert (if_dbi y2 = if_dbi x) as E2.
      { clear - Y2. unfold handle_dqs in Y2. cbv zeta in Y2. destruct (fi_std (if_spec x)).
        1-3: destruct read; apply bind_inv in Y2 as (k & _ & Y2); apply value_eq in Y2; now subst y2.
        all: apply bind_inv in Y2 as (r & _ & Y2); apply bind_inv in Y2 as (k & _ & Y2); apply value_eq in Y2; now subst y2. }
      assert (if_dbi z = if_dbi y2) as E3.
      { clear - Z. destruct (overrides_spec y2 n read) as [h E]. rewrite E in Z. unfold handle_command_bus in Z. cbn [if_pat if_with_pat if_with_cmd] in Z.
        destruct h as [h|h]; apply bind_inv in Z as (w & _ & Z); apply bind_inv in Z as (v & _ & Z); apply value_eq in Z; now subst z. }
      assert (if_dbi y = if_dbi z) as E4.
      { clear - Y. destruct (fi_std (if_spec z)); try (apply value_eq in Y; now subst).
        apply check_inv in Y as [_ Y]. apply bind_inv in Y as (r & _ & Y). apply bind_inv in Y as (r' & _ & Y). apply value_eq in Y. now subst y. }
      rewrite E4, E3, E2. exact Ax.
    + unfold end_of_simulation in Y. destruct (if_dbi i) as [x1|] eqn:I.
      * apply bind_inv in Y as (x2 & X & Y). apply value_eq in Y. subst y. cbn. apply end_asleep in X; [|exact A]. now subst.
      * apply value_eq in Y. subst y. rewrite I. exact A.
    + apply value_eq in Y. now subst.
  - apply value_eq in H. subst i'. unfold if_enable_dbi. destruct (if_dbi i) as [x1|] eqn:I; [|cbn [fst]; rewrite I; exact A].
    destruct (match fi_std (if_spec i) with DDR4 => _ | _ => _ end); [cbn [fst]; rewrite I; exact A|].
    cbn. intros y E. injection E as <-. destruct (A x1 eq_refl) as (R & W & _). cbn. cbn [no_inversion] in K. destruct e; [discriminate|auto].
  - apply value_eq in H. now subst.
  - unfold if_set_parity in H. apply check_inv in H as [_ H]. destruct (if_pat i) as [h|h]; apply value_eq in H; now subst i'.
  - unfold if_enable in H. destruct (if_enabled i); [apply value_eq in H; now subst|]. apply bind_inv in H as (k & _ & H). apply bind_inv in H as (k' & _ & H). apply value_eq in H. now subst.
  - unfold if_disable in H. destruct (if_enabled i); [|apply value_eq in H; now subst]. apply bind_inv in H as (k & _ & H). apply bind_inv in H as (k' & _ & H). apply value_eq in H. now subst.
Qed.
Lemma no_beats p sim i0 xs i : iface_new p sim = Value i0 -> calls_run xs i0 = Value i -> forallb no_inversion xs = true -> kept_beats i = [].
Proof.
  intros N H K. destruct (new_build _ _ _ N) as (_ & _ & A). rewrite forallb_forall in K.
  assert (asleep (if_dbi i)) as Ai.
  { refine (loop_keeps (fun i => asleep (if_dbi i)) _ _ _ _ _ A H). intros x a a' X B E. eapply call_asleep; eauto. }
  unfold kept_beats. destruct (fi_std (if_spec i)), (if_dbi i) as [x|]; try reflexivity. destruct (Ai x eq_refl) as (-> & -> & _). reflexivity.
Qed.
Lemma checkpoint_plain p sim i0 xs i order rest :
  iface_new p sim = Value i0 -> calls_run xs i0 = Value i -> forallb (kept (fi_std p)) xs = true -> forallb no_inversion xs = true ->
  traversal order (settings_of (if_pat i)) ->
  exists j, r_iface i0 (w_iface order i ++ rest) = Got j rest /\ forall later, watch later j = watch later i.
Proof. intros N H K I T. eapply checkpoint_kept; try eassumption. rewrite (no_beats _ _ _ _ _ N H I). constructor. Qed.

(* ---- any history: what comes back ---- *)

Lemma read_any order i0 i : same_build i0 i0 -> same_build i0 i -> traversal order (settings_of (if_pat i)) ->
  exists h', pat_like (if_spec i0) (if_pat i) h' /\ forall rest, r_iface i0 (w_iface order i ++ rest) =
    r_bind (r_dbi_part i0) (fun x => r_ret (mkIface (if_spec i) (if_cmd i) (if_data i) (if_rdqs i)
      (if_wdqs (if has_write_strobe (fi_std (if_spec i)) then i else i0)) (if_wck (if has_write_strobe (fi_std (if_spec i)) then i0 else i)) (if_clock i)
      (fst x) (snd x) h' (if_last i) (if_meta i0) (if_buf i0) (if_enabled i0))) (w_dbi_part i ++ rest).
Proof.
  intros B0 B T. destruct (reads_patterns (if_spec i0) order (if_pat i0) (if_pat i) (sb_pat _ _ B0) (sb_pat _ _ B) T) as (h' & R & L). exists h'. split; [exact L|].
  intros rest. unfold w_iface, r_iface. rewrite <- !app_assoc. cbn [app].
  change (I_u64 (if_last i) :: ?l) with ([I_u64 (if_last i)] ++ l). rewrite run_bind with (x := if_last i) by item.
  rewrite run_bind with (x := h') by exact R.
  rewrite run_bind with (x := if_cmd i) by (destruct (sb_cmd _ _ B); now apply reads_bus).
  rewrite run_bind with (x := if_data i) by (destruct (sb_data _ _ B) as [[X1 X2] [X3 X4]]; now apply reads_data).
  rewrite (run_bind _ _ _ _ _ (reads_clock (if_rdqs i0) (if_rdqs i))). rewrite (same_clock _ _ (sb_rdqs _ _ B)).
  rewrite (run_bind _ _ _ _ _ (reads_clock (second_clock i0) (second_clock i))).
  rewrite (run_bind _ _ _ _ _ (reads_clock (if_clock i0) (if_clock i))). rewrite (same_clock _ _ (sb_clock _ _ B)).
  unfold second_clock. rewrite (sb_spec _ _ B).
  destruct (fi_std (if_spec i0)); cbn [has_wck has_write_strobe];
    first [rewrite (same_clock _ _ (sb_wck _ _ B)); reflexivity | rewrite (same_clock _ _ (sb_wdqs _ _ B)); reflexivity].
Qed.
Lemma reads_dbi_any i0 i : same_build i0 i -> asleep (if_dbi i0) -> (fi_std (if_spec i0) = DDR4 -> if_dbi i0 <> None) -> beats_ok i = true ->
  reads (r_dbi_part i0) (w_dbi_part i) (if_dbi (if in_stream (fi_std (if_spec i)) then i else i0), if_ranks (if in_stream (fi_std (if_spec i)) then i else i0)).
Proof.
  intros B A D4 K. pose proof (sb_spec _ _ B) as S. unfold r_dbi_part, w_dbi_part, beats_ok in *. rewrite S in *. pose proof (sb_dbi _ _ B) as D. pose proof (sb_ranks _ _ B) as R.
  destruct (fi_std (if_spec i0)) eqn:St; cbn [in_stream]; try apply reads_ret.
  destruct (if_dbi i0) as [x0|]; [|exfalso; now apply D4]. destruct (if_dbi i) as [x|] eqn:Ix; [|contradiction].
  destruct D as (C & Rt & P & Q & [C1 C2]). destruct (A x0 eq_refl) as (A1 & A2 & _). apply andb_true_iff in K as [K1 K2].
  eapply reads_bind; [apply reads_dbi; rewrite ?A1, ?A2; try reflexivity; eassumption|].
  eapply reads_bind; [apply reads_each, ranks_reads, R|]. eapply reads_bind; [apply reads_each, pins_reads, P|].
  eapply reads_bind_last; [apply reads_each, pins_reads, Q|]. rewrite Rt. destruct x. apply reads_ret.
Qed.
Lemma checkpoint_any_alike p sim i0 xs i order rest :
  iface_new p sim = Value i0 -> calls_run xs i0 = Value i -> traversal order (settings_of (if_pat i)) ->
  if beats_ok i then exists j, r_iface i0 (w_iface order i ++ rest) = Got j rest /\ alike (if_spec i0) (forgetful i0 i) j
  else r_iface i0 (w_iface order i ++ rest) = BadBool.
Proof.
  intros N H T. destruct (new_build _ _ _ N) as (B0 & S & A). pose proof (run_build _ _ _ _ _ N H) as B.
  destruct (read_any order i0 i B0 B T) as (h' & L & R). destruct (beats_ok i) eqn:E.
  - eexists. split.
    + rewrite R. rewrite (run_bind _ _ _ _ _ (reads_dbi_any i0 i B A (new_ddr4 _ _ _ N) E)). reflexivity.
    + split; [exact (sb_spec _ _ B)|]. split; [reflexivity|exact L].
  - rewrite R. apply bad_bind. now apply bad_dbi_part.
Qed.
Lemma checkpoint_any p sim i0 xs i order rest :
  iface_new p sim = Value i0 -> calls_run xs i0 = Value i -> traversal order (settings_of (if_pat i)) ->
  (Forall (fun b => b <= 1) (kept_beats i) /\ exists j, r_iface i0 (w_iface order i ++ rest) = Got j rest /\ forall later, watch later j = watch later (forgetful i0 i)) \/
  (Exists (fun b => 1 < b) (kept_beats i) /\ r_iface i0 (w_iface order i ++ rest) = BadBool).
Proof.
  intros N H T. pose proof (checkpoint_any_alike p sim i0 xs i order rest N H T) as C. destruct (beats_ok i) eqn:E.
  - left. split; [now apply beats_kept|]. destruct C as (j & R & A). exists j. split; [exact R|]. intros later. exact (watch_alike _ later _ j A).
  - right. split; [|exact C]. apply not_true_iff_false in E. rewrite beats_kept in E.
    destruct (Exists_dec (fun b => 1 < b) (kept_beats i)) as [X|X]; [intros x; destruct (1 <? x) eqn:Y; [left; now apply N.ltb_lt|right; now apply N.ltb_ge in Y; apply N.le_ngt]|exact X|].
    exfalso. apply E. apply Forall_Exists_neg in X. eapply Forall_impl; [|exact X]. cbn. intros a. lia.
Qed.
