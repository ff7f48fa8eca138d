(* Runs of an interface, component by component. *)
From Coq Require Import NArith List Bool Arith Lia.
From Verif Require Import Base Command CoreModel Bits BusModel WaveSpec BitFacts StorageProofs BusProofs BusMore ClockProofs ToggleModel ToggleProofs DataProofs
  PinModel DbiModel DbiPinModel PatternModel PatternTables PatternSpec PatternProofs FormatModel InterfaceModel InterfaceSpec InterfaceCa.
Import ListNotations.
Local Open Scope N_scope.
Ltac Zify.zify_post_hook ::= idtac.

(* ---- an accepted load ---- *)
Lemma load_extends max width rate idle ls b l b' : (0 < width <= max)%nat -> N.of_nat width < two64 -> 0 < rate -> bounded width idle ->
  bus_inv max width rate idle ls b -> load_ok width rate l -> bus_load b (lo_time l) (lo_data l) (lo_bits l) = Value b' ->
  b_last_load b + N.of_nat (bc_count (b_store b)) <= lo_time l * rate /\ bus_inv max width rate idle (ls ++ [l]) b' /\
  b_last_load b' + N.of_nat (bc_count (b_store b')) = lo_time l * rate + N.of_nat (Nat.div (lo_bits l) width).
Proof.
  intros Hw H64 Hr Hi B L E.
  assert (b_last_load b + N.of_nat (bc_count (b_store b)) <= lo_time l * rate) as O.
  { pose proof E as E'. unfold bus_load in E'. rewrite (bi_on _ _ _ _ _ _ B), (bi_rate _ _ _ _ _ _ B) in E'.
    destruct (N.eqb_spec rate 0) as [|_]; [lia|]. apply check_inv in E' as [_ E']. apply check_inv in E' as [O _].
    pose proof (bi_end _ _ _ _ _ _ B) as En. destruct L as (_ & _ & L3).
    unfold u64_mul, u64_add in O. rewrite (N.mod_small (lo_time l * rate)) in O by (eapply N.le_lt_trans; [apply N.le_add_r|exact L3]). rewrite (N.mod_small (_ + _)) in O by exact En.
    now apply N.leb_le in O. }
  split; [exact O|].
  destruct (load_ok_inv max width rate idle Hw H64 Hr Hi ls b l B L O) as (b1 & E1 & B1 & L1 & C1).
  assert (b1 = b') as -> by congruence. split; [exact B1|]. now rewrite L1, C1.
Qed.

(* ---- invariants of a run ---- *)
Definition is_busmode (i : iface) : bool := is_bus (d_mode (if_data i)).
Definition ca_max (s : standard) : nat := ca_pins s.
Definition rest (s : standard) : N := idle_word (ca_pins s) (ca_rests_high s).

Record run_inv (p : ifspec) (bus : bool) (i0 : iface) (xs : list call) (i : iface) : Prop := {
  rn_spec : if_spec i = p;
  rn_mode : is_busmode i = bus;
  rn_pat : pat_inv p (if_pat i);
  rn_cmd : exists ls, bus_inv (ca_pins (fi_std p)) (ca_pins (fi_std p)) (ca_beats (fi_std p)) (rest (fi_std p)) ls (if_cmd i) /\
             map (drive_of (ca_pins (fi_std p)) (ca_beats (fi_std p))) ls = ca_drives p bus (commands xs) /\
             well_timed (ca_pins (fi_std p)) (ca_beats (fi_std p)) 0 ls /\
             b_last_load (if_cmd i) + N.of_nat (bc_count (b_store (if_cmd i))) = load_end (ca_pins (fi_std p)) (ca_beats (fi_std p)) ls;
  rn_rdqs : clock_run (strobe p bus wants_read (commands xs)) (if_rdqs i0) = Value (if_rdqs i);
  rn_wdqs : if two_clocks (fi_std p) then if_wdqs i = if_wdqs i0
            else clock_run (strobe p bus negb (commands xs)) (if_wdqs i0) = Value (if_wdqs i);
  rn_wck : two_clocks (fi_std p) = true -> clock_run (if fi_wck_on p then switching (if_enabled i0) xs else strobe p bus wants_any (commands xs)) (if_wck i0) = Value (if_wck i);
  rn_clock : clock_run (switching (if_enabled i0) xs) (if_clock i0) = Value (if_clock i);
  rn_on : if_enabled i = fold_left (fun on x => match x with Enable _ => true | Disable _ => false | _ => on end) xs (if_enabled i0)
}.

Lemma well_timed_snoc width rate l : forall ls e, well_timed width rate e ls ->
  fold_left (fun _ l => lo_time l * rate + N.of_nat (Nat.div (lo_bits l) width)) ls e <= lo_time l * rate -> well_timed width rate e (ls ++ [l]).
Proof. induction ls as [|a ls IH]; intros e H L; cbn [app well_timed fold_left] in *; [auto|]. destruct H as [H1 H2]. split; [exact H1|]. now apply IH. Qed.

Lemma clock_run_app ops ops' k k1 k2 : clock_run ops k = Value k1 -> clock_run ops' k1 = Value k2 -> clock_run (ops ++ ops') k = Value k2.
Proof. intros H H'. unfold clock_run in *. rewrite loop_app, H. exact H'. Qed.

Definition on_after (on : bool) (xs : list call) : bool := fold_left (fun on x => match x with Enable _ => true | Disable _ => false | _ => on end) xs on.
Lemma switching_app xs ys : forall on, switching on (xs ++ ys) = switching on xs ++ switching (on_after on xs) ys.
Proof.
  induction xs as [|x xs IH]; intros on; [reflexivity|]. cbn [app switching on_after fold_left]. destruct x; rewrite IH; rewrite ?app_assoc; reflexivity.
Qed.
Lemma commands_app xs ys : commands (xs ++ ys) = commands xs ++ commands ys.
Proof. apply flat_map_app. Qed.
Lemma strobe_app p bus want cs cs' : strobe p bus want (cs ++ cs') = strobe p bus want cs ++ strobe p bus want cs'.
Proof. apply flat_map_app. Qed.
Lemma drives_app p bus cs cs' : ca_drives p bus (cs ++ cs') = ca_drives p bus cs ++ ca_drives p bus cs'.
Proof. apply flat_map_app. Qed.

Lemma pins_ok s : (0 < ca_pins s <= ca_pins s)%nat /\ N.of_nat (ca_pins s) < two64 /\ 0 < ca_beats s.
Proof. destruct s; cbn; repeat split; lia. Qed.

Lemma run_step p bus i0 xs x i i' : sizes_ok p -> (fi_std p = LPDDR6 -> fi_groups p = 4) ->
  (forall c, x = Do c -> command_ok p bus c) ->
  run_inv p bus i0 xs i -> call_do x i = Value i' -> run_inv p bus i0 (xs ++ [x]) i'.
Proof.
  intros Sz G Ok V E. destruct V as [Vs Vm Vp Vc Vr Vw Vk Vt Vo].
  destruct x as [c|e|a b|e|t|t]; cbn [call_do] in E.
  - destruct (Ok c eq_refl) as [O1 O2]. destruct Vc as (ls & B & D & T & L).
    assert (effect p bus c i i') as F by (apply command_effect; auto; exact (bi_width _ _ _ _ _ _ B)). destruct F as [Fs Ft Fp Fm Fc Fr Fw Fk Fd Fl].
    assert (if_enabled i' = if_enabled i) as En.
    { unfold if_command in E. apply bind_inv in E as (j & E & J). injection J as <-. cbn [if_with_last if_enabled]. clear -E.
      destruct (routing (if_spec i) (cmd_type c)); try discriminate; try congruence.
      - unfold handle_command_bus in E. destruct (if_pat i); apply bind_inv in E as (x & _ & E); apply bind_inv in E as (b & _ & E); injection E as <-; reflexivity.
      - unfold handle_data in E. apply bind_inv in E as (x & B & E). apply bind_inv in E as (i1 & Q & E). apply bind_inv in E as (i2 & C & E).
        assert (if_enabled (fst x) = if_enabled i) as <-.
        { unfold handle_burst in B. destruct (cmd_sz_bits c =? 0).
          - destruct (d_mode (if_data i)); [injection B as <-; reflexivity|]. apply bind_inv in B as (d & _ & B). injection B as <-. reflexivity.
          - destruct (bus_lines i =? 0); [discriminate|]. apply bind_inv in B as (v & _ & B). cbv zeta in B.
            destruct (fi_std (if_spec i)); try (apply bind_inv in B as (d & _ & B); injection B as <-; reflexivity).
            apply bind_inv in B as (f & _ & B). apply bind_inv in B as (d & _ & B). injection B as <-. reflexivity. }
        assert (if_enabled i1 = if_enabled (fst x)) as <-.
        { unfold handle_dqs in Q. destruct (fi_std (if_spec (fst x)));
            try (destruct read; apply bind_inv in Q as (d & _ & Q); injection Q as <-; reflexivity);
            apply bind_inv in Q as (d & _ & Q); apply bind_inv in Q as (d' & _ & Q); injection Q as <-; reflexivity. }
        assert (if_enabled i2 = if_enabled i1) as <-.
        { assert (if_enabled (handle_overrides i1 (snd x) read) = if_enabled i1) as <- by (destruct (overrides_spec i1 (snd x) read) as [h ->]; reflexivity).
          clear -C. unfold handle_command_bus in C. destruct (if_pat (handle_overrides i1 (snd x) read)); apply bind_inv in C as (z & _ & C); apply bind_inv in C as (b & _ & C); injection C as <-; reflexivity. }
        destruct (fi_std (if_spec i2)); try (injection E as <-; reflexivity).
        apply check_inv in E as [_ E]. apply bind_inv in E as (r1 & _ & E). apply bind_inv in E as (r2 & _ & E). injection E as <-. reflexivity.
      - unfold end_of_simulation in E. destruct (if_dbi i); [|congruence]. apply bind_inv in E as (z & _ & E). injection E as <-. reflexivity. }
    constructor.
    + congruence.
    + unfold is_busmode in *. congruence.
    + exact Fp.
    + rewrite commands_app, drives_app. cbn [commands flat_map app ca_drives]. rewrite !app_nil_r.
      destruct (silent (fi_std p) (cmd_type c)).
      * exists ls. rewrite app_nil_r, Fc. auto.
      * destruct Fc as (bytes & len & L1 & L2 & L3 & L4 & L5).
        set (l := mkLoad (cmd_ts c) bytes (len * ca_pins (fi_std p))).
        destruct (pins_ok (fi_std p)) as (P1 & P2 & P3).
        assert (load_ok (ca_pins (fi_std p)) (ca_beats (fi_std p)) l) as Lo.
        { unfold load_ok, l. cbn [lo_bits lo_data lo_time]. rewrite Nat.div_mul by lia. split; [nia|]. split; [exact L3|].
          assert (len <= 64)%nat by nia. lia. }
        destruct (load_extends _ _ _ _ ls (if_cmd i) l (if_cmd i') P1 P2 P3 (word_of_bound _ _) B Lo L4) as (X1 & X2 & X3).
        exists (ls ++ [l]). split; [exact X2|]. split; [|split].
        -- rewrite map_app, D. cbn [map]. unfold drive_of at 1, l. cbn [lo_time lo_data lo_bits]. now rewrite L5.
        -- apply well_timed_snoc; [exact T|]. fold (load_end (ca_pins (fi_std p)) (ca_beats (fi_std p)) ls). rewrite <- L. exact X1.
        -- rewrite X3. unfold load_end. rewrite fold_left_app. reflexivity.
    + rewrite commands_app, strobe_app. eapply clock_run_app; [exact Vr|exact Fr].
    + rewrite commands_app, strobe_app. destruct (two_clocks (fi_std p)); [congruence|]. eapply clock_run_app; [exact Vw|exact Fw].
    + intros Tc. specialize (Vk Tc). rewrite Tc in Fk. cbn [andb] in Fk. destruct (fi_wck_on p); cbn [negb] in Fk.
      * rewrite switching_app. cbn [switching]. rewrite app_nil_r, Fk. exact Vk.
      * rewrite commands_app, strobe_app. eapply clock_run_app; [exact Vk|exact Fk].
    + rewrite switching_app. cbn [switching]. rewrite app_nil_r, Ft. exact Vt.
    + rewrite fold_left_app. cbn [fold_left]. congruence.
  - injection E as <-.
    assert (forall z, if_with_dbi i z = if_with_dbi i z -> True) as _ by auto.
    assert (exists z, fst (if_enable_dbi e i) = if_with_dbi i z) as [z ->].
    { unfold if_enable_dbi. destruct (if_dbi i) as [y|] eqn:Y.
      - destruct (match fi_std (if_spec i) with DDR4 => _ | _ => _ end); [|eexists; reflexivity]. exists (Some y). rewrite <- Y. destruct i; reflexivity.
      - exists None. rewrite <- Y. destruct i; reflexivity. }
    constructor; cbn [if_with_dbi if_with_data if_spec if_pat if_cmd if_rdqs if_wdqs if_wck if_clock if_enabled]; rewrite ?commands_app, ?switching_app; cbn [commands flat_map switching]; rewrite ?app_nil_r; auto.
    rewrite fold_left_app. exact Vo.
  - injection E as <-.
    constructor; cbn [if_set_meta if_spec if_pat if_cmd if_rdqs if_wdqs if_wck if_clock if_enabled]; rewrite ?commands_app, ?switching_app; cbn [commands flat_map switching]; rewrite ?app_nil_r; auto.
    rewrite fold_left_app. exact Vo.
  - unfold if_set_parity in E. apply check_inv in E as [_ E].
    assert (exists h, i' = if_with_pat i h /\ pat_inv p h) as (h & -> & Hp).
    { destruct (if_pat i) as [h|h] eqn:P; injection E as <-.
      - exists (Pat h). split; [rewrite <- P; destruct i; reflexivity|exact Vp].
      - eexists. split; [reflexivity|]. exact Vp. }
    constructor; cbn [if_with_pat if_with_cmd if_spec if_pat if_cmd if_rdqs if_wdqs if_wck if_clock if_enabled]; rewrite ?commands_app, ?switching_app; cbn [commands flat_map switching]; rewrite ?app_nil_r; auto.
    rewrite fold_left_app. exact Vo.
  - unfold if_enable in E.
    assert (on_after (if_enabled i0) xs = if_enabled i) as On by (unfold on_after; congruence).
    destruct (if_enabled i) eqn:Ei.
    + injection E as <-. constructor; rewrite ?commands_app, ?switching_app; cbn [commands flat_map switching]; rewrite ?On, ?app_nil_r; auto.
      rewrite fold_left_app. cbn [fold_left]. exact Ei.
    + rewrite Vs in E. apply bind_inv in E as (k & K & E). apply bind_inv in E as (t' & K' & E). injection E as <-.
      constructor; cbn [if_spec if_pat if_cmd if_rdqs if_wdqs if_wck if_clock if_enabled]; rewrite ?commands_app, ?switching_app; cbn [commands flat_map switching]; rewrite ?On, ?app_nil_r; auto.
      * intros Tc. specialize (Vk Tc). destruct (fi_wck_on p); [|congruence]. eapply clock_run_app; [exact Vk|]. unfold clock_run. cbn [loop clock_do]. now rewrite K.
      * eapply clock_run_app; [exact Vt|]. unfold clock_run. cbn [loop clock_do]. now rewrite K'.
      * rewrite fold_left_app. reflexivity.
  - unfold if_disable in E.
    assert (on_after (if_enabled i0) xs = if_enabled i) as On by (unfold on_after; congruence).
    destruct (if_enabled i) eqn:Ei.
    + rewrite Vs in E. apply bind_inv in E as (k & K & E). apply bind_inv in E as (t' & K' & E). injection E as <-.
      constructor; cbn [if_spec if_pat if_cmd if_rdqs if_wdqs if_wck if_clock if_enabled]; rewrite ?commands_app, ?switching_app; cbn [commands flat_map switching]; rewrite ?On, ?app_nil_r; auto.
      * intros Tc. specialize (Vk Tc). destruct (fi_wck_on p); [|congruence]. eapply clock_run_app; [exact Vk|]. unfold clock_run. cbn [loop clock_do]. now rewrite K.
      * eapply clock_run_app; [exact Vt|]. unfold clock_run. cbn [loop clock_do]. now rewrite K'.
      * rewrite fold_left_app. reflexivity.
    + injection E as <-. constructor; rewrite ?commands_app, ?switching_app; cbn [commands flat_map switching]; rewrite ?On, ?app_nil_r; auto.
      rewrite fold_left_app. cbn [fold_left]. exact Ei.
Qed.

Lemma run_inv_run p bus i0 : sizes_ok p -> (fi_std p = LPDDR6 -> fi_groups p = 4) -> forall ys xs i i',
  Forall (command_ok p bus) (commands ys) -> run_inv p bus i0 xs i -> calls_run ys i = Value i' -> run_inv p bus i0 (xs ++ ys) i'.
Proof.
  intros Sz G. induction ys as [|y ys IH]; intros xs i i' F V E.
  - injection E as <-. now rewrite app_nil_r.
  - unfold calls_run in E. apply loop_cons_inv in E as (j & E1 & E2). replace (xs ++ y :: ys) with ((xs ++ [y]) ++ ys) by (now rewrite <- app_assoc).
    apply (IH _ j); [|eapply run_step; [exact Sz|exact G| |exact V|exact E1]|exact E2].
    + cbn [commands flat_map] in F. apply Forall_app in F. exact (proj2 F).
    + intros c ->. cbn [commands flat_map app] in F. now inversion F.
Qed.
