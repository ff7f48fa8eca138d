(* Proofs about a DRAM object with its extensions. *)
From Coq Require Import NArith QArith List Bool Lia.
From Verif Require Import Base Command CoreModel Bits DbiModel CoreBasics HistorySpec BusModel StatsModel ToggleModel DbiPinModel DataProofs PatternModel InterfaceModel InterfaceSpec InterfaceCa DramModel DramSpec DramProofs.
From Verif Require Import SerialModel SerialSpec SerialProofs SerialCore SerialAlike SerialIface ExtensionModel ExtensionSpec.
Import ListNotations.
Local Open Scope N_scope.
Ltac Zify.zify_post_hook ::= idtac.

(* ---- commands leave the switches alone ---- *)

Definition inverting (x : option dbi_pins_if) : option bool := option_map (fun x => db_enable (di_dbi x)) x.
Definition switches (i : iface) : option bool * (N * N) := (inverting (if_dbi i), if_meta i).
Lemma reset_enable d t read d' evs : dbi_reset d t read = Value (d', evs) -> db_enable d' = db_enable d.
Proof.
  unfold dbi_reset. intros H. repeat match type of H with
  | (if ?b then _ else _) = _ => destruct b
  | bind _ _ = _ => apply bind_inv in H as (? & ? & H)
  | check _ _ = _ => apply check_inv in H as [? H]
  | (let (_, _) := ?x in _) = _ => destruct x
  | match ?x with _ => _ end = _ => destruct x
  | Fails _ = _ => discriminate H
  end; try (apply value_eq in H; injection H as <- _; unfold db_put; destruct read; reflexivity).
Qed.
Lemma update_enable d t n data read d' evs out : dbi_update d t n data read = Value (d', evs, out) -> db_enable d' = db_enable d.
Proof.
  intros H. unfold dbi_update in H. cbv zeta in H. destruct data as [l|]; [|apply value_eq in H; now injection H as <- _ _].
  destruct (_ || _); [apply value_eq in H; now injection H as <- _ _|].
  apply bind_inv in H as ([d1 ev] & R & H). cbn [fst snd] in H. apply reset_enable in R.
  apply check_inv in H as [_ H]. destruct (Nat.ltb (length l) _); [discriminate|].
  apply bind_inv in H as (prev & _ & H). apply check_inv in H as [_ H].
  destruct (grow_inversions _ _ _) as [inv cap].
  apply bind_inv in H as (s & K & H). apply bind_inv in H as (tend & _ & H). apply value_eq in H. injection H as <- _ _.
  cbn [db_enable]. rewrite <- R. unfold db_put. now destruct read.
Qed.
Lemma deliver_enable c evs x x' : deliver c evs x = Value x' -> db_enable (di_dbi x') = db_enable (di_dbi x).
Proof.
  intros H. unfold deliver in H. refine (loop_keeps (fun y => db_enable (di_dbi y) = db_enable (di_dbi x)) _ _ _ _ _ eq_refl H).
  clear. intros e a a' _ L E. unfold pin_change_handler in E. apply check_inv in E as [_ E]. cbv zeta in E. apply bind_inv in E as (p & _ & E). apply bind_inv in E as (p' & _ & E).
  apply bind_inv in E as (l & _ & E). apply value_eq in E. subst a'. destruct (ev_read e); exact L.
Qed.
Lemma if_data_enable x t n data read y : dbi_if_data x t n data read = Value y -> db_enable (di_dbi (fst y)) = db_enable (di_dbi x).
Proof.
  intros H. unfold dbi_if_data in H. destruct data as [l|]; [|apply value_eq in H; now subst].
  destruct (_ || _); [apply value_eq in H; now subst|].
  apply bind_inv in H as ([[d evs] out] & U & H). apply bind_inv in H as (x' & D & H). apply value_eq in H. subst y. cbn [fst].
  apply deliver_enable in D. rewrite D. cbn. eapply update_enable. exact U.
Qed.
Lemma if_end_enable x t y : dbi_if_end x t = Value y -> db_enable (di_dbi y) = db_enable (di_dbi x).
Proof.
  intros H. unfold dbi_if_end in H. apply bind_inv in H as ([d evs] & U & H). cbn [fst snd] in H.
  unfold dbi_reset_both in U. apply bind_inv in U as ([d1 e1] & U1 & U). apply bind_inv in U as ([d2 e2] & U2 & U). apply value_eq in U. cbn [fst snd] in *. injection U as <- <-.
  apply deliver_enable in H. rewrite H. cbn. apply reset_enable in U1. apply reset_enable in U2. congruence.
Qed.
Lemma invert_enable i c read v l : invert_data c read i = Value (v, l) -> inverting v = inverting (if_dbi i).
Proof.
  unfold invert_data. intros H. destruct (if_dbi i) as [x|]; [|apply value_eq in H; now injection H as <- _].
  destruct (_ && _); [|apply value_eq in H; now injection H as <- _].
  apply bind_inv in H as ([x' o] & U & H). apply if_data_enable in U. apply value_eq in H. injection H as <- _. cbn in *. now rewrite U.
Qed.
Lemma command_switches c i i' : if_command c i = Value i' -> switches i' = switches i.
Proof.
  intros H. unfold if_command in H. apply bind_inv in H as (y & Y & H). apply value_eq in H. subst i'. change (switches (if_with_last y (cmd_ts c))) with (switches y).
  destruct (routing (if_spec i) (cmd_type c)) as [|read| | | |]; try discriminate.
  - unfold handle_command_bus in Y. destruct (if_pat i) as [h|h]; apply bind_inv in Y as (w & _ & Y); apply bind_inv in Y as (v & _ & Y); apply value_eq in Y; subst y; reflexivity.
  - unfold handle_data in Y. apply bind_inv in Y as ([x n] & X & Y). cbn [fst snd] in Y. apply bind_inv in Y as (y2 & Y2 & Y). apply bind_inv in Y as (z & Z & Y).
    assert (switches x = switches i) as E1.
    { clear Y2 Z Y. unfold handle_burst in X. cbv zeta in X. destruct (cmd_sz_bits c =? 0).
      - destruct (d_mode (if_data i)).
        + apply value_eq in X. now injection X as <- _.
        + apply bind_inv in X as (d & _ & X). apply value_eq in X. now injection X as <- _.
      - destruct (bus_lines i =? 0); [discriminate|]. apply bind_inv in X as ([v l] & I & X). cbn [fst snd] in X. apply invert_enable in I.
        assert (exists d buf, x = if_with_data i d v buf) as (d & buf & ->).
        { destruct (fi_std (if_spec i)).
          5: { apply bind_inv in X as (f & _ & X). apply bind_inv in X as (d & _ & X). apply value_eq in X. injection X as <- _. eauto. }
          all: apply bind_inv in X as (d & _ & X); apply value_eq in X; injection X as <- _; eauto. }
        unfold switches. cbn. now rewrite I. }
    assert (switches y2 = switches x) as E2.
    { clear - Y2. unfold handle_dqs in Y2. cbv zeta in Y2. destruct (fi_std (if_spec x)).
      1-3: destruct read; apply bind_inv in Y2 as (k & _ & Y2); apply value_eq in Y2; now subst y2.
      all: apply bind_inv in Y2 as (r & _ & Y2); apply bind_inv in Y2 as (k & _ & Y2); apply value_eq in Y2; now subst y2. }
    assert (switches z = switches y2) as E3.
    { clear - Z. destruct (InterfaceCa.overrides_spec y2 n read) as [h E]. rewrite E in Z. unfold handle_command_bus in Z. cbn [if_pat if_with_pat if_with_cmd] in Z.
      destruct h as [h|h]; apply bind_inv in Z as (w & _ & Z); apply bind_inv in Z as (v & _ & Z); apply value_eq in Z; now subst z. }
    assert (switches y = switches z) as E4.
    { clear - Y. destruct (fi_std (if_spec z)); try (apply value_eq in Y; now subst).
      apply check_inv in Y as [_ Y]. apply bind_inv in Y as (r & _ & Y). apply bind_inv in Y as (r' & _ & Y). apply value_eq in Y. now subst y. }
    congruence.
  - unfold end_of_simulation in Y. destruct (if_dbi i) as [x1|] eqn:I; [|apply value_eq in Y; now subst].
    apply bind_inv in Y as (x2 & X & Y). apply value_eq in Y. subst y. unfold switches. cbn. rewrite I. cbn. apply if_end_enable in X. now rewrite X.
  - apply value_eq in Y. now subst.
Qed.
Lemma call_switches x i i' : (match x with SetDbi _ | SetMeta _ _ => false | _ => true end) = true -> call_do x i = Value i' -> switches i' = switches i.
Proof.
  intros K H. destruct x as [c|e|a b|e|t|t]; cbn [call_do] in H; try discriminate K.
  - eapply command_switches. exact H.
  - unfold if_set_parity in H. apply check_inv in H as [_ H]. destruct (if_pat i) as [h|h]; apply value_eq in H; now subst i'.
  - unfold if_enable in H. destruct (if_enabled i); [apply value_eq in H; now subst|]. apply bind_inv in H as (k & _ & H). apply bind_inv in H as (k' & _ & H). apply value_eq in H. now subst.
  - unfold if_disable in H. destruct (if_enabled i); [|apply value_eq in H; now subst]. apply bind_inv in H as (k & _ & H). apply bind_inv in H as (k' & _ & H). apply value_eq in H. now subst.
Qed.
(* A use of the object, as the object without extensions sees it. *)
Definition seen_as (s : standard) (x : duse) : list use :=
  match x with
  | Plain u => [u]
  | DbiEnable e => match s with DDR5 => [] | _ => [Iface (SetDbi e)] end
  | MetaSet a b => match s with LPDDR6 => [Iface (SetMeta a b)] | _ => [] end
  end.
(* The manager of a standard. *)
Definition ext_of (s : standard) (e : bool) (m : N * N) : manager extension :=
  match s with
  | DDR5 => em_new
  | LPDDR6 => em_register ty_meta (X_meta (fst m) (snd m)) (em_register ty_dbi (X_dbi e) em_new)
  | _ => em_register ty_dbi (X_dbi e) em_new
  end.
Lemma use_spec p u d d' : use_do p u d = Returned d' -> if_spec (dr_if d') = if_spec (dr_if d).
Proof.
  intros H. destruct u as [c|c|x|t]; cbn [use_do] in H.
  - apply both_parts in H as [_ H]. eapply command_spec. exact H.
  - apply core_part in H as [_ H]. now rewrite H.
  - destruct (call_do x (dr_if d)) as [i|f] eqn:E; [|discriminate]. injection H as <-. cbn. eapply call_spec. exact E.
  - destruct (dram_window p t d) as [[d1 st]|f|f s] eqn:E; try discriminate. injection H as <-. apply window_parts in E as (_ & E & _). now rewrite E.
Qed.
Definition dev_shape (p : dspec) (d : device) : Prop :=
  if_spec (dr_if (dv_dram d)) = dp_if p /\ exists e m, dv_ext d = ext_of (fi_std (dp_if p)) e m.
Lemma run_one p u us d : uses_run p (u :: us) d = match use_do p u d with Returned d1 => uses_run p us d1 | CoreStops f => CoreStops f | InterfaceStops f s => InterfaceStops f s end.
Proof. cbn [uses_run]. destruct (use_do p u d); reflexivity. Qed.
Lemma set_dbi_none i e : if_dbi i = None -> fst (if_enable_dbi e i) = i.
Proof. unfold if_enable_dbi. now intros ->. Qed.
Lemma duse_step p x d d' : dev_shape p d -> duse_do p x d = Returned d' ->
  dev_shape p d' /\ uses_run p (seen_as (fi_std (dp_if p)) x) (dv_dram d) = Returned (dv_dram d').
Proof.
  intros [S (e0 & m0 & X)] H. destruct x as [u|e|a b]; cbn [duse_do seen_as] in *.
  - destruct (use_do p u (dv_dram d)) as [d1|f|f c] eqn:U; try discriminate. injection H as <-. cbn [dv_dram dv_ext]. split.
    + split; cbn; [rewrite (use_spec _ _ _ _ U); exact S|eauto].
    + rewrite run_one, U. reflexivity.
  - injection H as <-. unfold dbi_enable. rewrite X. destruct (fi_std (dp_if p)) eqn:Std; cbn [ext_of].
    2: { split; [split; [exact S|rewrite Std; eauto]|reflexivity]. }
    all: change (em_get ty_dbi _) with (Some (X_dbi e0)); cbv beta iota;
         rewrite run_one; cbn [use_do call_do]; destruct (if_enable_dbi e (dr_if (dv_dram d))) as [i ok] eqn:E; cbn [fst dv_dram dv_ext].
    all: split; [|reflexivity]; split; cbn;
         [ pose proof (call_spec (SetDbi e) (dr_if (dv_dram d)) i) as Q; cbn [call_do] in Q; rewrite E in Q; rewrite Q by reflexivity; exact S
         | rewrite Std; destruct ok; [exists e, m0|exists e0, m0]; reflexivity ].
  - injection H as <-. unfold meta_set. rewrite X. destruct (fi_std (dp_if p)) eqn:Std; cbn [ext_of].
    1-4: split; [split; [exact S|rewrite Std; eauto]|reflexivity].
    change (em_get ty_meta _) with (Some (X_meta (fst m0) (snd m0))). cbv beta iota. rewrite run_one. cbn [use_do call_do]. cbn [fst dv_dram dv_ext].
    split; [|reflexivity]. split; cbn; [exact S|]. rewrite Std. exists e0, (a mod 65536, b mod 65536). reflexivity.
Qed.
Lemma uses_app p us vs : forall d d1 d', uses_run p us d = Returned d1 -> uses_run p vs d1 = Returned d' -> uses_run p (us ++ vs) d = Returned d'.
Proof.
  induction us as [|u us IH]; intros d d1 d' H1 H2; [injection H1 as <-; exact H2|]. cbn [app]. rewrite run_one in *.
  destruct (use_do p u d); try discriminate. eapply IH; eassumption.
Qed.
Lemma duses_seen p xs : forall d d', dev_shape p d -> duses_run p xs d = Returned d' ->
  dev_shape p d' /\ uses_run p (flat_map (seen_as (fi_std (dp_if p))) xs) (dv_dram d) = Returned (dv_dram d').
Proof.
  induction xs as [|x xs IH]; intros d d' S H; cbn [duses_run flat_map] in *.
  - injection H as <-. split; [exact S|reflexivity].
  - destruct (duse_do p x d) as [d1|f|f c] eqn:E; try discriminate. destruct (duse_step p x d d1 S E) as [S1 U1]. destruct (IH d1 d' S1 H) as [S2 U2].
    split; [exact S2|]. eapply uses_app; eassumption.
Qed.
Lemma new_dbi_enable p d : new_dbi p = Value d -> inverting d = match fi_std p with DDR5 => None | _ => Some false end.
Proof.
  assert (forall c x, dbi_new c false = Value x -> db_enable x = false) as D.
  { intros c x H. unfold dbi_new in H. apply check_inv in H as [_ H]. apply value_eq in H. now subst x. }
  assert (forall c m r x, dbi_if_new c m r false = Value x -> db_enable (di_dbi x) = false) as K.
  { intros c m r x H. unfold dbi_if_new in H. apply bind_inv in H as (y & Y & H). apply D in Y.
    destruct (chunks_per_width c) as [n|]; [|discriminate]. cbv zeta in H. apply value_eq in H. subst x. exact Y. }
  unfold new_dbi. destruct (fi_std p); intros E;
    try (apply bind_inv in E as (x & E & V); apply value_eq in V; subst d; unfold inverting, option_map; rewrite (K _ _ _ _ E); reflexivity).
  - apply value_eq in E. now subst d.
  - apply bind_inv in E as (x & E & V). apply value_eq in V. subst d. unfold inverting, option_map, di_dbi. rewrite (D _ _ E). reflexivity.
Qed.
Lemma new_switches p sim i : iface_new p sim = Value i -> if_meta i = (0, 0) /\ inverting (if_dbi i) = match fi_std p with DDR5 => None | _ => Some false end.
Proof.
  unfold iface_new. cbv zeta. intros H. apply bind_inv in H as (cmd & _ & H). apply bind_inv in H as (max & _ & H). apply bind_inv in H as (data & _ & H).
  apply bind_inv in H as (wck & _ & H). apply bind_inv in H as (d & E & H). apply value_eq in H. subst i. cbn [if_meta if_dbi]. split; [reflexivity|exact (new_dbi_enable _ _ E)].
Qed.
Lemma device_new_shape p d : device_new p = Value d -> dev_shape p d /\ dram_new p = Value (dv_dram d) /\ dv_ext d = ext_of (fi_std (dp_if p)) false (0, 0) /\
  switches (dr_if (dv_dram d)) = (match fi_std (dp_if p) with DDR5 => None | _ => Some false end, (0, 0)).
Proof.
  unfold device_new. intros H. apply bind_inv in H as (d1 & D & H). apply value_eq in H. subst d. cbn [dv_dram dv_ext].
  pose proof D as D'. unfold dram_new in D. apply bind_inv in D as (i & I & D). apply value_eq in D. subst d1. cbn [dr_if].
  pose proof (new_switches _ _ _ I) as (M & V). destruct (new_build _ _ _ I) as (_ & S & _).
  assert (register_extensions i = ext_of (fi_std (dp_if p)) false (0, 0)) as R.
  { unfold register_extensions. rewrite S, M. destruct (fi_std (dp_if p)); reflexivity. }
  split; [split; [exact S|exists false, (0, 0); exact R]|]. split; [exact D'|]. split; [exact R|]. unfold switches. now rewrite M, V.
Qed.
(* The extensions and the interface agree. *)
Definition agree (p : dspec) (e : bool) (m : N * N) (d : device) : Prop :=
  let s := fi_std (dp_if p) in
  if_spec (dr_if (dv_dram d)) = dp_if p /\
  dv_ext d = ext_of s e m /\ switches (dr_if (dv_dram d)) = (match s with DDR5 => None | _ => Some e end, match s with LPDDR6 => m | _ => (0, 0) end).
Lemma use_switches p u d d' : through_extensions (Plain u) = true -> use_do p u d = Returned d' -> switches (dr_if d') = switches (dr_if d).
Proof.
  intros T H. destruct u as [c|c|x|t]; cbn [use_do] in H.
  - apply both_parts in H as [_ H]. eapply command_switches. exact H.
  - apply core_part in H as [_ H]. now rewrite H.
  - destruct (call_do x (dr_if d)) as [i|f] eqn:E; [|discriminate]. injection H as <-. cbn. eapply call_switches; [|exact E]. destruct x; try reflexivity; discriminate T.
  - destruct (dram_window p t d) as [[d1 st]|f|f s] eqn:E; try discriminate. injection H as <-. apply window_parts in E as (_ & E & _). now rewrite E.
Qed.
Lemma enable_switches e i i' ok : if_enable_dbi e i = (i', ok) -> switches i' = (if ok then Some e else inverting (if_dbi i), if_meta i) /\
  (ok = true <-> if_dbi i <> None /\ (fi_std (if_spec i) = DDR4 -> fi_bits (if_spec i) <> 4)).
Proof.
  unfold if_enable_dbi. intros H. destruct (if_dbi i) as [x|] eqn:D.
  - destruct (match fi_std (if_spec i) with DDR4 => _ | _ => _ end) eqn:B; injection H as <- <-; unfold switches; cbn; rewrite ?D; (split; [reflexivity|]).
    + split; [discriminate|]. intros [_ F]. destruct (fi_std (if_spec i)); try discriminate B. apply N.eqb_eq in B. exfalso. now apply F.
    + split; [|reflexivity]. intros _. split; [discriminate|]. intros F. rewrite F in B. now apply N.eqb_neq.
  - injection H as <- <-. unfold switches. rewrite D. split; [reflexivity|]. split; [discriminate|]. now intros [F _].
Qed.
Lemma duse_agree p x e m d d' : agree p e m d -> through_extensions x = true -> duse_do p x d = Returned d' ->
  agree p (match x with DbiEnable e' => if can_invert (dp_if p) then e' else e | _ => e end) (match x with MetaSet a b => (a mod 65536, b mod 65536) | _ => m end) d'.
Proof.
  intros (S & X & W) T H. destruct x as [u|e'|a b]; cbn [duse_do] in H.
  - destruct (use_do p u (dv_dram d)) as [d1|f|f c] eqn:U; try discriminate. injection H as <-. split; cbn [dv_dram dv_ext]; [rewrite (use_spec _ _ _ _ U); exact S|].
    split; [exact X|]. rewrite (use_switches _ _ _ _ T U). exact W.
  - injection H as <-. unfold dbi_enable. rewrite X. unfold can_invert, agree. unfold switches in W.
    destruct (fi_std (dp_if p)) eqn:Std; cbn [ext_of].
    2: { cbn [em_get em_find em_map em_new find fst]. split; [exact S|]. split; [exact X|exact W]. }
    all: change (em_get ty_dbi _) with (Some (X_dbi e)); cbv beta iota;
         destruct (if_enable_dbi e' (dr_if (dv_dram d))) as [i ok] eqn:E; cbn [fst dv_dram dv_ext dr_if];
         pose proof (enable_switches _ _ _ _ E) as (Sw & Ok);
         assert (if_dbi (dr_if (dv_dram d)) <> None) as Some_dbi by (intros F; rewrite F in W; discriminate W);
         pose proof (call_spec (SetDbi e') (dr_if (dv_dram d)) i) as Q; cbn [call_do] in Q; rewrite E in Q; specialize (Q eq_refl); rewrite S in Q, Ok; rewrite Std in Ok;
         injection W as W1 W2.
    2-4: assert (ok = true) as -> by (apply Ok; split; [exact Some_dbi|discriminate]); split; [exact Q|]; split; [reflexivity|]; rewrite Sw, W2; reflexivity.
    destruct (fi_bits (dp_if p) =? 4) eqn:B; cbn [negb].
    + assert (ok = false) as -> by (destruct ok; [|reflexivity]; apply N.eqb_eq in B; destruct (proj1 Ok eq_refl) as [_ F]; exfalso; now apply F).
      split; [exact Q|]. split; [reflexivity|]. rewrite Sw, W1, W2. reflexivity.
    + assert (ok = true) as -> by (apply Ok; split; [exact Some_dbi|intros _; now apply N.eqb_neq]). split; [exact Q|]. split; [reflexivity|]. rewrite Sw, W2. reflexivity.
  - injection H as <-. unfold meta_set, agree. rewrite X. destruct (fi_std (dp_if p)) eqn:Std; cbn [ext_of].
    1-4: cbn [em_get em_find em_map em_new em_register em_objects find fst N.eqb ty_dbi ty_meta Pos.eqb]; (split; [exact S|]; split; [exact X|exact W]).
    change (em_get ty_meta _) with (Some (X_meta (fst m) (snd m))). cbv beta iota. cbn [dv_dram dv_ext dr_if]. split; [exact S|]. split; [reflexivity|].
    unfold switches in *. cbn. injection W as -> _. reflexivity.
Qed.
Definition dbi_from (p : ifspec) (e : bool) (xs : list duse) : bool := fold_left (fun s x => match x with DbiEnable e' => if can_invert p then e' else s | _ => s end) xs e.
Definition meta_from (m : N * N) (xs : list duse) : N * N := fold_left (fun s x => match x with MetaSet a b => (a mod 65536, b mod 65536) | _ => s end) xs m.
Lemma duses_agree p xs : forall e m d d', agree p e m d -> forallb through_extensions xs = true -> duses_run p xs d = Returned d' ->
  agree p (dbi_from (dp_if p) e xs) (meta_from m xs) d'.
Proof.
  induction xs as [|x xs IH]; intros e m d d' A T H; cbn [duses_run forallb] in *; [injection H as <-; exact A|].
  apply andb_true_iff in T as [T1 T2]. destruct (duse_do p x d) as [d1|f|f c] eqn:E; try discriminate. pose proof (duse_agree p x e m d d1 A T1 E) as A1. exact (IH _ _ _ _ A1 T2 H).
Qed.
Lemma dbi_from_last p xs : forall e, dbi_from p e xs = if can_invert p then fold_left (fun s x => match x with DbiEnable e => e | _ => s end) xs e else e.
Proof. induction xs as [|x xs IH]; intros e; unfold dbi_from in *; cbn [fold_left]; [now destruct (can_invert p)|]. rewrite IH. destruct (can_invert p), x; reflexivity. Qed.
Lemma extensions_agree p d0 xs d : device_new p = Value d0 -> duses_run p xs d0 = Returned d -> forallb through_extensions xs = true ->
  let s := fi_std (dp_if p) in
  (s <> DDR5 -> dbi_enabled d = Some (can_invert (dp_if p) && last_dbi xs) /\
                exists x, if_dbi (dr_if (dv_dram d)) = Some x /\ db_enable (di_dbi x) = can_invert (dp_if p) && last_dbi xs) /\
  (s = DDR5 -> dbi_enabled d = None /\ if_dbi (dr_if (dv_dram d)) = None) /\
  (s = LPDDR6 -> meta_get d = Some (last_meta xs)) /\ (s <> LPDDR6 -> meta_get d = None).
Proof.
  intros N H T. cbv zeta. destruct (device_new_shape _ _ N) as ([S _] & _ & X & W).
  assert (agree p false (0, 0) d0) as A0 by (split; [exact S|]; split; [exact X|]; rewrite W; f_equal; destruct (fi_std (dp_if p)); reflexivity).
  pose proof (duses_agree _ _ _ _ _ _ A0 T H) as (S1 & X1 & W1). rewrite dbi_from_last in X1, W1.
  change (fold_left _ xs false) with (last_dbi xs) in X1, W1. change (meta_from (0, 0) xs) with (last_meta xs) in X1, W1.
  replace (if can_invert (dp_if p) then last_dbi xs else false) with (can_invert (dp_if p) && last_dbi xs) in X1, W1 by reflexivity.
  set (e := can_invert (dp_if p) && last_dbi xs) in *. set (m := last_meta xs) in *. clearbody e m.
  unfold switches in W1. injection W1 as W1 W2. unfold dbi_enabled, meta_get. rewrite X1, W2.
  destruct (fi_std (dp_if p)); cbn [ext_of]; (split; [|split; [|split]]); intros F; try congruence; try discriminate F; try reflexivity.
  all: try (split; [reflexivity|]; destruct (if_dbi (dr_if (dv_dram d))) as [x|]; [exists x; split; [reflexivity|]; now injection W1|discriminate W1]).
  split; [reflexivity|]. destruct (if_dbi (dr_if (dv_dram d))); [discriminate W1|reflexivity].
Qed.

(* ---- writing and reading back ---- *)

Definition dalike (p : dspec) (d e : device) : Prop :=
  dv_ext e = dv_ext d /\ dr_core (dv_dram e) = dr_core (dv_dram d) /\ alike (dp_if p) (dr_if (dv_dram d)) (dr_if (dv_dram e)).
Lemma alike_last p i j : alike p i j -> if_last j = if_last i /\ if_meta j = if_meta i.
Proof. intros E. unpack i j E. split; reflexivity. Qed.
Definition both_dram {A} (R : A -> A -> Prop) (x y : dram_result A) : Prop :=
  match x, y with
  | Returned a, Returned b => R a b
  | CoreStops f, CoreStops g => g = f
  | InterfaceStops f _, InterfaceStops g _ => g = f
  | _, _ => False
  end.
Definition ralike (p : dspec) (d e : dram) : Prop := dr_core e = dr_core d /\ alike (dp_if p) (dr_if d) (dr_if e).
Lemma window_same p t d e : ralike p d e ->
  both_dram (fun x y => ralike p (fst x) (fst y) /\ snd y = snd x) (dram_window p t d) (dram_window p t e).
Proof.
  intros [C I]. unfold dram_window. rewrite C. destruct (window_stats (dp_core p) t (dr_core d)) as [s a]. rewrite <- (window_alike _ _ _ t (fill_core a) I).
  destruct (if_window (dr_if d) t (fill_core a)) as [st|f]; cbn; [|reflexivity]. split; [split; [reflexivity|exact I]|reflexivity].
Qed.
Lemma use_alike p u d e : ralike p d e -> both_dram (ralike p) (use_do p u d) (use_do p u e).
Proof.
  intros [C I]. destruct u as [c|c|x|t]; cbn [use_do].
  - unfold do_dram_command, do_core_command. rewrite C. destruct (do_command (dp_core p) c (dr_core d)) as [s|m| |]; cbn; try reflexivity.
    unfold do_interface_command. cbn [dr_if dr_core]. pose proof (call_alike _ (Do c) _ _ I) as A. cbn [call_do] in A.
    destruct (if_command c (dr_if d)), (if_command c (dr_if e)); cbn in *; try contradiction; [split; [reflexivity|exact A]|congruence].
  - unfold do_core_command. rewrite C. destruct (do_command (dp_core p) c (dr_core d)) as [s|m| |]; cbn; try reflexivity. split; [reflexivity|exact I].
  - pose proof (call_alike _ x _ _ I) as A. destruct (call_do x (dr_if d)), (call_do x (dr_if e)); cbn in *; try contradiction; [split; [exact C|exact A]|congruence].
  - pose proof (window_same p t d e (conj C I)) as W. destruct (dram_window p t d) as [[d1 st]|f|f s], (dram_window p t e) as [[e1 st']|f'|f' s']; cbn in *; try contradiction; try exact W. exact (proj1 W).
Qed.
Lemma enable_ok e i j p : alike p i j -> snd (if_enable_dbi e j) = snd (if_enable_dbi e i) /\ alike p (fst (if_enable_dbi e i)) (fst (if_enable_dbi e j)).
Proof.
  intros A. split; [|pose proof (call_alike p (SetDbi e) i j A) as B; cbn [call_do both] in B; exact B].
  unpack i j A. unfold if_enable_dbi. cbn. destruct db; [|reflexivity]. destruct (match fi_std p with DDR4 => _ | _ => _ end); reflexivity.
Qed.
Lemma duse_alike p x d e : dalike p d e -> both_dram (dalike p) (duse_do p x d) (duse_do p x e).
Proof.
  intros (X & C & I). destruct x as [u|v|a b]; cbn [duse_do].
  - pose proof (use_alike p u _ _ (conj C I)) as U. destruct (use_do p u (dv_dram d)), (use_do p u (dv_dram e)); cbn in *; try contradiction; try exact U. split; [exact X|exact U].
  - cbn. unfold dbi_enable. rewrite X. destruct (em_get ty_dbi (dv_ext d)) as [y|]; [|cbn; split; [exact X|split; assumption]].
    pose proof (enable_ok v _ _ _ I) as [O A]. destruct (if_enable_dbi v (dr_if (dv_dram d))) as [i ok], (if_enable_dbi v (dr_if (dv_dram e))) as [j ok']. cbn in *. subst ok'.
    split; [destruct ok; cbn; congruence|]. split; [exact C|exact A].
  - cbn. unfold meta_set. rewrite X. destruct (em_get ty_meta (dv_ext d)) as [y|]; [|split; [exact X|split; assumption]]. cbn.
    split; [reflexivity|]. split; [exact C|]. pose proof (call_alike _ (SetMeta a b) _ _ I) as A. cbn [call_do both] in A. exact A.
Qed.
Lemma dwatch_alike p xs : forall d e, dalike p d e -> dwatch p xs e = dwatch p xs d.
Proof.
  induction xs as [|x xs IH]; intros d e A; [reflexivity|]. cbn [dwatch]. pose proof (duse_alike p x d e A) as U.
  assert (answer p x e = answer p x d) as An.
  { destruct x as [[c|c|y|t]|v|a b]; try reflexivity. cbn [answer]. destruct A as (_ & C & I). pose proof (window_same p t _ _ (conj C I)) as W.
    destruct (dram_window p t (dv_dram d)) as [[d1 st]|f|f s], (dram_window p t (dv_dram e)) as [[e1 st']|f'|f' s']; cbn in *; try contradiction; try reflexivity. destruct W as [_ ->]. reflexivity. }
  destruct (duse_do p x d) as [d1|f|f s], (duse_do p x e) as [e1|f'|f' s']; cbn in U; try contradiction; try (subst; reflexivity).
  rewrite (IH _ _ U), An. f_equal. destruct U as (X & C & I). apply alike_last in I as [L M]. unfold dram_last_time, dbi_enabled, meta_get. rewrite X, C, L, M. reflexivity.
Qed.
Lemma seen_kept s xs : forallb (kept_use s) xs = true -> forallb (kept s) (iface_calls (flat_map (seen_as s) xs)) = true.
Proof.
  induction xs as [|x xs IH]; [reflexivity|]. cbn [forallb flat_map]. intros H. apply andb_true_iff in H as [H1 H2].
  unfold iface_calls. rewrite flat_map_app, forallb_app. change (flat_map _ (flat_map (seen_as s) xs)) with (iface_calls (flat_map (seen_as s) xs)). rewrite (IH H2), andb_true_r.
  destruct x as [[c|c|[c|e|a b|e|t|t]|t]|e|a b]; try reflexivity; destruct s; cbn in *; rewrite ?andb_true_r; auto; discriminate.
Qed.
Lemma ext_round s e m e0 m0 : exists w, em_serialize w_ext (ext_of s e m) = Value w /\
  forall rest, em_deserialize r_ext (ext_of s e0 m0) (w ++ rest) = Value (Got (ext_of s e m) rest).
Proof. destruct s; cbn [ext_of]; eexists; (split; [reflexivity|]); intros rest; destruct m as [a b], m0 as [a0 b0]; reflexivity. Qed.
Lemma device_round p d0 xs d order : device_new p = Value d0 -> duses_run p xs d0 = Returned d -> forallb (kept_use (fi_std (dp_if p))) xs = true ->
  dram_serializable (dv_dram d) = true -> traversal order (settings_of (if_pat (dr_if (dv_dram d)))) ->
  exists s, w_device order d = Value s /\
    if beats_ok (dr_if (dv_dram d)) then exists d', r_device d0 s = Value (Got d' []) /\ dalike p d d' else r_device d0 s = Value BadBool.
Proof.
  intros N H K Z T. destruct (device_new_shape _ _ N) as (Sh & Dn & X0 & _). pose proof Sh as [S0 _].
  destruct (duses_seen _ _ _ _ Sh H) as [[S1 (e & m & X1)] U]. destruct (uses_split _ _ _ _ U) as [[a Cr] Ir].
  unfold dram_new in Dn. apply bind_inv in Dn as (i0 & I0 & Dn). apply value_eq in Dn.
  assert (dr_core (dv_dram d0) = core_new (dp_core p)) as C0 by now rewrite <- Dn.
  assert (dr_if (dv_dram d0) = i0) as F0 by now rewrite <- Dn.
  rewrite C0 in Cr. rewrite F0 in Ir.
  destruct (ext_round (fi_std (dp_if p)) e m false (0, 0)) as (w & W & R).
  unfold w_device. rewrite X1, W. cbn [bind]. eexists. split; [reflexivity|]. unfold r_device. rewrite X0, R. cbn [bind].
  rewrite C0, F0.
  pose proof (core_restored (dp_core p) [] (core_new (dp_core p)) [] _ _ _ (w_iface order (dr_if (dv_dram d))) eq_refl eq_refl Cr Z) as RC.
  pose proof (checkpoint_alike _ _ _ _ _ order [] I0 Ir (seen_kept _ _ K) T) as CA. rewrite app_nil_r in CA.
  unfold r_bind. rewrite RC.
  destruct (beats_ok (dr_if (dv_dram d))).
  - destruct CA as (j & RI & A). rewrite RI. eexists. split; [reflexivity|]. split; [symmetry; exact X1|]. split; [reflexivity|].
    cbn. rewrite <- F0, S0 in A. exact A.
  - now rewrite CA.
Qed.
Lemma device_checkpoint p d0 xs d order : device_new p = Value d0 -> duses_run p xs d0 = Returned d -> forallb (kept_use (fi_std (dp_if p))) xs = true ->
  dram_serializable (dv_dram d) = true -> traversal order (settings_of (if_pat (dr_if (dv_dram d)))) -> Forall (fun b => b <= 1) (kept_beats (dr_if (dv_dram d))) ->
  exists s d', w_device order d = Value s /\ r_device d0 s = Value (Got d' []) /\ forall later, dwatch p later d' = dwatch p later d.
Proof.
  intros N H K Z T B. destruct (device_round _ _ _ _ _ N H K Z T) as (s & W & R). apply beats_kept in B. rewrite B in R. destruct R as (d' & R & A).
  exists s, d'. split; [exact W|]. split; [exact R|]. intros later. apply dwatch_alike. exact A.
Qed.

Lemma device_any p d0 xs d order : device_new p = Value d0 -> duses_run p xs d0 = Returned d ->
  dram_serializable (dv_dram d) = true -> traversal order (settings_of (if_pat (dr_if (dv_dram d)))) ->
  exists s, w_device order d = Value s /\
    ((Forall (fun b => b <= 1) (kept_beats (dr_if (dv_dram d))) /\ exists d', r_device d0 s = Value (Got d' []) /\ forall later, dwatch p later d' = dwatch p later (forgetful_device d0 d)) \/
     (Exists (fun b => 1 < b) (kept_beats (dr_if (dv_dram d))) /\ r_device d0 s = Value BadBool)).
Proof.
  intros N H Z T. destruct (device_new_shape _ _ N) as (Sh & Dn & X0 & _). pose proof Sh as [S0 _].
  destruct (duses_seen _ _ _ _ Sh H) as [[S1 (e & m & X1)] U]. destruct (uses_split _ _ _ _ U) as [[a Cr] Ir].
  unfold dram_new in Dn. apply bind_inv in Dn as (i0 & I0 & Dn). apply value_eq in Dn.
  assert (dr_core (dv_dram d0) = core_new (dp_core p)) as C0 by now rewrite <- Dn.
  assert (dr_if (dv_dram d0) = i0) as F0 by now rewrite <- Dn.
  rewrite C0 in Cr. rewrite F0 in Ir.
  destruct (ext_round (fi_std (dp_if p)) e m false (0, 0)) as (w & W & R).
  unfold w_device. rewrite X1, W. cbn [bind]. eexists. split; [reflexivity|]. unfold r_device. rewrite X0, R. cbn [bind].
  rewrite C0, F0.
  pose proof (core_restored (dp_core p) [] (core_new (dp_core p)) [] _ _ _ (w_iface order (dr_if (dv_dram d))) eq_refl eq_refl Cr Z) as RC.
  pose proof (checkpoint_any_alike _ _ _ _ _ order [] I0 Ir T) as CA. rewrite app_nil_r in CA.
  pose proof (checkpoint_any _ _ _ _ _ order [] I0 Ir T) as CB. rewrite app_nil_r in CB.
  unfold r_bind. rewrite RC. destruct CB as [[B _]|[B CB]].
  - left. split; [exact B|]. apply beats_kept in B. rewrite B in CA. destruct CA as (j & RI & A). rewrite RI. eexists. split; [reflexivity|].
    intros later. apply dwatch_alike. unfold forgetful_device. split; [symmetry; exact X1|]. split; [reflexivity|]. cbn. rewrite F0. rewrite <- F0, S0 in A. rewrite F0 in A. exact A.
  - right. split; [exact B|]. now rewrite CB.
Qed.
