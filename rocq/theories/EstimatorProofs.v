(* The estimators of a data bus through any history of loads and switches, and the
   end of the last burst of an estimator. *)
From Coq Require Import NArith ZArith QArith Lia List Bool.
From Verif Require Import Base ListFacts Bits BusModel WaveSpec BitFacts BusProofs ToggleModel ToggleProofs DataProofs.
Import ListNotations.
Local Open Scope N_scope.

(* What the estimator of one direction gets to see: the loads of its direction while
   the mode is toggling, and the switches. *)
Fixpoint seen (read toggling : bool) (ops : list data_op) : list toggle_op :=
  match ops with
  | [] => []
  | DLoad r t n _ :: l => (if toggling && eqb r read then [TLoad t (N.of_nat n)] else []) ++ seen read toggling l
  | DBus t :: l => TDisable t :: seen read false l
  | DToggle t :: l => TEnable t :: seen read true l
  end.
Definition toggle_side (read : bool) (d : data_bus) : toggling := if read then d_tread d else d_twrite d.

Lemma load_bus b h t n data x : data_load ModeBus b h t n data = Value x -> snd x = h.
Proof.
  unfold data_load. destruct data as [bytes|]; [| intro E; injection E as <-; reflexivity ].
  destruct (Nat.eqb n 0); [ intro E; injection E as <-; reflexivity |].
  destruct (bus_load b t bytes n); [| discriminate ]. cbn [bind]. intro E. injection E as <-. reflexivity.
Qed.
Lemma load_toggling b h t n data x : data_load ModeToggling b h t n data = Value x -> toggling_bits h t (N.of_nat n) = Value (snd x).
Proof. unfold data_load. destruct (toggling_bits h t (N.of_nat n)); [| discriminate ]. cbn [bind]. intro E. injection E as <-. reflexivity. Qed.
Lemma seen_run read : forall ops d d', data_run ops d = Value d' ->
  toggle_run (seen read (negb (is_bus (d_mode d))) ops) (toggle_side read d) = Value (toggle_side read d').
Proof.
  induction ops as [|o ops IH]; intros d d' Run.
  - unfold data_run in Run. cbn in Run. injection Run as <-. reflexivity.
  - apply loop_cons_inv in Run as (d1 & D & Run). specialize (IH _ _ Run). destruct o as [r t n data|t|t]; cbn [data_do] in D.
    + assert (M : d_mode d1 = d_mode d /\ toggle_run (if negb (is_bus (d_mode d)) && eqb r read then [TLoad t (N.of_nat n)] else []) (toggle_side read d) = Value (toggle_side read d1)).
      { destruct r; unfold data_load_read, data_load_write in D;
          match type of D with bind ?x _ = _ => destruct x as [y|] eqn:L; [| discriminate ] end; cbn [bind] in D; injection D as <-; (split; [ reflexivity |]).
        - destruct (d_mode d); cbn [is_bus negb andb].
          + apply load_bus in L. destruct read; cbn; rewrite ?L; reflexivity.
          + apply load_toggling in L. destruct read; cbn; rewrite ?L; reflexivity.
        - destruct (d_mode d); cbn [is_bus negb andb].
          + apply load_bus in L. destruct read; cbn; rewrite ?L; reflexivity.
          + apply load_toggling in L. destruct read; cbn; rewrite ?L; reflexivity. }
      destruct M as [M L]. rewrite M in IH. cbn [seen]. unfold toggle_run in *. rewrite loop_app, L. exact IH.
    + unfold data_enable_bus in D. destruct (bus_enable (d_read d) t) as [b1|]; [| discriminate ]. cbn [bind] in D.
      destruct (bus_enable (d_write d) t) as [b2|]; [| discriminate ]. cbn [bind] in D. injection D as <-.
      cbn [seen]. unfold toggle_run in *. cbn [loop toggle_do]. destruct read; exact IH.
    + unfold data_enable_toggling in D. destruct (bus_disable (d_read d) t) as [b1|]; [| discriminate ]. cbn [bind] in D.
      destruct (bus_disable (d_write d) t) as [b2|]; [| discriminate ]. cbn [bind] in D. injection D as <-.
      cbn [seen]. unfold toggle_run in *. cbn [loop toggle_do]. destruct read; exact IH.
Qed.

Theorem estimators_through max c m rh wh ops t d d' st : config_ok max c ->
  high_idle (dc_read_idle c) = Some rh -> high_idle (dc_write_idle c) = Some wh ->
  let on := negb (is_bus m) in
  toggles_in_order (N.of_nat (dc_width c)) (dc_rate c) 0 t (seen true on ops) ->
  toggles_in_order (N.of_nat (dc_width c)) (dc_rate c) 0 t (seen false on ops) ->
  t * dc_rate c < two64 ->
  data_new max c m = Value d -> data_run ops d = Value d' -> data_get d' t = Value st ->
  ds_tread st = wrap_stats (estimate_of c true on rh (seen true on ops) (t * dc_rate c)) /\
  ds_twrite st = wrap_stats (estimate_of c false on wh (seen false on ops) (t * dc_rate c)).
Proof.
  intros [Hw [H64 [Hr [U1 [U2 [U3 U4]]]]]] IR IW on OR OW T New Run Get.
  assert (Hp : 0 < N.of_nat (dc_width c)) by lia.
  unfold data_new in New. rewrite (convert_high _ _ IR), (convert_high _ _ IW) in New. cbn [bind] in New.
  match type of New with bind ?x _ = _ => destruct x as [br|]; [| discriminate New ] end. cbn [bind] in New.
  match type of New with bind ?x _ = _ => destruct x as [bw|]; [| discriminate New ] end. cbn [bind] in New.
  rewrite !toggling_new_ok in New by (auto; lia). cbn [bind] in New. injection New as <-. fold on in Run.
  pose proof (seen_run true _ _ _ Run) as R1. pose proof (seen_run false _ _ _ Run) as R2. cbn [toggle_side d_tread d_twrite d_mode] in R1, R2.
  fold on in R1, R2.
  destruct (toggling_is_estimate (N.of_nat (dc_width c)) (dc_rate c) (dc_read_rate c) (dc_read_duty c) (dc_read_idle c) rh on (seen true on ops) t _ _
    (toggling_new_ok _ _ _ _ _ _ Hp Hr U2 U1) IR OR T R1) as [_ E1].
  destruct (toggling_is_estimate (N.of_nat (dc_width c)) (dc_rate c) (dc_write_rate c) (dc_write_duty c) (dc_write_idle c) wh on (seen false on ops) t _ _
    (toggling_new_ok _ _ _ _ _ _ Hp Hr U4 U3) IW OW T R2) as [_ E2].
  unfold data_get in Get. destruct (bus_get_stats (d_read d') t); [| discriminate Get ]. cbn [bind] in Get.
  destruct (bus_get_stats (d_write d') t); [| discriminate Get ]. cbn [bind] in Get. rewrite E1, E2 in Get. cbn [bind] in Get.
  injection Get as <-. cbn [ds_tread ds_twrite]. rewrite !wrap_0. split; reflexivity.
Qed.

(* ---- the end of the last burst ---- *)
Theorem last_burst_end h t len h' : toggling_burst h t len = Value h' -> tg_enabled h = true ->
  t * tg_datarate h + len + tg_datarate h < two64 ->
  toggling_last_burst h' false = Value (t * tg_datarate h + len) /\
  exists u, toggling_last_burst h' true = Value u /\ t * tg_datarate h + len <= u * tg_datarate h < t * tg_datarate h + len + tg_datarate h.
Proof.
  intros B On Small. unfold toggling_burst in B. destruct (N.eqb_spec (tg_datarate h) 0) as [Z|Z]; [ discriminate |].
  unfold check in B. destruct (_ =? t) in B; [| discriminate ]. destruct (_ || _)%bool in B; [| discriminate ]. rewrite On in B. injection B as <-.
  unfold toggling_last_burst. cbn [tg_set lb_load lb_length tg_datarate].
  destruct (N.eqb_spec (tg_datarate h) 0) as [Z'|_]; [ contradiction |].
  assert (V : u64_mul t (tg_datarate h) = t * tg_datarate h) by (apply N.mod_small; lia).
  rewrite V. set (e := t * tg_datarate h + len) in *.
  assert (E : u64_add (t * tg_datarate h) len = e) by (apply N.mod_small; lia). rewrite E. split; [ reflexivity |].
  pose proof (N.div_mod e (tg_datarate h) Z) as DM. pose proof (N.mod_lt e (tg_datarate h) Z) as ML.
  eexists. split; [ reflexivity |]. destruct (N.eqb_spec (e mod tg_datarate h) 0) as [R|R].
  - rewrite R in DM. rewrite (N.mul_comm (e / tg_datarate h)). lia.
  - set (q := e / tg_datarate h) in *. set (r := e mod tg_datarate h) in *. set (k := tg_datarate h) in *.
    assert (Sb : u64_sub k r = k - r) by (apply ListFacts.u64_sub_le; lia).
    rewrite Sb. assert (A : u64_add e (k - r) = k * (q + 1)). { unfold u64_add. rewrite N.mod_small by lia. lia. }
    assert (D : k * (q + 1) / k = q + 1) by (rewrite N.mul_comm; apply N.div_mul; exact Z). rewrite A, D. lia.
Qed.
