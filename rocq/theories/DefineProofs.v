(* A new definition of the toggling rates. *)
From Coq Require Import NArith ZArith QArith List Bool Lia.
From Verif Require Import Base Bits BusModel WaveSpec BitFacts ToggleModel ToggleProofs.
Import ListNotations.
Local Open Scope N_scope.

Definition lift (rate duty : Q) (idle : toggle_idle) (r : result toggling) : result toggling :=
  match r with Value h => Value (toggling_define h rate duty idle) | Fails e => Fails e end.
Lemma do_define rate duty idle o h : toggle_do o (toggling_define h rate duty idle) = lift rate duty idle (toggle_do o h).
Proof.
  destruct o as [t n|t|t]; cbn [toggle_do].
  - unfold toggling_bits, toggling_burst. cbn [toggling_define tg_width tg_datarate lb_handled lb_length lb_load tg_enabled]. destruct (tg_width h =? 0); [reflexivity|].
    unfold check. destruct (n mod tg_width h =? 0); [|reflexivity]. destruct (tg_datarate h =? 0); [reflexivity|]. destruct (_ =? t); [|reflexivity].
    destruct (_ || _); [|reflexivity]. destruct (tg_enabled h); reflexivity.
  - unfold toggling_disable. cbn [toggling_define tg_enabled]. destruct (tg_enabled h); reflexivity.
  - unfold toggling_enable. cbn [toggling_define tg_enabled]. destruct (tg_enabled h); reflexivity.
Qed.
Lemma run_define rate duty idle : forall ops h, toggle_run ops (toggling_define h rate duty idle) = lift rate duty idle (toggle_run ops h).
Proof.
  induction ops as [|o ops IH]; intros h; [reflexivity|]. unfold toggle_run; cbn [loop]. rewrite do_define. destruct (toggle_do o h) as [h1|e]; [|reflexivity]. cbn [lift bind]. apply IH.
Qed.
Theorem redefined width datarate rate duty idle rate' duty' idle' high on ops t h0 h :
  toggling_new width datarate rate duty idle on = Value h0 -> in_unit rate' = true -> in_unit duty' = true -> high_idle idle' = Some high ->
  toggles_in_order width datarate 0 t ops -> t * datarate < two64 -> toggle_run ops h0 = Value h ->
  toggling_get (toggling_define h rate' duty' idle') t = Value (wrap_stats (estimate width (beats_driven width datarate on ops (t * datarate))
    (beats_on width datarate on ops (t * datarate) - beats_driven width datarate on ops (t * datarate)) rate' duty' high)).
Proof.
  intros N Hr Hd Hi O T R.
  assert (toggling_new width datarate rate' duty' idle' on = Value (toggling_define h0 rate' duty' idle')) as N'.
  { unfold toggling_new, check in *. rewrite Hr, Hd. destruct (0 <? width); [|discriminate]. destruct (0 <? datarate); [|discriminate]. destruct (in_unit duty); [|discriminate]. destruct (in_unit rate); [|discriminate].
    injection N as <-. reflexivity. }
  apply (toggling_is_estimate width datarate rate' duty' idle' high on ops t _ _ N' Hi O T). rewrite run_define, R. reflexivity.
Qed.
