(* Vocabulary for what power-down saves: the trace in which the rank is never sent
   to power-down, and the current that power-down avoids. *)
From Coq Require Import NArith QArith List Bool.
From Verif Require Import Base Command CoreModel HistorySpec DeviceSpec EnergyModel EnergySpec ChargeSpec.
Import ListNotations.
Local Open Scope N_scope.

Definition power_down (c : Command) : bool := match cmd_type c with PDEA | PDEP | PDXA | PDXP => true | _ => false end.

(* The same trace without entries to and exits from power-down. *)
Definition awake (cs : list Command) : list Command := filter (fun c => negb (power_down c)) cs.

(* From an access with auto-precharge to the earliest precharge. *)
Definition closes_after (p : memspec) (c : Command) : N := match cmd_type c with RDA => ms_offRD p | _ => ms_offWR p end.

(* Whenever rank r is given an access with auto-precharge, the row has been open,
   or the rank out of active power-down, for so long that the precharge does not
   have to wait for tRAS. *)
Definition unhurried (p : memspec) (r : nat) (cs : list Command) : Prop :=
  forall a c z, cs = a ++ c :: z -> to_rank r c = true -> cmd_type c = RDA \/ cmd_type c = WRA ->
  forall d b s, device_at p r a (cmd_ts c) = Some d -> nth_error (dv_banks d) (N.to_nat (cmd_bank c)) = Some b -> sb_since b = Some s ->
  s + ms_tRAS p <= cmd_ts c + closes_after p c.

(* No row is closed later because of active power-down: the rank does not use it,
   or auto-precharge is never held up. *)
Definition undisturbed (p : memspec) (cs : list Command) : Prop :=
  forall r, (r < ms_ranks p)%nat ->
    (forall c, In c cs -> to_rank r c = true -> cmd_type c <> PDEA) \/ unhurried p r cs.

(* A bank has an open row or is being refreshed, whatever mode the rank is in. *)
Definition bank_in_use (b : nat) (d : device) : bool :=
  match nth_error (dv_banks d) b with Some x => busy x | None => false end.
Definition bank_at_rest (b : nat) (d : device) : bool :=
  match nth_error (dv_banks d) b with
  | Some x => negb (busy x) && negb (mode_is SelfRef d) && negb (mode_is DeepSleep d)
  | None => false
  end.

Local Open Scope Q_scope.
(* The current of one device that is avoided while the rank is in state d. *)
Definition avoided (w : power) (I : Q -> Q) (d : device) : Q :=
  match dv_mode d with
  | ActPd => I (qnat (open_rows d)) - pw_i3p w
  | PrePd => pw_i2n w - pw_i2p w
  | _ => 0
  end.
(* The energy that power-down saves in all ranks and voltage domains. *)
Definition saving (p : memspec) (e : espec) (I : power -> Q -> Q) (cs : list Command) (t : N) : Q :=
  qsum (fun w => qsum (fun r => qnat (es_devices e) * (pw_v w * (over_cycles p r cs t (avoided w (I w)) * es_tCK e))) (seq 0 (ms_ranks p))) (es_domains e).
(* Power-down draws no more than standby: with no row open, and with one. *)
Definition worthwhile (e : espec) (I : power -> Q -> Q) : Prop :=
  0 <= es_tCK e /\ forall w, In w (es_domains e) ->
    0 <= pw_v w /\ pw_i2p w <= pw_i2n w /\ pw_i3p w <= I w 1 /\ I w 0 <= I w 1.
