(* What is still to come by itself: vocabulary for C74. *)
From Coq Require Import NArith QArith List Bool.
From Verif Require Import Base Command CoreModel HistorySpec DeviceSpec EnergyModel EnergySpec ChargeSpec.
Import ListNotations.

(* The times at which something will happen to a rank by itself: a row is closed
   by auto-precharge, a refresh ends, a change of mode takes effect. *)
Definition waits (d : device) : list N :=
  flat_map (fun b => match sb_state b with Closing c => [c] | Refreshing e => [e] | _ => [] end) (dv_banks d)
  ++ match dv_pend d with Some (x, _) => [x] | None => [] end.

(* A time runs, or it stands. *)
Definition after (d : N) (x : N) (runs : bool) : N := (x + (if runs then d else 0))%N.
Definition all_after (d : N) (xs : list N) (runs : list bool) : list N :=
  map (fun y => after d (fst y) (snd y)) (combine xs runs).

(* The power all devices draw while the ranks are in the states of time t. *)
Definition resting_power (p : memspec) (e : espec) (I : power -> Q -> Q) (cs : list Command) (t : N) : Q :=
  qsum (fun w => qsum (fun r => qnat (es_devices e) * (pw_v w * match device_at p r cs t with Some d => standby w (I w) d | None => 0 end)) (seq 0 (ms_ranks p))) (es_domains e).
