(* Vocabulary for bounds on the power of the core: a current the device always
   draws, one that it never exceeds while it is left alone, and energies that go
   with them. *)
From Coq Require Import NArith QArith List Bool.
From Verif Require Import Base Command CoreModel HistorySpec DeviceSpec EnergyModel EnergySpec ChargeSpec DramModel.
Import ListNotations.
Local Open Scope Q_scope.

(* m is at most the standby current of the data sheet in every mode the standard
   has. *)
Definition always_draws (e : espec) (w : power) (m : Q) : Prop :=
  m <= pw_i2n w /\ m <= pw_i3p w /\ m <= pw_i2p w /\ m <= pw_i6 w /\ (es_std e = LPDDR5 -> m <= pw_i6ds w).
(* M is at least the standby current in every mode and with all banks active. *)
Definition never_exceeds (e : espec) (w : power) (I : Q -> Q) (M : Q) : Prop :=
  pw_i2n w <= M /\ pw_i3p w <= M /\ pw_i2p w <= M /\ pw_i6 w <= M /\ (es_std e = LPDDR5 -> pw_i6ds w <= M) /\ I (qnat (es_banks e)) <= M.

(* A constant current m in every device for n cycles. *)
Definition constant_draw (e : espec) (m : power -> Q) (n : N) : Q :=
  qsum (fun w => qsum (fun _ => qnat (es_devices e) * (pw_v w * (m w * cycles_time e n))) (seq 0 (es_ranks e))) (es_domains e).
(* What the commands cs draw beyond standby. *)
Definition commands_draw (e : espec) (I : power -> Q -> Q) (cs : list Command) : Q :=
  qsum (fun w => qsum (fun r => qnat (es_devices e) * (pw_v w * qsum (command_charge e w (I w)) (filter (to_rank r) cs))) (seq 0 (es_ranks e))) (es_domains e).
(* The closing of all rows that are open at time t. *)
Definition rows_draw (p : memspec) (e : espec) (cs : list Command) (t : N) : Q :=
  qsum (fun w => qsum (fun r => qnat (es_devices e) * (pw_v w * (match device_at p r cs t with Some d => qnat (open_rows d) | None => 0 end * closing_charge e w))) (seq 0 (es_ranks e))) (es_domains e).

(* The energy of the core that the library computes at time t after cs. *)
Definition core_energy (p : memspec) (e : espec) (cs : list Command) (t : N) (x : Q) : Prop :=
  exists s en, run_core p cs (core_new p) = Ok s /\ calc_energy e (fill_core (snd (window_stats p t s))) = Exactly en /\ en_total en = x.
