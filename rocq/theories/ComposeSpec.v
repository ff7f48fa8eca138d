(* Vocabulary for running one trace after another: delaying the commands of a
   trace, and when a rank is at rest. *)
From Coq Require Import NArith QArith List Bool.
From Verif Require Import Base Command CoreModel HistorySpec DeviceSpec.
Import ListNotations.
Local Open Scope N_scope.

(* The same command, T cycles later. *)
Definition delay (T : N) (c : Command) : Command :=
  mkCommand (cmd_ts c + T) (cmd_type c) (cmd_bank c) (cmd_bankGroup c) (cmd_rank c) (cmd_row c) (cmd_column c) (cmd_dbank c) (cmd_data c) (cmd_sz_bits c).
Definition later (T : N) (cs : list Command) : list Command := map (delay T) cs.

(* The trace n times, one run every T cycles. *)
Fixpoint looped (T : N) (cs : list Command) (n : nat) : list Command :=
  match n with O => [] | S m => cs ++ later T (looped T cs m) end.

(* A refresh takes at least as long as an activation before an access. *)
Definition refresh_covers (p : memspec) : Prop :=
  act_delay p <= ms_tRFC p /\
  match ms_std p with
  | DDR4 => True
  | DDR5 => act_delay p <= ms_tRFCsb p
  | LPDDR4 | LPDDR5 => act_delay p <= ms_tRFCPB p
  | LPDDR6 => act_delay p <= ms_tRFCDB p
  end.

(* Nothing is under way at time T: all banks are closed, and what happened to
   them is too long ago to delay a power-down.  In the bookkeeping of the library
   a refresh counts as an activation of a bank that was activated before, which
   makes no difference when refreshes take longer than activations. *)
Definition bank_at_rest (p : memspec) (T : N) (b : sbank) : Prop :=
  sb_state b = Closed /\
  (forall s, sb_since b = Some s -> s + act_delay p <= T /\ refresh_covers p) /\
  (forall x, sb_pre b = Some x -> x + ms_tRP p <= T) /\
  (forall x, sb_off b = Some x -> x < T).
Definition at_rest (p : memspec) (T : N) (d : device) : Prop :=
  dv_mode d = Up /\ dv_pend d = None /\ Forall (bank_at_rest p T) (dv_banks d).
(* All ranks are at rest at time T after the commands cs, the last of which is not
   later than T. *)
Definition rests (p : memspec) (cs : list Command) (T : N) : Prop :=
  nondecreasing 0 (map cmd_ts cs) /\ final_time 0 (map cmd_ts cs) <= T /\
  forall r, (r < ms_ranks p)%nat -> exists d, device_at p r cs T = Some d /\ at_rest p T d.

(* Sum of two lists of times. *)
Definition cycles_sum (a b : cycles) : cycles :=
  mkCycles (cy_act a + cy_act b) (cy_pre a + cy_pre b) (cy_pda a + cy_pda b) (cy_pdp a + cy_pdp b) (cy_sref a + cy_sref b) (cy_dsm a + cy_dsm b).
