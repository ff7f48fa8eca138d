(* Which parameters of a memory a command depends on. *)
From Coq Require Import NArith List Bool.
From Verif Require Import Base Command CoreModel HistorySpec DeviceSpec.
Import ListNotations.
Local Open Scope N_scope.

Definition same_for (p q : memspec) (k : CmdType) : Prop :=
  in_standard p k = in_standard q k /\
  match k with
  | RDA => ms_tRAS p = ms_tRAS q /\ ms_offRD p = ms_offRD q
  | WRA => ms_tRAS p = ms_tRAS q /\ ms_offWR p = ms_offWR q
  | REFA | SREFEN => ms_tRFC p = ms_tRFC q
  | REFB => ms_tRFCPB p = ms_tRFCPB q
  | REFP2B => ms_tRFCPB p = ms_tRFCPB q /\ ms_p2bOffset p = ms_p2bOffset q
  | REFDB => ms_tRFCDB p = ms_tRFCDB q
  | PRESB => ms_banksPerGroup p = ms_banksPerGroup q /\ ms_groups p = ms_groups q
  | REFSB => ms_tRFCsb p = ms_tRFCsb q /\ ms_banksPerGroup p = ms_banksPerGroup q /\ ms_groups p = ms_groups q
  | PDEA | PDEP | PDXA | PDXP => act_delay p = act_delay q /\ ms_tRP p = ms_tRP q
  | _ => True
  end.
(* Two memories with as many ranks and banks that agree on what a trace uses. *)
Definition agree_on (p q : memspec) (cs : list Command) : Prop :=
  ms_ranks p = ms_ranks q /\ ms_banks p = ms_banks q /\ Forall (fun c => same_for p q (cmd_type c)) cs.

(* The commands that all five standards have. *)
Definition universal (k : CmdType) : bool :=
  match k with
  | ACT | PRE | PREA | RD | WR | RDA | WRA | REFA | PDEA | PDEP | PDXA | PDXP | SREFEN | SREFEX | END_OF_SIMULATION => true
  | _ => false
  end.
(* The same memory under another standard. *)
Definition under (s : standard) (p : memspec) : memspec :=
  mkMemspec s (ms_ranks p) (ms_banks p) (ms_groups p) (ms_banksPerGroup p) (ms_tRAS p) (ms_tRP p) (ms_tRCD p) (ms_tRCDW p)
    (ms_tRFC p) (ms_tRFCsb p) (ms_tRFCPB p) (ms_tRFCDB p) (ms_offRD p) (ms_offWR p) (ms_p2bOffset p) (ms_m8b p).
