(* The members of a core are 64-bit unsigned numbers. *)
From Coq Require Import NArith List.
From Verif Require Import Base Command CoreModel HistorySpec.
Import ListNotations.
Local Open Scope N_scope.

Definition fits (n : N) : Prop := n < 2 ^ 64.
Definition fits_opt (o : option N) : Prop := match o with Some n => fits n | None => True end.
Definition iv_fits (i : interval) : Prop := fits (iv_count i) /\ fits_opt (iv_start i) /\ fits_opt (iv_end i).
Definition cs_fits (c : cstats) : Prop := forall k, fits (cs_get k c).
Definition bank_fits (b : bank) : Prop :=
  cs_fits (bk_counter b) /\ (iv_fits (bk_act b) /\ iv_fits (bk_pda b) /\ iv_fits (bk_pdp b)) /\ fits (bk_latestPre b) /\ fits (bk_refreshEnd b).
Definition rank_fits (r : rank) : Prop :=
  (iv_fits (rk_pre r) /\ iv_fits (rk_act r) /\ iv_fits (rk_ref r) /\ iv_fits (rk_sref r) /\ iv_fits (rk_pda r) /\ iv_fits (rk_pdp r) /\ iv_fits (rk_dsm r)) /\
  (fits (rk_n_sref r) /\ fits (rk_n_dsm r) /\ fits (rk_endRefresh r)) /\ Forall bank_fits (rk_banks r).
Definition core_fits (s : core) : Prop :=
  fits (co_last s) /\ Forall rank_fits (co_ranks s) /\ Forall (fun e => fits (fst e)) (co_queue s).

(* The commands carry 64-bit times. *)
Definition op_fits (o : op) : Prop := match o with Cmd c => fits (cmd_ts c) | Query _ => True end.
