(* Specification vocabulary for the statements about command histories of a
   core.  Nothing here mentions how a core works inside; it only speaks about
   commands, times and addresses. *)
From Coq Require Import NArith List Bool.
From Verif Require Import Base Command CoreModel.
Import ListNotations.
Local Open Scope N_scope.

(* ---- histories of commands and queries ---- *)

(* What a user does with a core: doCommand(c) or getWindowStats(t). *)
Inductive op :=
| Cmd (c : Command)
| Query (t : N).

Definition op_time (o : op) : N := match o with Cmd c => cmd_ts c | Query t => t end.

(* The commands of a history, queries forgotten. *)
Fixpoint commands (os : list op) : list Command :=
  match os with
  | [] => []
  | Cmd c :: os' => c :: commands os'
  | Query _ :: os' => commands os'
  end.

(* times l0 <= l1 <= l2 ... starting at [from] *)
Fixpoint nondecreasing (from : N) (ts : list N) : Prop :=
  match ts with
  | [] => True
  | t :: ts' => from <= t /\ nondecreasing t ts'
  end.

(* Last element of a list of times, [from] if there is none. *)
Definition final_time (from : N) (ts : list N) : N := fold_left (fun _ t => t) ts from.

(* Running a history; [Ok (s, answers)] when every command returned. *)
Fixpoint run_ops (p : memspec) (os : list op) (s : core) : outcome (core * list core_stats) :=
  match os with
  | [] => Ok (s, [])
  | Cmd c :: os' =>
      match do_command p c s with
      | Ok s' => run_ops p os' s'
      | Throws s' => Throws (s', [])
      | Asserts => Asserts
      | Undefined => Undefined
      end
  | Query t :: os' =>
      let (s', a) := window_stats p t s in
      match run_ops p os' s' with
      | Ok (s2, r) => Ok (s2, a :: r)
      | Throws (s2, r) => Throws (s2, a :: r)
      | Asserts => Asserts
      | Undefined => Undefined
      end
  end.

(* ---- addresses ---- *)

Definition addr (c : Command) : nat := N.to_nat (cmd_bank c).

(* [b] is one of the banks with the same index inside its bank group. *)
Definition same_index (p : memspec) (a b : nat) : bool :=
  Nat.eqb (Nat.modulo b (ms_banksPerGroup p)) (Nat.modulo a (ms_banksPerGroup p))
  && Nat.ltb (Nat.div b (ms_banksPerGroup p)) (ms_groups p).

Definition b2n (b : bool) : nat := if b then 1%nat else 0%nat.

Definition is_cmd (k : CmdType) (c : Command) : bool := CmdType_beq (cmd_type c) k.

(* How often command [c] is to be counted for bank [b] under counter [k].
   Self-refresh entry starts with one all-bank refresh, so it counts as one.
   A two-bank or dual-bank refresh counts once per named bank. *)
Definition counted (p : memspec) (k : ckind) (c : Command) (b : nat) : nat :=
  match k with
  | K_act => b2n (is_cmd ACT c && Nat.eqb (addr c) b)
  | K_reads => b2n (is_cmd RD c && Nat.eqb (addr c) b)
  | K_writes => b2n (is_cmd WR c && Nat.eqb (addr c) b)
  | K_readAuto => b2n (is_cmd RDA c && Nat.eqb (addr c) b)
  | K_writeAuto => b2n (is_cmd WRA c && Nat.eqb (addr c) b)
  | K_refAllBank => b2n (is_cmd REFA c || is_cmd SREFEN c)
  | K_refPerBank => b2n (is_cmd REFB c && Nat.eqb (addr c) b)
  | K_refSameBank => b2n (is_cmd REFSB c && same_index p (addr c) b)
  | K_refPerTwoBanks =>
      if is_cmd REFP2B c
      then (b2n (Nat.eqb (addr c) b)
            + b2n (Nat.eqb (Nat.modulo (addr c + ms_p2bOffset p) 16) b))%nat
      else 0%nat
  | K_refDualBanks =>
      if is_cmd REFDB c
      then (b2n (Nat.eqb (addr c) b) + b2n (Nat.eqb (N.to_nat (cmd_dbank c)) b))%nat
      else 0%nat
  | K_pre => 0%nat
  end.

(* Total over a history for one rank. *)
Definition counted_in (p : memspec) (k : ckind) (r b : nat) (cs : list Command) : N :=
  fold_right (fun c n => if Nat.eqb (N.to_nat (cmd_rank c)) r
                         then N.of_nat (counted p k c b) + n else n) 0 cs.

(* The banks a command may touch when it is issued. *)
Definition footprint (p : memspec) (c : Command) (b : nat) : bool :=
  match cmd_type c with
  | ACT | PRE | RD | WR | RDA | WRA | REFB => Nat.eqb (addr c) b
  | PRESB | REFSB => same_index p (addr c) b
  | REFP2B => Nat.eqb (addr c) b || Nat.eqb (Nat.modulo (addr c + ms_p2bOffset p) 16) b
  | REFDB => Nat.eqb (addr c) b || Nat.eqb (N.to_nat (cmd_dbank c)) b
  | PREA | REFA | SREFEN => true
  | _ => false
  end.

(* The record of one bank inside a core. *)
Definition bank_at (s : core) (r b : nat) : option bank :=
  match nth_error (co_ranks s) r with
  | Some rk => nth_error (rk_banks rk) b
  | None => None
  end.

(* ---- what getWindowStats shows of one rank / bank ---- *)

Definition shown_rank (s : core_stats) (r : nat) : option cycles := nth_error (st_rank s) r.
Definition shown_bank (p : memspec) (s : core_stats) (r b : nat) : option bank_stats :=
  nth_error (st_bank s) (r * ms_banks p + b)%nat.

(* ---- scheduling ---- *)

(* A scheduler sees requests "run x at time ts" and "run what is due at t". *)
Inductive sched_op (A : Type) :=
| Schedule (ts : N) (x : A)
| RunDue (t : N).
Arguments Schedule {A}.
Arguments RunDue {A}.

(* The requests of a sequence of operations, in request order. *)
Fixpoint requests {A} (os : list (sched_op A)) : list (N * A) :=
  match os with
  | [] => []
  | Schedule ts x :: os' => (ts, x) :: requests os'
  | RunDue _ :: os' => requests os'
  end.

(* Running such a sequence on an ImplicitCommandHandler whose functors write
   themselves into a log: returns the queue and the log. *)
Fixpoint run_sched {A} (os : list (sched_op A)) (q log : list (N * A))
  : list (N * A) * list (N * A) :=
  match os with
  | [] => (q, log)
  | Schedule ts x :: os' => run_sched os' (q_insert ts x q) log
  | RunDue t :: os' =>
      let '(q', log', _) := ich_process (fun ts x l => l ++ [(ts, x)]) t q log 0 in
      run_sched os' q' log'
  end.

(* No request asks for a time before the last RunDue. *)
Fixpoint not_in_the_past {A} (now : N) (os : list (sched_op A)) : Prop :=
  match os with
  | [] => True
  | Schedule ts _ :: os' => now <= ts /\ not_in_the_past now os'
  | RunDue t :: os' => not_in_the_past (N.max now t) os'
  end.

(* The entries carrying timestamp [ts]. *)
Definition at_time {A} (ts : N) (l : list (N * A)) : list (N * A) :=
  filter (fun e => fst e =? ts) l.

(* ---- time bounds ---- *)

(* Largest delay any handler adds to a time. *)
Definition tmax (p : memspec) : N :=
  N.max (ms_tRAS p) (N.max (ms_tRP p) (N.max (ms_tRCD p) (N.max (ms_tRCDW p) (N.max (ms_tRFC p)
  (N.max (ms_tRFCsb p) (N.max (ms_tRFCPB p) (N.max (ms_tRFCDB p) (N.max (ms_offRD p) (ms_offWR p))))))))).

(* All times of a history leave room for the largest delay. *)
Definition no_overflow (p : memspec) (ts : list N) : Prop := Forall (fun t => t + tmax p < two64) ts.

(* The five times shown for a rank or bank; self-refresh and deep sleep together
   are the whole stay in self-refresh. *)
Definition shown_counts (c : cycles) : list N :=
  [cy_act c; cy_pda c; cy_pdp c; cy_dsm c; u64_add (cy_sref c) (cy_dsm c)].

(* ---- last command time ---- *)

(* Times executed by a history: the commands themselves and the implicit
   commands that fall due. *)
Fixpoint executed_times (p : memspec) (os : list op) (s : core) : list N :=
  match os with
  | [] => []
  | o :: os' =>
      map fst (filter (fun e => fst e <=? op_time o) (co_queue s)) ++
      match o with
      | Cmd c => cmd_ts c :: match do_command p c s with
                             | Ok s' => executed_times p os' s'
                             | _ => []
                             end
      | Query t => executed_times p os' (fst (window_stats p t s))
      end
  end.

Definition max_time (l : list N) : N := fold_right N.max 0 l.

(* ---- more addressing ---- *)

(* Which bank an implicit command belongs to, if any. *)
Definition ri_bank (x : ricmd) : option nat :=
  match x with RI_pre b | RI_refEnd b => Some b | _ => None end.

Definition to_rank (r : nat) (c : Command) : bool := Nat.eqb (N.to_nat (cmd_rank c)) r.
