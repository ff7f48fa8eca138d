(* What is expected of an interface that is written and read back. *)
From Coq Require Import NArith List Bool.
From Verif Require Import Base Command CoreModel Bits StatsModel PatternModel DbiModel DbiPinModel InterfaceModel InterfaceSpec.
Import ListNotations.
Local Open Scope N_scope.

(* A user calls the interface and asks for statistics, in any order. *)
Inductive step := Call (x : call) | Ask (t : N) (st : sim_stats).
(* What is seen: the time of the last command after a call, the statistics, or how
   a call failed, after which nothing more is seen. *)
Inductive reply := Done (last : N) | Stats (r : result sim_stats) | Stopped (f : failure).
Fixpoint watch (ys : list step) (i : iface) : list reply :=
  match ys with
  | [] => []
  | Call x :: r => match call_do x i with Value i' => Done (if_last i') :: watch r i' | Fails f => [Stopped f] end
  | Ask t st :: r => Stats (if_window i t st) :: watch r i
  end.

(* A traversal of the map: every key once, with its value. *)
Definition traversal (order : overrides) (o : overrides) : Prop :=
  NoDup (map fst order) /\ forall d, ov_find order d = ov_find o d.
Definition settings_of (h : patterns) : overrides := match h with Pat h => ph_over h | Pat6 _ => [] end.

(* The calls whose effect is written.  The inverter is written by DDR4 only and
   DDR5 has none; metadata and the state of enable are not written. *)
Definition kept (s : standard) (x : call) : bool :=
  match x with
  | SetDbi e => match s with DDR4 | DDR5 => true | _ => negb e end
  | SetMeta _ _ | Disable _ => false
  | _ => true
  end.
(* The bytes of the last beats that the inverter of a DDR4 interface keeps. *)
Definition kept_beats (i : iface) : list N :=
  match fi_std (if_spec i), if_dbi i with
  | DDR4, Some x => lb_beat (db_read (di_dbi x)) ++ lb_beat (db_write (di_dbi x))
  | _, _ => []
  end.
(* No call switches the inversion on. *)
Definition no_inversion (x : call) : bool := match x with SetDbi e => negb e | _ => true end.

(* What a stream cannot bring back: the inverter with its pins and the rank
   records outside DDR4, the strobe that the standard does not have, the metadata
   and whether the interface is enabled are those of the interface read into. *)
Definition in_stream (s : standard) : bool := match s with DDR4 => true | _ => false end.
Definition has_write_strobe (s : standard) : bool := match s with LPDDR5 | LPDDR6 => false | _ => true end.
Definition forgetful (target i : iface) : iface :=
  let s := fi_std (if_spec i) in
  mkIface (if_spec i) (if_cmd i) (if_data i) (if_rdqs i)
          (if_wdqs (if has_write_strobe s then i else target)) (if_wck (if has_write_strobe s then target else i)) (if_clock i)
          (if_dbi (if in_stream s then i else target)) (if_ranks (if in_stream s then i else target))
          (if_pat i) (if_last i) (if_meta target) (if_buf i) (if_enabled target).

(* The metadata last set, and whether the interface was last switched off. *)
Definition is_meta (x : call) : bool := match x with SetMeta _ _ => true | _ => false end.
Definition last_meta (xs : list call) : option (N * N) :=
  fold_left (fun m x => match x with SetMeta a b => Some (a, b) | _ => m end) xs None.
Definition switched_off (xs : list call) : bool :=
  fold_left (fun off x => match x with Enable _ => false | Disable _ => true | _ => off end) xs false.
