(* Words for what an interface holds after it was read from a stream that broke off. *)
From Coq Require Import NArith QArith List Bool Arith.
From Verif Require Import Base Command CoreModel Bits BusModel ToggleModel PinModel DbiModel DbiPinModel PatternModel InterfaceModel SerialModel.
Import ListNotations.

(* The standards with a word clock in the place of a write strobe. *)
Definition word_clocked (s : standard) : bool := match s with LPDDR5 | LPDDR6 => true | _ => false end.

(* The members that are written, in the order in which they are. *)
Inductive part :=
| P_time (t : N) | P_pat (h : patterns) | P_bus (b : bus) | P_tog (h : toggling) | P_mode (m : bus_mode) | P_clock (k : clock).
Definition parts (i : iface) : list part :=
  [P_time (if_last i); P_pat (if_pat i); P_bus (if_cmd i); P_bus (d_read (if_data i)); P_bus (d_write (if_data i));
   P_tog (d_tread (if_data i)); P_tog (d_twrite (if_data i)); P_mode (d_mode (if_data i));
   P_clock (if_rdqs i); P_clock (if word_clocked (fi_std (if_spec i)) then if_wck i else if_wdqs i); P_clock (if_clock i)].
(* The others. *)
Definition not_written (i : iface) :=
  (if_spec i, (if word_clocked (fi_std (if_spec i)) then if_wdqs i else if_wck i), if_dbi i, if_ranks i, if_meta i, if_buf i, if_enabled i).

(* What a stream holds for each of them. *)
Definition part_items (order : overrides) (x : part) : list item :=
  match x with
  | P_time t => [I_u64 t] | P_pat h => w_patterns order h | P_bus b => w_bus b | P_tog h => w_toggling h | P_mode m => [I_mode m] | P_clock k => w_clock k
  end.

(* A member for which the stream held nothing at all.  It should be what it was; a bus
   loses the bursts it stores, a clock the time it was started at, an encoder its settings. *)
Definition stale (x : part) : part :=
  match x with
  | P_bus b => P_bus (mkBus (b_max b) (b_stats b) (mkContainer [] (bc_width (b_store b)) (bc_count (b_store b)) (bc_load (b_store b))) (b_last_load b) (b_enabled b)
                            (b_disabled_at b) (b_width b) (b_datarate b) (b_pending b) (b_last b) (b_idle_stats b) (b_idle b))
  | P_clock k => P_clock (mkClock None (ck_stats k) (ck_rate k))
  | P_pat (Pat h) => P_pat (Pat (mkHandler [] (ph_map h) (ph_last h)))
  | x => x
  end.
(* A member that was read in full: all that is written of it. *)
Definition same_part (x y : part) : Prop :=
  match x, y with
  | P_pat (Pat a), P_pat (Pat b) => forall d, ov_find (ph_over a) d = ov_find (ph_over b) d
  | P_pat (Pat6 a), P_pat (Pat6 b) => ex_burst (p6_extra a) = ex_burst (p6_extra b) /\ ex_parity (p6_extra a) = ex_parity (p6_extra b)
  | _, _ => x = y
  end.
(* The stream broke off among the settings of the encoder. *)
Definition among_settings (order : overrides) (n : iface) (u : list item) : bool :=
  match if_pat n with Pat _ => Nat.leb 2 (length u) && Nat.ltb (length u) (2 + 2 * length order) | Pat6 _ => false end.
(* The stream ends inside the k-th member, e being what it holds of that, or it ends
   with the last one. *)
Definition at_break (order : overrides) (n : list part) (k : nat) (e : list item) : Prop :=
  match nth_error n k with Some x => exists f, f <> [] /\ part_items order x = e ++ f | None => k = length n /\ e = [] end.
(* The first member for which it holds nothing. *)
Definition done_from (k : nat) (e : list item) : nat := match e with [] => k | _ => S k end.
