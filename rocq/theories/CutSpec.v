(* What is left of a core after a read that breaks off, said with the list of its
   members in the order of the stream, without the readers. *)
From Coq Require Import NArith List Bool.
From Verif Require Import Base Command CoreModel SerialModel.
Import ListNotations.
Local Open Scope N_scope.

(* One entry of the stream of a core: a member that is always written, a member that
   is a std::optional, and a value that is written although the member it belongs to
   has been written before (endRefreshTime: dram/Rank.cpp 27, 31; the rest is spelled
   out at [core_fields]). *)
Inductive field := F_val (i : item) | F_opt (o : option N) | F_again (i : item).
(* What an entry looks like in the stream: util/cycle_stats.h 78-89. *)
Definition emit (f : field) : list item :=
  match f with
  | F_val i | F_again i => [i]
  | F_opt (Some n) => [I_bool true; I_opt n]
  | F_opt None => [I_bool false]
  end.
(* util/cycle_stats.h 16-20. *)
Definition interval_fields (i : interval) : list field := [F_val (I_u64 (iv_count i)); F_opt (iv_start i); F_opt (iv_end i)].
(* dram/Bank.h 13-31; data/stats.h 16-26. *)
Definition bank_fields (b : bank) : list field :=
  let c := bk_counter b in
  [F_val (I_bank (bk_active b)); F_val (I_u64 (bk_latestPre b)); F_val (I_u64 (bk_refreshEnd b))] ++
  interval_fields (bk_act b) ++ interval_fields (bk_pda b) ++ interval_fields (bk_pdp b) ++
  map (fun n => F_val (I_u64 n))
      [cs_act c; cs_pre c; cs_reads c; cs_writes c; cs_refAllBank c; cs_refPerBank c; cs_refPerTwoBanks c;
       cs_refDualBanks c; cs_refSameBank c; cs_readAuto c; cs_writeAuto c].
(* dram/Rank.h 28-43. *)
Definition rank_fields (r : rank) : list field :=
  [F_val (I_mem (rk_memState r)); F_val (I_u64 (rk_endRefresh r)); F_val (I_u64 (rk_n_sref r)); F_val (I_u64 (rk_n_dsm r));
   F_again (I_u64 (rk_endRefresh r))] ++
  flat_map interval_fields [rk_pre r; rk_act r; rk_ref r; rk_sref r; rk_pda r; rk_pdp r; rk_dsm r] ++
  flat_map bank_fields (rk_banks r).
(* standards/ddr4/DDR4Core.h 92-94. *)
Definition core_fields (s : core) : list field := F_val (I_u64 (co_last s)) :: flat_map rank_fields (co_ranks s).

(* The members among the entries. *)
Definition is_member (f : field) : bool := match f with F_again _ => false | _ => true end.
(* The members among the entries, in their order. *)
Definition members (l : list field) : list field := filter is_member l.
(* A member a read never got to: an optional is reset, anything else is left alone. *)
Definition unread (f : field) : field := match f with F_opt _ => F_opt None | f => f end.

(* [l] is what the members of a core are after a read into a core with the entries
   [old] from a stream that was to hold the entries [new] but holds [p] only: the
   members up to some place are the new ones, those after it are the old ones with
   the optionals reset; if [p] ends between the flag of an optional and its value,
   that optional stays as it is. *)
Definition left_behind (new old : list field) (p : list item) (l : list field) : Prop :=
  exists k, (k <= length new)%nat /\
    (   (p = flat_map emit (firstn k new) /\
         l = members (firstn k new) ++ map unread (members (skipn k old)))
     \/ (exists n o, nth_error new k = Some (F_opt (Some n)) /\ nth_error old k = Some (F_opt o) /\
         p = flat_map emit (firstn k new) ++ [I_bool true] /\
         l = members (firstn k new) ++ F_opt o :: map unread (members (skipn (S k) old)))).
(* A core with these members. *)
Definition has_members (s : core) (l : list field) : Prop := members (core_fields s) = l.
