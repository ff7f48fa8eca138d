(* Command encoding.  Models command/Pattern.h, command/Pattern.cpp,
   util/PatternHandler.h and standards/lpddr6/LPDDR6Pattern.h/.cpp under
   src/DRAMPower/DRAMPower. *)
From Coq Require Import NArith List Bool Arith.
From Verif Require Import Base Command Bits.
Import ListNotations.
Local Open Scope N_scope.

(* TargetCoordinate: command/Command.h 11-23, and LPDDR6TargetCoordinate:
   standards/lpddr6/LPDDR6Command.h 13-24.  co_dbank and co_sub are only in the
   latter. *)
Record coord := mkCoord {
  co_bank : N; co_bankGroup : N; co_rank : N; co_row : N; co_column : N; co_dbank : N; co_sub : N
}.

(* pattern_descriptor::t: command/Pattern.h 17-27.  The enumerators with a
   number are one constructor each here; known says which of them exist. *)
Inductive desc := DH | DL | DV | DX | DA (n : nat) | DBG (n : nat) | DBA (n : nat) | DC (n : nat) | DR (n : nat)
| DCID (n : nat) | DAP | DBL.
(* The enumerators of command/Pattern.h 18-26. *)
Definition known (d : desc) : bool :=
  match d with
  | DA n => Nat.leb n 17 | DBG n => Nat.leb n 2 | DBA n => Nat.leb n 8 | DC n => Nat.leb n 16 | DR n => Nat.leb n 23
  | DCID n => Nat.leb n 3 | _ => true
  end.
(* Equality of enumerators, as std::unordered_map uses it. *)
(* command/Pattern.h 52. *)
Definition desc_eqb (a b : desc) : bool :=
  match a, b with
  | DH, DH | DL, DL | DV, DV | DX, DX | DAP, DAP | DBL, DBL => true
  | DA n, DA m | DBG n, DBG m | DBA n, DBA m | DC n, DC m | DR n, DR m | DCID n, DCID m => Nat.eqb n m
  | _, _ => false
  end.

(* PatternEncoderBitSpec: command/Pattern.h 30-36. *)
Inductive bit_spec := SpecL | SpecH | SpecLast | SpecInvalid.

(* BasePatternEncoderOverrides: command/Pattern.h 48-86.  The map is a list of
   entries with distinct keys; the order of a std::unordered_map is unspecified
   and only the serializer looks at it. *)
Definition overrides := list (desc * bit_spec).
(* std::unordered_map::find. *)
(* command/Pattern.h 71, 81. *)
Fixpoint ov_find (o : overrides) (d : desc) : option bit_spec :=
  match o with [] => None | (k, s) :: r => if desc_eqb k d then Some s else ov_find r d end.
(* emplace in the constructor: command/Pattern.h 56-61; it keeps an entry that
   is already there. *)
Definition ov_emplace (o : overrides) (e : desc * bit_spec) : overrides :=
  match ov_find o (fst e) with Some _ => o | None => o ++ [e] end.
(* BasePatternEncoderOverrides(list): command/Pattern.h 56-61. *)
Definition ov_new (l : list (desc * bit_spec)) : overrides := fold_left ov_emplace l [].
(* settings[descriptor] = bitSpec: command/Pattern.h 67. *)
Fixpoint ov_assign (o : overrides) (d : desc) (s : bit_spec) : overrides :=
  match o with
  | [] => [(d, s)]
  | (k, t) :: r => if desc_eqb k d then (k, s) :: r else (k, t) :: ov_assign r d s
  end.
(* updateSettings: command/Pattern.h 63-69. *)
Definition ov_update (o : overrides) (l : list (desc * bit_spec)) : overrides :=
  fold_left (fun o e => ov_assign o (fst e) (snd e)) l o.
(* removeSetting: command/Pattern.h 83-85. *)
Definition ov_remove (o : overrides) (d : desc) : overrides := filter (fun e => negb (desc_eqb (fst e) d)) o.
(* getSetting: command/Pattern.h 70-76. *)
Definition ov_get (o : overrides) (d : desc) : bit_spec := match ov_find o d with Some s => s | None => SpecInvalid end.

(* patternApplyBitSpec: command/Pattern.h 94-118. *)
Definition apply_spec (o : overrides) (d : desc) (last_bit default_bit : bool) : bool :=
  match ov_get o d with SpecL => false | SpecH => true | SpecLast => last_bit | SpecInvalid => default_bit end.

(* bitset<32>(v)[k]: command/Pattern.cpp 13-16. *)
Definition bit32 (v : N) (k : nat) : bool := N.testbit (v mod 2 ^ 32) (N.of_nat k).
(* `bitset[n] = v` on std::bitset<64> (n < 64 by the assertion of line 20). *)
Definition put_bit (w : N) (n : nat) (v : bool) : N := if v then N.setbit w (N.of_nat n) else N.clearbit w (N.of_nat n).

(* The switch over the descriptor: command/Pattern.cpp 25-198.  None is the
   default branch, which leaves the bit as it is. *)
Definition encode_bit (o : overrides) (last : N) (c : coord) (n : nat) (d : desc) : option bool :=
  let last_bit := N.testbit last (N.of_nat n) in
  match d with
  | DH => Some true
  | DL => Some false
  | DBL | DCID _ => Some (apply_spec o d last_bit true)
  | DV | DX | DAP => Some (apply_spec o d last_bit false)
  | DBA k => if Nat.leb k 8 then Some (bit32 (co_bank c) k) else None
  | DBG k => if Nat.leb k 2 then Some (bit32 (co_bankGroup c) k) else None
  | DC k => if Nat.leb k 4 || Nat.eqb k 10 then Some (apply_spec o d last_bit (bit32 (co_column c) k))
            else if Nat.leb k 16 then Some (bit32 (co_column c) k) else None
  | DR k => if Nat.leb k 17 then Some (bit32 (co_row c) k) else None
  | DA _ => None
  end.
(* The loop over the pattern: command/Pattern.cpp 22-201. *)
Fixpoint encode_loop (o : overrides) (last : N) (c : coord) (p : list desc) (w : N) : N :=
  match p with
  | [] => w
  | d :: r => encode_loop o last c r (match encode_bit o last c (length r) d with Some v => put_bit w (length r) v | None => w end)
  end.
(* DefaultEncoder::encode: command/Pattern.cpp 8-204.  An empty pattern makes n
   wrap, which the assertion catches. *)
Definition encode (o : overrides) (last : N) (c : coord) (p : list desc) : result N :=
  check (Nat.ltb 0 (length p) && Nat.leb (length p) 64) (Value (encode_loop o last c p 0)).

(* PatternHandler: util/PatternHandler.h 27-115 (members 112-114).  A command
   type without a registered pattern has the empty pattern. *)
Record handler := mkHandler { ph_over : overrides; ph_map : CmdType -> list desc; ph_last : N }.
(* getCommandPattern: util/PatternHandler.h 80-89. *)
Definition command_pattern (h : handler) (t : CmdType) (c : coord) : result (N * handler) :=
  match ph_map h t with
  | [] => Fails Exception
  | p => w <- encode (ph_over h) (ph_last h) c p ;; Value (w, mkHandler (ph_over h) (ph_map h) w)
  end.
(* Access to getEncoder().settings: util/PatternHandler.h 59-60. *)
Definition with_overrides (h : handler) (o : overrides) : handler := mkHandler o (ph_map h) (ph_last h).

(* ---- LPDDR6 ---- *)

(* pattern_descriptor_LPDDR6::t: standards/lpddr6/LPDDR6Pattern.h 13-27. *)
Inductive desc6 := EH | EL | EV | EX | EBG (n : nat) | EDBG (n : nat) | EBA (n : nat) | EC (n : nat) | ER (n : nat) | EBL | ESC | EPAR.
(* The enumerators of standards/lpddr6/LPDDR6Pattern.h 14-26. *)
Definition known6 (d : desc6) : bool :=
  match d with EBG n | EDBG n | EBA n => Nat.leb n 1 | EC n => Nat.leb n 5 | ER n => Nat.leb n 16 | _ => true end.
(* `PAR == pattern[2]`. *)
Definition is_par (d : desc6) : bool := match d with EPAR => true | _ => false end.

(* LPDDR6PatternExtraData: standards/lpddr6/LPDDR6Pattern.h 30-33. *)
Record extra6 := mkExtra { ex_burst : N; ex_groups : N; ex_parity : bool }.

(* The switch: standards/lpddr6/LPDDR6Pattern.cpp 32-152.  The masks of lines
   16-19 and 22 keep the bits that are looked at.  PAR leaves the bit. *)
Definition encode6_bit (e : extra6) (c : coord) (d : desc6) : result (option bool) :=
  match d with
  | EH => Value (Some true)
  | EL | EX | EV => Value (Some false)
  | EBL => Value (Some (ex_burst e =? 24))
  | EBA k => Value (Some (N.testbit (co_bank c) (N.of_nat k)))
  | EBG k => Value (Some (N.testbit (co_bankGroup c) (N.of_nat k)))
  | EDBG k => Value (Some (N.testbit (co_dbank c / ex_groups e) (N.of_nat k)))
  | EC O => check ((ex_burst e =? 24) || (ex_burst e =? 48))
              (Value (Some (if ex_burst e =? 24 then N.testbit (co_column c) 0 else false)))
  | EC k => Value (Some (N.testbit (co_column c) (N.of_nat k)))
  | ER k => Value (Some (N.testbit (co_row c) (N.of_nat k)))
  | ESC => Value (Some (co_sub c =? 1))
  | EPAR => Value None
  end.
(* The loop: standards/lpddr6/LPDDR6Pattern.cpp 29-154. *)
Fixpoint encode6_loop (e : extra6) (c : coord) (p : list desc6) (w : N) : result N :=
  match p with
  | [] => Value w
  | d :: r => b <- encode6_bit e c d ;; encode6_loop e c r (match b with Some v => put_bit w (length r) v | None => w end)
  end.
(* LPDDR6Encoder::encode: standards/lpddr6/LPDDR6Pattern.cpp 11-165.  The
   remainder by zero is undefined; pattern[2] is undefined for shorter
   patterns. *)
Definition encode6 (e : extra6) (c : coord) (p : list desc6) : result N :=
  if ex_groups e =? 0 then Fails UB else
  check (co_dbank c mod ex_groups e =? 0)
    (check (Nat.ltb 0 (length p) && Nat.leb (length p) 64)
       (w <- encode6_loop e c p 0 ;;
        if ex_parity e
        then match nth_error p 2 with
             | None => Fails UB
             | Some d => Value (if is_par d then put_bit w (length p - 3) (popcount w mod 2 =? 1) else w)
             end
        else Value w)).
(* The PatternHandler of LPDDR6: standards/lpddr6/LPDDR6Interface.h 109; its
   encoder ignores overrides and the last pattern. *)
Record handler6 := mkHandler6 { p6_extra : extra6; p6_map : CmdType -> list desc6; p6_last : N }.
(* getCommandPattern: util/PatternHandler.h 80-89. *)
Definition command_pattern6 (h : handler6) (t : CmdType) (c : coord) : result (N * handler6) :=
  match p6_map h t with
  | [] => Fails Exception
  | p => w <- encode6 (p6_extra h) c p ;; Value (w, mkHandler6 (p6_extra h) (p6_map h) w)
  end.
(* currentBurstLength = length: standards/lpddr6/LPDDR6Interface.cpp 349. *)
Definition with_burst6 (h : handler6) (len : N) : handler6 :=
  mkHandler6 (mkExtra len (ex_groups (p6_extra h)) (ex_parity (p6_extra h))) (p6_map h) (p6_last h).
