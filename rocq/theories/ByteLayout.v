(* A layout: little endian, 64 bits, as gcc with libstdc++ has it on x86-64.  One
   instance of the layouts that the theorems are about; not part of the source. *)
From Coq Require Import NArith ZArith QArith List Bool Arith Lia.
From Verif Require Import Base Command CoreModel Bits BusModel ToggleModel PinModel DbiModel DbiPinModel PatternModel InterfaceModel SerialModel ByteModel ByteSpec RangeSpec.
Import ListNotations.
Local Open Scope N_scope.

(* Numbers. *)
Fixpoint le_bytes (k : nat) (n : N) : list N := match k with O => [] | S k => n mod 256 :: le_bytes k (n / 256) end.
Fixpoint le_value (l : list N) : N := match l with [] => 0 | b :: r => b + 256 * le_value r end.
Definition number (k : nat) (l : list N) : option N :=
  if Nat.eqb (length l) k && forallb (fun b => b <? 256) l then Some (le_value l) else None.
(* Enumerations: four bytes, the position of the enumerator. *)
Definition enumerator {A} (all : list A) (l : list N) : option A :=
  match number 4 l with Some n => nth_error all (N.to_nat n) | None => None end.
Definition all_mem := [NOT_IN_PD; PDN_ACT; PDN_PRE; SREF; DSM].
Definition all_bank := [false; true].
Definition all_pin := [PinL; PinH; PinZ].
Definition all_idle := [TogL; TogH; TogInvalid].
Definition all_mode := [ModeBus; ModeToggling].
Definition all_spec := [SpecL; SpecH; SpecLast; SpecInvalid].
Definition all_desc : list desc :=
  [DH; DL; DV; DX] ++ map DA (seq 0 18) ++ map DBG (seq 0 3) ++ map DBA (seq 0 9) ++ map DC (seq 0 17) ++ map DR (seq 0 24) ++
  map DCID (seq 0 4) ++ [DAP; DBL].
(* A binary64 that is finite, as a reduced fraction. *)
Definition binary64 (n : N) : option Q :=
  let m := n mod 2 ^ 52 in
  let e := (n / 2 ^ 52) mod 2 ^ 11 in
  let s := if n / 2 ^ 63 =? 0 then 1%Z else (-1)%Z in
  if e =? 2047 then None else
  let m := if e =? 0 then m else m + 2 ^ 52 in
  let e := (Z.of_N (N.max e 1) - 1075)%Z in
  Some (Qred (if (0 <=? e)%Z then inject_Z (s * Z.of_N m * 2 ^ e) else (s * Z.of_N m)%Z # Z.to_pos (2 ^ (- e)))).
Definition words (max : nat) : nat := (8 * ((max + 63) / 64))%nat.
Definition width64 (t : ty) : nat :=
  match t with
  | T_bool | T_u8 | T_u8_bool => 1 | T_u16 => 2 | T_u64 | T_double => 8 | T_opt => 16
  | T_raw m => words m | T_bytes n => n | _ => 4
  end.
Definition look64 (t : ty) : list N -> option (val t) :=
  match t with
  | T_bool => fun l => match l with [0] => Some false | [1] => Some true | _ => None end
  | T_u8 => number 1
  | T_u8_bool => fun l => match number 1 l with Some n => if n <=? 1 then Some n else None | None => None end
  | T_u16 => number 2
  | T_u64 => number 8
  | T_double => fun l => match number 8 l with Some n => binary64 n | None => None end
  (* The value, the flag, padding. *)
  | T_opt => fun l => match nth_error l 8 with Some 1 => number 8 (firstn 8 l) | _ => None end
  | T_raw m => fun l => match number (words m) l with Some n => if n <? 2 ^ N.of_nat m then Some n else None | None => None end
  | T_bytes n => fun l => Some l
  | T_mem => enumerator all_mem | T_bank => enumerator all_bank | T_pin => enumerator all_pin | T_idle => enumerator all_idle
  | T_mode => enumerator all_mode | T_desc => enumerator all_desc | T_spec => enumerator all_spec
  end.
Definition lp64 : layout := mkLayout width64 look64.

Lemma lp64_lawful : lawful lp64.
Proof. split; [reflexivity|]. intros n l H. cbn [look lp64 look64] in *. now rewrite H. Qed.

(* Bytes for an item; the padding is filled with 205. *)
Fixpoint place {A} (same : A -> A -> bool) (x : A) (l : list A) : N :=
  match l with [] => 0 | y :: r => if same x y then 0 else 1 + place same x r end.
Definition show64 (i : item) : list N :=
  match i with
  | I_bool b => [if b then 1 else 0] | I_u8 n => le_bytes 1 n | I_u16 n => le_bytes 2 n | I_u64 n => le_bytes 8 n
  | I_double q => le_bytes 8 (if Qeq_bool q 0 then 0 else if Qeq_bool q 1 then 1023 * 2 ^ 52 else if Qeq_bool q (1 # 2) then 1022 * 2 ^ 52 else if Qeq_bool q (1 # 4) then 1021 * 2 ^ 52 else 0)
  | I_opt n => le_bytes 8 n ++ [1] ++ repeat 205 7
  | I_raw m n => le_bytes (words m) n | I_bytes l => l
  | I_mem m => le_bytes 4 (place memState_beq m all_mem) | I_bank b => le_bytes 4 (if b then 1 else 0)
  | I_pin s => le_bytes 4 (match s with PinL => 0 | PinH => 1 | PinZ => 2 end)
  | I_idle i => le_bytes 4 (match i with TogL => 0 | TogH => 1 | TogInvalid => 2 end)
  | I_mode m => le_bytes 4 (match m with ModeBus => 0 | ModeToggling => 1 end)
  | I_desc d => le_bytes 4 (place desc_eqb d all_desc)
  | I_spec s => le_bytes 4 (match s with SpecL => 0 | SpecH => 1 | SpecLast => 2 | SpecInvalid => 3 end)
  end.
Definition stream64 (s : list item) : list N := concat (map show64 s).

(* A decision whether these bytes represent the item. *)
Definition q_dec (a b : Q) : {a = b} + {a <> b}.
Proof. destruct a as [n d], b as [n' d']. destruct (Z.eq_dec n n'); [|right; congruence]. destruct (Pos.eq_dec d d'); [left; congruence|right; congruence]. Defined.
Definition val_dec (t : ty) : forall a b : val t, {a = b} + {a <> b}.
Proof. destruct t; cbn [val]; intros a b; first [apply N.eq_dec | apply bool_dec | apply q_dec | apply (list_eq_dec N.eq_dec) | decide equality; apply Nat.eq_dec]. Defined.
Definition shown (i : item) : bool :=
  Nat.eqb (length (show64 i)) (width64 (projT1 (typed i))) &&
  match look64 (projT1 (typed i)) (show64 i) with Some v => if val_dec _ v (projT2 (typed i)) then true else false | None => false end.
Lemma shown_shows i : shown i = true -> shows lp64 i (show64 i).
Proof.
  unfold shown, shows. intro H. apply andb_true_iff in H as [A B]. apply Nat.eqb_eq in A. split; [exact A|]. cbn [look lp64].
  destruct (look64 (projT1 (typed i)) (show64 i)) as [v|]; [|discriminate]. destruct (val_dec _ v _) as [->|]; [reflexivity|discriminate].
Qed.
Lemma shown_represents s : forallb shown s = true -> represents lp64 s (stream64 s).
Proof.
  intro H. exists (map show64 s). split; [|reflexivity]. induction s as [|i s IH]; cbn [map]; constructor; cbn [forallb] in H; apply andb_true_iff in H as [A B].
  - now apply shown_shows.
  - now apply IH.
Qed.

(* ---- numbers that fit ---- *)

Lemma le_length k : forall n, length (le_bytes k n) = k.
Proof. induction k as [|k IH]; intro n; cbn [le_bytes length]; [reflexivity|now rewrite IH]. Qed.
Lemma le_small k : forall n, forallb (fun b => b <? 256) (le_bytes k n) = true.
Proof. induction k as [|k IH]; intro n; cbn [le_bytes forallb]; [reflexivity|]. rewrite IH, andb_true_r. apply N.ltb_lt. apply N.mod_lt. discriminate. Qed.
Lemma le_back k : forall n, n < 256 ^ N.of_nat k -> le_value (le_bytes k n) = n.
Proof.
  induction k as [|k IH]; intros n H; cbn [le_bytes le_value].
  - cbn in H. lia.
  - rewrite IH. { rewrite N.add_comm. symmetry. apply N.div_mod. discriminate. }
    rewrite Nnat.Nat2N.inj_succ, N.pow_succ_r' in H. apply N.div_lt_upper_bound; [discriminate|exact H].
Qed.
Lemma number_back k n : n < 256 ^ N.of_nat k -> number k (le_bytes k n) = Some n.
Proof. intro H. unfold number. now rewrite le_length, Nat.eqb_refl, le_small, (le_back k n H). Qed.
Lemma u64_shows n : fits n -> shows lp64 (I_u64 n) (show64 (I_u64 n)).
Proof. intro H. split; [reflexivity|]. exact (number_back 8 n H). Qed.
Lemma opt_shows n : fits n -> shows lp64 (I_opt n) (show64 (I_opt n)).
Proof. intro H. split; [reflexivity|]. exact (number_back 8 n H). Qed.
Definition seen (s : list item) : Prop := Forall (fun i => shows lp64 i (show64 i)) s.
Lemma seen_represents s : seen s -> represents lp64 s (stream64 s).
Proof. intro H. exists (map show64 s). split; [|reflexivity]. induction H; constructor; assumption. Qed.
Lemma seen_app a b : seen a -> seen b -> seen (a ++ b).
Proof. intros. apply Forall_app. now split. Qed.
Lemma seen_flat {A} (w : A -> list item) l : (forall x, In x l -> seen (w x)) -> seen (flat_map w l).
Proof. induction l as [|x l IH]; cbn [flat_map]; intro H; [constructor|]. apply seen_app; [apply H; now left|apply IH; intros; apply H; now right]. Qed.
Lemma seen_optional o : fits_opt o -> seen (w_optional o).
Proof. destruct o as [n|]; intro H; repeat constructor. exact (number_back 8 n H). Qed.
Lemma seen_interval i : iv_fits i -> seen (w_interval i).
Proof. intros (A & B & C). unfold w_interval. apply seen_app; [repeat constructor; now apply u64_shows|]. apply seen_app; now apply seen_optional. Qed.
Lemma seen_cstats c : cs_fits c -> seen (w_cstats c).
Proof.
  intro F. unfold w_cstats, seen. cbn [map].
  repeat (constructor; [match goal with |- shows _ (I_u64 ?x) _ => apply u64_shows end|]); try constructor.
  - exact (F K_act). - exact (F K_pre). - exact (F K_reads). - exact (F K_writes). - exact (F K_refAllBank). - exact (F K_refPerBank).
  - exact (F K_refPerTwoBanks). - exact (F K_refDualBanks). - exact (F K_refSameBank). - exact (F K_readAuto). - exact (F K_writeAuto).
Qed.
Lemma seen_bank b : bank_fits b -> seen (w_bank b).
Proof.
  intros (A & (B1 & B2 & B3) & C & D). unfold w_bank. apply seen_app.
  - constructor; [|constructor; [now apply u64_shows|constructor; [now apply u64_shows|constructor]]]. destruct (bk_active b); split; reflexivity.
  - do 3 (apply seen_app; [now apply seen_interval|]). now apply seen_cstats.
Qed.
Lemma seen_rank r : rank_fits r -> seen (w_rank r).
Proof.
  intros ((A1 & A2 & A3 & A4 & A5 & A6 & A7) & (B1 & B2 & B3) & C). unfold w_rank. apply seen_app.
  - constructor; [destruct (rk_memState r); split; reflexivity|]. repeat (constructor; [now apply u64_shows|]). constructor.
  - do 7 (apply seen_app; [now apply seen_interval|]). apply seen_flat. intros b I. apply seen_bank. rewrite Forall_forall in C. now apply C.
Qed.
Lemma seen_core s : core_fits s -> seen (w_core s).
Proof.
  intros (L & R & _). unfold w_core. apply seen_app; [constructor; [now apply u64_shows|constructor]|].
  apply seen_flat. intros r I. apply seen_rank. rewrite Forall_forall in R. now apply R.
Qed.
