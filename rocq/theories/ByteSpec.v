(* What is expected of a layout and of the bytes of a stream. *)
From Coq Require Import NArith List Bool.
From Verif Require Import SerialModel ByteModel.
Import ListNotations.
Local Open Scope N_scope.

(* The bytes of the values written, one after the other: of each as many as its type
   has, and such as represent the value. *)
Definition shows (a : layout) (i : item) (l : list N) : Prop :=
  length l = width a (projT1 (typed i)) /\ look a (projT1 (typed i)) l = Some (projT2 (typed i)).
Definition represents (a : layout) (s : list item) (bytes : list N) : Prop :=
  exists ls, Forall2 (shows a) s ls /\ bytes = concat ls.

(* What the source takes for granted of a layout: a uint8_t and a bool are equally
   wide, and a bool is the byte 0 or 1. *)
Definition lawful (a : layout) : Prop :=
  width a T_u8_bool = width a T_u8 /\
  forall n l, look a T_u8 l = Some n -> look a T_u8_bool l = if n <=? 1 then Some n else None.
