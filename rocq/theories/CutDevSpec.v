(* Words for what a device holds after it was read from a stream that broke off. *)
From Coq Require Import NArith List.
From Verif Require Import SerialModel InterfaceModel DramModel ExtensionModel CutIfSpec.

(* What the extensions hold, in the order of the stream. *)
Definition ext_items (d : device) : list item := flat_map w_ext (em_objects (dv_ext d)).
(* An interface z left after nothing was read into i. *)
Definition lost (i z : iface) : Prop := parts z = map stale (parts i) /\ not_written z = not_written i.
(* A value of an extension that was not read: metadata becomes zero, the switch of the inversion stays. *)
Definition unread_item (i : item) : item := match i with I_u16 _ => I_u16 0%N | i => i end.
