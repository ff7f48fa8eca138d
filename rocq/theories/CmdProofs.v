(* Command names. *)
From Coq Require Import List Bool String.
From Verif Require Import Command.
Import ListNotations.

Lemma names_round_trip t : t <> END_OF_SIMULATION -> t <> COUNT -> from_string (to_string t) = t.
Proof. destruct t; intros; try reflexivity; congruence. Qed.
Lemma names_cover t : t <> COUNT -> exists s, from_string s = t.
Proof. intros H. destruct t; try (now exists (to_string NOP)); try congruence; [..|exists "END"%string; reflexivity]; match goal with |- exists s, _ = ?t => exists (to_string t) end; reflexivity. Qed.
(* The name a type is parsed from. *)
Definition name_of (t : CmdType) : string := match t with END_OF_SIMULATION => "END" | _ => to_string t end.
Lemma from_string_name s : from_string s <> NOP -> s = name_of (from_string s).
Proof.
  unfold from_string.
  repeat match goal with |- context [if String.eqb ?a ?b then _ else _] =>
    destruct (String.eqb_spec a b) as [->|_]; [intros H; first [reflexivity | exfalso; apply H; reflexivity]|] end.
  intros H. exfalso. apply H. reflexivity.
Qed.
Lemma names_unique s s' : from_string s = from_string s' -> from_string s <> NOP -> s = s'.
Proof. intros E H. rewrite (from_string_name s H). rewrite E in *. now rewrite <- from_string_name. Qed.
