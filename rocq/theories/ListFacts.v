(* Facts about [upd], prefixes and 64-bit arithmetic used by several proofs. *)
From Coq Require Import ZArith NArith List Bool Lia ZifyBool ZifyNat ZifyN Sorting.Sorted.
From Verif Require Import Base.
Import ListNotations.
Local Open Scope N_scope.
Ltac Zify.zify_post_hook ::= Z.div_mod_to_equations.

Lemma length_upd {A} i (f : A -> A) l : length (upd i f l) = length l.
Proof. revert i; induction l as [|x l IH]; intros [|i]; cbn; auto. Qed.

Lemma nth_error_upd_eq {A} i (f : A -> A) l :
  nth_error (upd i f l) i = option_map f (nth_error l i).
Proof. revert i; induction l as [|x l IH]; intros [|i]; cbn; auto. Qed.

Lemma nth_error_upd_ne {A} i j (f : A -> A) l :
  i <> j -> nth_error (upd i f l) j = nth_error l j.
Proof.
  revert i j; induction l as [|x l IH]; intros [|i] [|j] H; cbn; auto; try congruence.
Qed.

Lemma nth_error_upd {A} i j (f : A -> A) l :
  nth_error (upd i f l) j =
  if Nat.eqb i j then option_map f (nth_error l j) else nth_error l j.
Proof.
  destruct (Nat.eqb_spec i j) as [->|H].
  - apply nth_error_upd_eq.
  - apply nth_error_upd_ne; auto.
Qed.

Lemma upd_out {A} i (f : A -> A) l : (length l <= i)%nat -> upd i f l = l.
Proof.
  revert i; induction l as [|x l IH]; intros [|i] H; cbn in *; auto; try lia.
  f_equal; apply IH; lia.
Qed.

Lemma upd_upd {A} i (f g : A -> A) l : upd i f (upd i g l) = upd i (fun x => f (g x)) l.
Proof. revert i; induction l as [|x l IH]; intros [|i]; cbn; auto; f_equal; auto. Qed.

Lemma upd_upd_ne {A} i j (f g : A -> A) l :
  i <> j -> upd i f (upd j g l) = upd j g (upd i f l).
Proof.
  revert i j; induction l as [|x l IH]; intros [|i] [|j] H; cbn; auto; try congruence.
  f_equal; auto.
Qed.

Lemma upd_ext {A} i (f g : A -> A) l :
  (forall x, nth_error l i = Some x -> f x = g x) -> upd i f l = upd i g l.
Proof.
  revert i; induction l as [|x l IH]; intros [|i] H; cbn in *; auto.
  - f_equal; apply H; reflexivity.
  - f_equal; apply IH; assumption.
Qed.

Lemma upd_id {A} i (f : A -> A) l :
  (forall x, nth_error l i = Some x -> f x = x) -> upd i f l = l.
Proof.
  revert i; induction l as [|x l IH]; intros [|i] H; cbn in *; auto.
  - f_equal; apply H; reflexivity.
  - f_equal; apply IH; assumption.
Qed.

Lemma nth_error_ext {A} (l l' : list A) :
  (forall i, nth_error l i = nth_error l' i) -> l = l'.
Proof.
  revert l'; induction l as [|x l IH]; intros [|y l'] H; auto.
  - specialize (H O); discriminate.
  - specialize (H O); discriminate.
  - f_equal; [specialize (H O); cbn in H; congruence|].
    apply IH; intros i; exact (H (S i)).
Qed.

Lemma map_upd {A B} (g : A -> B) i f f' l :
  (forall x, g (f x) = f' (g x)) -> map g (upd i f l) = upd i f' (map g l).
Proof.
  intros H; revert i; induction l as [|x l IH]; intros [|i]; cbn; auto; f_equal; auto.
Qed.

Lemma nth_error_map {A B} (f : A -> B) l i :
  nth_error (map f l) i = option_map f (nth_error l i).
Proof. revert i; induction l as [|x l IH]; intros [|i]; cbn; auto. Qed.

Lemma nth_error_repeat {A} (x : A) n i :
  nth_error (repeat x n) i = if Nat.ltb i n then Some x else None.
Proof.
  revert i; induction n as [|n IH]; intros [|i]; cbn [repeat nth_error]; auto.
  rewrite IH. destruct (Nat.ltb_spec i n), (Nat.ltb_spec (S i) (S n)); auto; lia.
Qed.

Lemma nth_error_seq s n i :
  nth_error (seq s n) i = if Nat.ltb i n then Some (s + i)%nat else None.
Proof.
  revert s i; induction n as [|n IH]; intros s [|i]; cbn [seq nth_error]; auto.
  - cbn. f_equal; lia.
  - rewrite IH. destruct (Nat.ltb_spec i n), (Nat.ltb_spec (S i) (S n)); auto; try lia.
    f_equal; lia.
Qed.

Lemma nth_error_lt {A} (l : list A) i : (i < length l)%nat -> exists x, nth_error l i = Some x.
Proof.
  intros H. destruct (nth_error l i) as [x|] eqn:E; [eauto|].
  apply nth_error_None in E; lia.
Qed.

Lemma nth_error_some_lt {A} (l : list A) i x : nth_error l i = Some x -> (i < length l)%nat.
Proof. intros H; apply nth_error_Some; congruence. Qed.

(* ---- 64-bit arithmetic ---- *)

Lemma u64_add_small a b : a + b < two64 -> u64_add a b = a + b.
Proof. unfold u64_add; intros; apply N.mod_small; assumption. Qed.

Lemma u64_sub_le a b : b <= a -> a < two64 -> u64_sub a b = a - b.
Proof.
  unfold u64_sub; intros H1 H2.
  rewrite (N.mod_small b) by lia.
  replace (a + two64 - b) with ((a - b) + 1 * two64) by lia.
  rewrite N.mod_add by (unfold two64; lia).
  apply N.mod_small; lia.
Qed.

Lemma u64_add_lt a b : u64_add a b < two64.
Proof. unfold u64_add; apply N.mod_lt; unfold two64; lia. Qed.

Lemma u64_sub_lt a b : u64_sub a b < two64.
Proof. unfold u64_sub; apply N.mod_lt; unfold two64; lia. Qed.

(* (a + b) - c computed with wrap-around is exact when the true result fits. *)
Lemma u64_sub_add a b c : c <= a + b -> a + b - c < two64 -> c < two64 ->
  u64_sub (u64_add a b) c = a + b - c.
Proof.
  unfold u64_sub, u64_add, two64; intros H1 H2 H3.
  rewrite (N.mod_small c) by lia. lia.
Qed.

Lemma u64_inc_mod n : u64_inc (n mod two64) = (n + 1) mod two64.
Proof. unfold u64_inc, u64_add. rewrite N.add_mod_idemp_l; [reflexivity|unfold two64; lia]. Qed.

(* ---- strongly sorted lists of timed entries ---- *)

Definition ts_le {A} (a b : N * A) : Prop := fst a <= fst b.
Definition tsorted {A} (q : list (N * A)) : Prop := StronglySorted ts_le q.

Lemma tsorted_nil {A} : @tsorted A [].
Proof. constructor. Qed.

Lemma tsorted_inv {A} (a : N * A) q : tsorted (a :: q) -> tsorted q /\ Forall (ts_le a) q.
Proof. intros H; inversion H; auto. Qed.

Lemma Forall_filter {A} (P : A -> Prop) f l : Forall P l -> Forall P (filter f l).
Proof. intros H. apply Forall_forall. intros x Hx. apply filter_In in Hx as [Hx _].
  rewrite Forall_forall in H; auto. Qed.

Lemma tsorted_filter {A} (f : N * A -> bool) q : tsorted q -> tsorted (filter f q).
Proof.
  induction q as [|a q IH]; intros H; cbn; [constructor|].
  apply tsorted_inv in H as [H1 H2].
  destruct (f a); [constructor; [apply IH; auto|apply Forall_filter; auto]|apply IH; auto].
Qed.
