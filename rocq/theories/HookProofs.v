(* What a hook does to the extensions. *)
From Coq Require Import NArith List Bool Arith Lia.
From Verif Require Import Base Bits ExtensionModel ExtensionSpec ExtensionProofs.
Import ListNotations.
Local Open Scope N_scope.

Lemma change_here {A} (f : A -> A) x : forall pre r, change_at (length pre) f (pre ++ x :: r) = pre ++ f x :: r.
Proof. induction pre as [|y pre IH]; intros r; cbn; [reflexivity|now rewrite IH]. Qed.
Lemma fold_objects {V} (f : V -> V) : forall ks (m : manager V), em_objects (fold_left (fun m k => em_change k f m) ks m) = fold_left (fun o k => change_at k f o) ks (em_objects m).
Proof. induction ks as [|k ks IH]; intros m; [reflexivity|]. cbn [fold_left]. rewrite IH. reflexivity. Qed.
Lemma supported_changed {V} (f : V -> V) b : forall (l : list (hooked V)) pre,
  fold_left (fun o k => change_at k f o) (supporters b (length pre) (map hk_hooks l)) (pre ++ map hk_object l) =
  pre ++ map (fun x => if N.testbit (hk_hooks x) b then f (hk_object x) else hk_object x) l.
Proof.
  induction l as [|x l IH]; intros pre; [reflexivity|]. cbn [map supporters].
  assert (forall y, fold_left (fun o k => change_at k f o) (supporters b (S (length pre)) (map hk_hooks l)) (pre ++ y :: map hk_object l) =
    pre ++ y :: map (fun x => if N.testbit (hk_hooks x) b then f (hk_object x) else hk_object x) l) as K.
  { intros y. specialize (IH (pre ++ [y])). rewrite app_length in IH. cbn [length] in IH. rewrite Nat.add_1_r, <- !app_assoc in IH. exact IH. }
  destruct (N.testbit (hk_hooks x) b); [cbn [app fold_left]; rewrite change_here|]; apply K.
Qed.
Lemma hooked_objects {V} : forall (l : list (hooked V)) m m', hooked_run l m = Value m' -> em_objects m' = em_objects m ++ map hk_object l.
Proof.
  induction l as [|x l IH]; intros m m' H; cbn [hooked_run] in H; [injection H as <-; now rewrite app_nil_r|].
  destruct (em_register_hooks (hk_type x) (hk_object x) (hk_hooks x) m) as [m1|] eqn:R; [|discriminate]. cbn [bind] in H. rewrite (IH _ _ H).
  unfold em_register_hooks in R. destruct (loop _ _ _) as [h|] in R; [|discriminate]. injection R as <-. cbn [em_objects em_register map]. now rewrite <- app_assoc.
Qed.
Theorem hook_applied {V} digits (l : list (hooked V)) m hook b f : (digits <= 32)%nat -> hooked_run l (em_new_hooks digits) = Value m -> lowest hook b -> b < N.of_nat digits ->
  em_objects (em_call_hook hook f m) = map (fun x => if N.testbit (hk_hooks x) b then f (hk_object x) else hk_object x) l /\
  forall ty, em_find ty (em_call_hook hook f m) = em_find ty m.
Proof.
  intros D R L B. destruct (called_dynamic digits l D) as (m' & R' & C & _). assert (m' = m) as -> by congruence.
  split.
  - unfold em_call_hook. rewrite fold_objects, (C hook b L B), (hooked_objects _ _ _ R). exact (supported_changed f b l []).
  - intros ty. unfold em_call_hook. generalize (em_called hook m). intros ks. revert m R R' C. clear. intros m _ _ _. revert m. induction ks as [|k ks IH]; intros m; [reflexivity|]. cbn [fold_left]. rewrite IH. reflexivity.
Qed.
