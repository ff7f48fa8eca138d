From Coq Require Import NArith List Bool.
From Verif Require Import Base Command CoreModel Bits InterfaceModel InterfaceSpec InterfaceCa InterfaceTop FormatProofs IndepProofs CliTop OutsideSpec.
Import ListNotations.
Local Open Scope N_scope.

Lemma command_on c i i' : if_command c i = Value i' -> if_enabled i' = if_enabled i.
Proof.
  intros E. destruct (transfers (cmd_type c)) as [read|] eqn:T.
  - destruct (transfer_parts c i i' read T E) as (x & i2 & i3 & H). decompose [and] H. assumption.
  - pose proof (other_parts c i i' T E) as H. decompose [and] H. assumption.
Qed.
Lemma last_set : forall xs i i', calls_run xs i = Value i' -> if_last i' = set_last (if_enabled i) (if_last i) xs.
Proof.
  induction xs as [|x xs IH]; intros i i' E; [unfold calls_run in E; cbn in E; injection E as <-; reflexivity|].
  unfold calls_run in E. cbn [loop] in E. apply bind_inv in E as (j & Ej & E). fold (calls_run xs j) in E. specialize (IH j i' E). rewrite IH. clear IH E.
  destruct x as [c|e|a b|e|t|t]; cbn [set_last call_do] in *.
  - rewrite (command_on _ _ _ Ej), (command_last_if _ _ _ Ej). reflexivity.
  - injection Ej as <-. unfold if_enable_dbi. destruct (if_dbi i); [destruct (match fi_std (if_spec i) with DDR4 => fi_bits (if_spec i) =? 4 | _ => false end)|]; reflexivity.
  - injection Ej as <-. reflexivity.
  - unfold if_set_parity in Ej. apply check_inv in Ej as [_ Ej]. destruct (if_pat i); injection Ej as <-; reflexivity.
  - unfold if_enable in Ej. destruct (if_enabled i) eqn:On; [injection Ej as <-; rewrite On; reflexivity|].
    do 2 (apply bind_inv in Ej as (? & _ & Ej)). injection Ej as <-. reflexivity.
  - unfold if_disable in Ej. destruct (if_enabled i) eqn:On; [|injection Ej as <-; rewrite On; reflexivity].
    do 2 (apply bind_inv in Ej as (? & _ & Ej)). injection Ej as <-. reflexivity.
Qed.
Theorem interface_last p sim i0 xs i : iface_new p sim = Value i0 -> calls_run xs i0 = Value i -> if_last i = set_last true 0 xs.
Proof. intros New Run. rewrite (last_set xs i0 i Run), (bt_on _ _ _ (new_built _ _ _ New)), (bt_last _ _ _ (new_built _ _ _ New)). reflexivity. Qed.
