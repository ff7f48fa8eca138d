(* Facts about the table of command handlers. *)
From Coq Require Import NArith List Bool Arith Lia.
From Verif Require Import Base Bits Command RouterModel.
Import ListNotations.

(* Registrations, in order. *)
Fixpoint route_all {H} (rs : list (CmdType * option H)) (r : router H) : result (router H) :=
  match rs with
  | [] => Value r
  | (t, f) :: rs => match route_command t f r with Value r => route_all rs r | Fails e => Fails e end
  end.
(* The handler registered last for t, or the default. *)
Fixpoint last_for {H} (t : CmdType) (d : option H) (rs : list (CmdType * option H)) : option H :=
  match rs with
  | [] => d
  | (t', f) :: rs => last_for t (if CmdType_beq t' t then f else d) rs
  end.

Lemma index_inj t t' : cmd_index t = cmd_index t' -> t = t'.
Proof. destruct t; destruct t'; intros E; reflexivity || discriminate E. Qed.
Lemma index_below t : t <> COUNT <-> cmd_index t < cmd_index COUNT.
Proof. split; [destruct t; intros N; try (vm_compute; lia); now elim N|]. intros L ->. lia. Qed.
Lemma beq_index t t' : CmdType_beq t' t = Nat.eqb (cmd_index t') (cmd_index t).
Proof. destruct t; destruct t'; reflexivity. Qed.
Lemma upd_nth {A} (f : A -> A) : forall l i j, nth_error (upd i f l) j = if Nat.eqb i j then option_map f (nth_error l j) else nth_error l j.
Proof.
  induction l as [|x l IH]; intros [|i] [|j]; cbn [upd nth_error Nat.eqb]; try reflexivity; [destruct (Nat.eqb i j); reflexivity|apply IH].
Qed.
Lemma upd_len {A} (f : A -> A) : forall l i, length (upd i f l) = length l.
Proof. induction l as [|x l IH]; intros [|i]; cbn; auto. Qed.

Lemma route_inv {H} (rs : list (CmdType * option H)) : Forall (fun x => fst x <> COUNT) rs -> forall (r : router H), length r = cmd_index COUNT ->
  exists r', route_all rs r = Value r' /\ length r' = cmd_index COUNT /\
    forall t d, nth_error r (cmd_index t) = Some d -> nth_error r' (cmd_index t) = Some (last_for t d rs).
Proof.
  induction 1 as [|[t0 f] rs N _ IH]; intros r L; [exists r; cbn; auto|]. cbn [fst] in N. apply index_below in N. cbn [route_all]. unfold route_command.
  rewrite L, (proj2 (Nat.ltb_lt _ _) N). destruct (IH (upd (cmd_index t0) (fun _ => f) r)) as (r' & E & L' & K); [now rewrite upd_len|].
  exists r'. split; [exact E|]. split; [exact L'|]. intros t d Hd. cbn [last_for]. apply K. rewrite upd_nth, Hd, beq_index. destruct (Nat.eqb _ _); reflexivity.
Qed.

Theorem router_dispatch {H} (nop : H) default rs : Forall (fun x => fst x <> COUNT) rs ->
  exists r, route_all rs (router_new nop default) = Value r /\ router_size r = 23 /\
    forall c, execute_command c r =
      if CmdType_beq (cmd_type c) COUNT then Fails Assertion
      else match last_for (cmd_type c) (match default with Some f => f | None => Some nop end) rs with Some f => Value f | None => Fails Exception end.
Proof.
  intros F. set (d := match default with Some f => f | None => Some nop end).
  destruct (route_inv rs F (router_new nop default)) as (r & E & L & K); [apply repeat_length|]. exists r. split; [exact E|]. split; [exact L|]. intros c. unfold execute_command.
  destruct (CmdType_beq (cmd_type c) COUNT) eqn:B.
  - apply internal_CmdType_dec_bl in B. rewrite B. rewrite (proj2 (nth_error_None r _)) by lia. reflexivity.
  - assert (cmd_type c <> COUNT) as N by (intros X; rewrite X in B; discriminate). apply index_below in N.
    rewrite (K (cmd_type c) d); [destruct (last_for _ _ _); reflexivity|]. unfold router_new. fold d. apply nth_error_repeat, N.
Qed.
Theorem router_count {H} (r : router H) f : length r = 23 -> route_command COUNT f r = Fails Assertion.
Proof. intros L. unfold route_command. rewrite L. reflexivity. Qed.
