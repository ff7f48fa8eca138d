(* What follows from CutProofs about whole streams and about what is lost. *)
From Coq Require Import NArith Arith List Bool Lia.
From Verif Require Import Base Command CoreModel HistorySpec ExampleCores SerialModel SerialProofs SerialCore CutModel CutSpec CutProofs.
Import ListNotations.
Local Open Scope N_scope.

(* ---- where the stream does not break off ---- *)

Definition extends {A} (L R : reader A) : Prop := forall s y r, R s = Got y r -> L s = Got y r.
Lemma ext_bind A B (L R : reader A) (K J : A -> reader B) : extends L R -> (forall x, extends (K x) (J x)) -> extends (r_bind L K) (r_bind R J).
Proof.
  intros H1 H2 s y r. unfold r_bind. destruct (R s) as [x s'| |] eqn:E; try discriminate. rewrite (H1 _ _ _ E). apply H2.
Qed.
Lemma ext_ret A (y : A) : extends (r_ret y) (r_ret y).
Proof. intros s z r H. exact H. Qed.
Lemma ext_u64 o : extends (l_u64 o) r_u64.
Proof. intros [|i s] y r H; [| destruct i ]; first [ discriminate H | exact H ]. Qed.
Lemma ext_mem o : extends (l_mem o) r_mem.
Proof. intros [|i s] y r H; [| destruct i ]; first [ discriminate H | exact H ]. Qed.
Lemma ext_bankstate o : extends (l_bankstate o) r_bankstate.
Proof. intros [|i s] y r H; [| destruct i ]; first [ discriminate H | exact H ]. Qed.
Lemma ext_optional o : extends (l_optional o) r_optional.
Proof.
  unfold l_optional, r_optional. apply ext_bind.
  - intros [|i s] y r H; [| destruct i ]; first [ discriminate H | exact H ].
  - intros [|]; [| apply ext_ret ]. intros [|i s] y r H; [| destruct i ]; first [ discriminate H | exact H ].
Qed.
Lemma ext_interval o : extends (l_interval o) r_interval.
Proof.
  unfold l_interval, r_interval. apply ext_bind; [ apply ext_u64 |]. intro. apply ext_bind; [ apply ext_optional |]. intro.
  apply ext_bind; [ apply ext_optional |]. intro. apply ext_ret.
Qed.
Lemma ext_cstats o : extends (l_cstats o) r_cstats.
Proof. unfold l_cstats, r_cstats. do 11 (apply ext_bind; [ apply ext_u64 | intro ]). apply ext_ret. Qed.
Lemma ext_bank o : extends (l_bank o) (r_bank o).
Proof.
  unfold l_bank, r_bank. apply ext_bind; [ apply ext_bankstate | intro ]. do 2 (apply ext_bind; [ apply ext_u64 | intro ]).
  do 3 (apply ext_bind; [ apply ext_interval | intro ]). apply ext_bind; [ apply ext_cstats | intro ]. apply ext_ret.
Qed.
Lemma ext_each A (L R : A -> reader A) : (forall x, extends (L x) (R x)) -> forall l, extends (r_each L l) (r_each R l).
Proof.
  intros H l. induction l as [|x l IH]; [ apply ext_ret |]. cbn [r_each].
  apply ext_bind; [ apply H | intro ]. apply ext_bind; [ apply IH | intro ]. apply ext_ret.
Qed.
Lemma ext_rank o : extends (l_rank o) (r_rank o).
Proof.
  unfold l_rank, r_rank. apply ext_bind; [ apply ext_mem | intro ]. do 4 (apply ext_bind; [ apply ext_u64 | intro ]).
  do 7 (apply ext_bind; [ apply ext_interval | intro ]). apply ext_bind; [ apply ext_each; apply ext_bank | intro ]. apply ext_ret.
Qed.
Theorem whole_stream o s y r : r_core o s = Got y r -> l_core o s = Got y r.
Proof.
  revert s y r. change (extends (l_core o) (r_core o)). unfold l_core, r_core.
  apply ext_bind; [ apply ext_u64 | intro ]. apply ext_bind; [ apply ext_each; apply ext_rank | intro ]. apply ext_ret.
Qed.

(* ---- the members are all there is ---- *)

Lemma bind_got A B (R : reader A) (K : A -> reader B) s y r : r_bind R K s = Got y r -> exists x s', R s = Got x s' /\ K x s' = Got y r.
Proof. unfold r_bind. destruct (R s) as [x s'| |]; try discriminate. intro H. exists x, s'. auto. Qed.
Lemma each_got A (L : A -> reader A) (Q : A -> A -> Prop) : (forall o s y r, L o s = Got y r -> Q o y) ->
  forall os s ys r, r_each L os s = Got ys r -> Forall2 Q os ys.
Proof.
  intros H os. induction os as [|o os IH]; intros s ys r E.
  - injection E as <- _. constructor.
  - cbn [r_each] in E. destruct (bind_got _ _ _ _ _ _ _ E) as (y & s1 & E1 & E2). clear E.
    destruct (bind_got _ _ _ _ _ _ _ E2) as (ys' & s2 & E3 & E4). injection E4 as <- _. constructor; eauto.
Qed.
Lemma F2_length A (l l' : list A) : Forall2 (fun _ _ => True) l l' -> length l = length l'.
Proof. induction 1; cbn; congruence. Qed.
Lemma rank_got o s y r : l_rank o s = Got y r -> length (rk_banks o) = length (rk_banks y).
Proof.
  unfold l_rank. intro E. do 12 (apply bind_got in E; destruct E as (? & ? & _ & E)).
  apply bind_got in E. destruct E as (bs & ? & H & E). injection E as <- _. cbn. apply F2_length. eapply (each_got _ l_bank); [| exact H ]. auto.
Qed.
Theorem cut_shape o s y r : l_core o s = Got y r -> same_shape o y.
Proof.
  unfold l_core. intro E. apply bind_got in E. destruct E as (? & ? & _ & E). apply bind_got in E. destruct E as (rs & ? & H & E).
  injection E as <- _. unfold same_shape. cbn. eapply (each_got _ l_rank); [| exact H ]. intros. eapply rank_got. eassumption.
Qed.
Lemma app_same A (a b c d : list A) : length a = length c -> a ++ b = c ++ d -> a = c /\ b = d.
Proof.
  revert c. induction a as [|x a IH]; intros [|y c] L E; try discriminate L; [ auto |].
  injection E as -> E. destruct (IH c) as [-> ->]; [ cbn in L; lia | exact E |]. auto.
Qed.
Lemma interval_determined a b : interval_fields a = interval_fields b -> a = b.
Proof. destruct a, b. unfold interval_fields. cbn. congruence. Qed.
Lemma bank_determined a b : bank_fields a = bank_fields b -> a = b.
Proof. destruct a as [[] [] [] [] ? ? ?], b as [[] [] [] [] ? ? ?]. unfold bank_fields. cbn. congruence. Qed.
Lemma banks_determined : forall a b, length a = length b -> flat_map bank_fields a = flat_map bank_fields b -> a = b.
Proof.
  induction a as [|x a IH]; intros [|y b] L E; try discriminate L; [ reflexivity |]. cbn [flat_map] in E.
  apply app_same in E; [| reflexivity ]. destruct E as [E1 E2]. f_equal; [ apply bank_determined; exact E1 |].
  apply IH; [ cbn in L; lia | exact E2 ].
Qed.
Lemma rank_members r : members (rank_fields r) =
  head_fields (rk_memState r) (rk_endRefresh r) (rk_n_sref r) (rk_n_dsm r) ++
  flat_map interval_fields [rk_pre r; rk_act r; rk_ref r; rk_sref r; rk_pda r; rk_pdp r; rk_dsm r] ++ flat_map bank_fields (rk_banks r).
Proof. unfold rank_fields. rewrite !members_app, !members_flat. reflexivity. Qed.
Lemma rank_determined a b : length (rk_banks a) = length (rk_banks b) -> members (rank_fields a) = members (rank_fields b) -> a = b.
Proof.
  intros L E. rewrite !rank_members in E. apply app_same in E; [| reflexivity ]. destruct E as [E1 E].
  apply app_same in E; [| reflexivity ]. destruct E as [E2 E3]. apply banks_determined in E3; [| exact L ].
  destruct a as [? [] [] [] [] [] [] [] ? ? ? ?], b as [? [] [] [] [] [] [] [] ? ? ? ?]. cbn in *.
  unfold head_fields in E1. injection E1; injection E2; intros; subst; reflexivity.
Qed.
Lemma rank_size a b : length (rk_banks a) = length (rk_banks b) -> length (members (rank_fields a)) = length (members (rank_fields b)).
Proof.
  intro L. rewrite !rank_members, !app_length. f_equal. f_equal. revert L. generalize (rk_banks b).
  induction (rk_banks a) as [|x xs IH]; intros [|y ys] L; try discriminate L; [ reflexivity |]. cbn [flat_map]. rewrite !app_length.
  rewrite (IH ys) by (cbn in L; lia). reflexivity.
Qed.
Theorem members_determine a b : same_shape a b -> members (core_fields a) = members (core_fields b) -> co_queue a = co_queue b -> a = b.
Proof.
  intros S E Q. unfold core_fields in E. change (members (?x :: ?l)) with (x :: members l) in E. injection E as E1 E2.
  rewrite !members_flat in E2. destruct a as [ra qa la], b as [rb qb lb]. cbn in *. subst. f_equal.
  unfold same_shape in S. cbn in S. induction S as [|x y ra rb L S IH]; [ reflexivity |]. cbn [flat_map] in E2.
  apply app_same in E2; [| apply rank_size; exact L ]. destruct E2 as [E1 E2]. f_equal; [ apply rank_determined; assumption | auto ].
Qed.

(* The result of a read that breaks off, with nothing left open. *)
Theorem cut_exactly o n p q : same_shape o n -> w_core n = p ++ q ->
  exists y m, l_core o p = Got y [] /\ left_behind (core_fields n) (core_fields o) p m /\
              forall y', same_shape o y' /\ co_queue y' = co_queue o /\ has_members y' m <-> y' = y.
Proof.
  intros S E. destruct (cut_stream o n p q S E) as (y & m & G & B & M & Q). exists y, m. split; [ exact G |]. split; [ exact B |].
  pose proof (cut_shape _ _ _ _ G) as Sy. intro y'. split.
  - intros (S' & Q' & M'). apply members_determine.
    + unfold same_shape in *. clear -Sy S'. revert S'. generalize (co_ranks y'). induction Sy; intros l0 HF; inversion HF; subst; constructor; [ congruence | auto ].
    + unfold has_members in *. congruence.
    + congruence.
  - intros ->. auto.
Qed.

(* ---- nothing at all ---- *)

Lemma emit_some f : emit f <> [].
Proof. destruct f as [i|[n|]|i]; discriminate. Qed.
Theorem empty_stream o : exists y, l_core o [] = Got y [] /\ co_queue y = co_queue o /\ members (core_fields y) = map unread (members (core_fields o)).
Proof.
  assert (S : same_shape o o) by (unfold same_shape; induction (co_ranks o); constructor; auto).
  destruct (cut_core o o S) as [_ _ (y & G & M & Q) _]. exists y. auto.
Qed.

(* ---- what goes wrong ---- *)

Definition cut_result (p : memspec) (os : list op) (k : nat) : option core :=
  match run_ops p os (core_new p) with
  | Ok (s, _) => match l_core (core_new p) (firstn k (w_core s)) with Got y [] => Some y | _ => None end
  | _ => None
  end.
Theorem active_unopened : exists p os s a k y b, run_ops p os (core_new p) = Ok (s, a) /\ is_serializable s = true /\
  l_core (core_new p) (firstn k (w_core s)) = Got y [] /\ In b (flat_map rk_banks (co_ranks y)) /\ bk_active b = true /\ iv_start (bk_act b) = None /\
  (exists s' x, run_ops p [Query 100] s = Ok (s', x) /\ nth_error (open_cycles x) 0 = Some 100) /\
  (exists y' x, run_ops p [Query 100] y = Ok (y', x) /\ nth_error (open_cycles x) 0 = Some 0).
Proof.
  exists ex_ddr4, [Cmd ser_act].
  destruct (run_ops ex_ddr4 [Cmd ser_act] (core_new ex_ddr4)) as [[s a]| | |] eqn:E; [| exfalso; vm_compute in E; discriminate E ..].
  exists s, a, 29%nat. vm_compute in E. injection E as <- <-.
  eexists. eexists. split; [ reflexivity |]. split; [ reflexivity |]. split; [ vm_compute; reflexivity |].
  split; [ left; reflexivity |]. split; [ reflexivity |]. split; [ reflexivity |].
  split; eexists; eexists; (split; [ vm_compute; reflexivity |]); reflexivity.
Qed.
Theorem empty_changes : exists p os t a y, run_ops p os (core_new p) = Ok (t, a) /\ is_serializable t = true /\ l_core t [] = Got y [] /\
  (exists t' x, run_ops p [Query 100] t = Ok (t', x) /\ nth_error (open_cycles x) 0 = Some 100) /\
  (exists y' x, run_ops p [Query 100] y = Ok (y', x) /\ nth_error (open_cycles x) 0 = Some 0).
Proof.
  exists ex_ddr4, [Cmd ser_act].
  destruct (run_ops ex_ddr4 [Cmd ser_act] (core_new ex_ddr4)) as [[s a]| | |] eqn:E; [| exfalso; vm_compute in E; discriminate E ..].
  exists s, a. vm_compute in E. injection E as <- <-.
  eexists. split; [ reflexivity |]. split; [ reflexivity |]. split; [ vm_compute; reflexivity |].
  split; eexists; eexists; (split; [ vm_compute; reflexivity |]); reflexivity.
Qed.
