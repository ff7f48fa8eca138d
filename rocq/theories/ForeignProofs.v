(* A core read from the stream of a core of another memory. *)
From Coq Require Import NArith Arith List Bool Lia.
From Verif Require Import Base Command CoreModel CoreBasics HistorySpec ExampleCores SerialModel SerialProofs SerialCore ByteModel ByteSpec ByteProofs CutModel CutSpec CutProofs CutTop.
Import ListNotations.
Local Open Scope N_scope.

(* Some of many. *)
Lemma some_read {A} (r : A -> reader A) (w : A -> list item) : forall ts xs rest, (length ts <= length xs)%nat ->
  (forall t x, In t ts -> In x xs -> reads (r t) (w x) x) ->
  r_each r ts (flat_map w xs ++ rest) = Got (firstn (length ts) xs) (flat_map w (skipn (length ts) xs) ++ rest).
Proof.
  induction ts as [|t ts IH]; intros [|x xs] rest L H; cbn [length] in L; try lia; [reflexivity..|].
  cbn [r_each flat_map length firstn skipn]. unfold r_bind. rewrite <- app_assoc. rewrite (H t x (or_introl eq_refl) (or_introl eq_refl)).
  rewrite IH; [reflexivity|lia|]. intros t' x' I J. apply H; right; assumption.
Qed.
Lemma made p os s a : run_ops p os (core_new p) = Ok (s, a) -> length (co_ranks s) = ms_ranks p /\ forall r, In r (co_ranks s) -> length (rk_banks r) = ms_banks p.
Proof.
  intro H. pose proof (run_ops_sizes _ _ _ _ _ (core_new_sizes p) H) as [L F]. split; [exact L|]. intros r I.
  rewrite Forall_forall in F. exact (F r I).
Qed.
Theorem fewer_ranks p p' os0 t a0 os s a rest : (ms_ranks p <= ms_ranks p')%nat -> ms_banks p = ms_banks p' ->
  run_ops p os0 (core_new p) = Ok (t, a0) -> run_ops p' os (core_new p') = Ok (s, a) ->
  r_core t (w_core s ++ rest) = Got (mkCore (firstn (ms_ranks p) (co_ranks s)) (co_queue t) (co_last s)) (flat_map w_rank (skipn (ms_ranks p) (co_ranks s)) ++ rest).
Proof.
  intros R B H0 H. destruct (made _ _ _ _ H0) as [L0 F0]. destruct (made _ _ _ _ H) as [L F].
  unfold r_core, w_core. cbn [app]. unfold r_bind at 1. cbn [r_u64]. unfold r_bind at 1. rewrite some_read.
  - rewrite L0. reflexivity.
  - lia.
  - intros x y I J. apply reads_rank. rewrite (F0 _ I), (F _ J). exact B.
Qed.
Theorem other_standard p p' os0 t a0 os s a rest : ms_ranks p = ms_ranks p' -> ms_banks p = ms_banks p' ->
  run_ops p os0 (core_new p) = Ok (t, a0) -> is_serializable t = true -> run_ops p' os (core_new p') = Ok (s, a) -> is_serializable s = true ->
  r_core t (w_core s ++ rest) = Got s rest.
Proof.
  intros R B H0 E0 H E. rewrite (fewer_ranks p p' os0 t a0 os s a rest) by (assumption || lia).
  destruct (made _ _ _ _ H) as [L _]. rewrite R, <- L, firstn_all, skipn_all. cbn [flat_map app].
  unfold is_serializable in *. destruct s as [rs [|] l]; [| discriminate E ]. destruct (co_queue t); [| discriminate E0 ]. reflexivity.
Qed.
Theorem fewer_bytes y p p' os0 t a0 os s a bytes : (ms_ranks p <= ms_ranks p')%nat -> ms_banks p = ms_banks p' ->
  run_ops p os0 (core_new p) = Ok (t, a0) -> run_ops p' os (core_new p') = Ok (s, a) -> lawful y -> represents y (w_core s) bytes ->
  exists used left, bytes = used ++ left /\ represents y (flat_map w_rank (skipn (ms_ranks p) (co_ranks s))) left /\
    forall more, from_bytes y (p_core t) (used ++ more) = Taken (mkCore (firstn (ms_ranks p) (co_ranks s)) (co_queue t) (co_last s)) more.
Proof.
  intros R B H0 H Y (ls & F & ->). pose proof (fewer_ranks p p' os0 t a0 os s a [] R B H0 H) as G. rewrite !app_nil_r in G.
  rewrite <- (does_core t) in G. destruct (bytes_got y Y _ _ _ _ _ G F) as (used & ls' & -> & Q & T & _).
  exists (concat used), (concat ls'). split; [apply concat_app|]. split; [exists ls'; split; [exact Q|reflexivity]|exact T].
Qed.

(* One rank, fewer banks. *)
Lemma fewer_in_rank t r rest : (length (rk_banks t) <= length (rk_banks r))%nat ->
  r_rank t (w_rank r ++ rest) = Got (mkRank (rk_memState r) (rk_pre r) (rk_act r) (rk_ref r) (rk_sref r) (rk_pda r) (rk_pdp r) (rk_dsm r) (rk_n_sref r) (rk_n_dsm r) (rk_endRefresh r)
    (firstn (length (rk_banks t)) (rk_banks r))) (flat_map w_bank (skipn (length (rk_banks t)) (rk_banks r)) ++ rest).
Proof.
  intro L. unfold r_rank, w_rank. cbn [app]. rewrite <- !app_assoc.
  do 5 (unfold r_bind at 1; cbn [r_mem r_u64]).
  do 7 (unfold r_bind at 1; rewrite reads_interval).
  unfold r_bind at 1. rewrite some_read; [reflexivity|exact L|]. intros. apply reads_bank.
Qed.
Theorem fewer_banks p p' os0 t a0 os s a rest : ms_ranks p = 1%nat -> (0 < ms_ranks p')%nat -> (ms_banks p <= ms_banks p')%nat ->
  run_ops p os0 (core_new p) = Ok (t, a0) -> run_ops p' os (core_new p') = Ok (s, a) ->
  exists r x left, r_core t (w_core s ++ rest) = Got (mkCore [x] (co_queue t) (co_last s)) left /\ nth_error (co_ranks s) 0 = Some r /\
    firstn (ms_banks p) (rk_banks r) = rk_banks x /\
    (rk_memState x, rk_endRefresh x, rk_n_sref x, rk_n_dsm x) = (rk_memState r, rk_endRefresh r, rk_n_sref r, rk_n_dsm r) /\
    [rk_pre x; rk_act x; rk_ref x; rk_sref x; rk_pda x; rk_pdp x; rk_dsm x] = [rk_pre r; rk_act r; rk_ref r; rk_sref r; rk_pda r; rk_pdp r; rk_dsm r] /\
    left = flat_map w_bank (skipn (ms_banks p) (rk_banks r)) ++ flat_map w_rank (skipn 1 (co_ranks s)) ++ rest.
Proof.
  intros R R' B H0 H. destruct (made _ _ _ _ H0) as [L0 F0]. destruct (made _ _ _ _ H) as [L F]. rewrite R in L0.
  destruct (co_ranks t) as [|t1 [|]] eqn:Et; try discriminate L0. destruct (co_ranks s) as [|s1 ss] eqn:Es; [cbn in L; lia|].
  pose proof (F0 t1 (or_introl eq_refl)) as B1. pose proof (F s1 (or_introl eq_refl)) as B2.
  do 3 eexists. split.
  - unfold r_core, w_core. rewrite Et, Es. cbn [app flat_map r_each]. rewrite <- app_assoc.
    unfold r_bind at 1. cbn [r_u64]. unfold r_bind at 1. unfold r_bind at 1. rewrite fewer_in_rank by lia. reflexivity.
  - split; [reflexivity|]. cbn [rk_banks rk_memState rk_endRefresh rk_n_sref rk_n_dsm rk_pre rk_act rk_ref rk_sref rk_pda rk_pdp rk_dsm skipn].
    rewrite B1. repeat split; reflexivity.
Qed.

(* More ranks than there were written. *)
Lemma none_left : forall ts, exists zs, r_each l_rank ts [] = Got zs [] /\ Forall2 (fun t z => members (rank_fields z) = map unread (members (rank_fields t))) ts zs.
Proof.
  induction ts as [|t ts (zs & E & F)]; [exists []; split; [reflexivity|constructor]|].
  destruct (cut_none _ _ _ _ (cut_rank t t eq_refl)) as (z & G & M). exists (z :: zs). cbn [r_each]. unfold r_bind. rewrite G, E.
  split; [reflexivity|]. constructor; [symmetry; exact M|exact F].
Qed.
Lemma some_left : forall ts xs, (length xs <= length ts)%nat -> (forall t x, In t ts -> In x xs -> length (rk_banks t) = length (rk_banks x)) ->
  exists zs, r_each l_rank ts (flat_map w_rank xs) = Got (xs ++ zs) [] /\
    Forall2 (fun t z => members (rank_fields z) = map unread (members (rank_fields t))) (skipn (length xs) ts) zs.
Proof.
  induction ts as [|t ts IH]; intros [|x xs] L H; cbn [length] in L; try lia.
  - exists []. split; [reflexivity|constructor].
  - cbn [flat_map app length skipn]. apply none_left.
  - destruct (IH xs) as (zs & E & F); [lia|intros; apply H; right; assumption|]. exists zs. cbn [r_each flat_map app length skipn]. split; [|exact F].
    unfold r_bind. rewrite (ext_rank t _ x (flat_map w_rank xs)); [rewrite E; reflexivity|].
    apply reads_rank. apply H; left; reflexivity.
Qed.
Theorem more_ranks p p' os0 t a0 os s a : (ms_ranks p' <= ms_ranks p)%nat -> ms_banks p = ms_banks p' ->
  run_ops p os0 (core_new p) = Ok (t, a0) -> run_ops p' os (core_new p') = Ok (s, a) ->
  exists zs, l_core t (w_core s) = Got (mkCore (co_ranks s ++ zs) (co_queue t) (co_last s)) [] /\
    Forall2 (fun x z => members (rank_fields z) = map unread (members (rank_fields x))) (skipn (ms_ranks p') (co_ranks t)) zs.
Proof.
  intros R B H0 H. destruct (made _ _ _ _ H0) as [L0 F0]. destruct (made _ _ _ _ H) as [L F].
  destruct (some_left (co_ranks t) (co_ranks s)) as (zs & E & Z); [lia|intros x y I J; rewrite (F0 _ I), (F _ J); exact B|].
  exists zs. rewrite L in Z. split; [|exact Z]. unfold l_core, w_core. cbn [app]. unfold r_bind at 1. cbn [l_u64]. unfold r_bind at 1. rewrite E. reflexivity.
Qed.

(* What is not noticed. *)
Theorem half_lost : exists p p' os s a y r, ms_banks p = ms_banks p' /\ run_ops p' os (core_new p') = Ok (s, a) /\ is_serializable s = true /\
  r_core (core_new p) (w_core s) = Got y r /\ r <> [] /\
  map (fun b => cs_act (bk_counter b)) (flat_map rk_banks (co_ranks s)) = [0; 0; 0; 0; 0; 1; 0; 0] /\ map (fun b => cs_act (bk_counter b)) (flat_map rk_banks (co_ranks y)) = [0; 0; 0; 0].
Proof.
  exists ex_lpddr4, ex_ddr4, [Cmd (at_ 0 ACT 1 1)]. do 4 eexists. split; [reflexivity|]. split; [vm_compute; reflexivity|]. split; [reflexivity|].
  split; [vm_compute; reflexivity|]. split; [discriminate|]. split; vm_compute; reflexivity.
Qed.
Theorem kind_unnoticed : exists p p' os s a y, ms_std p <> ms_std p' /\ run_ops p' os (core_new p') = Ok (s, a) /\ is_serializable s = true /\ s <> core_new p' /\
  r_core (core_new p) (w_core s) = Got y [] /\ y = s.
Proof.
  exists ex_lpddr4, ex_ddr5, [Cmd (at_ 0 ACT 0 1)]. do 3 eexists. split; [discriminate|]. split; [vm_compute; reflexivity|]. split; [reflexivity|].
  split; [vm_compute; discriminate|]. split; vm_compute; reflexivity.
Qed.
