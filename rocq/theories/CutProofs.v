(* Every read of CutModel leaves behind what CutSpec says. *)
From Coq Require Import NArith Arith List Bool Lia.
From Verif Require Import Base Command CoreModel SerialModel SerialProofs CutModel CutSpec.
Import ListNotations.
Local Open Scope N_scope.

Notation emits := (flat_map emit).

Lemma members_app a b : members (a ++ b) = members a ++ members b.
Proof. unfold members. induction a as [|f a IH]; [ reflexivity |]. cbn. destruct (is_member f); cbn; rewrite IH; reflexivity. Qed.

(* A reader of the entries [fs] into something with the entries [ft]; P says what its
   result is if its members are given. *)
Record cut_ok {A} (R : reader A) (fs ft : list field) (P : list field -> A -> Prop) : Prop := mkCutOk {
  cut_len : length fs = length ft;
  cut_whole : forall r, exists y, R (emits fs ++ r) = Got y r /\ P (members fs) y;
  cut_none : exists y, R [] = Got y [] /\ P (map unread (members ft)) y;
  cut_part : forall p q, emits fs = p ++ q -> q <> [] -> exists y m, R p = Got y [] /\ left_behind fs ft p m /\ P m y
}.

Lemma cut_ret A (y : A) (P : list field -> A -> Prop) : P [] y -> cut_ok (r_ret y) [] [] P.
Proof.
  intro H. split; [ reflexivity | intro r; exists y; auto | exists y; auto |].
  intros p q E Q. destruct p; destruct q; try discriminate E; congruence.
Qed.
Lemma cut_one A (R : reader A) i j (P : list field -> A -> Prop) a b :
  (forall r, R (i :: r) = Got a r) -> R [] = Got b [] -> P [F_val i] a -> P [F_val j] b -> cut_ok R [F_val i] [F_val j] P.
Proof.
  intros H0 H1 Pa Pb. split; [ reflexivity | intro r; exists a; split; [ apply H0 | exact Pa ] | exists b; auto |].
  intros p q E Q. destruct p as [|x p].
  - exists b, [F_val j]. split; [ exact H1 |]. split; [| exact Pb ]. exists 0%nat. split; [ cbn; lia |]. left. auto.
  - destruct p; destruct q; try discriminate E; congruence.
Qed.

Lemma left_first f1 f2 g1 g2 p m : length f1 = length g1 -> left_behind f1 g1 p m ->
  left_behind (f1 ++ f2) (g1 ++ g2) p (m ++ map unread (members g2)).
Proof.
  intros L (k & K & H). exists k. split; [ rewrite app_length; lia |].
  assert (F1 : firstn k (f1 ++ f2) = firstn k f1).
  { rewrite firstn_app. replace (k - length f1)%nat with 0%nat by lia. cbn. apply app_nil_r. }
  destruct H as [(E & M) | (n & o & N1 & N2 & E & M)]; [ left | right ].
  - rewrite F1. split; [ exact E |]. subst m. rewrite skipn_app, members_app, map_app, app_assoc.
    replace (k - length g1)%nat with 0%nat by lia. reflexivity.
  - assert (B : (k < length f1)%nat) by (apply nth_error_Some; congruence).
    exists n, o. rewrite F1, !nth_error_app1 by lia. split; [ exact N1 |]. split; [ exact N2 |]. split; [ exact E |].
    subst m. rewrite skipn_app, members_app, map_app.
    replace (S k - length g1)%nat with 0%nat by lia. cbn [skipn]. rewrite <- app_assoc. reflexivity.
Qed.
Lemma left_second f1 f2 g1 g2 p m : length f1 = length g1 -> left_behind f2 g2 p m ->
  left_behind (f1 ++ f2) (g1 ++ g2) (emits f1 ++ p) (members f1 ++ m).
Proof.
  intros L (k & K & H). exists (length f1 + k)%nat. split; [ rewrite app_length; lia |].
  assert (F1 : firstn (length f1 + k) (f1 ++ f2) = f1 ++ firstn k f2) by apply firstn_app_2.
  assert (S1 : forall j, skipn (length f1 + j) (g1 ++ g2) = skipn j g2).
  { intro j. rewrite skipn_app. replace (length f1 + j - length g1)%nat with j by lia. rewrite skipn_all2 by lia. reflexivity. }
  destruct H as [(E & M) | (n & o & N1 & N2 & E & M)]; [ left | right ].
  - rewrite F1, S1, flat_map_app, members_app, <- app_assoc. subst. auto.
  - exists n, o. rewrite F1, flat_map_app, members_app.
    rewrite (nth_error_app2 f1), (nth_error_app2 g1) by lia.
    replace (length f1 + k - length f1)%nat with k by lia. replace (length f1 + k - length g1)%nat with k by lia.
    split; [ exact N1 |]. split; [ exact N2 |]. replace (S (length f1 + k)) with (length f1 + S k)%nat by lia.
    rewrite S1, <- !app_assoc. subst. auto.
Qed.
Lemma split_at A (a b p q : list A) : a ++ b = p ++ q ->
  (exists u, a = p ++ u /\ q = u ++ b /\ u <> []) \/ (exists u, p = a ++ u /\ b = u ++ q).
Proof.
  revert p. induction a as [|x a IH]; intros p E; [ right; exists p; auto |].
  destruct p as [|y p]; [ left; exists (x :: a); cbn in E; subst; split; [ reflexivity |]; split; [ reflexivity | discriminate ] |].
  injection E as -> E. destruct (IH p E) as [(u & -> & -> & U) | (u & -> & ->)]; [ left | right ]; exists u; auto.
Qed.
Lemma cut_bind A B (R : reader A) (K : A -> reader B) f1 f2 g1 g2 P1 (P : list field -> B -> Prop) :
  cut_ok R f1 g1 P1 -> (forall m x, P1 m x -> cut_ok (K x) f2 g2 (fun m' y => P (m ++ m') y)) ->
  cut_ok (r_bind R K) (f1 ++ f2) (g1 ++ g2) P.
Proof.
  intros [L1 W1 N1 C1] H.
  assert (L2 : length f2 = length g2) by (destruct (W1 []) as (x & _ & X); destruct (H _ _ X); assumption).
  split.
  - rewrite !app_length. lia.
  - intro r. rewrite flat_map_app, <- app_assoc. destruct (W1 (emits f2 ++ r)) as (x & E & X).
    destruct (H _ _ X) as [_ W2 _ _]. destruct (W2 r) as (y & E2 & Y). exists y. unfold r_bind. rewrite E, members_app. auto.
  - destruct N1 as (x & E & X). destruct (H _ _ X) as [_ _ (y & E2 & Y) _]. exists y. unfold r_bind. rewrite E, members_app, map_app. auto.
  - intros p q E Q. rewrite flat_map_app in E. destruct (split_at _ _ _ _ _ E) as [(u & E1 & -> & U) | (u & -> & E1)].
    + destruct (C1 p u E1 U) as (x & m & Ex & Lx & X). destruct (H _ _ X) as [_ _ (y & E2 & Y) _].
      exists y, (m ++ map unread (members g2)). unfold r_bind. rewrite Ex. split; [ exact E2 |]. split; [| exact Y ].
      apply left_first; assumption.
    + destruct (W1 u) as (x & Ex & X). destruct (H _ _ X) as [_ _ _ C2]. destruct (C2 u q E1 Q) as (y & m & E2 & Ly & Y).
      exists y, (members f1 ++ m). unfold r_bind. rewrite Ex. split; [ exact E2 |]. split; [| exact Y ].
      apply left_second; assumption.
Qed.
Lemma cut_weaken A (R : reader A) f g (P P' : list field -> A -> Prop) : cut_ok R f g P -> (forall m y, P m y -> P' m y) -> cut_ok R f g P'.
Proof.
  intros [L W N C] H. split; [ exact L | | |].
  - intro r. destruct (W r) as (y & E & Y). exists y. auto.
  - destruct N as (y & E & Y). exists y. auto.
  - intros p q E Q. destruct (C p q E Q) as (y & m & Ey & Ly & Y). exists y, m. auto.
Qed.
Lemma cut_same A (R R' : reader A) f g P : (forall s, R s = R' s) -> cut_ok R f g P -> cut_ok R' f g P.
Proof.
  intros H [L W N C]. split; [ exact L | | |].
  - intro r. rewrite <- H. apply W.
  - rewrite <- H. exact N.
  - intros p q. rewrite <- H. apply C.
Qed.

(* ---- the members ---- *)

Lemma cut_u64 n o : cut_ok (l_u64 o) [F_val (I_u64 n)] [F_val (I_u64 o)] (fun m y => m = [F_val (I_u64 y)]).
Proof. eapply cut_one; reflexivity. Qed.
Lemma cut_mem n o : cut_ok (l_mem o) [F_val (I_mem n)] [F_val (I_mem o)] (fun m y => m = [F_val (I_mem y)]).
Proof. eapply cut_one; reflexivity. Qed.
Lemma cut_bankstate n o : cut_ok (l_bankstate o) [F_val (I_bank n)] [F_val (I_bank o)] (fun m y => m = [F_val (I_bank y)]).
Proof. eapply cut_one; reflexivity. Qed.
Lemma cut_optional n o : cut_ok (l_optional o) [F_opt n] [F_opt o] (fun m y => m = [F_opt y]).
Proof.
  split; [ reflexivity | | exists None; split; reflexivity |].
  - intro r. exists n. destruct n; split; reflexivity.
  - intros p q E Q. destruct p as [|i p].
    + exists None, [F_opt None]. split; [ reflexivity |]. split; [| reflexivity ]. exists 0%nat. split; [ cbn; lia |]. left. auto.
    + destruct n as [n|].
      * destruct p as [|j p]; [| destruct p; destruct q; try discriminate E; congruence ].
        injection E as <- _. exists o, [F_opt o]. split; [ reflexivity |]. split; [| reflexivity ].
        exists 0%nat. split; [ cbn; lia |]. right. exists n, o. auto.
      * destruct p; destruct q; try discriminate E; congruence.
Qed.

Ltac step X := eapply (cut_bind _ _ _ _ [_] _ [_] _ _ _ (X _ _)); intros ? ? ->.

Lemma cut_interval n o : cut_ok (l_interval o) (interval_fields n) (interval_fields o) (fun m y => m = interval_fields y).
Proof.
  unfold l_interval, interval_fields. step cut_u64. step cut_optional. step cut_optional. apply cut_ret. reflexivity.
Qed.
Lemma cut_cstats n o (P : list field -> cstats -> Prop) : (forall y,
  P (map (fun n => F_val (I_u64 n))
      [cs_act y; cs_pre y; cs_reads y; cs_writes y; cs_refAllBank y; cs_refPerBank y; cs_refPerTwoBanks y;
       cs_refDualBanks y; cs_refSameBank y; cs_readAuto y; cs_writeAuto y]) y) ->
  cut_ok (l_cstats o)
   (map (fun n => F_val (I_u64 n))
      [cs_act n; cs_pre n; cs_reads n; cs_writes n; cs_refAllBank n; cs_refPerBank n; cs_refPerTwoBanks n;
       cs_refDualBanks n; cs_refSameBank n; cs_readAuto n; cs_writeAuto n])
   (map (fun n => F_val (I_u64 n))
      [cs_act o; cs_pre o; cs_reads o; cs_writes o; cs_refAllBank o; cs_refPerBank o; cs_refPerTwoBanks o;
       cs_refDualBanks o; cs_refSameBank o; cs_readAuto o; cs_writeAuto o]) P.
Proof.
  intro H. unfold l_cstats. cbn [map]. do 11 step cut_u64. apply cut_ret.
  exact (H (mkCstats _ _ _ _ _ _ _ _ _ _ _)).
Qed.
Lemma cut_bank n o : cut_ok (l_bank o) (bank_fields n) (bank_fields o) (fun m y => m = bank_fields y).
Proof.
  unfold l_bank, bank_fields. cbv zeta. cbn [app].
  step cut_bankstate. step cut_u64. step cut_u64.
  do 3 (eapply (cut_bind _ _ _ _ _ _ _ _ _ _ (cut_interval _ _)); intros ? ? ->).
  rewrite <- (app_nil_r (map _ _)). rewrite <- (app_nil_r (map _ (cs_act (bk_counter o) :: _))).
  eapply cut_bind; [ eapply (cut_cstats _ _ (fun m y => m = map (fun n => F_val (I_u64 n))
      [cs_act y; cs_pre y; cs_reads y; cs_writes y; cs_refAllBank y; cs_refPerBank y; cs_refPerTwoBanks y;
       cs_refDualBanks y; cs_refSameBank y; cs_readAuto y; cs_writeAuto y])); reflexivity |].
  intros ? ? ->. apply cut_ret. rewrite app_nil_r. reflexivity.
Qed.
Lemma cut_each A (R : A -> reader A) (F M : A -> list field) : forall ns os,
  Forall2 (fun n o => cut_ok (R o) (F n) (F o) (fun m y => m = M y)) ns os ->
  cut_ok (r_each R os) (flat_map F ns) (flat_map F os) (fun m ys => m = flat_map M ys).
Proof.
  intros ns os H. induction H as [|n o ns os H1 H2 IH]; [ apply cut_ret; reflexivity |].
  cbn [r_each flat_map]. eapply cut_bind; [ exact H1 |]. intros ? ? ->.
  rewrite <- (app_nil_r (flat_map F ns)), <- (app_nil_r (flat_map F os)).
  eapply cut_bind; [ exact IH |]. intros ? ? ->. apply cut_ret. rewrite app_nil_r. reflexivity.
Qed.

(* The first five reads of a rank. *)
Definition l_head (old : rank) : reader (memState * N * N * N) :=
  m <~ l_mem (rk_memState old) ;; er <~ l_u64 (rk_endRefresh old) ;; ns <~ l_u64 (rk_n_sref old) ;; nd <~ l_u64 (rk_n_dsm old) ;;
  er <~ l_u64 er ;; r_ret (m, er, ns, nd).
Definition l_rest (old : rank) (h : memState * N * N * N) : reader rank :=
  let '(m, er, ns, nd) := h in
  p <~ l_interval (rk_pre old) ;; a <~ l_interval (rk_act old) ;; rf <~ l_interval (rk_ref old) ;; sr <~ l_interval (rk_sref old) ;;
  pa <~ l_interval (rk_pda old) ;; pp <~ l_interval (rk_pdp old) ;; ds <~ l_interval (rk_dsm old) ;;
  bs <~ r_each l_bank (rk_banks old) ;; r_ret (mkRank m p a rf sr pa pp ds ns nd er bs).
Lemma bind_assoc A B C (r : reader A) (k : A -> reader B) (h : B -> reader C) s :
  r_bind (r_bind r k) h s = r_bind r (fun x => r_bind (k x) h) s.
Proof. unfold r_bind. destruct (r s); reflexivity. Qed.
Lemma bind_ext A B (r : reader A) (k k' : A -> reader B) : (forall x s, k x s = k' x s) -> forall s, r_bind r k s = r_bind r k' s.
Proof. intros H s. unfold r_bind. destruct (r s); [ apply H | reflexivity .. ]. Qed.
Lemma head_rest old s : r_bind (l_head old) (l_rest old) s = l_rank old s.
Proof.
  unfold l_rank, l_head.
  do 5 (rewrite bind_assoc; revert s; apply bind_ext; intros ? s). reflexivity.
Qed.
Definition head_fields (m : memState) (er ns nd : N) : list field :=
  [F_val (I_mem m); F_val (I_u64 er); F_val (I_u64 ns); F_val (I_u64 nd)].
Lemma cut_head n o : cut_ok (l_head o)
  (head_fields (rk_memState n) (rk_endRefresh n) (rk_n_sref n) (rk_n_dsm n) ++ [F_again (I_u64 (rk_endRefresh n))])
  (head_fields (rk_memState o) (rk_endRefresh o) (rk_n_sref o) (rk_n_dsm o) ++ [F_again (I_u64 (rk_endRefresh o))])
  (fun l y => let '(m, er, ns, nd) := y in l = head_fields m er ns nd).
Proof.
  split; [ reflexivity | | |].
  - intro r. eexists. split; [ reflexivity |]. reflexivity.
  - eexists. split; [ reflexivity |]. reflexivity.
  - intros p q E Q. cbn in E.
    destruct p as [|i1 p]; [| injection E as <- E; destruct p as [|i2 p];
      [| injection E as <- E; destruct p as [|i3 p];
        [| injection E as <- E; destruct p as [|i4 p];
          [| injection E as <- E; destruct p as [|i5 p];
            [| injection E as <- E; destruct p; destruct q; try discriminate E; congruence ]]]]];
      eexists; eexists; (split; [ reflexivity |]); (split; [| reflexivity ]).
    + exists 0%nat. split; [ cbn; lia |]. left. auto.
    + exists 1%nat. split; [ cbn; lia |]. left. auto.
    + exists 2%nat. split; [ cbn; lia |]. left. auto.
    + exists 3%nat. split; [ cbn; lia |]. left. auto.
    + exists 4%nat. split; [ cbn; lia |]. left. auto.
Qed.
Lemma members_interval i : members (interval_fields i) = interval_fields i.
Proof. reflexivity. Qed.
Lemma members_bank b : members (bank_fields b) = bank_fields b.
Proof. reflexivity. Qed.
Lemma members_flat A (F : A -> list field) l : members (flat_map F l) = flat_map (fun a => members (F a)) l.
Proof. induction l as [|a l IH]; [ reflexivity |]. cbn [flat_map]. rewrite members_app, IH. reflexivity. Qed.
Lemma cut_rank n o : length (rk_banks n) = length (rk_banks o) ->
  cut_ok (l_rank o) (rank_fields n) (rank_fields o) (fun m y => m = members (rank_fields y)).
Proof.
  intro L. eapply cut_same; [ apply head_rest |]. unfold rank_fields.
  eapply cut_bind; [ apply cut_head |]. intros l [[[m er] ns] nd] ->. cbn [l_rest flat_map].
  rewrite <- !app_assoc. cbn [app].
  do 7 (eapply (cut_bind _ _ _ _ _ _ _ _ _ _ (cut_interval _ _)); intros ? ? ->).
  rewrite <- (app_nil_r (flat_map bank_fields (rk_banks n))), <- (app_nil_r (flat_map bank_fields (rk_banks o))).
  eapply cut_bind.
  - apply cut_each with (M := bank_fields). revert L. generalize (rk_banks o). induction (rk_banks n) as [|b1 bs1 IH]; intros [|b2 bs2] L;
      try discriminate L; constructor; [ apply cut_bank |]. apply IH. cbn in L. lia.
  - intros ? bs ->. apply cut_ret.
    cbn [rk_pre rk_act rk_ref rk_sref rk_pda rk_pdp rk_dsm rk_banks rk_memState rk_endRefresh rk_n_sref rk_n_dsm].
    match goal with |- _ = members (?a :: ?b :: ?c :: ?d :: ?e :: ?l) => change (members (a :: b :: c :: d :: e :: l)) with ([a; b; c; d] ++ members l) end.
    rewrite !members_app, members_flat, !app_nil_r, <- !app_assoc. reflexivity.
Qed.
Lemma cut_core n o : same_shape o n -> cut_ok (l_core o) (core_fields n) (core_fields o)
  (fun m y => m = members (core_fields y) /\ co_queue y = co_queue o).
Proof.
  intro S. unfold l_core, core_fields. step cut_u64.
  rewrite <- (app_nil_r (flat_map rank_fields (co_ranks n))), <- (app_nil_r (flat_map rank_fields (co_ranks o))).
  eapply cut_bind.
  - apply cut_each with (M := fun r => members (rank_fields r)). unfold same_shape in S. induction S; constructor; [ apply cut_rank; congruence | assumption ].
  - intros ? rs ->. apply cut_ret. split; [| reflexivity ]. cbn [co_ranks co_last]. cbn [members filter is_member].
    fold members. change (filter is_member) with members. rewrite members_flat, app_nil_r. reflexivity.
Qed.

(* ---- the stream ---- *)

Lemma emits_optional o : emit (F_opt o) = w_optional o.
Proof. destruct o; reflexivity. Qed.
Lemma emits_interval i : emits (interval_fields i) = w_interval i.
Proof. unfold interval_fields, w_interval. cbn [flat_map]. rewrite !emits_optional, app_nil_r. reflexivity. Qed.
Lemma emits_bank b : emits (bank_fields b) = w_bank b.
Proof.
  unfold bank_fields, w_bank. cbv zeta. rewrite !flat_map_app, !emits_interval. reflexivity.
Qed.
Lemma emits_flat A (F : A -> list field) (w : A -> list item) : (forall a, emits (F a) = w a) -> forall l, emits (flat_map F l) = flat_map w l.
Proof. intros H l. induction l as [|a l IH]; [ reflexivity |]. cbn [flat_map]. rewrite flat_map_app, H, IH. reflexivity. Qed.
Lemma emits_rank r : emits (rank_fields r) = w_rank r.
Proof.
  unfold rank_fields, w_rank. rewrite !flat_map_app, (emits_flat _ _ _ emits_bank), (emits_flat _ _ _ emits_interval).
  cbn [flat_map emit app]. rewrite <- !app_assoc. cbn [app]. reflexivity.
Qed.
Lemma emits_core s : emits (core_fields s) = w_core s.
Proof. unfold core_fields, w_core. cbn [flat_map emit]. rewrite (emits_flat _ _ _ emits_rank). reflexivity. Qed.

(* ---- the theorems ---- *)

Theorem stream_of_core s : w_core s = flat_map emit (core_fields s).
Proof. symmetry. apply emits_core. Qed.
Theorem cut_stream o n p q : same_shape o n -> w_core n = p ++ q ->
  exists y m, l_core o p = Got y [] /\ left_behind (core_fields n) (core_fields o) p m /\ has_members y m /\ co_queue y = co_queue o.
Proof.
  intros S E. destruct (cut_core n o S) as [L W N C]. rewrite <- emits_core in E.
  destruct q as [|i q].
  - rewrite app_nil_r in E. destruct (W []) as (y & Ey & Y & Q). rewrite app_nil_r in Ey. exists y, (members (core_fields n)).
    subst p. split; [ exact Ey |]. split; [| split; [ symmetry; exact Y | exact Q ] ].
    exists (length (core_fields n)). split; [ lia |]. left. rewrite firstn_all. split; [ reflexivity |].
    rewrite L, skipn_all. cbn. rewrite app_nil_r. reflexivity.
  - destruct (C p (i :: q) E) as (y & m & Ey & Ly & Y & Q); [ discriminate |]. exists y, m. split; [ exact Ey |].
    split; [ exact Ly |]. split; [ symmetry; exact Y | exact Q ].
Qed.
