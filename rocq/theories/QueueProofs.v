(* The implicit-command queue: insertion keeps it sorted and stable, and
   draining executes exactly the due prefix. *)
From Coq Require Import ZArith NArith List Bool Lia ZifyBool ZifyNat ZifyN Sorting.Sorted Permutation.
From Verif Require Import Base Command CoreModel ListFacts.
Import ListNotations.
Local Open Scope N_scope.

Section Generic.
Context {A : Type}.
Implicit Types (q : list (N * A)) (x : A).

Lemma q_insert_perm ts x q : Permutation ((ts, x) :: q) (q_insert ts x q).
Proof.
  induction q as [|[ts' y] q IH]; cbn; [reflexivity|].
  destruct (ts <? ts'); [reflexivity|].
  rewrite perm_swap. constructor. exact IH.
Qed.

Lemma q_insert_in ts x q e : In e (q_insert ts x q) <-> e = (ts, x) \/ In e q.
Proof.
  split; intros H.
  - apply (Permutation_in _ (Permutation_sym (q_insert_perm ts x q))) in H.
    destruct H; auto.
  - apply (Permutation_in _ (q_insert_perm ts x q)). destruct H; [left|right]; auto.
Qed.

Lemma q_insert_Forall (P : N * A -> Prop) ts x q :
  P (ts, x) -> Forall P q -> Forall P (q_insert ts x q).
Proof.
  intros Hx Hq. rewrite Forall_forall in *. intros e He.
  apply q_insert_in in He as [->|He]; auto.
Qed.

Lemma q_insert_sorted ts x q : tsorted q -> tsorted (q_insert ts x q).
Proof.
  induction q as [|[ts' y] q IH]; intros H; cbn.
  - constructor; constructor.
  - pose proof H as Hcons.
    apply tsorted_inv in H as [H1 H2].
    destruct (N.ltb_spec ts ts') as [Hlt|Hge].
    + constructor; [assumption|]. constructor; [unfold ts_le; cbn; lia|].
      eapply Forall_impl; [|exact H2]. unfold ts_le; cbn; intros; lia.
    + constructor; [apply IH; auto|].
      apply q_insert_Forall; [unfold ts_le; cbn; lia|exact H2].
Qed.

(* The due prefix and what is left. *)
Fixpoint due (t : N) q : list (N * A) :=
  match q with
  | [] => []
  | e :: q' => if fst e <=? t then e :: due t q' else []
  end.
Fixpoint rest (t : N) q : list (N * A) :=
  match q with
  | [] => []
  | e :: q' => if fst e <=? t then rest t q' else q
  end.

Lemma due_rest t q : due t q ++ rest t q = q.
Proof. induction q as [|e q IH]; cbn; auto. destruct (fst e <=? t); cbn; [f_equal; auto|auto]. Qed.

Lemma due_le t q e : In e (due t q) -> fst e <= t.
Proof.
  induction q as [|e' q IH]; cbn; [tauto|].
  destruct (N.leb_spec (fst e') t); cbn; [|tauto].
  intros [->|H']; auto.
Qed.

Lemma rest_sorted t q : tsorted q -> tsorted (rest t q).
Proof.
  induction q as [|e q IH]; intros H; cbn; auto.
  destruct (fst e <=? t); auto. apply tsorted_inv in H as [H _]; auto.
Qed.

Lemma rest_gt t q e : tsorted q -> In e (rest t q) -> t < fst e.
Proof.
  induction q as [|e' q IH]; cbn; [tauto|].
  intros H. apply tsorted_inv in H as [H1 H2].
  destruct (N.leb_spec (fst e') t); auto.
  intros [->|Hin]; auto. rewrite Forall_forall in H2. specialize (H2 _ Hin).
  unfold ts_le in H2; lia.
Qed.


Lemma filter_none {B} (f : B -> bool) l : (forall z : B, In z l -> f z = false) -> filter f l = [].
Proof.
  induction l as [|a l IH]; cbn; auto. intros H.
  rewrite (H a) by auto. apply IH; auto.
Qed.
Lemma filter_all {B} (f : B -> bool) l : (forall z : B, In z l -> f z = true) -> filter f l = l.
Proof.
  induction l as [|a l IH]; cbn; auto. intros H.
  rewrite (H a) by auto. f_equal; apply IH; auto.
Qed.

Lemma due_filter t q : tsorted q -> due t q = filter (fun e => fst e <=? t) q.
Proof.
  intros H. rewrite <- (due_rest t q) at 2. rewrite filter_app.
  rewrite filter_all, filter_none, app_nil_r; auto.
  - intros e He. apply (rest_gt t q e H) in He. lia.
  - intros e He. apply due_le in He. lia.
Qed.

Lemma rest_filter t q : tsorted q -> rest t q = filter (fun e => negb (fst e <=? t)) q.
Proof.
  intros H. rewrite <- (due_rest t q) at 2. rewrite filter_app.
  rewrite filter_none, filter_all; auto.
  - intros e He. apply (rest_gt t q e H) in He. lia.
  - intros e He. apply due_le in He. lia.
Qed.

Lemma due_due t1 t2 q : t1 <= t2 -> due t1 q ++ due t2 (rest t1 q) = due t2 q.
Proof.
  intros H. induction q as [|e q IH]; cbn; auto.
  destruct (N.leb_spec (fst e) t1); cbn.
  - destruct (N.leb_spec (fst e) t2); [|lia]. f_equal; auto.
  - reflexivity.
Qed.

Lemma rest_rest t1 t2 q : t1 <= t2 -> rest t2 (rest t1 q) = rest t2 q.
Proof.
  intros H. induction q as [|e q IH]; cbn; auto.
  destruct (N.leb_spec (fst e) t1); cbn; auto.
  destruct (N.leb_spec (fst e) t2); [auto|lia].
Qed.

Lemma due_nil_of_gt t q : (forall e, In e q -> t < fst e) -> due t q = [].
Proof. destruct q as [|e q]; cbn; auto. intros H. specialize (H e (or_introl eq_refl)).
  destruct (N.leb_spec (fst e) t); auto; lia. Qed.
Lemma rest_id_of_gt t q : (forall e, In e q -> t < fst e) -> rest t q = q.
Proof. destruct q as [|e q]; cbn; auto. intros H. specialize (H e (or_introl eq_refl)).
  destruct (N.leb_spec (fst e) t); auto; lia. Qed.

(* filtering commutes with insertion into a sorted queue *)
Lemma q_insert_before ts x q : (forall e, In e q -> ts < fst e) ->
  q_insert ts x q = (ts, x) :: q.
Proof.
  destruct q as [|[ts' y] q]; cbn; auto. intros H.
  specialize (H _ (or_introl eq_refl)); cbn in H.
  destruct (N.ltb_spec ts ts'); auto; lia.
Qed.

Lemma filter_q_insert (f : N * A -> bool) ts x q : tsorted q ->
  filter f (q_insert ts x q) =
  if f (ts, x) then q_insert ts x (filter f q) else filter f q.
Proof.
  induction q as [|[ts' y] q IH]; intros H; cbn [q_insert filter].
  - destruct (f (ts, x)); reflexivity.
  - apply tsorted_inv in H as [H1 H2].
    destruct (N.ltb_spec ts ts') as [Hlt|Hge].
    + cbn [filter]. destruct (f (ts, x)); auto.
      destruct (f (ts', y)); cbn.
      * destruct (N.ltb_spec ts ts'); auto; lia.
      * rewrite q_insert_before; auto.
        intros e He. apply filter_In in He as [He _].
        rewrite Forall_forall in H2. specialize (H2 _ He). unfold ts_le in H2; cbn in H2; lia.
    + cbn [filter]. rewrite IH by auto.
      destruct (f (ts, x)), (f (ts', y)); auto.
      cbn. destruct (N.ltb_spec ts ts'); auto; lia.
Qed.

End Generic.
