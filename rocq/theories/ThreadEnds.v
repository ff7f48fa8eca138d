(* Every interleaving of the two threads of the CSV reader ends; one of them reads the
   chunks one after the other. *)
From Coq Require Import NArith List Bool Ascii Arith Lia.
From Verif Require Import Base Bits CsvModel ChunkModel ThreadModel ThreadProofs.
Import ListNotations.

Section Ends.
Variable f : source.
(* At most k threads are still to be started. *)
Definition starts_left (k : nat) (s : threads) : Prop :=
  (th_main s = AtStart -> th_worker s = Ended) /\
  if ps_eof (th_parser s) then
    (th_main s = AtJoin \/ th_main s = AtStart -> 1 <= k) /\ match th_worker s with Parsing _ r => ps_eof (rc_parser r) = true | _ => True end
  else match th_worker s with
       | Ended | Feeding _ => exists j l pe, future f j (th_parser s) l pe /\ S j <= k
       | Begun | Notified => exists j l pe, future f j (th_parser s) l pe /\ j <= k
       | Parsing _ r => exists j l pe, future f j (rc_parser r) l pe /\ S j <= k
       | Failed _ => True
       end.
(* Steps the reading thread has before it. *)
Definition worker_left (s : threads) : nat :=
  let ahead := match next f (th_parser s) with Value r => length (rc_rows r) + length (rc_end r) | Fails _ => 0 end in
  match th_worker s with
  | Ended | Failed _ => 0
  | Begun => ahead + 4
  | Notified => ahead + 3
  | Parsing x r => length x + length (rc_end r) + 2
  | Feeding x => length x + 1
  end.
(* Steps of the main thread before it has to wait. *)
Definition main_left (s : threads) : nat :=
  let waits := if th_waitable s then (if Nat.leb notify_size (length (th_queue s)) then length (th_queue s) + 3 else 0) else length (th_queue s) + 6 in
  match th_main s with
  | Over => 0
  | AtStart => 1
  | AtJoin => 2
  | AtEof => 3
  | AtWaitable => if th_waitable s then 1 + waits else 4
  | Waiting => waits
  | AtEmpty => length (th_queue s) + if th_waitable s then 2 else 5
  end.

Lemma main_progress k s s1 : starts_left k s -> main_step s = Some s1 ->
  (starts_left k s1 /\ worker_left s1 = worker_left s /\ main_left s1 < main_left s) \/ exists j, j < k /\ starts_left j s1.
Proof.
  destruct s as [m w q wt ps o]. intros (J & R) H. unfold main_step in H. unfold starts_left, worker_left, main_left in *. cbn [th_main th_worker th_queue th_waitable th_parser th_out] in *.
  assert (match m with
          | AtEmpty => match q with [] => Some (mkThreads AtWaitable w q wt ps o) | x :: q' => Some (mkThreads AtEmpty w q' wt ps (o ++ [x])) end
          | AtWaitable => if wt then Some (mkThreads Waiting w q wt ps o) else Some (mkThreads AtEof w q wt ps o)
          | Waiting => if Nat.leb notify_size (length q) || negb wt then Some (mkThreads AtEmpty w q wt ps o) else None
          | AtEof => if ps_eof ps then Some (mkThreads Over w q wt ps o) else Some (mkThreads AtJoin w q wt ps o)
          | AtJoin => match w with Ended => Some (mkThreads AtStart w q wt ps o) | _ => None end
          | AtStart => Some (mkThreads AtEmpty Begun q wt ps o)
          | Over => None
          end = Some s1) as H1 by (destruct w; try discriminate H; exact H). clear H.
  destruct m.
  - destruct q as [|x q]; injection H1 as <-; cbn [th_main th_worker th_queue th_waitable th_parser th_out]; left.
    + split; [split; [discriminate|]; destruct (ps_eof ps); [split; [intros [X|X]; discriminate|exact (proj2 R)]|exact R]|]. split; [reflexivity|]. destruct wt; cbn; lia.
    + split; [split; [discriminate|]; destruct (ps_eof ps); [split; [intros [X|X]; discriminate|exact (proj2 R)]|exact R]|]. split; [reflexivity|]. cbn; lia.
  - left. destruct wt; injection H1 as <-; cbn [th_main th_worker th_queue th_waitable th_parser th_out];
      (split; [split; [discriminate|]; destruct (ps_eof ps); [split; [intros [X|X]; discriminate|exact (proj2 R)]|exact R]|]; split; [reflexivity|]; lia).
  - left. destruct (Nat.leb notify_size (length q)) eqn:Le; cbn [orb] in H1.
    + injection H1 as <-. cbn [th_main th_worker th_queue th_waitable th_parser th_out].
      split; [split; [discriminate|]; destruct (ps_eof ps); [split; [intros [X|X]; discriminate|exact (proj2 R)]|exact R]|]. split; [reflexivity|]. destruct wt; lia.
    + destruct wt; [discriminate|]. injection H1 as <-. cbn [th_main th_worker th_queue th_waitable th_parser th_out].
      split; [split; [discriminate|]; destruct (ps_eof ps); [split; [intros [X|X]; discriminate|exact (proj2 R)]|exact R]|]. split; [reflexivity|]. lia.
  - left. destruct (ps_eof ps) eqn:E; injection H1 as <-; cbn [th_main th_worker th_queue th_waitable th_parser th_out]; rewrite E.
    + split; [split; [discriminate|]; split; [intros [X|X]; discriminate|exact (proj2 R)]|]. split; [reflexivity|]. lia.
    + split; [split; [discriminate|exact R]|]. split; [reflexivity|]. lia.
  - left. destruct w; try discriminate. injection H1 as <-. cbn [th_main th_worker th_queue th_waitable th_parser th_out].
    split; [split; [reflexivity|]; destruct (ps_eof ps); [split; [intros _; apply (proj1 R); auto|exact I]|exact R]|]. split; [reflexivity|]. lia.
  - right. specialize (J eq_refl). subst w. injection H1 as <-. cbn [th_main th_worker th_queue th_waitable th_parser th_out]. destruct (ps_eof ps).
    + destruct R as [R _]. exists 0. split; [specialize (R (or_intror eq_refl)); lia|]. split; [discriminate|]. split; [intros [X|X]; discriminate|exact I].
    + destruct R as (j & l & pe & Fu & Le). exists j. split; [lia|]. split; [discriminate|]. exists j, l, pe. auto.
  - discriminate.
Qed.
Lemma worker_progress k s s1 : starts_left k s -> worker_step f s = Some s1 -> starts_left k s1 /\ worker_left s1 < worker_left s.
Proof.
  destruct s as [m w q wt ps o]. intros (J & R) H. unfold worker_step in H. unfold starts_left, worker_left in *. cbn [th_main th_worker th_queue th_waitable th_parser th_out] in *.
  destruct w as [| | |[|x l] r|[|x l]|e]; try discriminate.
  - injection H as <-. cbn [th_main th_worker th_queue th_waitable th_parser th_out]. split; [split; [intros A; discriminate (J A)|exact R]|]. lia.
  - destruct (next f ps) as [r|e] eqn:N; injection H as <-; cbn [th_main th_worker th_queue th_waitable th_parser th_out].
    + split; [|lia]. split; [intros A; discriminate (J A)|]. destruct (ps_eof ps) eqn:E.
      * split; [exact (proj1 R)|exact (next_eof _ _ _ N E)].
      * destruct R as (j & l & pe & Fu & Le). destruct (future_more _ _ _ _ _ Fu E) as (j' & r' & l' & -> & N' & _ & Fu'). rewrite N in N'. injection N' as <-. exists j', l', pe. auto.
    + split; [|lia]. split; [intros A; discriminate (J A)|]. destruct (ps_eof ps); [split; [exact (proj1 R)|exact I]|exact I].
  - injection H as <-. cbn [th_main th_worker th_queue th_waitable th_parser th_out]. split; [|lia]. split; [intros A; discriminate (J A)|]. destruct (ps_eof ps) eqn:E.
    + destruct R as [R1 R2]. rewrite R2. split; [exact R1|exact I].
    + destruct R as (j & l & pe & Fu & Le). destruct (ps_eof (rc_parser r)) eqn:E'; [split; [intros; lia|exact I]|]. exists j, l, pe. auto.
  - injection H as <-. cbn [th_main th_worker th_queue th_waitable th_parser th_out]. split; [|cbn; lia]. split; [intros A; discriminate (J A)|exact R].
  - injection H as <-. cbn [th_main th_worker th_queue th_waitable th_parser th_out]. split; [|cbn; lia]. split; [intros A; reflexivity|exact R].
  - injection H as <-. cbn [th_main th_worker th_queue th_waitable th_parser th_out]. split; [|cbn; lia]. split; [intros A; discriminate (J A)|exact R].
Qed.
Definition bounded (s : threads) : Prop := exists n, forall l s1, schedule f l s = Some s1 -> length l <= n.
Lemma bounded_step s : (forall b s1, thread_step f b s = Some s1 -> bounded s1) -> bounded s.
Proof.
  intros H. assert (forall b, exists n, forall s1, thread_step f b s = Some s1 -> forall l s2, schedule f l s1 = Some s2 -> length l <= n) as K.
  { intros b. destruct (thread_step f b s) as [s1|] eqn:T; [|exists 0; discriminate]. destruct (H b s1 T) as [n Hn]. exists n. intros s2 E. injection E as <-. exact Hn. }
  destruct (K true) as [a A]. destruct (K false) as [b B]. exists (S (a + b)). intros [|c l] s1 E; cbn [schedule length] in *; [lia|].
  destruct (thread_step f c s) as [s2|] eqn:T; [|discriminate]. destruct c; [specialize (A _ T _ _ E)|specialize (B _ T _ _ E)]; lia.
Qed.
Lemma all_bounded : forall k w m s, starts_left k s -> worker_left s = w -> main_left s = m -> bounded s.
Proof.
  induction k as [k IHk] using lt_wf_ind. induction w as [w IHw] using lt_wf_ind. induction m as [m IHm] using lt_wf_ind. intros s S W M.
  apply bounded_step. intros [|] s1 T; cbn [thread_step] in T.
  - destruct (main_progress _ _ _ S T) as [(S1 & W1 & M1)|(j & Lj & S1)].
    + apply (IHm (main_left s1)); auto; lia.
    + exact (IHk j Lj _ _ s1 S1 eq_refl eq_refl).
  - destruct (worker_progress _ _ _ S T) as (S1 & W1). exact (IHw (worker_left s1) ltac:(lia) _ s1 S1 eq_refl eq_refl).
Qed.
Lemma opened_bounded s k l pe : th_main s = AtEmpty -> th_worker s = Ended -> future f k (th_parser s) l pe -> bounded s.
Proof.
  intros A B Fu. apply (all_bounded (S k) (worker_left s) (main_left s) s); [|reflexivity|reflexivity]. unfold starts_left. rewrite A, B. split; [discriminate|]. destruct (ps_eof (th_parser s)).
  - split; [intros [X|X]; discriminate|exact I].
  - exists k, l, pe. auto.
Qed.

(* ---- one chunk after the other ---- *)

Lemma schedule_app l1 : forall l2 s s1, schedule f l1 s = Some s1 -> schedule f (l1 ++ l2) s = schedule f l2 s1.
Proof. induction l1 as [|b l1 IH]; intros l2 s s1 H; cbn [schedule app] in *; [injection H as <-; reflexivity|]. destruct (thread_step f b s); [apply IH; exact H|discriminate]. Qed.
Lemma pops ps : forall q o, schedule f (map (fun _ => true) q) (mkThreads AtEmpty Ended q false ps o) = Some (mkThreads AtEmpty Ended [] false ps (o ++ q)).
Proof. induction q as [|x q IH]; intros o; cbn [map schedule]; [now rewrite app_nil_r|]. cbn [thread_step main_step th_worker th_main th_queue th_waitable th_parser th_out]. rewrite IH, <- app_assoc. reflexivity. Qed.
Lemma parses m r ps o : forall x q, schedule f (map (fun _ => false) x) (mkThreads m (Parsing x r) q true ps o) = Some (mkThreads m (Parsing [] r) (q ++ x) true ps o).
Proof. induction x as [|y x IH]; intros q; cbn [map schedule]; [now rewrite app_nil_r|]. cbn [thread_step worker_step th_worker th_main th_queue th_waitable th_parser th_out]. rewrite IH, <- app_assoc. reflexivity. Qed.
Lemma feeds m ps o : forall x q, schedule f (map (fun _ => false) x) (mkThreads m (Feeding x) q true ps o) = Some (mkThreads m (Feeding []) (q ++ x) true ps o).
Proof. induction x as [|y x IH]; intros q; cbn [map schedule]; [now rewrite app_nil_r|]. cbn [thread_step worker_step th_worker th_main th_queue th_waitable th_parser th_out]. rewrite IH, <- app_assoc. reflexivity. Qed.
Lemma one_after_other k ps l pe : future f k ps l pe -> forall q o, exists sched, schedule f sched (mkThreads AtEmpty Ended q false ps o) = Some (mkThreads Over Ended [] false pe (o ++ q ++ l)).
Proof.
  induction 1 as [ps E|k ps r l pe E N F IH]; intros q o.
  - exists (map (fun _ => true) q ++ [true; true; true]). rewrite (schedule_app _ _ _ _ (pops ps q o)). cbn. rewrite E, app_nil_r. reflexivity.
  - destruct (IH (rc_all r) (o ++ q)) as [more M].
    exists (map (fun _ => true) q ++ [true; true; true; true; true; false; false] ++ map (fun _ => false) (rc_rows r) ++ [false] ++ map (fun _ => false) (rc_end r) ++ [false] ++ more).
    rewrite (schedule_app _ _ _ _ (pops ps q o)).
    rewrite (schedule_app [true; true; true; true; true; false; false] _ _ (mkThreads AtEmpty (Parsing (rc_rows r) r) [] true ps (o ++ q))).
    2: { cbn. rewrite E. cbn. rewrite N. reflexivity. }
    rewrite (schedule_app _ _ _ _ (parses _ _ _ _ _ _)). rewrite (schedule_app [false] _ _ (mkThreads AtEmpty (Feeding (rc_end r)) (rc_rows r) true (rc_parser r) (o ++ q))) by reflexivity.
    rewrite (schedule_app _ _ _ _ (feeds _ _ _ _ _)). rewrite (schedule_app [false] _ _ (mkThreads AtEmpty Ended (rc_rows r ++ rc_end r) false (rc_parser r) (o ++ q))) by reflexivity.
    rewrite <- app_assoc in M. exact M.
Qed.
End Ends.

(* Every schedule ends. *)
Theorem reader_ends f fuel L : read_file fuel f = Some (Value L) -> L <> [] ->
  exists s n, opened f = Value s /\ forall l s1, schedule f l s = Some s1 -> length l <= n.
Proof.
  intros R Ne. destruct (opened_future _ _ _ R Ne) as (s & k & l & pe & O & A & B & _ & _ & _ & Fu). destruct (opened_bounded f s k l pe A B Fu) as [n H]. exists s, n. auto.
Qed.
(* A schedule reads one chunk after the other. *)
Theorem reader_can f fuel L : read_file fuel f = Some (Value L) -> L <> [] ->
  exists s l s1, opened f = Value s /\ schedule f l s = Some s1 /\ at_rest f s1 /\ th_main s1 = Over /\ th_out s1 = L.
Proof.
  intros R Ne. destruct (opened_future _ _ _ R Ne) as (s & k & l & pe & O & A & B & C & D & E & Fu). destruct s as [m w q wt ps o]. cbn in A, B, C, D, E, Fu. subst m w wt o.
  destruct (one_after_other f k ps l pe Fu q []) as [sched S]. exists (mkThreads AtEmpty Ended q false ps []), sched. eexists. split; [exact O|]. split; [exact S|]. split; [split; reflexivity|].
  split; [reflexivity|]. cbn. exact E.
Qed.
