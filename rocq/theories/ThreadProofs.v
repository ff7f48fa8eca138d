(* Every interleaving of the two threads of the CSV reader. *)
From Coq Require Import NArith List Bool Ascii Arith Lia.
From Verif Require Import Base Bits CsvModel ChunkModel ThreadModel.
Import ListNotations.

(* k chunks from ps on bring the rows l and leave the parser pe. *)
Inductive future (f : source) : nat -> parser -> list row -> parser -> Prop :=
| fut_end ps : ps_eof ps = true -> future f 0 ps [] ps
| fut_next k ps r l pe : ps_eof ps = false -> next f ps = Value r -> future f k (rc_parser r) l pe -> future f (S k) ps (rc_all r ++ l) pe.
Lemma future_eof f k ps l pe : future f k ps l pe -> ps_eof pe = true.
Proof. induction 1; auto. Qed.
Lemma future_at_end f k ps l pe : future f k ps l pe -> ps_eof ps = true -> k = 0 /\ l = [] /\ pe = ps.
Proof. intros H E. destruct H; [auto|congruence]. Qed.
Lemma future_more f k ps l pe : future f k ps l pe -> ps_eof ps = false ->
  exists j r l', k = S j /\ next f ps = Value r /\ l = rc_all r ++ l' /\ future f j (rc_parser r) l' pe.
Proof. intros H E. destruct H as [ps E'|j ps r l pe E' N F]; [congruence|]. exists j, r, l. auto. Qed.
Lemma next_eof f ps r : next f ps = Value r -> ps_eof ps = true -> ps_eof (rc_parser r) = true.
Proof. unfold next. intros H E. destruct (mappable _ _ _); [|discriminate]. destruct (lex_loop _ _ _); [|discriminate]. injection H as <-. cbn. now rewrite E. Qed.
Lemma read_future f : forall fuel ps l, read_on fuel f ps = Some (Value l) -> exists k pe, future f k ps l pe.
Proof.
  induction fuel as [|fuel IH]; intros ps l H; cbn [read_on] in H.
  - destruct (ps_eof ps) eqn:E; [|discriminate]. injection H as <-. eauto using fut_end.
  - destruct (ps_eof ps) eqn:E; [injection H as <-; eauto using fut_end|]. destruct (next f ps) as [r|] eqn:N; [|discriminate].
    destruct (read_on fuel f (rc_parser r)) as [[l1|]|] eqn:R; try discriminate. injection H as <-. destruct (IH _ _ R) as (k & pe & F). eauto using fut_next.
Qed.
Lemma future_read f k ps l pe : future f k ps l pe -> forall fuel, k <= fuel -> read_on fuel f ps = Some (Value l).
Proof.
  induction 1 as [ps E|k ps r l pe E N F IH]; intros fuel K.
  - destruct fuel; cbn [read_on]; now rewrite E.
  - destruct fuel as [|fuel]; [lia|]. cbn [read_on]. rewrite E, N, IH by lia. reflexivity.
Qed.
Lemma opened_future f fuel L : read_file fuel f = Some (Value L) -> L <> [] ->
  exists s k l pe, opened f = Value s /\ th_main s = AtEmpty /\ th_worker s = Ended /\ th_waitable s = false /\ th_out s = [] /\ th_queue s ++ l = L /\ future f k (th_parser s) l pe.
Proof.
  unfold read_file, opened. intros H Ne. destruct (next f parser0) as [r|] eqn:N0; [|discriminate].
  destruct (rc_all r) as [|x q] eqn:A.
  - destruct (next f (rc_parser r)) as [r2|] eqn:N1; [|discriminate]. destruct (rc_all r2) as [|x q] eqn:A2; [injection H as <-; contradiction|].
    destruct (read_on fuel f (rc_parser r2)) as [[l|]|] eqn:R; try discriminate. injection H as <-. destruct (read_future _ _ _ _ R) as (k & pe & F).
    do 4 eexists. split; [reflexivity|]. cbn. repeat (split; [reflexivity|]). exact F.
  - destruct (read_on fuel f (rc_parser r)) as [[l|]|] eqn:R; try discriminate. injection H as <-. destruct (read_future _ _ _ _ R) as (k & pe & F).
    do 4 eexists. split; [reflexivity|]. cbn. repeat (split; [reflexivity|]). exact F.
Qed.

Section System.
Variable f : source.
Variables (L : list row) (pe : parser).
Hypothesis Eof : ps_eof pe = true.

(* main holds the thread's end only when it has joined it. *)
Definition joined (s : threads) : Prop := th_main s = AtStart -> th_worker s = Ended.
Definition flagged (s : threads) : Prop :=
  th_waitable s = match th_worker s with Ended | Begun => false | _ => true end.
(* All rows, as long as nothing is read beyond the end of the file ... *)
Definition regular (s : threads) : Prop :=
  exists k l,
    match th_worker s with
    | Ended => th_out s ++ th_queue s ++ l = L /\ future f k (th_parser s) l pe
    | Begun | Notified => ps_eof (th_parser s) = false /\ th_out s ++ th_queue s ++ l = L /\ future f k (th_parser s) l pe
    | Parsing x r => ps_eof (th_parser s) = false /\ th_out s ++ th_queue s ++ x ++ rc_end r ++ l = L /\ future f k (rc_parser r) l pe
    | Feeding x => th_out s ++ th_queue s ++ x ++ l = L /\ future f k (th_parser s) l pe
    | Failed e => False
    end.
(* ... and when one thread too many has been started. *)
Definition beyond (s : threads) : Prop :=
  ps_eof (th_parser s) = true /\ (th_main s <> AtJoin /\ th_main s <> AtStart) /\
  match th_worker s with
  | Begun | Notified => th_parser s = pe /\ th_out s ++ th_queue s = L
  | Parsing x r => next f pe = Value r /\ th_out s ++ th_queue s ++ x ++ rc_end r = L ++ rc_all r
  | Feeding x => exists r, next f pe = Value r /\ th_out s ++ th_queue s ++ x = L ++ rc_all r
  | Ended => exists r, next f pe = Value r /\ th_out s ++ th_queue s = L ++ rc_all r
  | Failed e => next f pe = Fails e /\ th_out s ++ th_queue s = L
  end.
Definition sound (s : threads) : Prop := joined s /\ flagged s /\ (regular s \/ beyond s) /\ (th_main s = Over -> ps_eof (th_parser s) = true).

Lemma main_sound s s1 : sound s -> main_step s = Some s1 -> sound s1.
Proof.
  destruct s as [m w q wt ps o]. intros (J & Fl & R & Ov) H. unfold main_step in H. cbn [th_main th_worker th_queue th_waitable th_parser th_out] in H.
  unfold joined, flagged, regular, beyond in *. cbn [th_main th_worker th_queue th_waitable th_parser th_out] in *.
  assert (forall m', (m' = AtStart -> w = Ended) -> (m' = Over -> ps_eof ps = true) -> ((m' = AtJoin \/ m' = AtStart) -> ps_eof ps = true -> m = AtJoin \/ m = AtStart) ->
    sound (mkThreads m' w q wt ps o)) as Go.
  { intros m' A B C. unfold sound, joined, flagged, regular, beyond. cbn [th_main th_worker th_queue th_waitable th_parser th_out]. split; [exact A|]. split; [exact Fl|]. split; [|exact B].
    destruct R as [R|(E & (M1 & M2) & R)]; [left; exact R|right]. split; [exact E|]. split; [|exact R]. split; intros X; [destruct (C (or_introl X) E)|destruct (C (or_intror X) E)]; contradiction. }
  assert (match w with Failed _ => False | _ => True end) as NF by (destruct w; try exact I; discriminate H).
  assert (match m with
          | AtEmpty => match q with [] => Some (mkThreads AtWaitable w q wt ps o) | x :: q' => Some (mkThreads AtEmpty w q' wt ps (o ++ [x])) end
          | AtWaitable => if wt then Some (mkThreads Waiting w q wt ps o) else Some (mkThreads AtEof w q wt ps o)
          | Waiting => if Nat.leb notify_size (length q) || negb wt then Some (mkThreads AtEmpty w q wt ps o) else None
          | AtEof => if ps_eof ps then Some (mkThreads Over w q wt ps o) else Some (mkThreads AtJoin w q wt ps o)
          | AtJoin => match w with Ended => Some (mkThreads AtStart w q wt ps o) | _ => None end
          | AtStart => Some (mkThreads AtEmpty Begun q wt ps o)
          | Over => None
          end = Some s1) as H1 by (destruct w; try contradiction; exact H). clear H.
  destruct m.
  - destruct q as [|x q].
    + injection H1 as <-. apply Go; intros; try discriminate. destruct H; discriminate.
    + injection H1 as <-. unfold sound, joined, flagged, regular, beyond. cbn [th_main th_worker th_queue th_waitable th_parser th_out]. split; [discriminate|]. split; [exact Fl|]. split; [|discriminate].
      destruct R as [(k & l & R)|(E & M & R)]; [left; exists k, l|right; split; [exact E|]; split; [exact M|]]; (destruct w; try contradiction; rewrite <- ?app_assoc; exact R).
  - destruct wt; injection H1 as <-; apply Go; intros; try discriminate; destruct H; discriminate.
  - destruct (Nat.leb _ _ || _); [|discriminate]. injection H1 as <-. apply Go; intros; try discriminate. destruct H; discriminate.
  - destruct (ps_eof ps) eqn:E; injection H1 as <-; apply Go; intros; try discriminate; auto; try congruence. destruct H; discriminate.
  - destruct w; try discriminate. injection H1 as <-. apply Go; intros; auto; try discriminate.
  - injection H1 as <-. specialize (J eq_refl). subst w. unfold sound, joined, flagged, regular, beyond. cbn [th_main th_worker th_queue th_waitable th_parser th_out].
    split; [discriminate|]. split; [exact Fl|]. split; [|discriminate]. destruct R as [(k & l & R & Fu)|(E & (M1 & M2) & R)]; [|contradiction].
    destruct (ps_eof ps) eqn:E.
    + right. destruct (future_at_end _ _ _ _ _ Fu E) as (-> & -> & ->). rewrite app_nil_r in R. split; [reflexivity|]. split; [split; discriminate|]. split; [reflexivity|exact R].
    + left. exists k, l. auto.
  - discriminate.
Qed.
Lemma worker_sound s s1 : sound s -> worker_step f s = Some s1 -> sound s1.
Proof.
  destruct s as [m w q wt ps o]. intros (J & Fl & R & Ov) H. unfold worker_step in H. cbn [th_main th_worker th_queue th_waitable th_parser th_out] in H.
  unfold joined, flagged, regular, beyond in *. cbn [th_main th_worker th_queue th_waitable th_parser th_out] in *.
  destruct w as [| | |[|x l] r|[|x l]|e]; try discriminate.
  - (* Begun *) injection H as <-. unfold sound, joined, flagged, regular, beyond. cbn [th_main th_worker th_queue th_waitable th_parser th_out].
    split; [intros A; discriminate (J A)|]. split; [reflexivity|]. split; [exact R|exact Ov].
  - (* Notified *) destruct R as [(k & l & E & R & Fu)|(E & M & P & R)].
    + destruct (future_more _ _ _ _ _ Fu E) as (k' & r & l' & -> & N & -> & Fu'). rewrite N in H. injection H as <-. unfold sound, joined, flagged, regular, beyond. cbn [th_main th_worker th_queue th_waitable th_parser th_out].
      split; [intros A; discriminate (J A)|]. split; [exact Fl|]. split; [left|exact Ov]. exists k', l'. split; [exact E|]. split; [|exact Fu']. rewrite <- R. unfold rc_all. rewrite <- app_assoc. reflexivity.
    + subst ps. destruct (next f pe) as [r|e] eqn:N; injection H as <-; unfold sound, joined, flagged, regular, beyond; cbn [th_main th_worker th_queue th_waitable th_parser th_out];
        (split; [intros A; discriminate (J A)|]; split; [exact Fl|]; split; [right|exact Ov]; split; [exact E|]; split; [exact M|]).
      * split; [exact N|]. unfold rc_all. rewrite <- R, <- app_assoc. reflexivity.
      * split; [exact N|exact R].
  - (* Parsing [] *) injection H as <-. unfold sound, joined, flagged, regular, beyond. cbn [th_main th_worker th_queue th_waitable th_parser th_out].
    split; [intros A; discriminate (J A)|]. split; [exact Fl|]. destruct R as [(k & l & E & R & Fu)|(E & M & N & R)].
    + split; [left; exists k, l; split; [exact R|exact Fu]|]. intros A. specialize (Ov A). congruence.
    + pose proof (next_eof _ _ _ N Eof) as E'. split; [right|intros _; exact E']. split; [exact E'|]. split; [exact M|]. exists r. split; [exact N|exact R].
  - (* push *) injection H as <-. unfold sound, joined, flagged, regular, beyond. cbn [th_main th_worker th_queue th_waitable th_parser th_out].
    split; [intros A; discriminate (J A)|]. split; [exact Fl|]. split; [|exact Ov]. destruct R as [(k & l0 & E & R & Fu)|(E & M & N & R)].
    + left. exists k, l0. split; [exact E|]. split; [|exact Fu]. rewrite <- R, <- !app_assoc. reflexivity.
    + right. split; [exact E|]. split; [exact M|]. split; [exact N|]. rewrite <- R, <- !app_assoc. reflexivity.
  - (* kill *) injection H as <-. unfold sound, joined, flagged, regular, beyond. cbn [th_main th_worker th_queue th_waitable th_parser th_out].
    split; [intros A; discriminate (J A)|]. split; [reflexivity|]. split; [|exact Ov]. destruct R as [(k & l0 & R & Fu)|(E & M & r & N & R)].
    + left. exists k, l0. split; [exact R|exact Fu].
    + right. split; [exact E|]. split; [exact M|]. exists r. split; [exact N|]. rewrite app_nil_r in R. exact R.
  - injection H as <-. unfold sound, joined, flagged, regular, beyond. cbn [th_main th_worker th_queue th_waitable th_parser th_out].
    split; [intros A; discriminate (J A)|]. split; [exact Fl|]. split; [|exact Ov]. destruct R as [(k & l0 & R & Fu)|(E & M & r & N & R)].
    + left. exists k, l0. split; [|exact Fu]. rewrite <- R, <- !app_assoc. reflexivity.
    + right. split; [exact E|]. split; [exact M|]. exists r. split; [exact N|]. rewrite <- R, <- !app_assoc. reflexivity.
Qed.
Lemma schedule_sound : forall l s s1, sound s -> schedule f l s = Some s1 -> sound s1.
Proof.
  induction l as [|b l IH]; intros s s1 I H; cbn [schedule] in H; [injection H as <-; exact I|].
  destruct (thread_step f b s) as [s2|] eqn:T; [|discriminate]. apply (IH s2); [|exact H]. destruct b; [exact (main_sound _ _ I T)|exact (worker_sound _ _ I T)].
Qed.
(* The rows that a thread beyond the end of the file brings. *)
Definition again (rs : list row) : Prop := rs = [] \/ exists r, next f pe = Value r /\ rs = rc_all r.
Lemma sound_prefix s : sound s -> exists rs rest, again rs /\ th_out s ++ rest = L ++ rs.
Proof.
  intros (_ & _ & [(k & l & R)|(E & M & R)] & _).
  - exists []. unfold again. rewrite app_nil_r. destruct (th_worker s); try contradiction; (destruct R as (_ & R & _) || destruct R as (R & _)); eexists; (split; [left; reflexivity|exact R]).
  - unfold again. destruct (th_worker s) as [| | |x r|x|e].
    + destruct R as (r & N & R). exists (rc_all r), (th_queue s). split; [right; eauto|exact R].
    + destruct R as (_ & R). exists [], (th_queue s). rewrite app_nil_r. auto.
    + destruct R as (_ & R). exists [], (th_queue s). rewrite app_nil_r. auto.
    + destruct R as (N & R). exists (rc_all r). eexists. split; [right; eauto|exact R].
    + destruct R as (r & N & R). exists (rc_all r). eexists. split; [right; eauto|exact R].
    + destruct R as (_ & R). exists [], (th_queue s). rewrite app_nil_r. auto.
Qed.
(* What is left when neither thread can go on. *)
Lemma sound_rest s : sound s -> at_rest f s ->
  (exists e, th_worker s = Failed e /\ next f pe = Fails e /\ th_out s ++ th_queue s = L) \/
  (th_main s = Over /\ th_worker s = Ended /\ exists rs, again rs /\ th_out s ++ th_queue s = L ++ rs).
Proof.
  destruct s as [m w q wt ps o]. intros (J & Fl & R & Ov) (A & B). unfold main_step, worker_step in A, B. unfold joined, flagged, regular, beyond in *.
  cbn [th_main th_worker th_queue th_waitable th_parser th_out] in *.
  destruct w as [| | |[|x l] r|[|x l]|e]; try discriminate B.
  - right. assert (m = Over) as ->.
    { destruct m; try reflexivity; exfalso; try discriminate A.
      - destruct q; discriminate A.
      - destruct wt; discriminate A.
      - rewrite Fl in A. cbn in A. rewrite orb_true_r in A. discriminate A.
      - destruct (ps_eof ps); discriminate A. }
    split; [reflexivity|]. split; [reflexivity|]. unfold again. destruct R as [(k & l & R & Fu)|(E & M & r & N & R)].
    + destruct (future_at_end _ _ _ _ _ Fu (Ov eq_refl)) as (-> & -> & ->). exists []. split; [auto|]. rewrite app_nil_r in R |- *. exact R.
    + exists (rc_all r). split; [right; eauto|exact R].
  - destruct (next f ps); discriminate B.
  - left. exists e. destruct R as [(k & l & [])|(E & M & N & R)]. auto.
Qed.
Lemma opened_sound s k l : th_main s = AtEmpty -> th_worker s = Ended -> th_waitable s = false -> th_out s = [] -> th_queue s ++ l = L -> future f k (th_parser s) l pe -> sound s.
Proof.
  intros A B C D E F. unfold sound, joined, flagged, regular. rewrite A, B, C, D. split; [discriminate|]. split; [reflexivity|]. split; [|discriminate].
  left. exists k, l. split; [exact E|exact F].
Qed.
End System.
