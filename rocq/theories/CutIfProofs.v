From Coq Require Import NArith QArith List Bool Lia Arith.
From Verif Require Import Base Command CoreModel Bits BusModel ToggleModel PinModel DbiModel DbiPinModel PatternModel InterfaceModel SerialModel ByteModel
  InterfaceSpec SerialSpec InterfaceCa SerialProofs SerialIface CutIfModel CutIfSpec.
Import ListNotations.

(* ---- sequences of reads ---- *)
Lemma l_run_bind {A B} (p : lprog A) (k : A -> lprog B) s :
  l_run (l_bind p k) s = match l_run p s with Kept a r => l_run (k a) r | Unset => Unset | Other => Other end.
Proof.
  revert s. induction p as [a|t o f IH]; intros s; [reflexivity|]. cbn [l_bind l_run].
  destruct s as [|x s]; [destruct o; [apply IH|reflexivity]|]. destruct (one t (x :: s)); [apply IH|reflexivity..].
Qed.
Lemma on_empty {A} (p : lprog A) : (exists a, l_run p [] = Kept a []) \/ l_run p [] = Unset.
Proof. induction p as [a|t o f IH]; cbn; [eauto|]. destruct o; [apply IH|auto]. Qed.

Fixpoint initialised {A} (p : lprog A) : Prop :=
  match p with LRet _ => True | LRead t o k => o <> None /\ forall v, initialised (k v) end.
Lemma init_bind {A B} (p : lprog A) (k : A -> lprog B) : initialised p -> (forall a, initialised (k a)) -> initialised (l_bind p k).
Proof. intros P K. induction p as [a|t o f IH]; [apply K|]. destruct P as [O F]. split; [exact O|]. intros v. apply IH, F. Qed.
Lemma init_runs {A} (p : lprog A) s : initialised p -> l_run p s <> Unset.
Proof.
  revert s. induction p as [a|t o f IH]; intros s H; [discriminate|]. destruct H as [O F]. cbn [l_run].
  destruct s as [|x s]; [destruct o; [apply IH, F|congruence]|]. destruct (one t (x :: s)); [apply IH, F|discriminate..].
Qed.
Lemma init_times {A} (r : lprog A) n : initialised r -> initialised (o_times r n).
Proof. intros R. induction n; cbn [o_times]; [exact I|]. apply init_bind; [exact R|]. intros. apply init_bind; [assumption|]. intros. exact I. Qed.
Lemma init_read t o : initialised (o_read t o).
Proof. split; [discriminate|]. intros. exact I. Qed.
Ltac init := repeat first [ exact I | apply init_read | apply init_times | apply init_bind; [|intro] ].

Definition follows {A} (p : lprog A) (r : reader A) : Prop :=
  (forall s x rest, r s = Got x rest -> l_run p s = Kept x rest) /\
  forall u v x rest, r (u ++ v) = Got x rest ->
    (exists w, l_run p u = Kept x w /\ r u = Got x w /\ rest = w ++ v) \/ (exists a, l_run p u = Kept a []) \/ l_run p u = Unset.
Lemma follows_ret {A} (a : A) : follows (LRet a) (r_ret a).
Proof. unfold r_ret. split; intros; cbn in *; [congruence|]. left. exists u. split; [congruence|]. split; [congruence|congruence]. Qed.
Lemma follows_bind {A B} (p : lprog A) r (k : A -> lprog B) f : follows p r -> (forall a, follows (k a) (f a)) -> follows (l_bind p k) (r_bind r f).
Proof.
  intros [P1 P2] K. split; [intros s x rest H|intros u v x rest H]; unfold r_bind in *; rewrite l_run_bind.
  - destruct (r s) as [a w| |] eqn:E; [|discriminate..]. rewrite (P1 _ _ _ E). now apply (proj1 (K a)).
  - destruct (r (u ++ v)) as [a w| |] eqn:E; [|discriminate..]. destruct (P2 _ _ _ _ E) as [(w' & L & R & ->)|[(a' & L)|L]]; rewrite L.
    + rewrite R. exact (proj2 (K a) _ _ _ _ H).
    + destruct (on_empty (k a')) as [(b & M)|M]; rewrite M; eauto.
    + auto.
Qed.
Lemma follows_one t o : follows (LRead t o LRet) (one t).
Proof.
  split.
  - intros s x rest H. cbn [l_run]. destruct s as [|i s]; [now destruct t|]. rewrite H. reflexivity.
  - intros [|i u] v x rest H; [right; apply on_empty|]. left. exists u. cbn [app] in H. cbn [l_run].
    assert (one t (i :: u) = Got x u /\ rest = u ++ v) as [E F].
    { destruct t, i; cbn in *; try discriminate; try (injection H as <- <-; auto);
      repeat match goal with H : context [if ?b then _ else _] |- _ => destruct b eqn:? end; try discriminate; try (injection H as <- <-; auto). }
    rewrite E. auto.
Qed.
Lemma follows_each {A} (p : A -> lprog A) r ts : (forall t, follows (p t) (r t)) -> follows (o_each p ts) (r_each r ts).
Proof.
  intro H. induction ts as [|t ts IH]; cbn [o_each r_each]; [apply follows_ret|].
  apply follows_bind; [apply H|]. intro y. apply follows_bind; [exact IH|]. intro. apply follows_ret.
Qed.
Lemma follows_times {A} (p : lprog A) r n : follows p r -> follows (o_times p n) (r_times r n).
Proof.
  intro H. induction n as [|n IH]; cbn [o_times r_times]; [apply follows_ret|].
  apply follows_bind; [exact H|]. intro y. apply follows_bind; [exact IH|]. intro. apply follows_ret.
Qed.
Create HintDb along.
Ltac along := repeat first
  [ apply follows_ret | apply (follows_one T_u64) | apply (follows_one T_bool)
  | apply (follows_one T_pin) | apply (follows_one T_idle) | apply (follows_one T_mode) | apply (follows_one T_double)
  | apply (follows_one T_opt) | apply (follows_one (T_raw _)) | apply (follows_one (T_bytes _)) | apply (follows_one T_desc) | apply (follows_one T_spec)
  | apply (follows_one T_u8) | apply (follows_one T_u8_bool)
  | solve [auto with along nocore]
  | apply follows_each; intro | apply follows_times | apply follows_bind; [|intro] ].
Lemma follows_size o : follows (o_size o) r_size. Proof. unfold o_size, r_size. along. Qed.
Lemma follows_new_size : follows o_new_size r_size. Proof. unfold o_new_size, r_size. along. Qed.
#[local] Hint Resolve follows_size follows_new_size : along.
Lemma follows_stats o : follows (o_stats o) r_stats. Proof. unfold o_stats, r_stats. along. Qed.
#[local] Hint Resolve follows_stats : along.
Lemma follows_pending o : follows (o_pending o) r_pending. Proof. unfold o_pending, r_pending. along. Qed.
Lemma follows_opt (b : bool) : follows (if b then n <-- o_read T_opt 0%N ;; LRet (Some n) else LRet None) (if b then n <~ r_opt ;; r_ret (Some n) else r_ret None).
Proof. destruct b; along. Qed.
#[local] Hint Resolve follows_pending follows_opt : along.
Lemma follows_clock o : follows (o_clock o) (r_clock o). Proof. unfold o_clock, r_clock, r_optional. along. Qed.
Lemma follows_burst m v : follows (o_burst m v) (r_burst m v). Proof. unfold o_burst, r_burst. along. Qed.
#[local] Hint Resolve follows_clock follows_burst : along.
Lemma follows_container m o : follows (o_container m o) (r_container m o). Proof. unfold o_container, r_container. along. Qed.
#[local] Hint Resolve follows_container : along.
Lemma follows_bus o : follows (o_bus o) (r_bus o). Proof. unfold o_bus, r_bus. along. Qed.
Lemma follows_toggling o : follows (o_toggling o) r_toggling. Proof. unfold o_toggling, r_toggling. along. Qed.
#[local] Hint Resolve follows_bus follows_toggling : along.
Lemma follows_data o : follows (o_data o) (r_data o). Proof. unfold o_data, r_data. along. Qed.
Lemma follows_bitstore m o : follows (o_bitstore m o) (r_bitstore m o). Proof. unfold o_bitstore, r_bitstore. along. Qed.
#[local] Hint Resolve follows_data follows_bitstore : along.
Lemma follows_pin o : follows (o_pin o) (r_pin o). Proof. unfold o_pin, r_pin. along. Qed.
Lemma follows_lastburst c o : follows (o_lastburst c o) (r_lastburst c o). Proof. unfold o_lastburst, r_lastburst. along. Qed.
#[local] Hint Resolve follows_pin follows_lastburst : along.
Lemma follows_dbi o : follows (o_dbi o) (r_dbi o). Proof. unfold o_dbi, r_dbi. cbv zeta. along. Qed.
Lemma follows_rank_if o : follows (o_rank_if o) (r_rank_if o). Proof. unfold o_rank_if, r_rank_if. along. Qed.
Lemma follows_settings : follows o_settings r_settings. Proof. unfold o_settings, r_settings, r_entry. along. Qed.
#[local] Hint Resolve follows_dbi follows_rank_if follows_settings : along.
Lemma follows_patterns o : follows (o_patterns o) (r_patterns o). Proof. destruct o; unfold o_patterns, r_patterns; along. Qed.
Lemma follows_dbi_part o : follows (o_dbi_part o) (r_dbi_part o).
Proof. unfold o_dbi_part, r_dbi_part. destruct (fi_std (if_spec o)), (if_dbi o); along. Qed.
#[local] Hint Resolve follows_patterns follows_dbi_part : along.
Lemma follows_iface o : follows (o_iface o) (r_iface o). Proof. unfold o_iface, r_iface. cbv zeta. along. Qed.
Lemma whole o s x rest : r_iface o s = Got x rest -> l_run (o_iface o) s = Kept x rest.
Proof. apply follows_iface. Qed.

(* ---- the parts of an interface ---- *)
Definition part_prog (o : part) : lprog part :=
  match o with
  | P_time t => x <-- o_u64 t ;; LRet (P_time x)
  | P_pat h => x <-- o_patterns h ;; LRet (P_pat x)
  | P_bus b => x <-- o_bus b ;; LRet (P_bus x)
  | P_tog h => x <-- o_toggling h ;; LRet (P_tog x)
  | P_mode m => x <-- o_read T_mode m ;; LRet (P_mode x)
  | P_clock k => x <-- o_clock k ;; LRet (P_clock x)
  end.
Lemma part_empty o : l_run (part_prog o) [] = Kept (stale o) [].
Proof.
  destruct o as [t|h|b|h|m|k]; cbn; try reflexivity.
  - destruct h as [h|h]; cbn; [reflexivity|]. destruct h as [[a g e] m l]. reflexivity.
  - rewrite Nnat.Nat2N.id. destruct b as [mx [a b1 c d e] [bs w n ld] ll en da wd dr [pt [pa pb pc pd pe] ps] l is ip]. reflexivity.
  - now destruct h.
  - destruct k as [s [a b c d e] r]. reflexivity.
Qed.
Lemma each_empty os : l_run (o_each part_prog os) [] = Kept (map stale os) [].
Proof. induction os as [|o os IH]; [reflexivity|]. cbn [o_each map]. rewrite l_run_bind, part_empty, l_run_bind, IH. reflexivity. Qed.

Definition takes (order : overrides) (o n : part) : Prop :=
  exists y, same_part n y /\ (forall rest, l_run (part_prog o) (part_items order n ++ rest) = Kept y rest) /\
    (forall e f, part_items order n = e ++ f -> f <> [] -> (exists a, l_run (part_prog o) e = Kept a []) \/ l_run (part_prog o) e = Unset).
Lemma follows_takes {A} (p : lprog A) r (w : A -> part) l x order o n :
  part_prog o = l_bind p (fun x => LRet (w x)) -> follows p r -> part_items order n = l -> reads r l x -> same_part n (w x) -> takes order o n.
Proof.
  intros P [F1 F2] W R S. exists (w x). split; [exact S|]. rewrite P, W. split.
  - intros rest. rewrite l_run_bind, (F1 _ _ _ (R rest)). reflexivity.
  - intros e f E N. rewrite l_run_bind. specialize (R []). rewrite app_nil_r, E in R.
    destruct (F2 _ _ _ _ R) as [(w' & _ & _ & B)|[(a & L)|L]]; [|rewrite L; cbn; eauto..].
    symmetry in B. apply app_eq_nil in B as [_ B]. contradiction.
Qed.
Lemma split_at {A} (a b u v : list A) : a ++ b = u ++ v -> (exists u', u = a ++ u' /\ b = u' ++ v) \/ (exists f, f <> [] /\ a = u ++ f /\ v = f ++ b).
Proof.
  revert u. induction a as [|x a IH]; intros u E; [left; exists u; auto|].
  destruct u as [|y u]; [right; exists (x :: a); split; [discriminate|]; auto|]. cbn in E. injection E as <- E.
  destruct (IH _ E) as [(u' & -> & ->)|(f & N & -> & ->)]; [left; exists u'; auto|right; exists f; auto].
Qed.
Lemma each_cut order os ns : Forall2 (takes order) os ns -> forall u v, flat_map (part_items order) ns = u ++ v ->
  exists k e, at_break order ns k e /\ u = flat_map (part_items order) (firstn k ns) ++ e /\
  ((exists o, nth_error os k = Some o /\ l_run (part_prog o) e = Unset /\ l_run (o_each part_prog os) u = Unset) \/
   exists zs, l_run (o_each part_prog os) u = Kept zs [] /\ (forall o, nth_error os k = Some o -> l_run (part_prog o) e <> Unset) /\
     Forall2 same_part (firstn k ns) (firstn k zs) /\ skipn (done_from k e) zs = map stale (skipn (done_from k e) os)).
Proof.
  induction 1 as [|o n os ns (y & S & W & C) _ IH]; intros u v E.
  - symmetry in E. apply app_eq_nil in E as [-> ->]. exists 0%nat, []. split; [split; reflexivity|]. split; [reflexivity|]. right. exists [].
    split; [reflexivity|]. split; [discriminate|]. split; [constructor|reflexivity].
  - cbn [flat_map] in E. apply split_at in E as [(u' & -> & E)|(f & N & A & ->)].
    + destruct (IH _ _ E) as (k & e & B & -> & K). exists (Datatypes.S k), e. split; [|split].
      * unfold at_break in *. cbn [nth_error length]. destruct (nth_error ns k); [exact B|]. destruct B as [-> ->]. auto.
      * cbn [firstn flat_map]. now rewrite app_assoc.
      * cbn [o_each nth_error firstn]. rewrite l_run_bind, W, l_run_bind. destruct K as [(o' & O & U & L)|(zs & L & O & F & T)].
        -- left. exists o'. rewrite L. auto.
        -- right. exists (y :: zs). rewrite L. split; [reflexivity|]. split; [exact O|]. split; [constructor; assumption|]. destruct e; exact T.
    + exists 0%nat, u. split; [exists f; split; assumption|]. split; [reflexivity|]. cbn [o_each nth_error firstn]. rewrite l_run_bind.
      destruct (C _ _ A N) as [(a & L)|L].
      * right. destruct u as [|i u].
        -- rewrite part_empty, l_run_bind, each_empty. eexists. split; [reflexivity|]. split; [|split; [constructor|reflexivity]].
           intros o' [= <-]. rewrite part_empty. discriminate.
        -- rewrite L, l_run_bind, each_empty. eexists. split; [reflexivity|]. split; [|split; [constructor|reflexivity]].
           intros o' [= <-]. rewrite L. discriminate.
      * left. exists o. rewrite L. auto.
Qed.

Lemma iface_parts o s : fi_std (if_spec o) <> DDR4 ->
  match l_run (o_each part_prog (parts o)) s with
  | Kept zs r => exists z, l_run (o_iface o) s = Kept z r /\ parts z = zs /\ not_written z = not_written o
  | Unset => l_run (o_iface o) s = Unset
  | Other => l_run (o_iface o) s = Other
  end.
Proof.
  intros D. unfold o_iface, o_data, o_dbi_part, parts. cbn [o_each part_prog].
  change (if word_clocked (fi_std (if_spec o)) then if_wck o else if_wdqs o) with (second_clock o).
  do 11 (rewrite !l_run_bind; match goal with |- context [match match l_run ?p ?t with _ => _ end with _ => _ end] => destruct (l_run p t) as [? ?| |] end; [|reflexivity..]; cbn [l_run]).
  destruct (fi_std (if_spec o)) eqn:E; [contradiction|..]; cbn; eexists; (split; [reflexivity|]); unfold parts, not_written; cbn; rewrite E; split; reflexivity.
Qed.
Lemma new_pattern_parts order n : w_dbi_part n = [] -> w_iface order n = flat_map (part_items order) (parts n).
Proof.
  intros D. unfold w_iface, parts, w_data. rewrite D. cbn [flat_map part_items]. unfold second_clock. rewrite <- !app_assoc, !app_nil_r. reflexivity.
Qed.
Lemma takes_clock order o n : ck_rate o = ck_rate n -> takes order (P_clock o) (P_clock n).
Proof.
  intros E. eapply (follows_takes _ _ P_clock); [reflexivity|apply follows_clock|reflexivity|apply reads_clock|]. rewrite E. now destruct n.
Qed.
Lemma takes_bus order b0 o n : bus_like b0 o -> bus_like b0 n -> takes order (P_bus o) (P_bus n).
Proof.
  intros [A _] [B F]. eapply (follows_takes _ _ P_bus); [reflexivity|apply follows_bus|reflexivity|apply reads_bus; [congruence|exact F]|]. reflexivity.
Qed.
Lemma takes_parts i0 o n order : same_build i0 o -> same_build i0 n -> traversal order (settings_of (if_pat n)) -> Forall2 (takes order) (parts o) (parts n).
Proof.
  intros O N T. unfold parts. rewrite (sb_spec _ _ O), (sb_spec _ _ N). repeat constructor.
  - eapply (follows_takes _ _ P_time); [reflexivity|apply (follows_one T_u64)|reflexivity| |reflexivity]. item.
  - pose proof (sb_pat _ _ O) as VO. pose proof (sb_pat _ _ N) as VN. destruct (if_pat o) as [a0|a0], (if_pat n) as [a|a]; try (destruct VO, VN; contradiction).
    + destruct (reads_settings _ _ T) as (x & R & E).
      eapply (follows_takes _ _ P_pat _ (Pat (mkHandler x (ph_map a0) (ph_last a0)))); [reflexivity|apply follows_patterns|reflexivity| |].
      * cbn [r_patterns w_patterns part_items]. eapply reads_bind_last; [exact R|]. apply reads_ret.
      * cbn. intros d. symmetry. apply E.
    + eapply (follows_takes _ _ P_pat _ (Pat6 (mkHandler6 (mkExtra (ex_burst (p6_extra a)) (ex_groups (p6_extra a0)) (ex_parity (p6_extra a))) (p6_map a0) (p6_last a0))));
        [reflexivity|apply follows_patterns|reflexivity| |cbn; auto].
      cbn [r_patterns w_patterns part_items]. cbn [app]. do 2 (eapply reads_bind_one; [item|]). eapply reads_bind_last; [apply reads_size|]. apply reads_ret.
  - exact (takes_bus _ _ _ _ (sb_cmd _ _ O) (sb_cmd _ _ N)).
  - exact (takes_bus _ _ _ _ (proj1 (sb_data _ _ O)) (proj1 (sb_data _ _ N))).
  - exact (takes_bus _ _ _ _ (proj2 (sb_data _ _ O)) (proj2 (sb_data _ _ N))).
  - eapply (follows_takes _ _ P_tog); [reflexivity|apply follows_toggling|reflexivity|apply reads_toggling|reflexivity].
  - eapply (follows_takes _ _ P_tog); [reflexivity|apply follows_toggling|reflexivity|apply reads_toggling|reflexivity].
  - eapply (follows_takes _ _ P_mode); [reflexivity|apply (follows_one T_mode)|reflexivity| |reflexivity]. item.
  - apply takes_clock. destruct O, N. congruence.
  - apply takes_clock. destruct O, N. destruct (word_clocked _); congruence.
  - apply takes_clock. destruct O, N. congruence.
Qed.

(* ---- the settings ---- *)
Lemma entries_unset order : forall e f, flat_map (fun x : desc * bit_spec => [I_desc (fst x); I_spec (snd x)]) order = e ++ f -> f <> [] ->
  l_run (o_times (d <-- o_fresh T_desc ;; s <-- o_fresh T_spec ;; LRet (d, s)) (length order)) e = Unset.
Proof.
  induction order as [|[d b] order IH]; intros e f E N; cbn [flat_map fst snd app] in E.
  - symmetry in E. apply app_eq_nil in E as [_ E]. contradiction.
  - destruct e as [|x e]; [reflexivity|]. cbn [app] in E. injection E as <- E. destruct e as [|y e]; [reflexivity|]. cbn [app] in E. injection E as <- E.
    cbn [length o_times]. set (r := d <-- o_fresh T_desc ;; s <-- o_fresh T_spec ;; LRet (d, s)) in *.
    assert (l_run r (I_desc d :: I_spec b :: e) = Kept (d, b) e) as R by reflexivity.
    rewrite l_run_bind, R, l_run_bind. now rewrite (IH _ _ E N).
Qed.
Lemma settings_unset order x e f : w_settings order = x :: e ++ f -> f <> [] -> l_run o_settings (x :: e) = Unset.
Proof.
  unfold w_settings, w_size. cbn [app]. intros E N. injection E as <- E. unfold o_settings. rewrite l_run_bind.
  assert (l_run (o_size 0) (I_u64 (N.of_nat (length order)) :: e) = Kept (length order) e) as R by (cbn; now rewrite Nnat.Nat2N.id).
  rewrite R, l_run_bind. now rewrite (entries_unset _ _ _ E N).
Qed.
Lemma part_init o : (forall h, o <> P_pat (Pat h)) -> initialised (part_prog o).
Proof.
  intros H. destruct o as [t|[h|h]|b|h|m|k]; cbn [part_prog].
  2: { now destruct (H h). }
  all: apply init_bind; [|intro; exact I].
  all: unfold o_patterns, o_bus, o_toggling, o_clock, o_stats, o_container, o_pending, o_burst, o_size, o_u64, o_bool.
  all: init.
  - match goal with |- initialised (if ?b then _ else _) => destruct b end; init.
Qed.
Lemma items_settings order : length (w_settings order) = (1 + 2 * length order)%nat.
Proof.
  unfold w_settings, w_size. cbn [app length]. f_equal. induction order as [|[d b] order IH]; [reflexivity|]. cbn [flat_map app length fst snd]. rewrite IH. lia.
Qed.

Lemma cut p sim i0 ys o xs n order u v :
  fi_std p <> DDR4 -> iface_new p sim = Value i0 -> calls_run ys i0 = Value o -> calls_run xs i0 = Value n -> traversal order (settings_of (if_pat n)) ->
  w_iface order n = u ++ v ->
  if among_settings order n u then l_run (o_iface o) u = Unset
  else exists z k e, l_run (o_iface o) u = Kept z [] /\ at_break order (parts n) k e /\ u = flat_map (part_items order) (firstn k (parts n)) ++ e /\
    Forall2 same_part (firstn k (parts n)) (firstn k (parts z)) /\ skipn (done_from k e) (parts z) = map stale (skipn (done_from k e) (parts o)) /\
    not_written z = not_written o.
Proof.
  intros D NW RO RN T W. destruct (new_build _ _ _ NW) as (_ & SP & _).
  pose proof (run_build _ _ _ _ _ NW RO) as O. pose proof (run_build _ _ _ _ _ NW RN) as N.
  assert (w_dbi_part n = []) as WD. { unfold w_dbi_part. rewrite (sb_spec _ _ N), SP. now destruct (fi_std p). }
  rewrite (new_pattern_parts _ _ WD) in W.
  assert (fi_std (if_spec o) <> DDR4) as DO by (rewrite (sb_spec _ _ O), SP; exact D).
  pose proof (iface_parts o u DO) as IP. pose proof (takes_parts _ _ _ _ O N T) as TP.
  destruct (each_cut _ _ _ TP _ _ W) as (k & e & B & U & K).
  assert ((forall h, if_pat n = Pat h -> exists h', if_pat o = Pat h') /\ (forall h, if_pat o = Pat h -> exists h', if_pat n = Pat h')) as [KN KO].
  { pose proof (sb_pat _ _ O) as VO. pose proof (sb_pat _ _ N) as VN. split; intros h E; rewrite E in *; [destruct (if_pat o)|destruct (if_pat n)]; try (destruct VO, VN; contradiction); eauto. }
  destruct K as [(x & X & L & R)|(zs & R & L & F & S)]; rewrite R in IP.
  - assert (exists h, x = P_pat (Pat h)) as [h ->].
    { destruct x as [t|[h|h]|b|h|m|c]; [|now exists h|..]; exfalso; (eapply init_runs; [|exact L]); apply part_init; discriminate. }
    assert (k = 1%nat /\ if_pat o = Pat h) as [-> E].
    { unfold parts in X. do 11 (destruct k as [|k]; [cbn in X; try discriminate X; try (injection X as X; auto)|]). destruct k; discriminate X. }
    destruct (KO _ E) as [h' E']. unfold at_break, parts in B. cbn [nth_error] in B. rewrite E' in B. destruct B as (f & Nf & Bf). cbn [part_items w_patterns] in Bf.
    assert (among_settings order n u = true) as ->; [|exact IP].
    unfold among_settings. rewrite E'. rewrite U. cbn [firstn parts flat_map part_items app length]. rewrite andb_true_iff, Nat.leb_le, Nat.ltb_lt.
    assert (length e + length f = 1 + 2 * length order)%nat as Ln by (rewrite <- app_length, <- Bf; apply items_settings).
    assert (e <> []) as Ne. { intros ->. rewrite part_empty in L. discriminate. }
    destruct e; [contradiction|]. destruct f; [contradiction|]. cbn [length] in *. lia.
  - destruct IP as (z & Z & <- & NZ). assert (among_settings order n u = false) as ->; [|exists z, k, e; auto 10].
    unfold among_settings. destruct (if_pat n) as [h|h] eqn:E; [|reflexivity]. destruct (KN _ eq_refl) as [h' E'].
    rewrite andb_false_iff, Nat.leb_gt, Nat.ltb_ge. rewrite U.
    destruct k as [|[|k]].
    + left. unfold at_break, parts in B. cbn [nth_error] in B. destruct B as (f & Nf & Bf). cbn [part_items] in Bf. cbn [firstn flat_map app].
      apply (f_equal (@length _)) in Bf. rewrite app_length in Bf. destruct f; [contradiction|]. cbn [length] in *. lia.
    + left. unfold at_break, parts in B. cbn [nth_error] in B. rewrite E in B. destruct B as (f & Nf & Bf). cbn [part_items w_patterns] in Bf.
      destruct e as [|y e]; [cbn; lia|]. exfalso. apply (L (P_pat (if_pat o)) eq_refl). rewrite E'. cbn [part_prog o_patterns]. rewrite !l_run_bind.
      now rewrite (settings_unset _ _ _ _ Bf Nf).
    + right. rewrite app_length. unfold parts. cbn [firstn flat_map part_items]. rewrite E. cbn [w_patterns]. rewrite !app_length, items_settings. cbn [length]. lia.
Qed.

(* ---- nothing at all ---- *)
Lemma nothing o : fi_std (if_spec o) <> DDR4 -> exists z, l_run (o_iface o) [] = Kept z [] /\ parts z = map stale (parts o) /\ not_written z = not_written o.
Proof. intros D. pose proof (iface_parts o [] D) as H. rewrite each_empty in H. exact H. Qed.

(* ---- DDR4 ---- *)
Definition eats {A} (m : nat) (p : lprog A) : Prop := forall s a r, l_run p s = Kept a r -> r <> [] -> (m + length r <= length s)%nat.
Definition needs {A} (m : nat) (p : lprog A) : Prop := forall s a r, l_run p s = Kept a r -> (m <= length s)%nat.
Lemma empty_stays {A} (p : lprog A) a r : l_run p [] = Kept a r -> r = [].
Proof. intros H. destruct (on_empty p) as [(b & E)|E]; rewrite E in H; congruence. Qed.
Lemma eats_bind {A B} m n k (p : lprog A) (f : A -> lprog B) : eats m p -> (forall a, eats n (f a)) -> k = (m + n)%nat -> eats k (l_bind p f).
Proof.
  intros P F -> s b r H N. rewrite l_run_bind in H. destruct (l_run p s) as [a w| |] eqn:E; [|discriminate..].
  assert (w <> []) as W. { intros ->. apply N. eapply empty_stays. exact H. }
  specialize (P _ _ _ E W). specialize (F _ _ _ _ H N). lia.
Qed.
Lemma needs_bind {A B} m n k (p : lprog A) (f : A -> lprog B) : eats m p -> (forall a, needs (S n) (f a)) -> k = (m + S n)%nat -> needs k (l_bind p f).
Proof.
  intros P F -> s b r H. rewrite l_run_bind in H. destruct (l_run p s) as [a w| |] eqn:E; [|discriminate..].
  specialize (F _ _ _ _ H). assert (w <> []) as W by (destruct w; [cbn in F; lia|discriminate]). specialize (P _ _ _ E W). lia.
Qed.
Lemma needs_first {A B} m (p : lprog A) (f : A -> lprog B) : needs m p -> needs m (l_bind p f).
Proof. intros P s b r H. rewrite l_run_bind in H. destruct (l_run p s) as [a w| |] eqn:E; [|discriminate..]. exact (P _ _ _ E). Qed.
Lemma eats_ret {A} (a : A) : eats 0 (LRet a).
Proof. intros s b r [= _ <-] _. lia. Qed.
Lemma eats_one t o : eats 1 (LRead t o LRet).
Proof.
  intros s a r H N. cbn [l_run] in H. destruct s as [|i s]; [destruct o; [|discriminate]; now injection H as _ <-|].
  assert (forall v w, one t (i :: s) = Got v w -> w = s) as K.
  { intros v w G. destruct t, i; cbn in G; try discriminate; try (injection G as _ <-; reflexivity);
    repeat match goal with H : context [if ?b then _ else _] |- _ => destruct b eqn:? end; try discriminate; injection G as _ <-; reflexivity. }
  destruct (one t (i :: s)) as [v w| |] eqn:G; [|discriminate..]. rewrite (K _ _ eq_refl) in H. injection H as _ <-. cbn. lia.
Qed.
Lemma needs_fresh {A} t (k : val t -> lprog A) : needs 1 (LRead t None k).
Proof. intros s a r H. destruct s; [discriminate|]. cbn. lia. Qed.
Lemma eats_none {A} (p : lprog A) : eats 0 p.
Proof.
  intros s a r H _. revert s H. induction p as [b|t o f IH]; intros s H; [injection H as _ <-; lia|]. cbn [l_run] in H.
  destruct s as [|i s]; [destruct o; [eapply IH, H|discriminate]|].
  destruct (one t (i :: s)) as [v w| |] eqn:G; [|discriminate..]. apply IH in H.
  assert (w = s) as ->; [|cbn; lia].
  destruct t, i; cbn in G; try discriminate; try (injection G as _ <-; reflexivity);
    repeat match goal with H : context [if ?b then _ else _] |- _ => destruct b eqn:? end; try discriminate; injection G as _ <-; reflexivity.
Qed.
Ltac eat_one := first [ apply (eats_one T_u64) | apply (eats_one T_bool) | apply (eats_one T_double) | apply (eats_one T_idle) | apply (eats_one T_mode) | apply (eats_one (T_raw _)) ].
Lemma eats_size o : eats 1 (o_size o). Proof. unfold o_size. eapply eats_bind; [eat_one|intro; apply eats_ret|reflexivity]. Qed.
Lemma eats_new_size : eats 1 o_new_size. Proof. unfold o_new_size. eapply eats_bind; [eat_one|intro; apply eats_ret|reflexivity]. Qed.
Lemma eats_stats o : eats 5 (o_stats o).
Proof. unfold o_stats. do 5 (eapply eats_bind; [eat_one|intro|reflexivity]). apply eats_ret.  Qed.
Lemma eats_pending o : eats 7 (o_pending o).
Proof. unfold o_pending. eapply eats_bind; [eat_one|intro|reflexivity]. eapply eats_bind; [apply eats_stats|intro|reflexivity]. eapply eats_bind; [eat_one|intro|reflexivity]. apply eats_ret.  Qed.
Lemma eats_clock o : eats 6 (o_clock o).
Proof.
  unfold o_clock. eapply (eats_bind 1 5); [|intro; eapply eats_bind; [apply eats_stats|intro; apply eats_ret|reflexivity]|reflexivity].
  eapply (eats_bind 1 0); [eat_one|intro; apply eats_none|reflexivity].
Qed.
Lemma eats_container m o : eats 3 (o_container m o).
Proof.
  unfold o_container. eapply (eats_bind 1 2); [apply eats_size|intro|reflexivity]. eapply (eats_bind 1 1); [eat_one|intro|reflexivity].
  eapply (eats_bind 1 0); [apply eats_size|intro; apply eats_none|reflexivity].
Qed.
Lemma eats_bus o : eats 19 (o_bus o).
Proof.
  unfold o_bus. eapply eats_bind; [apply eats_stats|intro|reflexivity]. eapply eats_bind; [apply eats_container|intro|reflexivity]. do 4 (eapply eats_bind; [eat_one|intro|reflexivity]).
  eapply eats_bind; [apply eats_pending|intro; apply eats_ret|reflexivity]. 
Qed.
Lemma eats_toggling o : eats 12 (o_toggling o).
Proof. unfold o_toggling. do 12 (eapply eats_bind; [eat_one|intro|reflexivity]). apply eats_ret.  Qed.
Lemma eats_data o : eats 63 (o_data o).
Proof.
  unfold o_data. do 2 (eapply eats_bind; [apply eats_bus|intro|reflexivity]). do 2 (eapply eats_bind; [apply eats_toggling|intro|reflexivity]). eapply eats_bind; [eat_one|intro; apply eats_ret|reflexivity]. 
Qed.
Lemma eats_patterns o : eats 1 (o_patterns o).
Proof.
  unfold o_patterns. destruct o.
  - eapply (eats_bind 1 0); [|intro; apply eats_none|reflexivity]. unfold o_settings. eapply (eats_bind 1 0); [apply eats_size|intro; apply eats_none|reflexivity].
  - eapply (eats_bind 1 0); [eat_one|intro; apply eats_none|reflexivity].
Qed.
Lemma eats_lastburst c o : eats 7 (o_lastburst c o).
Proof.
  unfold o_lastburst. do 2 (eapply eats_bind; [eat_one|intro|reflexivity]). eapply eats_bind; [apply eats_size|intro|reflexivity]. do 2 (eapply eats_bind; [eat_one|intro|reflexivity]).
  eapply eats_bind; [apply eats_new_size|intro|reflexivity]. eapply (eats_bind 0 1); [apply eats_none|intro|reflexivity].
  eapply (eats_bind 1 0); [apply eats_new_size|intro; apply eats_none|reflexivity]. 
Qed.
Lemma needs_dbi o : needs 17 (o_dbi o).
Proof.
  unfold o_dbi. cbv zeta. do 2 (eapply needs_bind; [eat_one|intro|reflexivity]). do 2 (eapply needs_bind; [apply eats_lastburst|intro|reflexivity]).
  apply needs_first. unfold o_new_size. apply needs_first. apply needs_fresh. 
Qed.
Lemma needs_ddr4 o x s z r : fi_std (if_spec o) = DDR4 -> if_dbi o = Some x -> l_run (o_iface o) s = Kept z r -> (119 <= length s)%nat.
Proof.
  intros D X. revert s z r. change (needs 119 (o_iface o)). unfold o_iface.
  eapply needs_bind; [eat_one|intro|reflexivity]. eapply needs_bind; [apply eats_patterns|intro|reflexivity]. eapply needs_bind; [apply eats_bus|intro|reflexivity].
  eapply needs_bind; [apply eats_data|intro|reflexivity]. do 3 (eapply needs_bind; [apply eats_clock|intro|reflexivity]). apply needs_first.
  unfold o_dbi_part. rewrite D, X. apply needs_first. apply needs_dbi. 
Qed.

Lemma ddr4_cut p sim i0 ys o u v n rest :
  fi_std p = DDR4 -> iface_new p sim = Value i0 -> calls_run ys i0 = Value o -> (length u < 119)%nat ->
  r_iface o (u ++ v) = Got n rest -> l_run (o_iface o) u = Unset.
Proof.
  intros D NW RO L R. destruct (new_build _ _ _ NW) as (_ & SP & _). pose proof (run_build _ _ _ _ _ NW RO) as O.
  assert (fi_std (if_spec o) = DDR4) as DO by (rewrite (sb_spec _ _ O), SP; exact D).
  assert (exists x, if_dbi o = Some x) as [x X].
  { pose proof (sb_dbi _ _ O) as B. destruct (if_dbi i0) as [y|] eqn:Y; [|now destruct (new_ddr4 _ _ _ NW (eq_trans (f_equal fi_std SP) D))].
    destruct (if_dbi o) as [x|]; [eauto|contradiction]. }
  destruct (proj2 (follows_iface o) _ _ _ _ R) as [(w & K & _)|[(a & K)|K]]; [exfalso..|exact K]; apply (needs_ddr4 _ _ _ _ _ DO X) in K; lia.
Qed.
Lemma ddr4_nothing p sim i0 ys o : fi_std p = DDR4 -> iface_new p sim = Value i0 -> calls_run ys i0 = Value o -> l_run (o_iface o) [] = Unset.
Proof.
  intros D NW RO. destruct (new_build _ _ _ NW) as (_ & SP & _). pose proof (run_build _ _ _ _ _ NW RO) as O.
  assert (fi_std (if_spec o) = DDR4) as DO by (rewrite (sb_spec _ _ O), SP; exact D).
  assert (exists x, if_dbi o = Some x) as [x X].
  { pose proof (sb_dbi _ _ O) as B. destruct (if_dbi i0) as [y|] eqn:Y; [|now destruct (new_ddr4 _ _ _ NW (eq_trans (f_equal fi_std SP) D))].
    destruct (if_dbi o) as [x|]; [eauto|contradiction]. }
  destruct (on_empty (o_iface o)) as [(a & K)|K]; [|exact K]. apply (needs_ddr4 _ _ _ _ _ DO X) in K. cbn in K. lia.
Qed.

(* ---- what reading nothing does ---- *)
From Verif Require Import InterfaceExamples SerialExamples.
Definition broken (s : standard) : option (iface * iface * iface) :=
  match iface_new (spec_of_std s) None with
  | Value i0 => match calls_run (first_part s) i0 with
                | Value o => match l_run (o_iface o) [] with Kept z [] => Some (i0, o, z) | _ => None end
                | _ => None
                end
  | _ => None
  end.
Lemma broken_spec s : match broken s with
  | Some (i0, o, z) => iface_new (spec_of_std s) None = Value i0 /\ calls_run (first_part s) i0 = Value o /\ l_run (o_iface o) [] = Kept z []
  | None => True
  end.
Proof.
  unfold broken. destruct (iface_new (spec_of_std s) None) as [i0|] eqn:A; [|exact I]. destruct (calls_run (first_part s) i0) as [o|] eqn:B; [|exact I].
  destruct (l_run (o_iface o) []) as [z [|]| |] eqn:C; auto.
Qed.
Definition breaks (s : standard) : bool :=
  match broken s with
  | Some (_, o, z) => match watch [Call (a_read s 100)] o with [Done _] => match watch [Call (a_read s 100)] z with [Stopped UB] => true | _ => false end | _ => false end
  | None => false
  end.
Lemma nothing_breaks s : s <> DDR4 -> exists i0 o z,
  iface_new (spec_of_std s) None = Value i0 /\ calls_run (first_part s) i0 = Value o /\ l_run (o_iface o) [] = Kept z [] /\
  (exists l, watch [Call (a_read s 100%N)] o = [Done l]) /\ watch [Call (a_read s 100%N)] z = [Stopped UB].
Proof.
  intros D. assert (breaks s = true) as B by (destruct s; [exfalso; exact (D eq_refl)|vm_compute; reflexivity..]). clear D. pose proof (broken_spec s) as H.
  unfold breaks in B. destruct (broken s) as [[[i0 o] z]|]; [|discriminate]. exists i0, o, z. destruct H as (H1 & H2 & H3).
  destruct (watch [Call (a_read s 100)] o) as [|[l| |] [|]]; try discriminate. destruct (watch [Call (a_read s 100)] z) as [|[l'| |[]] [|]]; try discriminate. eauto 10.
Qed.
