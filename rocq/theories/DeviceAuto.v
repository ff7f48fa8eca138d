(* Auto-precharge against an explicit precharge. *)
From Coq Require Import ZArith NArith List Bool Lia ZifyBool ZifyNat ZifyN.
From Verif Require Import Base Command CoreModel ListFacts QueueProofs CoreBasics HistorySpec CoreHistory DeviceSpec RefineBase RefineSteps RefineRun RefineCmd RefineMain DeviceFacts DeviceSleep.
Import ListNotations.
Local Open Scope N_scope.

Section Auto.
Context (p : memspec) (b : nat) (c : N).

(* The bank of the auto-precharge history, from that of the explicit one. *)
Definition shut (now : N) (sb : sbank) : sbank :=
  settle_bank now (mkSb (Closing c) (sb_since sb) (sb_pre sb) (sb_off sb)).

Definition twin (now : N) (d1 d2 : device) : Prop :=
  dv_mode d1 = Up /\ dv_pend d1 = None /\ dv_mode d2 = Up /\ dv_pend d2 = None /\
  dv_banks d1 = upd b (shut now) (dv_banks d2) /\
  exists sb, nth_error (dv_banks d2) b = Some sb /\ sb_state sb = Open.

Lemma settle_plain n d : dv_pend d = None -> settle n d = mkDev (map (settle_bank n) (dv_banks d)) (dv_mode d) None.
Proof. intros H. unfold settle. rewrite H. reflexivity. Qed.

Lemma twin_settle now n d1 d2 : twin now d1 d2 -> now <= n -> twin n (settle n d1) (settle n d2).
Proof.
  intros [M1 [P1 [M2 [P2 [B [sb [Hs Ho]]]]]]] Hn. rewrite !settle_plain by auto.
  split; [|split; [|split; [|split; [|split]]]]; cbn; auto.
  - rewrite B. apply nth_error_ext. intros i. rewrite nth_error_map, !nth_error_upd, nth_error_map.
    destruct (Nat.eqb_spec b i) as [<-|Hi]; [|reflexivity]. rewrite Hs. cbn [option_map]. f_equal.
    unfold shut. rewrite settle_bank_idem by auto. f_equal. unfold settle_bank. rewrite Ho. reflexivity.
  - exists (settle_bank n sb). rewrite nth_error_map, Hs. split; auto. unfold settle_bank. rewrite Ho. exact Ho.
Qed.

Lemma addressed_nth x Q bs : addressed p x Q bs = true <->
  (forall i sb, nth_error bs i = Some sb -> footprint p x i = true -> Q sb = true).
Proof.
  unfold addressed. rewrite forallb_nth. split.
  - intros H i sb Hi Hf. specialize (H i (if footprint p x i then Q sb else true)).
    rewrite nth_error_mapi, Hi in H. cbn in H. specialize (H eq_refl). rewrite Hf in H. exact H.
  - intros H i y Hy. rewrite nth_error_mapi in Hy. cbn in Hy.
    destruct (nth_error bs i) as [sb|] eqn:E; [|discriminate]. cbn in Hy. injection Hy as <-.
    destruct (footprint p x i) eqn:F; auto. eapply H; eauto.
Qed.

Lemma addressed_twin x Q now bs1 bs2 : bs1 = upd b (shut now) bs2 -> footprint p x b = false ->
  addressed p x Q bs1 = addressed p x Q bs2.
Proof.
  intros -> F. apply eq_true_iff_eq. rewrite !addressed_nth. split; intros H i sb Hi Hf.
  - apply (H i sb); auto. rewrite nth_error_upd. destruct (Nat.eqb_spec b i) as [<-|]; [congruence|exact Hi].
  - rewrite nth_error_upd in Hi. destruct (Nat.eqb_spec b i) as [<-|]; [congruence|]. eapply H; eauto.
Qed.

Lemma touch_twin x g now bs1 bs2 : bs1 = upd b (shut now) bs2 -> footprint p x b = false ->
  touch p x g bs1 = upd b (shut now) (touch p x g bs2).
Proof.
  intros -> F. apply nth_error_ext. intros i. rewrite nth_error_touch, !nth_error_upd, nth_error_touch.
  destruct (Nat.eqb_spec b i) as [<-|]; [|reflexivity]. rewrite F.
  destruct (nth_error bs2 b); reflexivity.
Qed.

Lemma touch_twin_open x g bs2 sb : nth_error bs2 b = Some sb -> footprint p x b = false ->
  nth_error (touch p x g bs2) b = Some sb.
Proof. intros H F. rewrite nth_error_touch, H, F. reflexivity. Qed.

Lemma twin_command x now d1 d2 : twin now d1 d2 -> footprint p x b = false -> mode_command (cmd_type x) = false ->
  match command p x d1, command p x d2 with
  | Some d1', Some d2' => twin now d1' d2'
  | None, None => True
  | _, _ => False
  end.
Proof.
  intros [M1 [P1 [M2 [P2 [B [sb [Hs Ho]]]]]]] F MC. unfold command. rewrite P1, P2, M1, M2.
  destruct (in_standard p (cmd_type x) && well_addressed p x); [|exact I].
  assert (forall g, twin now (with_banks (touch p x g (dv_banks d1)) d1) (with_banks (touch p x g (dv_banks d2)) d2)) as TW.
  { intros g. split; [|split; [|split; [|split; [|split]]]]; cbn; auto.
    - apply touch_twin; auto.
    - exists sb. split; auto. eapply touch_twin_open; eauto. }
  assert (twin now d1 d2) as T0 by (split; [|split; [|split; [|split; [|split]]]]; eauto).
  unfold up_command. pose proof (fun Q => addressed_twin x Q now _ _ B F) as A.
  destruct (cmd_type x) eqn:K; try discriminate; auto; rewrite ?A; unfold guard, option_map;
    try match goal with |- context [addressed p x ?Q ?l] => destruct (addressed p x Q l) end; auto.
Qed.

Definition pre_twin (now : N) (d1 d2 : device) : Prop := forall n, now <= n -> twin n (settle n d1) (settle n d2).

Lemma twin_run l : forall now d1 d2, pre_twin now d1 d2 -> nondecreasing now (map cmd_ts l) ->
  (forall x, In x l -> footprint p x b = false /\ mode_command (cmd_type x) = false) ->
  match run_device p l d1, run_device p l d2 with
  | Some d1', Some d2' => pre_twin (final_time now (map cmd_ts l)) d1' d2'
  | None, None => True
  | _, _ => False
  end.
Proof.
  induction l as [|x l IH]; intros now d1 d2 T Hn Hf; cbn; [exact T|]. destruct Hn as [Hn1 Hn2].
  pose proof (T _ Hn1) as T1. destruct (Hf x (or_introl eq_refl)) as [F1 F2].
  pose proof (twin_command x _ _ _ T1 F1 F2) as T2.
  destruct (command p x (settle (cmd_ts x) d1)), (command p x (settle (cmd_ts x) d2)); auto; try contradiction.
  unfold final_time; cbn. apply IH; auto; [|intros; apply Hf; cbn; auto].
  intros n Hn. eapply twin_settle; eauto.
Qed.

(* Before c the two look the same. *)
Definition alike (P : device -> bool) : Prop :=
  forall d d', dv_mode d = dv_mode d' ->
    (forall i, option_map busy (nth_error (dv_banks d) i) = option_map busy (nth_error (dv_banks d') i)) -> P d = P d'.

Lemma twin_alike n d1 d2 P : alike P -> twin n d1 d2 -> n < c -> P d1 = P d2.
Proof.
  intros HP [M1 [P1 [M2 [P2 [B [sb [Hs Ho]]]]]]] Hn. apply HP; [congruence|].
  intros i. rewrite B, nth_error_upd. destruct (Nat.eqb_spec b i) as [<-|]; [|reflexivity]. rewrite Hs. cbn. f_equal.
  unfold shut, settle_bank, busy. cbn. destruct (N.leb_spec c n); [lia|]. cbn. rewrite Ho. reflexivity.
Qed.

(* At c the explicit precharge makes them equal. *)
Lemma twin_close x now d1 d2 : pre_twin now d1 d2 -> now <= c -> cmd_type x = PRE -> cmd_ts x = c -> addr x = b ->
  (b < ms_banks p)%nat ->
  command p x (settle c d2) = Some (settle c d1).
Proof.
  intros T Hn K Ht Ha Hb. destruct (T _ Hn) as [M1 [P1 [M2 [P2 [B [sb [Hs Ho]]]]]]].
  unfold command, up_command. rewrite K, P2, M2. unfold well_addressed. rewrite K, Ha, Ht.
  destruct (Nat.ltb_spec b (ms_banks p)); [|lia].
  assert (in_standard p PRE = true) as -> by (unfold in_standard; destruct (ms_std p); reflexivity). cbn [andb].
  assert (addressed p x is_stable (dv_banks (settle c d2)) = true) as ->.
  { apply addressed_nth. intros i y Hi F. unfold footprint in F. rewrite K in F. apply Nat.eqb_eq in F.
    rewrite Ha in F. subst i. rewrite Hs in Hi. injection Hi as <-. unfold is_stable, is_open. rewrite Ho. apply orb_true_r. }
  unfold guard. f_equal. unfold with_banks. rewrite M2, P2.
  destruct (settle c d1) as [bs1 m1 pe1]. cbn in M1, P1, B |- *. subst m1 pe1. f_equal. rewrite B.
  apply nth_error_ext. intros i. rewrite nth_error_touch, nth_error_upd. unfold footprint. rewrite K, Ha.
  destruct (Nat.eqb_spec b i) as [<-|].
  - rewrite Hs. cbn. f_equal. unfold shut, settle_bank, close_bank, is_open. cbn. rewrite Ho, N.leb_refl. reflexivity.
  - destruct (nth_error (dv_banks (settle c d2)) i); reflexivity.
Qed.
End Auto.

Lemma alike_bank b : alike (bank_acts b).
Proof.
  intros d d' M B. unfold bank_acts, mode_is. rewrite M. specialize (B b).
  destruct (nth_error (dv_banks d) b), (nth_error (dv_banks d') b); cbn in B; try discriminate; auto.
  injection B as ->. reflexivity.
Qed.
Lemma alike_bank_idle b : alike (bank_idles b).
Proof.
  intros d d' M B. unfold bank_idles, mode_is. rewrite M. specialize (B b).
  destruct (nth_error (dv_banks d) b), (nth_error (dv_banks d') b); cbn in B; try discriminate; auto.
  injection B as ->. reflexivity.
Qed.
Lemma same_busy d d' : (forall i, option_map busy (nth_error (dv_banks d) i) = option_map busy (nth_error (dv_banks d') i)) ->
  existsb busy (dv_banks d) = existsb busy (dv_banks d').
Proof.
  intros B. apply eq_true_iff_eq. rewrite !existsb_nth. split; intros [i [y [I1 I2]]]; specialize (B i); rewrite I1 in B; cbn in B.
  - destruct (nth_error (dv_banks d') i) as [y'|] eqn:E; [|discriminate]. exists i, y'. cbn in B. split; auto. congruence.
  - destruct (nth_error (dv_banks d) i) as [y'|] eqn:E; [|discriminate]. exists i, y'. cbn in B. split; auto. congruence.
Qed.
Lemma alike_rank : alike rank_acts.
Proof. intros d d' M B. unfold rank_acts, mode_is. rewrite M, (same_busy d d' B). reflexivity. Qed.
Lemma alike_rank_idle : alike rank_idles.
Proof. intros d d' M B. unfold rank_idles, mode_is. rewrite M, (same_busy d d' B). reflexivity. Qed.
Lemma alike_mode m : alike (mode_is m).
Proof. intros d d' M B. unfold mode_is. rewrite M. reflexivity. Qed.

(* The plain and the auto-precharge form of an access. *)
Definition auto_pair (p : memspec) (x y : Command) (off : N) : Prop :=
  cmd_ts x = cmd_ts y /\ cmd_rank x = cmd_rank y /\ cmd_bank x = cmd_bank y /\
  ((cmd_type x = RDA /\ cmd_type y = RD /\ off = ms_offRD p) \/
   (cmd_type x = WRA /\ cmd_type y = WR /\ off = ms_offWR p)).

(* Both forms start a twin state. *)
Lemma twin_start p x y off d d1 s sb :
  auto_pair p x y off -> command p x d = Some d1 -> nth_error (dv_banks d) (addr x) = Some sb -> sb_since sb = Some s ->
  exists d2, command p y d = Some d2 /\ pre_twin (addr x) (N.max (s + ms_tRAS p) (cmd_ts x + off)) (cmd_ts x) d1 d2.
Proof.
  intros [E1 [E2 [E3 K]]] HC Hsb Hs. set (c := N.max _ _).
  assert (addr y = addr x) as Ea by (unfold addr; congruence).
  assert (exists sh, dv_pend d = None /\ dv_mode d = Up /\ Nat.ltb (addr x) (ms_banks p) = true /\
     addressed p x is_open (dv_banks d) = true /\ d1 = with_banks (touch p x sh (dv_banks d)) d /\
     sh sb = mkSb (Closing c) (sb_since sb) (sb_pre sb) (sb_off sb)) as [sh [P [M [L [A [D1 Sh]]]]]].
  { unfold command, up_command, well_addressed in HC.
    destruct K as [[K1 [K2 Eo]]|[K1 [K2 Eo]]]; rewrite K1 in HC; (destruct (_ && _) eqn:Z in HC; [|discriminate]);
      apply andb_true_iff in Z as [_ Z]; (destruct (dv_pend d); [discriminate|]); (destruct (dv_mode d); try discriminate);
      apply guard_some in HC as [HA HC]; eexists; repeat (split; [eauto; fail|]);
      unfold autoclose_bank; rewrite Hs, <- Eo; reflexivity. }
  assert (forall i, footprint p x i = Nat.eqb (addr x) i) as Fx
    by (intros i; unfold footprint; destruct K as [[K1 _]|[K1 _]]; rewrite K1; reflexivity).
  assert (forall i, footprint p y i = Nat.eqb (addr x) i) as Fy
    by (intros i; unfold footprint; destruct K as [[_ [K1 _]]|[_ [K1 _]]]; rewrite K1, Ea; reflexivity).
  assert (sb_state sb = Open) as Ho.
  { rewrite addressed_nth in A. specialize (A _ _ Hsb). rewrite Fx, Nat.eqb_refl in A. specialize (A eq_refl).
    unfold is_open in A. destruct (sb_state sb); congruence. }
  exists d. split.
  - unfold command, up_command, well_addressed.
    assert (addressed p y is_open (dv_banks d) = true) as Ay.
    { rewrite addressed_nth in A |- *. intros i z Hi F. apply (A i z Hi). rewrite Fx. rewrite Fy in F. exact F. }
    destruct K as [[_ [K2 _]]|[_ [K2 _]]]; rewrite K2, P, M, Ea, L, Ay;
      unfold in_standard; destruct (ms_std p); reflexivity.
  - intros n Hn. rewrite D1, !settle_plain by exact P. cbn [with_banks dv_banks dv_mode].
    split; [|split; [|split; [|split; [|split]]]]; cbn; auto.
    + apply nth_error_ext. intros i. rewrite nth_error_map, nth_error_touch, nth_error_upd, nth_error_map, Fx.
      destruct (Nat.eqb_spec (addr x) i) as [<-|]; [|destruct (nth_error (dv_banks d) i); reflexivity].
      rewrite Hsb. cbn. f_equal. rewrite Sh. unfold shut. f_equal. unfold settle_bank. rewrite Ho. reflexivity.
    + exists (settle_bank n sb). rewrite nth_error_map, Hsb. split; auto. unfold settle_bank. rewrite Ho. exact Ho.
Qed.

(* The commands of the rank only. *)
Lemma auto_rank p la x y off mid post pre d s sb :
  let b := addr x in
  let c := N.max (s + ms_tRAS p) (cmd_ts x + off) in
  let l1 := la ++ x :: mid ++ post in
  let l2 := la ++ y :: mid ++ pre :: post in
  auto_pair p x y off -> cmd_type pre = PRE -> cmd_ts pre = c -> addr pre = b -> (b < ms_banks p)%nat ->
  nondecreasing 0 (map cmd_ts l2) ->
  (forall z, In z mid -> footprint p z b = false /\ mode_command (cmd_type z) = false) ->
  run_device p la (device_new p) = Some d -> nth_error (dv_banks (settle (cmd_ts x) d)) b = Some sb -> sb_since sb = Some s ->
  run_device p l1 (device_new p) <> None ->
  run_device p l2 (device_new p) <> None /\
  (forall n P, alike P -> holds P (dev p l1 n) = holds P (dev p l2 n)).
Proof.
  intros b c l1 l2 AP Kp Tp Ap Hb Hnd Hmid Ha Hsb Hs HL.
  pose proof AP as [Ets _].
  unfold l2 in Hnd. apply nondecreasing_cat in Hnd as [Hn1 Hn2]. cbn in Hn2. destruct Hn2 as [Hn2 Hn3].
  rewrite <- Ets in Hn2, Hn3. apply nondecreasing_cat in Hn3 as [Hn3 Hn4]. cbn in Hn4. rewrite Tp in Hn4. destruct Hn4 as [Hn4 Hn5].
  set (t := cmd_ts x) in *.
  destruct (nondecreasing_ge _ _ Hn3) as [Gm1 Gm2]. destruct (nondecreasing_ge _ _ Hn5) as [_ Gp].
  pose proof (nondecreasing_ge _ _ Hn1) as [_ Ga].
  unfold l1 in HL. rewrite run_device_cat, Ha in HL. cbn [run_device] in HL. fold t in HL.
  destruct (command p x (settle t d)) as [d1|] eqn:E1; [|congruence].
  destruct (twin_start p x y off _ d1 s sb AP E1 Hsb Hs) as [d2 [E2 TW]]. fold b t c in TW.
  rewrite run_device_cat in HL.
  pose proof (twin_run p b c mid t d1 d2 TW Hn3 Hmid) as TR.
  destruct (run_device p mid d1) as [m1|] eqn:Em1; [|congruence].
  destruct (run_device p mid d2) as [m2|] eqn:Em2; [|contradiction].
  pose proof (twin_close p b c pre _ m1 m2 TR Hn4 Kp Tp Ap Hb) as TC.
  assert (forall l z, (forall q, In q l -> c <= cmd_ts q) -> run_device p l (settle c z) = 
     match l with [] => Some (settle c z) | _ => run_device p l z end) as RS.
  { intros l z Hq. destruct l as [|q l]; auto. cbn. rewrite settle_settle by (apply Hq; cbn; auto). reflexivity. }
  assert (forall l, (forall q, In q l -> In q post) -> run_device p (la ++ y :: mid ++ pre :: l) (device_new p) = run_device p l (settle c m1)) as R2.
  { intros l _. rewrite run_device_cat, Ha. cbn [run_device]. rewrite <- Ets. fold t. rewrite E2, run_device_cat, Em2.
    cbn [run_device]. rewrite Tp, TC. reflexivity. }
  assert (forall l, run_device p (la ++ x :: mid ++ l) (device_new p) = run_device p l m1) as R1.
  { intros l. rewrite run_device_cat, Ha. cbn [run_device]. fold t. rewrite E1, run_device_cat, Em1. reflexivity. }
  split.
  { unfold l2. rewrite R2 by auto. rewrite RS by (intros; apply Gp; auto). destruct post; [discriminate|exact HL]. }
  intros n P HP. destruct (N.lt_ge_cases n t) as [Hnt|Hnt].
  - (* before the access *)
    unfold dev, l1, l2. rewrite !filter_app.
    rewrite (filter_none _ (x :: mid ++ post)), (filter_none _ (y :: mid ++ pre :: post)); [reflexivity| |].
    + intros z [<-|Hz]; [lia|]. apply in_app_or in Hz as [Hz|[<-|Hz]]; [specialize (Gm2 z Hz)| |specialize (Gp z Hz)]; lia.
    + intros z [<-|Hz]; [fold t; lia|]. apply in_app_or in Hz as [Hz|Hz]; [specialize (Gm2 z Hz)|specialize (Gp z Hz)]; lia.
  - assert (filter (fun z => cmd_ts z <=? n) la = la) as Fa.
    { apply filter_all. intros z Hz. specialize (Ga z Hz). lia. }
    destruct (N.lt_ge_cases n c) as [Hnc|Hnc].
    + (* the row is open in both *)
      unfold dev, l1, l2. rewrite !filter_app, Fa. cbn [filter]. rewrite <- Ets. fold t.
      destruct (N.leb_spec t n); [|lia]. rewrite !filter_app. cbn [filter]. rewrite Tp.
      destruct (N.leb_spec c n); [lia|].
      rewrite (filter_none _ post) by (intros z Hz; specialize (Gp z Hz); lia). rewrite app_nil_r.
      rewrite !run_device_cat, Ha. cbn [run_device]. rewrite <- Ets. fold t. rewrite E1, E2.
      set (mn := filter (fun z => cmd_ts z <=? n) mid).
      assert (nondecreasing t (map cmd_ts mn)) as Nmn by (apply filter_nondecreasing; auto).
      assert (forall z, In z mn -> footprint p z b = false /\ mode_command (cmd_type z) = false) as Fmn
        by (intros z Hz; apply filter_In in Hz as [Hz _]; auto).
      pose proof (twin_run p b c mn t d1 d2 TW Nmn Fmn) as TR2.
      destruct (run_device p mn d1) as [q1|], (run_device p mn d2) as [q2|]; try contradiction; auto.
      cbn [run_device option_map holds]. eapply twin_alike; [exact HP| |exact Hnc]. apply TR2.
      apply final_filter_le. exact Hnt.
    + (* closed in both *)
      assert (forall z, In z mid -> (cmd_ts z <=? n) = true) as Fm.
      { intros z Hz. specialize (Gm2 z Hz). lia. }
      unfold dev, l1, l2. rewrite !filter_app, Fa. cbn [filter]. rewrite <- Ets. fold t.
      destruct (N.leb_spec t n); [|lia]. rewrite !filter_app. cbn [filter]. rewrite Tp.
      destruct (N.leb_spec c n); [|lia]. rewrite (filter_all _ mid Fm).
      rewrite R1, R2 by (intros q Hq; apply filter_In in Hq; tauto).
      rewrite RS by (intros q Hq; apply filter_In in Hq as [Hq _]; apply Gp; auto).
      destruct (filter (fun z => cmd_ts z <=? n) post); [|reflexivity].
      cbn [run_device option_map]. rewrite settle_settle by exact Hnc. reflexivity.
Qed.

(* ---- since when the row is open ---- *)

Definition opened (b : nat) (s : N) (d : device) : Prop :=
  dv_mode d = Up /\ dv_pend d = None /\
  exists sb, nth_error (dv_banks d) b = Some sb /\ sb_state sb = Open /\ sb_since sb = Some s.

Lemma opened_settle b s n d : opened b s d -> opened b s (settle n d).
Proof.
  intros [M [P [sb [H1 [H2 H3]]]]]. rewrite settle_plain by auto. split; [|split]; cbn; auto.
  exists sb. rewrite nth_error_map, H1. cbn [option_map]. unfold settle_bank. rewrite H2. auto.
Qed.

Lemma opened_command p b s x d d' : opened b s d -> command p x d = Some d' ->
  (footprint p x b = false /\ mode_command (cmd_type x) = false) \/ cmd_type x = RD \/ cmd_type x = WR ->
  opened b s d'.
Proof.
  intros O HC HX. pose proof O as [M [P [sb [H1 [H2 H3]]]]].
  unfold command in HC. rewrite P, M in HC. destruct (_ && _) in HC; [|discriminate].
  unfold up_command in HC.
  destruct HX as [[F MC]|[K|K]].
  - assert (forall g, opened b s (with_banks (touch p x g (dv_banks d)) d)) as G.
    { intros g. split; [|split]; cbn; auto. exists sb. split; auto. rewrite nth_error_touch, H1, F. reflexivity. }
    destruct (cmd_type x) eqn:K; try discriminate; try (apply guard_some in HC as [_ <-]); auto; try (injection HC as <-; exact O).
  - rewrite K in HC. apply guard_some in HC as [_ <-]. exact O.
  - rewrite K in HC. apply guard_some in HC as [_ <-]. exact O.
Qed.

Lemma opened_run p b s l : forall d d', opened b s d -> run_device p l d = Some d' ->
  (forall x, In x l -> (footprint p x b = false /\ mode_command (cmd_type x) = false) \/ cmd_type x = RD \/ cmd_type x = WR) ->
  opened b s d'.
Proof.
  induction l as [|x l IH]; intros d d' O HR HX; cbn in HR; [injection HR as <-; exact O|].
  destruct (command p x (settle (cmd_ts x) d)) as [d1|] eqn:E; [|discriminate].
  apply (IH d1); auto; [|intros; apply HX; cbn; auto].
  apply (opened_command p b s x (settle (cmd_ts x) d)); [apply opened_settle; exact O|exact E|apply HX; cbn; auto].
Qed.

Lemma act_opens p x d d' : command p x d = Some d' -> cmd_type x = ACT -> length (dv_banks d) = ms_banks p ->
  opened (addr x) (cmd_ts x) d'.
Proof.
  unfold command. intros HC K HLen. rewrite K in HC. destruct (_ && _) eqn:Z in HC; [|discriminate].
  apply andb_true_iff in Z as [_ Z]. unfold well_addressed in Z. rewrite K in Z. apply Nat.ltb_lt in Z.
  destruct (dv_pend d) eqn:P; [discriminate|]. destruct (dv_mode d) eqn:M; try discriminate.
  unfold up_command in HC. rewrite K in HC. apply guard_some in HC as [_ <-].
  split; [|split]; cbn; auto. destruct (nth_error_lt (dv_banks d) (addr x) ltac:(lia)) as [sb Hs].
  rewrite nth_error_touch, Hs. unfold footprint. rewrite K, Nat.eqb_refl. eexists. split; [reflexivity|]. auto.
Qed.

(* The time the row of bank b has been open, as the reference machine knows it. *)
Definition open_since (p : memspec) (r b : nat) (a : list Command) (t s : N) : Prop :=
  exists d sb, device_at p r a t = Some d /\ nth_error (dv_banks d) b = Some sb /\ sb_since sb = Some s.

Lemma since_activation p r a1 x a2 t : legal p r (a1 ++ x :: a2) ->
  cmd_type x = ACT -> to_rank r x = true ->
  (forall z, In z a2 -> touches p r (addr x) z = true -> cmd_type z = RD \/ cmd_type z = WR) ->
  (forall z, In z (a1 ++ x :: a2) -> cmd_ts z <= t) ->
  open_since p r (addr x) (a1 ++ x :: a2) t (cmd_ts x).
Proof.
  intros HL K R HX Ht. destruct (legal_run _ _ _ HL) as [d HD].
  assert (opened (addr x) (cmd_ts x) d) as O.
  { rewrite filter_app in HD. cbn [filter] in HD. rewrite R, run_device_cat in HD.
    destruct (run_device p (filter (to_rank r) a1) (device_new p)) as [d0|] eqn:E0; [|discriminate]. cbn [run_device] in HD.
    destruct (command p x (settle (cmd_ts x) d0)) as [d1|] eqn:E1; [|discriminate].
    eapply opened_run; eauto.
    - eapply act_opens; eauto. rewrite settle_len, (run_device_len _ _ _ _ E0). apply repeat_length.
    - intros z Hz. apply filter_In in Hz as [Hz Hr]. specialize (HX z Hz). unfold touches in HX. rewrite Hr in HX. cbn in HX.
      destruct (footprint p z (addr x)), (mode_command (cmd_type z)); cbn in HX; auto. }
  pose proof (opened_settle _ _ t _ O) as [_ [_ [sb [H1 [H2 H3]]]]].
  exists (settle t d), sb. split; auto. rewrite device_at_dev. unfold dev.
  rewrite filter_all, HD; [reflexivity|]. intros z Hz. apply filter_In in Hz as [Hz _]. specialize (Ht z Hz). lia.
Qed.

(* ---- counters ---- *)

Lemma counted_in_cat p k r b l1 l2 : counted_in p k r b (l1 ++ l2) = counted_in p k r b l1 + counted_in p k r b l2.
Proof.
  unfold counted_in. induction l1 as [|c l1 IH]; cbn; auto. destruct (Nat.eqb (N.to_nat (cmd_rank c)) r); rewrite IH; lia.
Qed.

Lemma bank_counter_spec p cs t r b k : well_formed p -> timely p cs t -> legal_history p cs ->
  (r < ms_ranks p)%nat -> (b < ms_banks p)%nat -> k <> K_pre ->
  bank_counter p cs t r b k = Some (counted_in p k r b cs mod two64).
Proof.
  intros W T [L1 L2] Hr Hb Hk. destruct (legal_accepted p cs t W T L1 L2) as [s Hs].
  destruct (counters_equal_history p cs s t r b k Hk Hr Hb Hs) as [st [E1 E2]].
  unfold bank_counter. rewrite Hs, E1. cbn [option_map]. rewrite E2. reflexivity.
Qed.

Theorem auto_precharge p r a x y off mid pre post s T :
  let h1 := a ++ x :: mid ++ post in
  let h2 := a ++ y :: mid ++ pre :: post in
  well_formed p -> (r < ms_ranks p)%nat -> to_rank r x = true -> auto_pair p x y off ->
  cmd_type pre = PRE -> cmd_rank pre = cmd_rank x -> cmd_bank pre = cmd_bank x ->
  open_since p r (addr x) a (cmd_ts x) s ->
  cmd_ts pre = N.max (s + ms_tRAS p) (cmd_ts x + off) ->
  (forall z, In z mid -> touches p r (addr x) z = false) ->
  timely p h1 T -> timely p h2 T -> legal_history p h1 ->
  legal_history p h2 /\
  (forall r', (r' < ms_ranks p)%nat -> rank_view p h1 T r' = rank_view p h2 T r') /\
  (forall r' b, (r' < ms_ranks p)%nat -> (b < ms_banks p)%nat -> bank_view p h1 T r' b = bank_view p h2 T r' b) /\
  (forall r' b k, (r' < ms_ranks p)%nat -> (b < ms_banks p)%nat -> ~ In k [K_pre; K_reads; K_readAuto; K_writes; K_writeAuto] ->
     bank_counter p h1 T r' b k = bank_counter p h2 T r' b k).
Proof.
  intros h1 h2 W Hr Rx AP Kp Rp Bp [d [sb [Hd [Hsb Hs]]]] Tp Hmid T1 T2 HL.
  pose proof AP as [Ets [Er [Eb K]]].
  assert (to_rank r y = true) as Ry by (unfold to_rank in *; congruence).
  assert (to_rank r pre = true) as Rpre by (unfold to_rank in *; congruence).
  assert (addr pre = addr x) as Ap by (unfold addr; congruence).
  destruct (split_times _ _ _ _ _ T1) as [_ [_ [_ [Ta _]]]].
  rewrite device_at_dev in Hd. unfold dev in Hd.
  rewrite filter_all in Hd; [|intros z Hz; apply filter_In in Hz as [Hz _]; specialize (Ta z Hz); lia].
  destruct (run_device p (filter (to_rank r) a) (device_new p)) as [d0|] eqn:E0; [|discriminate].
  cbn [option_map] in Hd. injection Hd as <-.
  set (la := filter (to_rank r) a) in *. set (lm := filter (to_rank r) mid). set (lp := filter (to_rank r) post).
  assert (filter (to_rank r) h1 = la ++ x :: lm ++ lp) as F1.
  { unfold h1. rewrite filter_app. cbn [filter]. rewrite Rx, filter_app. reflexivity. }
  assert (filter (to_rank r) h2 = la ++ y :: lm ++ pre :: lp) as F2.
  { unfold h2. rewrite filter_app. cbn [filter]. rewrite Ry, filter_app. cbn [filter]. rewrite Rpre. reflexivity. }
  assert (forall r', r' <> r -> filter (to_rank r') h1 = filter (to_rank r') h2) as F3.
  { intros r' Hne. unfold h1, h2. rewrite !filter_app. cbn [filter]. rewrite !filter_app. cbn [filter].
    assert (to_rank r' x = false /\ to_rank r' y = false /\ to_rank r' pre = false) as [-> [-> ->]]; [|reflexivity].
    unfold to_rank in *. apply Nat.eqb_eq in Rx, Ry, Rpre. rewrite Rx, Ry, Rpre. assert ((r =? r')%nat = false) as -> by (apply Nat.eqb_neq; auto). auto. }
  pose proof (proj2 HL r Hr) as HLr. unfold legal in HLr. rewrite F1 in HLr.
  assert (addr x < ms_banks p)%nat as Hb.
  { apply nth_error_some_lt in Hsb. rewrite settle_len, (run_device_len _ _ _ _ E0) in Hsb. unfold device_new in Hsb. cbn [dv_banks] in Hsb. rewrite repeat_length in Hsb. exact Hsb. }
  destruct T2 as [T2a T2b]. pose proof (conj T2a T2b) as T2. 
  destruct (auto_rank p la x y off lm lp pre d0 s sb AP Kp Tp Ap Hb) as [R2 RV]; auto.
  { rewrite <- F2. apply filter_times. exact T2a. }
  { intros z Hz. unfold lm in Hz. apply filter_In in Hz as [Hz Hzr]. specialize (Hmid z Hz).
    unfold touches in Hmid. rewrite Hzr in Hmid. cbn in Hmid. apply orb_false_iff in Hmid. exact Hmid. }
  assert (legal_history p h2) as HL2.
  { destruct HL as [L1 L2]. split.
    - unfold h1, h2 in *. apply Forall_app in L1 as [L1 L3]. inversion L3 as [|? ? L4 L5]; subst.
      apply Forall_app in L5 as [L5 L6]. apply Forall_app. split; auto. constructor; [congruence|].
      apply Forall_app. split; auto. constructor; auto. congruence.
    - intros r' Hr'. destruct (Nat.eq_dec r' r) as [->|Hne].
      + unfold legal. rewrite F2. exact R2.
      + unfold legal. rewrite <- F3 by auto. apply (L2 r' Hr'). }
  assert (forall r' P, alike P -> cycles_where p r' h1 T P = cycles_where p r' h2 T P) as CW.
  { intros r' P HP. rewrite !cycles_where_cw. destruct (Nat.eq_dec r' r) as [->|Hne].
    - rewrite F1, F2. unfold cw. apply count_below_ext. intros m _. apply (RV (N.of_nat m) P HP).
    - rewrite F3 by auto. reflexivity. }
  split; auto. split; [|split].
  - intros r' Hr'. rewrite !rank_view_spec by auto. unfold spec_rank. f_equal. f_equal; apply CW;
      auto using alike_rank, alike_rank_idle, alike_mode.
  - intros r' b Hr' Hb'. rewrite !bank_view_spec by auto. unfold spec_bank. f_equal. f_equal; apply CW;
      auto using alike_bank, alike_bank_idle, alike_mode.
  - intros r' b k Hr' Hb' Hk. rewrite !bank_counter_spec by (auto; intros ->; apply Hk; cbn; auto).
    f_equal. f_equal. unfold h1, h2. rewrite !counted_in_cat.
    change (x :: mid ++ post) with ([x] ++ mid ++ post). change (y :: mid ++ pre :: post) with ([y] ++ mid ++ [pre] ++ post).
    rewrite !counted_in_cat.
    assert (forall q, cmd_type q = cmd_type x \/ cmd_type q = cmd_type y \/ cmd_type q = PRE -> counted_in p k r' b [q] = 0) as Z.
    { intros q Hq. unfold counted_in; cbn. destruct (Nat.eqb (N.to_nat (cmd_rank q)) r'); auto.
      assert (counted p k q b = 0%nat) as ->; auto.
      unfold counted, is_cmd. destruct Hq as [-> | [-> | ->]]; destruct K as [[K1 [K2 _]]|[K1 [K2 _]]]; rewrite ?K1, ?K2; destruct k; cbn; auto; exfalso; apply Hk; cbn; auto 10. }
    rewrite !Z by auto. reflexivity.
Qed.
