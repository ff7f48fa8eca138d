(* Interfaces that differ in what their encoder and formatter remember behave alike. *)
From Coq Require Import NArith List Bool Arith Lia.
From Verif Require Import Base Command CoreModel Bits BusModel ToggleModel PinModel DbiModel DbiPinModel PatternModel PatternTables PatternProofs
  FormatModel StatsModel InterfaceModel InterfaceSpec InterfaceCa SerialSpec.
Import ListNotations.
Local Open Scope N_scope.
Ltac Zify.zify_post_hook ::= idtac.

Definition both {A B} (R : A -> B -> Prop) (m : result A) (n : result B) : Prop :=
  match m, n with Value a, Value b => R a b | Fails e, Fails f => e = f | _, _ => False end.
Lemma both_bind {A B C D} (R : A -> B -> Prop) (S : C -> D -> Prop) m n k l :
  both R m n -> (forall a b, R a b -> both S (k a) (l b)) -> both S (bind m k) (bind n l).
Proof. destruct m, n; cbn; intros H K; try contradiction; auto. Qed.
Lemma both_same {A C D} (S : C -> D -> Prop) (m : result A) k l : (forall a, both S (k a) (l a)) -> both S (bind m k) (bind m l).
Proof. destruct m; cbn; auto. Qed.
Lemma both_check {A B} (R : A -> B -> Prop) b m n : both R m n -> both R (check b m) (check b n).
Proof. destruct b; cbn; auto. Qed.
Lemma both_eq {A} (m n : result A) : both eq m n <-> m = n.
Proof. split; destruct m, n; cbn; intros H; try contradiction; try congruence. Qed.
Lemma both_loop {A B I} (R : A -> B -> Prop) f g (l : list I) : (forall i a b, In i l -> R a b -> both R (f i a) (g i b)) ->
  forall a b, R a b -> both R (loop f l a) (loop g l b).
Proof.
  induction l as [|i l IH]; intros H a b E; [exact E|]. cbn [loop]. eapply both_bind; [apply H; [now left|exact E]|].
  intros a' b' E'. apply IH; [|exact E']. intros j x y J. apply H. now right.
Qed.

(* ---- the encoder ---- *)

Definition same_on (l : list desc) (o o' : overrides) : Prop := forall d, In d l -> ov_find o d = ov_find o' d /\ ov_find o d <> Some SpecLast.
Lemma apply_same o o' d last last' x : ov_find o d = ov_find o' d -> ov_find o d <> Some SpecLast -> apply_spec o d last x = apply_spec o' d last' x.
Proof. intros E F. unfold apply_spec, ov_get. rewrite <- E. destruct (ov_find o d) as [[]|]; try reflexivity. now contradict F. Qed.
Lemma encode_bit_same o o' last last' c n d : ov_find o d = ov_find o' d -> ov_find o d <> Some SpecLast -> encode_bit o last c n d = encode_bit o' last' c n d.
Proof.
  intros E F. unfold encode_bit. destruct d; try reflexivity; try (f_equal; now apply apply_same).
  destruct (Nat.leb n0 4 || Nat.eqb n0 10); [|reflexivity]. f_equal. now apply apply_same.
Qed.
Lemma encode_loop_same o o' last last' c l : same_on l o o' -> forall w, encode_loop o last c l w = encode_loop o' last' c l w.
Proof.
  induction l as [|d l IH]; intros H w; [reflexivity|]. cbn [encode_loop].
  destruct (H d (or_introl eq_refl)) as [E F]. rewrite (encode_bit_same o o' last last' c (length l) d E F).
  apply IH. intros e I. apply H. now right.
Qed.
Lemma encode_same o o' last last' c l : same_on l o o' -> encode o last c l = encode o' last' c l.
Proof. intros H. unfold encode. now rewrite (encode_loop_same o o' last last' c l H). Qed.

(* ---- the formatter ---- *)

Lemma insert_bit_firstn max data n i off inv j m c c' :
  c = c' /\ cu_byte c = Nat.div (cu_bit c) 8 /\ (cu_bit c <= off + j)%nat -> (n <= 8 * m)%nat ->
  both (fun a b => a = b /\ cu_byte a = Nat.div (cu_bit a) 8 /\ (cu_bit a <= off + S j)%nat)
       (insert_bit max data n i off inv j c) (insert_bit max (firstn m data) n i off inv j c').
Proof.
  intros (<- & Hb & Hc) Hn. unfold insert_bit. destruct (Nat.ltb_spec (off + j) n) as [L|L]; [|cbn [both]; split; [reflexivity|split; [exact Hb|lia]]].
  assert (cu_byte c < m)%nat as Hm. { rewrite Hb. apply Nat.div_lt_upper_bound; lia. }
  assert (nth_error (firstn m data) (cu_byte c) = nth_error data (cu_byte c)) as ->.
  { clear -Hm. revert data Hm. generalize (cu_byte c). induction m as [|m IH]; intros k data Hk; [lia|].
    destruct data as [|x data]; [now destruct k|]. destruct k as [|k]; [reflexivity|]. cbn. apply IH. lia. }
  destruct (nth_error data (cu_byte c)) as [byte|]; [|reflexivity].
  apply both_same. intros b. cbn [both cu_byte cu_bit]. split; [reflexivity|]. split; [|lia].
  destruct (Nat.eqb_spec (Nat.modulo (S (cu_bit c)) 8) 0) as [Z|Z].
  - apply Nat.mod_divides in Z as [q Z]; [|lia]. rewrite Z, Nat.mul_comm, Nat.div_mul by lia.
    rewrite Hb. assert (cu_bit c = (q - 1) * 8 + 7)%nat as -> by lia. rewrite Nat.div_add_l by lia. cbn. lia.
  - rewrite Hb. pose proof (Nat.div_mod (cu_bit c) 8 ltac:(lia)) as D. pose proof (Nat.mod_upper_bound (cu_bit c) 8 ltac:(lia)) as U.
    pose proof (Nat.div_mod (S (cu_bit c)) 8 ltac:(lia)) as D'. pose proof (Nat.mod_upper_bound (S (cu_bit c)) 8 ltac:(lia)) as U'.
    set (a := Nat.div (cu_bit c) 8) in *. set (a' := Nat.div (S (cu_bit c)) 8) in *. lia.
Qed.
Lemma insert_bits_firstn max data n i off inv m : (n <= 8 * m)%nat -> forall len s c c',
  c = c' /\ cu_byte c = Nat.div (cu_bit c) 8 /\ (cu_bit c <= off + s)%nat ->
  both (fun a b => a = b /\ cu_byte a = Nat.div (cu_bit a) 8 /\ (cu_bit a <= off + (s + len))%nat)
       (loop (insert_bit max data n i off inv) (seq s len) c) (loop (insert_bit max (firstn m data) n i off inv) (seq s len) c').
Proof.
  intros Hn. induction len as [|len IH]; intros s c c' H; cbn [seq loop].
  - cbn [both]. now rewrite Nat.add_0_r.
  - eapply both_bind; [apply insert_bit_firstn; eassumption|]. intros a b H'. rewrite <- Nat.add_succ_comm. apply IH. exact H'.
Qed.
Lemma insert_bursts_firstn max width data n inv m : (n <= 8 * m)%nat -> forall len s c c',
  c = c' /\ cu_byte c = Nat.div (cu_bit c) 8 /\ (cu_bit c <= s * width)%nat ->
  both (fun a b => a = b /\ cu_byte a = Nat.div (cu_bit a) 8 /\ (cu_bit a <= (s + len) * width)%nat)
       (loop (insert_burst max width data n inv) (seq s len) c) (loop (insert_burst max width (firstn m data) n inv) (seq s len) c').
Proof.
  intros Hn. induction len as [|len IH]; intros s c c' H; cbn [seq loop].
  - cbn [both]. now rewrite Nat.add_0_r.
  - eapply both_bind.
    + unfold insert_burst. apply insert_bits_firstn; [exact Hn|]. destruct H as (<- & H1 & H2). split; [reflexivity|]. cbn [cu_byte cu_bit]. split; [exact H1|lia].
    + intros a b (-> & H1 & H2). rewrite <- Nat.add_succ_comm. apply IH. split; [reflexivity|]. split; [exact H1|]. cbn [Nat.mul]. lia.
Qed.
Lemma insert_firstn max c t width data n inv m : (n <= 8 * m)%nat ->
  insert_data max c t width (firstn m data) n inv = insert_data max c t width data n inv.
Proof.
  intros Hn. unfold insert_data. destruct width as [|w]; [reflexivity|]. symmetry. apply both_eq.
  eapply both_bind; [apply insert_bursts_firstn; [exact Hn|split; [reflexivity|cbn; split; [reflexivity|lia]]]|].
  intros a b (-> & _). reflexivity.
Qed.
Lemma load_firstn d read t n a b : firstn (n / 8) a = firstn (n / 8) b -> Nat.modulo n 8 = 0%nat -> load_data d read t n (Some a) = load_data d read t n (Some b).
Proof.
  intros E M. assert (n <= 8 * (n / 8))%nat as Hn by (pose proof (Nat.div_mod n 8 ltac:(lia)); lia).
  assert (forall x, bus_load x t a n = bus_load x t b n) as H.
  { intros x. unfold bus_load. destruct (b_enabled x); [|reflexivity]. destruct (b_datarate x =? 0); [reflexivity|]. f_equal. cbv zeta. f_equal.
    destruct (add_previous_stats x _) as [y|]; [|reflexivity]. cbn [bind]. unfold add_data.
    now rewrite <- (insert_firstn _ _ _ _ a n false _ Hn), E, (insert_firstn _ _ _ _ b n false _ Hn). }
  unfold load_data, data_load_read, data_load_write, data_load. destruct read, (d_mode d); rewrite ?H; reflexivity.
Qed.

Lemma upd_firstn {A} m (f : A -> A) : forall k l, firstn m (upd k f l) = upd k f (firstn m l).
Proof. induction m as [|m IH]; intros k l; [now destruct k|]. destruct l as [|x l]; [now destruct k|]. destruct k; cbn; [reflexivity|]. now rewrite IH. Qed.
Lemma upd_length {A} (f : A -> A) : forall l k, length (upd k f l) = length l.
Proof. induction l as [|x l IH]; intros [|k]; cbn; auto. Qed.
Definition same_front (m : nat) (a b : list N) : Prop := firstn m a = firstn m b /\ (m <= length a)%nat /\ (m <= length b)%nat.
Lemma or_bit_front m a b k v : same_front m a b -> (k < 8 * m)%nat -> both (same_front m) (or_bit a k v) (or_bit b k v).
Proof.
  intros (E & La & Lb) Hk. unfold or_bit. assert (Nat.div k 8 < m)%nat as Hm by (apply Nat.div_lt_upper_bound; lia).
  destruct (Nat.ltb_spec (k / 8) (length a)); [|lia]. destruct (Nat.ltb_spec (k / 8) (length b)); [|lia].
  cbn [both]. unfold same_front. now rewrite !upd_firstn, E, !upd_length.
Qed.
Definition same_fmt (m : nat) (a b : fmt) : Prop := f_idx a = f_idx b /\ f_burst a = f_burst b /\ f_dq a = f_dq b /\ same_front m (f_buf a) (f_buf b).
Lemma fmt_step_front wild meta data w nb h i a b : (nb = 1 \/ nb = 2)%nat -> (h < nb)%nat -> (i < 288)%nat -> same_fmt (nb * 36) a b ->
  both (same_fmt (nb * 36)) (fmt_step wild meta data w nb h i a) (fmt_step wild meta data w nb h i b).
Proof.
  intros Hn Hh Hi (E1 & E2 & E3 & E4). unfold fmt_step. rewrite <- E1, <- E2, <- E3.
  destruct (nth_error data_bit_mapping (f_idx a)); [|reflexivity].
  apply both_same. intros x. apply both_same. intros y.
  eapply both_bind.
  - apply or_bit_front; [exact E4|]. unfold FormatModel.burst_bits. destruct Hn as [-> | ->]; lia.
  - intros u v F. cbn [both]. unfold same_fmt. cbn [f_idx f_burst f_dq f_buf]. auto.
Qed.
Lemma format_front wild meta old old' data n inv :
  both (fun x y => snd x = snd y /\ Nat.modulo (snd x) 8 = 0%nat /\
                   match fst x, fst y with Some a, Some b => firstn (snd x / 8) a = firstn (snd x / 8) b | None, None => True | _, _ => False end)
       (format_data wild meta old data n inv) (format_data wild meta old' data n inv).
Proof.
  unfold format_data. destruct (Nat.eqb _ n || Nat.eqb _ n) eqn:C; [|reflexivity]. cbn [check]. cbv zeta. set (nb := if Nat.eqb _ n then 2%nat else 1%nat).
  assert (nb = 1 \/ nb = 2)%nat as Hn by (unfold nb; match goal with |- context [if ?b then _ else _] => destruct b end; [right|left]; reflexivity).
  destruct data as [d|].
  - eapply both_bind.
    + apply (both_loop (same_front (nb * 36))).
      * intros h a b Hh F. apply in_seq in Hh. unfold fmt_burst. eapply both_bind.
        -- apply (both_loop (same_fmt (nb * 36))); [|unfold same_fmt; cbn; auto].
           intros i x y Hi G. apply in_seq in Hi. apply fmt_step_front; auto; lia.
        -- intros x y G. exact (proj2 (proj2 (proj2 G))).
      * unfold same_front, burst_bytes. rewrite !firstn_app, !app_length, !repeat_length, !Nat.sub_diag. cbn [firstn]. repeat split; lia.
    + intros a b (E & _). cbn [both fst snd].
      split; [reflexivity|]. unfold FormatModel.burst_bits. destruct Hn as [Hn|Hn]; rewrite Hn in *; (split; [reflexivity|exact E]).
  - cbn [both fst snd]. split; [reflexivity|]. split; [|exact I].
    unfold nb, FormatModel.burst_bits, additional_bits in *. apply orb_true_iff in C as [C|C]; apply Nat.eqb_eq in C; subst n; reflexivity.
Qed.

(* ---- interfaces ---- *)

Definition hide (h : patterns) (b : list N) (i : iface) : iface :=
  mkIface (if_spec i) (if_cmd i) (if_data i) (if_rdqs i) (if_wdqs i) (if_wck i) (if_clock i) (if_dbi i) (if_ranks i) h (if_last i) (if_meta i) b (if_enabled i).
Definition pat_like (p : ifspec) (h h' : patterns) : Prop :=
  pat_inv p h /\ pat_inv p h' /\ match h, h' with Pat6 a, Pat6 b => p6_extra a = p6_extra b | Pat _, Pat _ => True | _, _ => False end.
Definition alike (p : ifspec) (i j : iface) : Prop := if_spec i = p /\ j = hide (if_pat j) (if_buf j) i /\ pat_like p (if_pat i) (if_pat j).
(* The settings give the bits of this command. *)
Definition ready (p : ifspec) (t : CmdType) (h h' : patterns) : Prop :=
  match h, h' with Pat a, Pat b => same_on (table_of p t) (ph_over a) (ph_over b) | _, _ => True end.
Lemma level_not_last s b d : spec_level s b d <> Some SpecLast.
Proof. unfold spec_level, as_spec. destruct (fixed_level s b d) as [[]|]; discriminate. Qed.
Lemma ready_plain p t h h' : transfers t = None -> pat_like p h h' -> ready p t h h'.
Proof.
  intros T (V & V' & _). unfold ready. destruct h as [a|a], h' as [b|b]; try exact I. destruct V as (_ & _ & V), V' as (_ & _ & V').
  intros d Hd. pose proof (plain_desc p t d T Hd) as B. rewrite (V d B), (V' d B). split; [reflexivity|apply level_not_last].
Qed.

Ltac unpack i j E :=
  destruct i as [sp cm da rq wq wk ck db rk h la me bu en], j as [sp' cm' da' rq' wq' wk' ck' db' rk' h' la' me' bu' en'];
  destruct E as (S & J & L); cbn [if_spec if_pat if_buf hide if_cmd if_data if_rdqs if_wdqs if_wck if_clock if_dbi if_ranks if_last if_meta if_enabled] in S, J, L;
  injection J as -> -> -> -> -> -> -> -> -> -> -> ->; subst sp.
Lemma command_bus_alike p c i j : alike p i j -> ready p (cmd_type c) (if_pat i) (if_pat j) -> both (alike p) (handle_command_bus c i) (handle_command_bus c j).
Proof.
  intros E R. unpack i j E. cbn [if_pat] in R. destruct L as (V & V' & L).
  unfold handle_command_bus. cbn [if_pat if_cmd].
  destruct h as [a|a], h' as [b|b]; try contradiction.
  - destruct V as (S & M & V), V' as (S' & M' & V'). destruct a as [o m l], b as [o' m' l']. cbn [ph_map ph_over] in *. subst m m'.
    unfold command_pattern. cbn [ph_map ph_over ph_last]. destruct (table_of p (cmd_type c)) as [|d r] eqn:P; [reflexivity|]. rewrite <- P in *.
    cbn [ready ph_over] in R.
    rewrite (encode_same o o' l l' (coord_of c) _ R). destruct (encode o' l' (coord_of c) (table_of p (cmd_type c))) as [w|e]; [|reflexivity].
    cbn [bind fst snd ph_map]. apply both_same. intros x. cbn [both]. unfold alike, hide, pat_like. cbn. auto 10.
  - destruct V as (S & M & V), V' as (S' & M' & V'). destruct a as [o m l], b as [o' m' l']. cbn [p6_map p6_extra] in *. subst m m' o'.
    unfold command_pattern6. cbn [p6_map p6_extra p6_last]. destruct (lpddr6_patterns (cmd_type c)) as [|d r] eqn:P; [reflexivity|]. rewrite <- P in *.
    apply both_bind with (R := fun x y => fst x = fst y /\ pat_like p (Pat6 (snd x)) (Pat6 (snd y))).
    + apply both_same. intros w. cbn. unfold pat_like. cbn. auto 10.
    + intros [x x'] [y y'] (E & G). cbn [fst snd] in *. subst y. apply both_same. intros z. cbn [both]. unfold alike, hide. cbn. auto 10.
Qed.

Lemma burst_alike p c read i j : alike p i j ->
  both (fun x y => alike p (fst x) (fst y) /\ snd x = snd y) (handle_burst c read i) (handle_burst c read j).
Proof.
  intros E. unpack i j E. unfold handle_burst, bus_lines, invert_data. cbn [if_spec if_data if_dbi if_meta if_buf].
  destruct (cmd_sz_bits c =? 0).
  - destruct (d_mode da); [|apply both_same; intros d]; cbn [both fst snd]; (split; [|reflexivity]); (split; [reflexivity|split; [reflexivity|exact L]]).
  - destruct (data_width p =? 0); [reflexivity|]. apply both_same. intros [x l]. cbn [fst snd].
    destruct (fi_std p); try (apply both_same; intros d; cbn [both fst snd]; (split; [|reflexivity]); (split; [reflexivity|split; [reflexivity|exact L]])).
    eapply both_bind; [apply format_front|]. intros [f n] [f' n'] (E & M & F). cbn [fst snd] in *. subst n'.
    assert (load_data da read (cmd_ts c) n f = load_data da read (cmd_ts c) n f') as ->.
    { destruct f as [f|], f' as [f'|]; try contradiction; [|reflexivity]. apply load_firstn; assumption. }
    apply both_same. intros d. cbn [both fst snd]. (split; [|reflexivity]); (split; [reflexivity|split; [reflexivity|exact L]]).
Qed.
Lemma dqs_alike p c read n i j : alike p i j -> both (alike p) (handle_dqs c read n i) (handle_dqs c read n j).
Proof.
  intros E. unpack i j E. unfold handle_dqs. cbn [if_spec if_rdqs if_wdqs if_wck].
  destruct (fi_std p); try (destruct read; apply both_same; intros k; cbn [both]; (split; [reflexivity|split; [reflexivity|exact L]]));
    (apply both_same; intros r; apply both_same; intros k; cbn [both]; (split; [reflexivity|split; [reflexivity|exact L]])).
Qed.
Lemma overrides_alike p c n read i j : alike p i j -> alike p (handle_overrides i n read) (handle_overrides j n read) /\
  ready p (cmd_type c) (if_pat (handle_overrides i n read)) (if_pat (handle_overrides j n read)).
Proof.
  intros E. unpack i j E. destruct L as (V & V' & L). unfold handle_overrides. cbn [if_pat if_spec].
  destruct h as [a|a], h' as [b|b]; try contradiction.
  - destruct V as (S & M & V), V' as (S' & M' & V'). fold (std_overrides (fi_std p)). split.
    + unfold alike, hide, pat_like. cbn [if_spec if_with_pat if_with_cmd if_pat if_buf]. split; [reflexivity|]. split; [reflexivity|].
      cbn [pat_inv with_overrides ph_map ph_over]. repeat split; try assumption; now apply overrides_inv.
    + cbn [if_with_pat if_with_cmd if_pat ready with_overrides ph_over]. intros d _. rewrite !overrides_exact by assumption. split; [reflexivity|apply level_not_last].
  - destruct V as (S & M & V), V' as (S' & M' & V'). split; [|exact I].
    unfold alike, hide, pat_like. cbn [if_spec if_with_pat if_with_cmd if_pat if_buf]. split; [reflexivity|]. split; [reflexivity|].
    cbn [pat_inv with_burst6 p6_map p6_extra ex_groups]. rewrite L. repeat split; congruence.
Qed.
Lemma data_alike p c read i j : alike p i j -> both (alike p) (handle_data c read i) (handle_data c read j).
Proof.
  intros E. unfold handle_data. eapply both_bind; [apply burst_alike; exact E|]. intros [x n] [y m] (E1 & F). cbn [fst snd] in *. subst m.
  eapply both_bind; [apply dqs_alike; exact E1|]. intros a b E2. destruct (overrides_alike p c n read a b E2) as [E3 R3].
  eapply both_bind; [apply command_bus_alike; eassumption|]. intros i' j' E4. clear - E4.
  unpack i' j' E4. cbn [if_spec if_ranks]. destruct (fi_std p); try (cbn [both]; (split; [reflexivity|split; [reflexivity|exact L]]); fail).
  apply both_check. apply both_same. intros r. apply both_same. intros r'. cbn [both]; (split; [reflexivity|split; [reflexivity|exact L]]).
Qed.
Lemma call_alike p x i j : alike p i j -> both (alike p) (call_do x i) (call_do x j).
Proof.
  intros E. destruct x as [c|e|a b|e|t|t]; cbn [call_do].
  - unfold if_command. eapply both_bind with (R := alike p).
    + assert (if_spec i = p /\ if_spec j = p) as [-> ->] by (clear - E; unpack i j E; auto).
      pose proof (transfers_routing p (cmd_type c)) as T. destruct (routing p (cmd_type c)) as [|read| | | |] eqn:Q; try exact E; try reflexivity.
      * apply command_bus_alike; [exact E|]. apply ready_plain; [destruct (transfers (cmd_type c)); [discriminate|reflexivity]|exact (proj2 (proj2 E))].
      * apply data_alike. exact E.
      * unpack i j E. unfold end_of_simulation. cbn [if_dbi]. destruct db as [d|].
        -- apply both_same. intros y. cbn [both]; (split; [reflexivity|split; [reflexivity|exact L]]).
        -- cbn [both]; (split; [reflexivity|split; [reflexivity|exact L]]).
    + intros i' j' E'. unpack i' j' E'. cbn [both]; (split; [reflexivity|split; [reflexivity|exact L]]).
  - unpack i j E. unfold if_enable_dbi. cbn [if_dbi if_spec]. destruct db as [d|].
    + destruct (match fi_std p with DDR4 => fi_bits p =? 4 | _ => false end); cbn [both fst]; (split; [reflexivity|split; [reflexivity|exact L]]).
    + cbn [both fst]; (split; [reflexivity|split; [reflexivity|exact L]]).
  - unpack i j E. cbn [both]; (split; [reflexivity|split; [reflexivity|exact L]]).
  - unpack i j E. unfold if_set_parity. cbn [if_spec if_pat]. apply both_check. destruct L as (V & V' & L). destruct h as [a|a], h' as [b|b]; try contradiction.
    + cbn [both]; unfold alike, hide, pat_like; cbn; auto 10.
    + destruct V as (S & M & V), V' as (S' & M' & V'). cbn [both]; unfold alike, hide, pat_like; cbn. rewrite L in *. auto 20.
  - unpack i j E. unfold if_enable. cbn [if_enabled if_spec if_wck if_clock]. destruct en.
    + cbn [both]; (split; [reflexivity|split; [reflexivity|exact L]]).
    + apply both_same. intros k. apply both_same. intros k'. cbn [both]; (split; [reflexivity|split; [reflexivity|exact L]]).
  - unpack i j E. unfold if_disable. cbn [if_enabled if_spec if_wck if_clock]. destruct en.
    + apply both_same. intros k. apply both_same. intros k'. cbn [both]; (split; [reflexivity|split; [reflexivity|exact L]]).
    + cbn [both]; (split; [reflexivity|split; [reflexivity|exact L]]).
Qed.
Lemma window_alike p i j t st : alike p i j -> if_window i t st = if_window j t st.
Proof. intros E. unpack i j E. reflexivity. Qed.
Lemma watch_alike p ys : forall i j, alike p i j -> watch ys j = watch ys i.
Proof.
  induction ys as [|y ys IH]; intros i j E; [reflexivity|]. destruct y as [x|t st]; cbn [watch].
  - pose proof (call_alike p x i j E) as H. destruct (call_do x i) as [i'|e], (call_do x j) as [j'|f]; cbn [both] in H; try contradiction; [|now subst].
    f_equal; [|apply IH; exact H]. f_equal. clear - H. unpack i' j' H. reflexivity.
  - f_equal; [|apply IH; exact E]. f_equal. symmetry. eapply window_alike. exact E.
Qed.
