(* Reading back what was written, part by part. *)
From Coq Require Import NArith QArith List Bool Lia Arith Permutation.
From Verif Require Import Base Command CoreModel Bits BusModel ToggleModel PinModel DbiModel DbiPinModel PatternModel InterfaceModel SerialModel.
Import ListNotations.
Local Open Scope N_scope.
Ltac Zify.zify_post_hook ::= idtac.

(* [r] reads exactly the items [l] and returns [x]. *)
Definition reads {A} (r : reader A) (l : list item) (x : A) : Prop := forall rest, r (l ++ rest) = Got x rest.

Lemma reads_ret {A} (x : A) : reads (r_ret x) [] x.
Proof. intro rest. reflexivity. Qed.
Lemma reads_bind {A B} (r : reader A) (k : A -> reader B) l l' x y :
  reads r l x -> reads (k x) l' y -> reads (r_bind r k) (l ++ l') y.
Proof. intros H K rest. unfold r_bind. rewrite <- app_assoc, H. apply K. Qed.
Lemma reads_bind_last {A B} (r : reader A) (k : A -> reader B) l x y :
  reads r l x -> reads (k x) [] y -> reads (r_bind r k) l y.
Proof. intros H K. rewrite <- (app_nil_r l). eapply reads_bind; eassumption. Qed.
Lemma reads_bind_one {A B} (r : reader A) (k : A -> reader B) i l' x y :
  reads r [i] x -> reads (k x) l' y -> reads (r_bind r k) (i :: l') y.
Proof. intros H K. exact (reads_bind r k [i] l' x y H K). Qed.

Lemma reads_each {A} (r : A -> reader A) (w : A -> list item) (tgt xs : list A) :
  Forall2 (fun t x => reads (r t) (w x) x) tgt xs -> reads (r_each r tgt) (flat_map w xs) xs.
Proof.
  induction 1 as [|t x tgt xs H F IH]; cbn [r_each flat_map]; [ apply reads_ret |].
  eapply reads_bind; [ exact H |]. eapply reads_bind_last; [ exact IH |]. apply reads_ret.
Qed.
Lemma reads_times {A} (r : reader A) (w : A -> list item) (xs : list A) :
  Forall (fun x => reads r (w x) x) xs -> reads (r_times r (length xs)) (flat_map w xs) xs.
Proof.
  induction 1 as [|x xs H F IH]; cbn [r_times flat_map length]; [ apply reads_ret |].
  eapply reads_bind; [ exact H |]. eapply reads_bind_last; [ exact IH |]. apply reads_ret.
Qed.
Lemma reads_times_map {A} (r : reader A) (w : A -> item) (xs : list A) :
  Forall (fun x => reads r [w x] x) xs -> reads (r_times r (length xs)) (map w xs) xs.
Proof.
  intro F. replace (map w xs) with (flat_map (fun x => [w x]) xs).
  - apply reads_times. exact F.
  - clear F. induction xs as [|x xs IH]; cbn; [ reflexivity |]. rewrite IH. reflexivity.
Qed.
Lemma reads_size n : reads r_size (w_size n) n.
Proof. intro rest. unfold r_size, w_size, r_bind. cbn. rewrite Nnat.Nat2N.id. reflexivity. Qed.

(* Single items. *)
Ltac item := intro; reflexivity.
Ltac seq_step :=
  first [ apply reads_ret
        | eapply reads_bind_one; [ item |]
        | eapply reads_bind; [ now auto |]
        | eapply reads_bind_last; [ now auto |] ].

(* ---- the core ---- *)

Lemma reads_optional o : reads r_optional (w_optional o) o.
Proof. destruct o; intro; reflexivity. Qed.
Lemma reads_interval i : reads r_interval (w_interval i) i.
Proof.
  unfold w_interval, r_interval.
  eapply reads_bind; [ item |]. eapply reads_bind; [ apply reads_optional |]. eapply reads_bind_last; [ apply reads_optional |].
  destruct i. apply reads_ret.
Qed.
Lemma reads_cstats c : reads r_cstats (w_cstats c) c.
Proof. destruct c. intro. reflexivity. Qed.
Lemma reads_bank t b : reads (r_bank t) (w_bank b) b.
Proof.
  unfold w_bank, r_bank. cbn [app].
  do 3 (eapply reads_bind_one; [ item |]).
  do 3 (eapply reads_bind; [ apply reads_interval |]). eapply reads_bind_last; [ apply reads_cstats |].
  destruct b. apply reads_ret.
Qed.
Lemma reads_rank t r : length (rk_banks t) = length (rk_banks r) -> reads (r_rank t) (w_rank r) r.
Proof.
  intro L. unfold w_rank, r_rank. cbn [app].
  do 5 (eapply reads_bind_one; [ item |]).
  do 7 (eapply reads_bind; [ apply reads_interval |]).
  eapply reads_bind_last.
  - apply reads_each. revert L. generalize (rk_banks r). induction (rk_banks t) as [|x xs IH]; intros [|y ys] L;
      try discriminate L; constructor; [ apply reads_bank |]. apply IH. cbn in L. lia.
  - destruct r. apply reads_ret.
Qed.
(* Two cores with ranks and banks in the same numbers. *)
Definition same_shape (a b : core) : Prop :=
  Forall2 (fun r r' => length (rk_banks r) = length (rk_banks r')) (co_ranks a) (co_ranks b).
Lemma reads_core t s : same_shape t s -> reads (r_core t) (w_core s) (mkCore (co_ranks s) (co_queue t) (co_last s)).
Proof.
  intro S. unfold w_core, r_core. cbn [app].
  eapply reads_bind_one; [ item |]. eapply reads_bind_last.
  - apply reads_each. clear -S. unfold same_shape in S. induction S; constructor; [ apply reads_rank; assumption | assumption ].
  - apply reads_ret.
Qed.

(* ---- the parts of an interface ---- *)

Lemma reads_stats s : reads r_stats (w_stats s) s.
Proof. destruct s. intro. reflexivity. Qed.
Lemma reads_pending p : reads r_pending (w_pending p) p.
Proof. destruct p as [t [] b]. intro. reflexivity. Qed.
Lemma reads_clock t c : reads (r_clock t) (w_clock c) (mkClock (ck_start c) (ck_stats c) (ck_rate t)).
Proof.
  unfold w_clock, r_clock. eapply reads_bind; [ apply reads_optional |]. eapply reads_bind_last; [ apply reads_stats |]. apply reads_ret.
Qed.

Lemma testbit_byte max v i j : (j < 8)%nat ->
  N.testbit (byte_of max v i) (N.of_nat j) = Nat.ltb (i * 8 + j) max && N.testbit v (N.of_nat (i * 8 + j)).
Proof.
  intro L. unfold byte_of.
  assert (G : forall l w, N.testbit (fold_left (fun w j => if Nat.ltb (i * 8 + j) max && N.testbit v (N.of_nat (i * 8 + j)) then N.lor w (N.shiftl 1 (N.of_nat j)) else w) l w) (N.of_nat j)
              = N.testbit w (N.of_nat j) || (existsb (Nat.eqb j) l && (Nat.ltb (i * 8 + j) max && N.testbit v (N.of_nat (i * 8 + j))))).
  { induction l as [|k l IH]; intro w; cbn [fold_left existsb]; [ rewrite orb_false_r; reflexivity |].
    rewrite IH. clear IH.
    destruct (Nat.eqb_spec j k) as [->|NE].
    - destruct (Nat.ltb (i * 8 + k) max && N.testbit v (N.of_nat (i * 8 + k))).
      + rewrite N.lor_spec, N.shiftl_spec_high' by lia. rewrite N.sub_diag. cbn. rewrite orb_true_r. cbn. reflexivity.
      + rewrite !andb_false_r, !orb_false_r. reflexivity.
    - replace (N.testbit (if Nat.ltb (i * 8 + k) max && N.testbit v (N.of_nat (i * 8 + k)) then N.lor w (N.shiftl 1 (N.of_nat k)) else w) (N.of_nat j))
        with (N.testbit w (N.of_nat j)); [ reflexivity |].
      destruct (Nat.ltb (i * 8 + k) max && N.testbit v (N.of_nat (i * 8 + k))); [| reflexivity ].
      rewrite N.lor_spec. rewrite N.shiftl_1_l, N.pow2_bits_false by lia. rewrite orb_false_r. reflexivity. }
  rewrite G, N.bits_0. cbn [orb].
  replace (existsb (Nat.eqb j) (seq 0 8)) with true; [ reflexivity |].
  symmetry. apply existsb_exists. exists j. split; [ apply in_seq; lia | apply Nat.eqb_refl ].
Qed.
Lemma testbit_put w n v k : N.testbit (put_bit w n v) (N.of_nat k) = if Nat.eqb k n then v else N.testbit w (N.of_nat k).
Proof.
  unfold put_bit. destruct (Nat.eqb_spec k n) as [->|NE]; destruct v.
  - apply N.setbit_eq.
  - apply N.clearbit_eq.
  - apply N.setbit_neq. lia.
  - apply N.clearbit_neq. lia.
Qed.
Lemma testbit_bits_from max l v0 k :
  N.testbit (bits_from max l v0) (N.of_nat k)
  = if Nat.ltb (k / 8) (length l) && Nat.ltb k max then N.testbit (nth (k / 8) l 0) (N.of_nat (k mod 8)) else N.testbit v0 (N.of_nat k).
Proof.
  unfold bits_from.
  assert (In1 : forall i js v, (forall j, In j js -> (j < 8)%nat) ->
     N.testbit (fold_left (fun v j => if Nat.ltb (i * 8 + j) max then put_bit v (i * 8 + j) (N.testbit (nth i l 0) (N.of_nat j)) else v) js v) (N.of_nat k)
     = if existsb (fun j => Nat.eqb k (i * 8 + j)) js && Nat.ltb k max then N.testbit (nth i l 0) (N.of_nat (k mod 8)) else N.testbit v (N.of_nat k)).
  { intros i js. induction js as [|j js IH]; intros v B; cbn [fold_left existsb]; [ reflexivity |].
    rewrite IH by (intros; apply B; right; assumption).
    destruct (existsb (fun j => Nat.eqb k (i * 8 + j)) js); [ rewrite orb_true_r; cbn [andb]; destruct (Nat.ltb_spec k max); [ reflexivity |] |].
    - destruct (Nat.ltb_spec (i * 8 + j) max); [| reflexivity ]. rewrite testbit_put.
      destruct (Nat.eqb_spec k (i * 8 + j)); [ lia | reflexivity ].
    - rewrite orb_false_r. cbn [andb].
      destruct (Nat.ltb_spec (i * 8 + j) max) as [M|M].
      + rewrite testbit_put. destruct (Nat.eqb_spec k (i * 8 + j)) as [E|E]; [| reflexivity ].
        destruct (Nat.ltb_spec k max); [| lia ]. cbn [andb].
        replace (k mod 8)%nat with j; [ reflexivity |].
        rewrite E. rewrite Nat.add_comm, Nat.mod_add by lia. symmetry. apply Nat.mod_small. apply B. left. reflexivity.
      + destruct (Nat.eqb_spec k (i * 8 + j)) as [E|E]; [| reflexivity ].
        destruct (Nat.ltb_spec k max); [ lia | reflexivity ]. }
  assert (Hk : (k = k / 8 * 8 + k mod 8)%nat) by (pose proof (Nat.div_mod k 8 ltac:(lia)); lia).
  assert (Hm : (k mod 8 < 8)%nat) by (apply Nat.mod_upper_bound; lia).
  assert (In2 : forall i, existsb (fun j => Nat.eqb k (i * 8 + j)) (seq 0 8) = Nat.eqb i (k / 8)).
  { intro i. destruct (Nat.eqb_spec i (k / 8)) as [->|NE].
    - apply existsb_exists. exists (k mod 8)%nat. split; [ apply in_seq; lia | apply Nat.eqb_eq; exact Hk ].
    - apply Bool.not_true_is_false. intro H. apply existsb_exists in H. destruct H as [j [J E]].
      apply in_seq in J. apply Nat.eqb_eq in E. apply NE. apply Nat.div_unique with (r := j); lia. }
  assert (Out : forall is_ v,
     N.testbit (fold_left (fun v i => fold_left (fun v j => if Nat.ltb (i * 8 + j) max then put_bit v (i * 8 + j) (N.testbit (nth i l 0) (N.of_nat j)) else v) (seq 0 8) v) is_ v) (N.of_nat k)
     = if existsb (fun i => Nat.eqb i (k / 8)) is_ && Nat.ltb k max then N.testbit (nth (k / 8) l 0) (N.of_nat (k mod 8)) else N.testbit v (N.of_nat k)).
  { induction is_ as [|i is_ IH]; intro v; [ reflexivity |].
    cbn [fold_left existsb]. rewrite IH. rewrite In1 by (intros j J; apply in_seq in J; lia). rewrite In2.
    destruct (existsb (fun i => Nat.eqb i (k / 8)) is_); [ rewrite orb_true_r; cbn [andb]; destruct (Nat.ltb k max); [ reflexivity | rewrite andb_false_r; reflexivity ] |].
    rewrite orb_false_r. cbn [andb]. destruct (Nat.eqb_spec i (k / 8)) as [->|NE]; reflexivity. }
  rewrite Out.
  replace (existsb (fun i => Nat.eqb i (k / 8)) (seq 0 (length l))) with (Nat.ltb (k / 8) (length l)); [ reflexivity |].
  destruct (Nat.ltb_spec (k / 8) (length l)) as [L|L]; symmetry.
  - apply existsb_exists. exists (k / 8)%nat. split; [ apply in_seq; lia | apply Nat.eqb_refl ].
  - apply Bool.not_true_is_false. intro H. apply existsb_exists in H. destruct H as [j [J E]].
    apply in_seq in J. apply Nat.eqb_eq in E. lia.
Qed.
Lemma bits_above max v k : v < 2 ^ N.of_nat max -> (max <= k)%nat -> N.testbit v (N.of_nat k) = false.
Proof.
  intros L H. destruct (N.eq_dec v 0) as [->|NZ]; [ apply N.bits_0 |].
  apply N.bits_above_log2. apply N.log2_lt_pow2 in L; [| lia ]. lia.
Qed.
Lemma bits_from_bytes max v v0 : v < 2 ^ N.of_nat max -> v0 < 2 ^ N.of_nat max -> bits_from max (bytes_of max v) v0 = v.
Proof.
  intros L L0. apply N.bits_inj. intro n. rewrite <- (Nnat.N2Nat.id n). set (k := N.to_nat n). clearbody k.
  rewrite testbit_bits_from. unfold bytes_of. rewrite map_length, seq_length.
  assert (Hk : (k = 8 * (k / 8) + k mod 8)%nat) by (apply Nat.div_mod; lia).
  assert (Hm : (k mod 8 < 8)%nat) by (apply Nat.mod_upper_bound; lia).
  destruct (Nat.ltb_spec k max) as [K|K].
  - assert (B : (k / 8 < (max + 7) / 8)%nat).
    { apply Nat.div_le_lower_bound; lia. }
    destruct (Nat.ltb_spec (k / 8) ((max + 7) / 8)); [| lia ]. cbn [andb].
    rewrite nth_indep with (d' := byte_of max v 0) by (rewrite map_length, seq_length; lia).
    rewrite map_nth, seq_nth by lia. cbn [plus]. rewrite testbit_byte by lia.
    replace (k / 8 * 8 + k mod 8)%nat with k by lia.
    destruct (Nat.ltb_spec k max); [ reflexivity | lia ].
  - rewrite andb_false_r. rewrite (bits_above max v0 k L0 K), (bits_above max v k L K). reflexivity.
Qed.
Lemma reads_burst max v v0 : v < 2 ^ N.of_nat max -> v0 < 2 ^ N.of_nat max -> reads (r_burst max v0) [I_bytes (bytes_of max v)] v.
Proof.
  intros L L0 rest. unfold r_burst, r_bind, r_bytes. cbn [app].
  replace (Nat.eqb (length (bytes_of max v)) ((max + 7) / 8)) with true
    by (symmetry; unfold bytes_of; rewrite map_length, seq_length; apply Nat.eqb_refl).
  rewrite bits_from_bytes by assumption. reflexivity.
Qed.
Lemma pow2_pos n : 0 < 2 ^ N.of_nat n.
Proof. apply N.neq_0_lt_0, N.pow_nonzero. discriminate. Qed.
Definition store_fits (max : nat) (c : container) : Prop := Forall (fun v => v < 2 ^ N.of_nat max) (bc_bursts c).
Lemma reads_container max t c : store_fits max c -> bc_width t = bc_width c -> reads (r_container max t) (w_container max c) c.
Proof.
  intros F W. unfold w_container, r_container.
  eapply reads_bind; [ apply reads_size |]. eapply reads_bind; [ item |]. eapply reads_bind; [ apply reads_size |].
  eapply reads_bind_last.
  - apply reads_times_map. unfold store_fits in F. rewrite Forall_forall in *. intros v V. apply reads_burst; [ apply F; exact V | apply pow2_pos ].
  - rewrite W. destruct c. apply reads_ret.
Qed.
(* The members of a bus that are not written. *)
Definition bus_static (b : bus) := (b_max b, b_width b, b_datarate b, b_idle_stats b, b_idle b, bc_width (b_store b)).
Lemma reads_bus t b : bus_static t = bus_static b -> store_fits (b_max b) (b_store b) -> reads (r_bus t) (w_bus b) b.
Proof.
  intros E F. injection E as E1 E2 E3 E4 E5 E6. unfold w_bus, r_bus.
  eapply reads_bind; [ apply reads_stats |].
  eapply reads_bind. { rewrite E1. apply reads_container; assumption. }
  cbn [app]. do 3 (eapply reads_bind_one; [ item |]).
  eapply reads_bind_one. { rewrite E1. intro rest. cbn [app r_raw]. rewrite Nat.eqb_refl. reflexivity. }
  eapply reads_bind_last; [ apply reads_pending |]. rewrite E1, E2, E3, E4, E5. destruct b. apply reads_ret.
Qed.
Lemma reads_toggling h : reads r_toggling (w_toggling h) h.
Proof. destruct h. intro. reflexivity. Qed.
Lemma reads_data t d : bus_static (d_read t) = bus_static (d_read d) -> bus_static (d_write t) = bus_static (d_write d) ->
  store_fits (b_max (d_read d)) (b_store (d_read d)) -> store_fits (b_max (d_write d)) (b_store (d_write d)) ->
  reads (r_data t) (w_data d) d.
Proof.
  intros E1 E2 F1 F2. unfold w_data, r_data.
  do 2 (eapply reads_bind; [ apply reads_bus; assumption |]). do 2 (eapply reads_bind; [ apply reads_toggling |]).
  eapply reads_bind_one; [ item |]. destruct d. apply reads_ret.
Qed.
Definition pin_static (p : pin) := (pn_max p, pn_idle p).
Lemma reads_pin t p : pin_static t = pin_static p -> bt_bits (pn_store t) < 2 ^ N.of_nat (pn_max p) ->
  bt_bits (pn_store p) < 2 ^ N.of_nat (pn_max p) -> reads (r_pin t) (w_pin p) p.
Proof.
  intros E F0 F. injection E as E1 E2. unfold w_pin, r_pin. cbn [app].
  do 3 (eapply reads_bind_one; [ item |]).
  eapply reads_bind.
  - unfold w_bitstore, r_bitstore. eapply reads_bind; [ apply reads_size |]. cbn [app].
    eapply reads_bind_one; [ item |]. eapply reads_bind_last; [ rewrite E1; apply reads_burst; assumption |]. apply reads_ret.
  - do 4 (eapply reads_bind_one; [ item |]). eapply reads_bind_last; [ apply reads_stats |].
    rewrite E1, E2. destruct p as [? ? ? ? ? ? ? ? ? ? []]. apply reads_ret.
Qed.
Lemma reads_rank_if t r : reads (r_rank_if t) (w_rank_if r) r.
Proof. destruct r. intro. reflexivity. Qed.

(* ---- the inverter ---- *)

Definition beat_ok (b : lastburst) : bool := forallb (fun n => n <=? 1) (lb_beat b).
(* The capacity restored is the one that was there. *)
Definition cap_ok (c : dbi_config) (b : lastburst) : Prop :=
  lb_cap b = if Nat.ltb 0 (length (lb_inv b)) then dg_grow c (length (lb_inv b)) else 0%nat.
Lemma reads_lastburst c t b : lb_cap t = 0%nat -> cap_ok c b -> beat_ok b = true -> reads (r_lastburst c t) (w_lastburst b) b.
Proof.
  intros T C B. unfold w_lastburst, r_lastburst. cbn [app].
  do 2 (eapply reads_bind_one; [ item |]). eapply reads_bind; [ apply reads_size |]. do 2 (eapply reads_bind_one; [ item |]).
  eapply reads_bind; [ apply reads_size |]. eapply reads_bind.
  { apply reads_times_map. rewrite Forall_forall. intros. item. }
  eapply reads_bind; [ apply reads_size |]. eapply reads_bind_last.
  { apply reads_times_map. unfold beat_ok in B. rewrite forallb_forall in B. rewrite Forall_forall. intros n N_. intro rest.
    cbn [app r_u8_as_bool]. rewrite (B n N_). reflexivity. }
  rewrite T, <- C. destruct b. apply reads_ret.
Qed.
Lemma reads_dbi t d : db_config t = db_config d -> lb_cap (db_read t) = 0%nat -> lb_cap (db_write t) = 0%nat ->
  cap_ok (db_config d) (db_read d) -> cap_ok (db_config d) (db_write d) ->
  beat_ok (db_read d) = true -> beat_ok (db_write d) = true -> reads (r_dbi t) (w_dbi d) d.
Proof.
  intros E T1 T2 C1 C2 B1 B2. unfold w_dbi, r_dbi. cbn [app]. rewrite E.
  do 2 (eapply reads_bind_one; [ item |]).
  do 2 (eapply reads_bind; [ apply reads_lastburst; assumption |]).
  eapply reads_bind; [ apply reads_size |]. eapply reads_bind_last.
  { apply reads_times_map. rewrite Forall_forall. intros. item. }
  destruct d. apply reads_ret.
Qed.
(* A byte of the last beat above 1 is undefined behaviour. *)
Lemma bad_times xs rest : forallb (fun n => n <=? 1) xs = false ->
  r_times r_u8_as_bool (length xs) (map I_u8 xs ++ rest) = BadBool.
Proof.
  revert rest. induction xs as [|x xs IH]; intros rest H; [ discriminate H |]. cbn [forallb] in H.
  cbn [length r_times map app]. unfold r_bind at 1. cbn [r_u8_as_bool].
  destruct (x <=? 1); [| reflexivity ]. cbn [andb] in H. unfold r_bind. rewrite IH by exact H. reflexivity.
Qed.
Lemma run_bind {A B} (r : reader A) (k : A -> reader B) l x rest : reads r l x -> r_bind r k (l ++ rest) = k x rest.
Proof. intro H. unfold r_bind. rewrite H. reflexivity. Qed.
Lemma bad_bind {A B} (r : reader A) (k : A -> reader B) s : r s = BadBool -> r_bind r k s = BadBool.
Proof. intro H. unfold r_bind. rewrite H. reflexivity. Qed.
Lemma bad_lastburst c t b rest : beat_ok b = false -> r_lastburst c t (w_lastburst b ++ rest) = BadBool.
Proof.
  intro H. unfold w_lastburst, r_lastburst. rewrite <- !app_assoc. cbn [app].
  change (I_u64 (lb_start b) :: ?l) with ([I_u64 (lb_start b)] ++ l). rewrite run_bind with (x := lb_start b) by item.
  change (I_u64 (lb_end b) :: ?l) with ([I_u64 (lb_end b)] ++ l). rewrite run_bind with (x := lb_end b) by item.
  rewrite run_bind with (x := lb_chunks b) by apply reads_size.
  change (I_u64 0 :: ?l) with ([I_u64 0] ++ l). rewrite run_bind with (x := 0) by item.
  change (I_bool (lb_init b) :: ?l) with ([I_bool (lb_init b)] ++ l). rewrite run_bind with (x := lb_init b) by item.
  rewrite run_bind with (x := length (lb_inv b)) by apply reads_size.
  rewrite run_bind with (x := lb_inv b) by (apply reads_times_map; rewrite Forall_forall; intros; item).
  rewrite run_bind with (x := length (lb_beat b)) by apply reads_size.
  apply bad_bind. apply bad_times. exact H.
Qed.
Lemma bad_dbi t d rest : lb_cap (db_read t) = 0%nat -> db_config t = db_config d -> cap_ok (db_config d) (db_read d) ->
  beat_ok (db_read d) && beat_ok (db_write d) = false -> r_dbi t (w_dbi d ++ rest) = BadBool.
Proof.
  intros T E C H. unfold w_dbi, r_dbi. rewrite <- !app_assoc. cbn [app].
  change (I_bool (db_enable d) :: ?l) with ([I_bool (db_enable d)] ++ l). rewrite run_bind with (x := db_enable d) by item.
  change (I_bool (db_last_read d) :: ?l) with ([I_bool (db_last_read d)] ++ l). rewrite run_bind with (x := db_last_read d) by item.
  destruct (beat_ok (db_read d)) eqn:B.
  - rewrite run_bind with (x := db_read d) by (apply reads_lastburst; [ exact T | rewrite E; exact C | exact B ]).
    apply bad_bind. apply bad_lastburst. exact H.
  - apply bad_bind. apply bad_lastburst. exact B.
Qed.
