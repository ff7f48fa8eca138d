(* Encoding puts every bit where the pattern says. *)
From Coq Require Import NArith List Bool Arith Lia.
From Verif Require Import Base Command Bits BusModel WaveSpec BitFacts PatternModel PatternTables PatternSpec.
Import ListNotations.
Local Open Scope N_scope.
Ltac Zify.zify_post_hook ::= idtac.

Lemma desc_eqb_spec a b : desc_eqb a b = true <-> a = b.
Proof.
  split.
  - destruct a, b; cbn; intros H; try discriminate; try reflexivity; apply Nat.eqb_eq in H; now subst.
  - intros <-. destruct a; cbn; try reflexivity; apply Nat.eqb_refl.
Qed.

Lemma bit32_low v k : (k < 32)%nat -> bit32 v k = N.testbit v (N.of_nat k).
Proof. intros H. unfold bit32. apply N.mod_pow2_bits_low. lia. Qed.

Lemma encode_bit_demanded o last c n d : match encode_bit o last c n d with Some v => v | None => false end = demanded o last c n d.
Proof.
  unfold demanded, encode_bit, apply_spec, ov_get, unset.
  assert (forall d, match match ov_find o d with Some s => s | None => SpecInvalid end with
     | SpecL => false | SpecH => true | SpecLast => N.testbit last (N.of_nat n) | SpecInvalid => false end =
     match ov_find o d with Some SpecL => false | Some SpecH => true | Some SpecLast => N.testbit last (N.of_nat n) | Some SpecInvalid | None => false end) as H0
    by (intros e; destruct (ov_find o e) as [[]|]; reflexivity).
  destruct d as [| | | |k|k|k|k|k|k| |]; cbn [settable addr]; try reflexivity.
  - destruct (ov_find o DV) as [[]|]; reflexivity.
  - destruct (ov_find o DX) as [[]|]; reflexivity.
  - destruct (Nat.leb_spec k 2); [|reflexivity]. apply bit32_low. lia.
  - destruct (Nat.leb_spec k 8); [|reflexivity]. apply bit32_low. lia.
  - destruct (Nat.leb k 4 || Nat.eqb k 10) eqn:E.
    + assert (k <= 16)%nat as Hk by (apply orb_true_iff in E as [E|E]; [apply Nat.leb_le in E|apply Nat.eqb_eq in E]; lia).
      rewrite (proj2 (Nat.leb_le k 16) Hk). rewrite bit32_low by lia. destruct (ov_find o (DC k)) as [[]|]; reflexivity.
    + destruct (Nat.leb_spec k 16); [|reflexivity]. apply bit32_low. lia.
  - destruct (Nat.leb_spec k 17); [|reflexivity]. apply bit32_low. lia.
  - destruct (ov_find o (DCID k)) as [[]|]; reflexivity.
  - destruct (ov_find o DAP) as [[]|]; reflexivity.
  - destruct (ov_find o DBL) as [[]|]; reflexivity.
Qed.

Lemma put_bit_spec w n v j : N.testbit (put_bit w n v) (N.of_nat j) = if Nat.eqb n j then v else N.testbit w (N.of_nat j).
Proof.
  unfold put_bit. destruct v.
  - rewrite N.setbit_eqb. destruct (Nat.eqb_spec n j) as [->|H]; [now rewrite N.eqb_refl|]. rewrite (proj2 (N.eqb_neq _ _)) by lia. reflexivity.
  - rewrite N.clearbit_eqb. destruct (Nat.eqb_spec n j) as [->|H]; [now rewrite N.eqb_refl, andb_false_r|]. rewrite (proj2 (N.eqb_neq _ _)) by lia. apply andb_true_r.
Qed.

(* Descriptor i is at bit position |p| - 1 - i. *)
Definition bit_at {A} (p : list A) (j : nat) : option A := if Nat.ltb j (length p) then nth_error p (length p - 1 - j) else None.
Lemma bit_at_cons {A} (d : A) r j : bit_at (d :: r) j = if Nat.eqb (length r) j then Some d else bit_at r j.
Proof.
  unfold bit_at. cbn [length]. destruct (Nat.eqb_spec (length r) j) as [<-|H].
  - rewrite (proj2 (Nat.ltb_lt _ _)) by lia. replace (S (length r) - 1 - length r)%nat with 0%nat by lia. reflexivity.
  - destruct (Nat.ltb_spec j (S (length r))), (Nat.ltb_spec j (length r)); try lia; [|reflexivity].
    replace (S (length r) - 1 - j)%nat with (S (length r - 1 - j)) by lia. reflexivity.
Qed.
Lemma bit_at_index {A} (p : list A) i : (i < length p)%nat -> bit_at p (length p - 1 - i) = nth_error p i.
Proof. intros H. unfold bit_at. rewrite (proj2 (Nat.ltb_lt _ _)) by lia. f_equal. lia. Qed.
Lemma bit_at_none {A} (p : list A) j : (length p <= j)%nat -> bit_at p j = None.
Proof. intros H. unfold bit_at. now rewrite (proj2 (Nat.ltb_ge _ _)). Qed.

Lemma encode_loop_spec o last c : forall p w, (forall j, (j < length p)%nat -> N.testbit w (N.of_nat j) = false) -> forall j,
  N.testbit (encode_loop o last c p w) (N.of_nat j) = match bit_at p j with Some d => demanded o last c j d | None => N.testbit w (N.of_nat j) end.
Proof.
  induction p as [|d r IH]; intros w Hw j; [reflexivity|]. cbn [encode_loop]. rewrite bit_at_cons.
  set (w' := match encode_bit o last c (length r) d with Some v => put_bit w (length r) v | None => w end).
  assert (forall k, N.testbit w' (N.of_nat k) = if Nat.eqb (length r) k then demanded o last c (length r) d else N.testbit w (N.of_nat k)) as Hw'.
  { intros k. unfold w'. pose proof (encode_bit_demanded o last c (length r) d) as Hd. destruct (encode_bit o last c (length r) d).
    - rewrite put_bit_spec, Hd. reflexivity.
    - destruct (Nat.eqb_spec (length r) k) as [<-|]; [|reflexivity]. rewrite <- Hd. apply Hw. cbn [length]. lia. }
  rewrite IH.
  - destruct (Nat.eqb_spec (length r) j) as [<-|H].
    + rewrite bit_at_none by lia. now rewrite Hw', Nat.eqb_refl.
    + destruct (bit_at r j); [reflexivity|]. rewrite Hw'. now rewrite (proj2 (Nat.eqb_neq _ _) H).
  - intros k Hk. rewrite Hw'. destruct (Nat.eqb_spec (length r) k); [lia|]. apply Hw. cbn [length]. lia.
Qed.

Theorem encode_places o last c p w : encode o last c p = Value w ->
  (forall i d, nth_error p i = Some d -> N.testbit w (N.of_nat (length p - 1 - i)) = demanded o last c (length p - 1 - i) d) /\
  (forall j, (length p <= j)%nat -> N.testbit w (N.of_nat j) = false).
Proof.
  unfold encode. destruct (Nat.ltb 0 (length p) && Nat.leb (length p) 64); [|discriminate]. intros E. injection E as <-.
  assert (forall j, N.testbit (encode_loop o last c p 0) (N.of_nat j) = match bit_at p j with Some d => demanded o last c j d | None => false end) as H.
  { intros j. rewrite encode_loop_spec by (intros; apply N.bits_0). destruct (bit_at p j); [reflexivity|apply N.bits_0]. }
  split.
  - intros i d Hi. assert (i < length p)%nat as Hl by (apply nth_error_Some; congruence). rewrite H, bit_at_index, Hi by assumption. reflexivity.
  - intros j Hj. now rewrite H, bit_at_none.
Qed.
Theorem encode_accepts o last c p : if Nat.ltb 0 (length p) && Nat.leb (length p) 64 then exists w, encode o last c p = Value w else encode o last c p = Fails Assertion.
Proof. unfold encode. destruct (Nat.ltb 0 (length p) && Nat.leb (length p) 64); [eexists; reflexivity|reflexivity]. Qed.

(* On the bus: beat b, line j carries descriptor b * width + (width - 1 - j). *)
Lemma testbit_byte w i k : (k < 8)%nat -> N.testbit (N.land (N.shiftr w (8 * N.of_nat i)) 255) (N.of_nat k) = N.testbit w (N.of_nat (8 * i + k)).
Proof.
  intros H. rewrite N.land_spec. change 255 with (N.ones 8). rewrite N.ones_spec_low by lia. rewrite andb_true_r, N.shiftr_spec by lia. f_equal. lia.
Qed.
Lemma bytes_payload w n k : (k < 8 * n)%nat -> payload_bit (bytes_of_word n w) k = N.testbit w (N.of_nat k).
Proof.
  intros H. unfold payload_bit, bytes_of_word. pose proof (Nat.div_mod k 8 ltac:(lia)) as E. pose proof (Nat.mod_upper_bound k 8 ltac:(lia)) as B.
  assert (k / 8 < n)%nat as Hd by (apply Nat.div_lt_upper_bound; lia).
  set (f := fun i => N.land (N.shiftr w (8 * N.of_nat i)) 255).
  rewrite (nth_indep _ 0 (f 0%nat)) by (rewrite map_length, seq_length; assumption). rewrite map_nth, seq_nth by assumption. unfold f.
  rewrite testbit_byte by assumption. f_equal. f_equal. cbn [Nat.add]. lia.
Qed.
Theorem on_the_bus o last c p w width len : encode o last c p = Value w -> (0 < width)%nat -> length p = (len * width)%nat ->
  forall b j d, (b < len)%nat -> (j < width)%nat -> nth_error p (b * width + (width - 1 - j)) = Some d ->
  level (nth b (played width (bytes_of_word (Nat.div (len * width + 7) 8) w) (len * width)) 0) j =
  demanded o last c (length p - 1 - (b * width + (width - 1 - j))) d.
Proof.
  intros E Hw Hl b j d Hb Hj Hd. destruct (encode_places _ _ _ _ _ E) as [H _]. rewrite <- (H _ _ Hd). clear H.
  unfold played, payload_words. rewrite Nat.div_mul by lia. rewrite rev_nth by (rewrite map_length, seq_length; assumption).
  rewrite map_length, seq_length. set (f := fun i => word_of width _). rewrite (nth_indep _ 0 (f 0%nat)) by (rewrite map_length, seq_length; lia).
  rewrite map_nth, seq_nth by lia. unfold f. rewrite level_word_of, (proj2 (Nat.ltb_lt _ _) Hj). cbn [andb].
  assert (len = b + S (len - S b))%nat as Hlen by lia. set (r := (len - S b)%nat) in *. rewrite bytes_payload.
  - f_equal. f_equal. rewrite Hl. cbn [Nat.add]. rewrite Hlen. lia.
  - cbn [Nat.add]. pose proof (Nat.div_mod (len * width + 7) 8 ltac:(lia)). pose proof (Nat.mod_upper_bound (len * width + 7) 8 ltac:(lia)).
    assert (r * width + j < len * width)%nat by (rewrite Hlen; lia). lia.
Qed.

(* ---- injectivity ---- *)

(* No setting outside hid. *)
Definition within (hid : list desc) (o : overrides) : Prop := forall d, existsb (desc_eqb d) hid = false -> ov_find o d = None.
Definition same_field (f g : field) : bool :=
  match f, g with
  | Bank, Bank | BankGroup, BankGroup | Row, Row | Column, Column | SubChannel, SubChannel | DBankGroup, DBankGroup => true
  | _, _ => false
  end.
Lemma same_field_eq f g : same_field f g = true -> f = g.
Proof. destruct f, g; cbn; congruence. Qed.
(* An address bit that the pattern carries and no setting hides. *)
Definition carries (hid : list desc) (p : list desc) (f : field) (k : nat) : bool :=
  existsb (fun d => match addr d with
                    | Some (g, m) => same_field f g && Nat.eqb m k && (negb (settable d) || negb (existsb (desc_eqb d) hid))
                    | None => false
                    end) p.
Lemma carries_bit hid o o' last last' c c' p w : forall f k, within hid o -> within hid o' ->
  encode o last c p = Value w -> encode o' last' c' p = Value w -> carries hid p f k = true ->
  N.testbit (field_of c f) (N.of_nat k) = N.testbit (field_of c' f) (N.of_nat k).
Proof.
  intros f k W W' E E' H. apply existsb_exists in H as (d & Hin & H). apply In_nth_error in Hin as [i Hi].
  destruct (encode_places _ _ _ _ _ E) as [P _]. destruct (encode_places _ _ _ _ _ E') as [P' _]. specialize (P i d Hi). specialize (P' i d Hi).
  rewrite P in P'. clear P. destruct (addr d) as [[g m]|] eqn:Ea; [|discriminate]. apply andb_true_iff in H as [H Hs]. apply andb_true_iff in H as [Hg Hm].
  apply Nat.eqb_eq in Hm. subst m. apply same_field_eq in Hg. subst g.
  unfold demanded, unset in P'. rewrite Ea in P'. destruct (settable d); [|exact P'].
  cbn [negb orb] in Hs. apply negb_true_iff in Hs. rewrite (W d Hs), (W' d Hs) in P'. exact P'.
Qed.
Lemma same_low_bits k x y : (forall j, (j < k)%nat -> N.testbit x (N.of_nat j) = N.testbit y (N.of_nat j)) -> same_low k x y.
Proof.
  intros H. unfold same_low. apply N.bits_inj. intros j. destruct (N.lt_ge_cases j (N.of_nat k)) as [L|L].
  - rewrite !N.mod_pow2_bits_low by assumption. specialize (H (N.to_nat j)). rewrite N2Nat.id in H. apply H. lia.
  - now rewrite !N.mod_pow2_bits_high.
Qed.
Lemma carried_part c c' f lo n : (forall k, (k < n)%nat -> N.testbit (field_of c f) (N.of_nat (lo + k)) = N.testbit (field_of c' f) (N.of_nat (lo + k))) ->
  same_part c c' (f, lo, n).
Proof.
  intros H. cbn [same_part]. apply same_low_bits. intros j Hj. rewrite !N.div_pow2_bits. rewrite <- Nat2N.inj_add, Nat.add_comm. now apply H.
Qed.
Definition all_carried (hid : list desc) (p : list desc) (l : list (field * nat * nat)) : bool :=
  forallb (fun x => match x with (f, lo, n) => forallb (fun k => carries hid p f (lo + k)) (seq 0 n) end) l.
Theorem carried_fields hid o o' last last' c c' p w l : within hid o -> within hid o' ->
  encode o last c p = Value w -> encode o' last' c' p = Value w -> all_carried hid p l = true -> Forall (same_part c c') l.
Proof.
  intros W W' E E' H. apply Forall_forall. intros [[f lo] n] Hin. unfold all_carried in H. rewrite forallb_forall in H. specialize (H _ Hin). cbn in H.
  apply carried_part. intros k Hk. eapply carries_bit; [exact W|exact W'|exact E|exact E'|]. rewrite forallb_forall in H. apply H. apply in_seq. lia.
Qed.

(* Two patterns that disagree on a fixed level. *)
Fixpoint distinct (p q : list desc) : bool :=
  match p, q with
  | DH :: p, DL :: q | DL :: p, DH :: q => true
  | _ :: p, _ :: q => distinct p q
  | _, _ => false
  end.
Lemma distinct_at : forall p q, distinct p q = true -> exists i, (nth_error p i = Some DH /\ nth_error q i = Some DL) \/ (nth_error p i = Some DL /\ nth_error q i = Some DH).
Proof.
  induction p as [|d p IH]; intros [|e q] H; try discriminate; [destruct d; discriminate|].
  assert (distinct p q = true -> exists i, (nth_error (d :: p) i = Some DH /\ nth_error (e :: q) i = Some DL) \/ (nth_error (d :: p) i = Some DL /\ nth_error (e :: q) i = Some DH)) as Hr
    by (intros X; destruct (IH q X) as [i Hi]; exists (S i); exact Hi).
  destruct d, e; cbn [distinct] in H; try (now apply Hr); exists 0%nat; cbn; auto.
Qed.
Theorem distinct_words o last c p w o' last' c' q w' : encode o last c p = Value w -> encode o' last' c' q = Value w' ->
  length p = length q -> distinct p q = true -> w <> w'.
Proof.
  intros E E' Hl H ->. destruct (distinct_at p q H) as [i [[Hp Hq]|[Hp Hq]]];
    destruct (encode_places _ _ _ _ _ E) as [P _]; destruct (encode_places _ _ _ _ _ E') as [Q _]; specialize (P _ _ Hp); specialize (Q _ _ Hq);
    rewrite Hl in P; rewrite P in Q; cbn in Q; discriminate.
Qed.

(* ---- LPDDR6 ---- *)

Lemma encode6_bit_demanded e c d v : ex_groups e = 4 -> encode6_bit e c d = Value v -> match v with Some b => b | None => false end = demanded6 e c d.
Proof.
  intros Hg. destruct d as [| | | |k|k|k|[|k]|k| | |]; cbn [encode6_bit demanded6 addr6]; try (intros E; injection E as <-; reflexivity).
  - rewrite Hg. intros E. injection E as <-. reflexivity.
  - destruct ((ex_burst e =? 24) || (ex_burst e =? 48)); [|discriminate]. intros E. injection E as <-. reflexivity.
Qed.
Lemma encode6_loop_spec e c : ex_groups e = 4 -> forall p w r, encode6_loop e c p w = Value r ->
  (forall j, (j < length p)%nat -> N.testbit w (N.of_nat j) = false) -> forall j,
  N.testbit r (N.of_nat j) = match bit_at p j with Some d => demanded6 e c d | None => N.testbit w (N.of_nat j) end.
Proof.
  intros Hg. induction p as [|d p IH]; intros w r E Hw j; [injection E as <-; reflexivity|]. cbn [encode6_loop] in E.
  destruct (encode6_bit e c d) as [b|] eqn:Eb; [|discriminate]. cbn [bind] in E. rewrite bit_at_cons.
  set (w' := match b with Some v => put_bit w (length p) v | None => w end) in *.
  assert (forall k, N.testbit w' (N.of_nat k) = if Nat.eqb (length p) k then demanded6 e c d else N.testbit w (N.of_nat k)) as Hw'.
  { intros k. unfold w'. pose proof (encode6_bit_demanded e c d b Hg Eb) as Hd. destruct b.
    - rewrite put_bit_spec, Hd. reflexivity.
    - destruct (Nat.eqb_spec (length p) k) as [<-|]; [|reflexivity]. rewrite <- Hd. apply Hw. cbn [length]. lia. }
  rewrite (IH w' r E).
  - destruct (Nat.eqb_spec (length p) j) as [<-|H].
    + rewrite bit_at_none by lia. now rewrite Hw', Nat.eqb_refl.
    + destruct (bit_at p j); [reflexivity|]. rewrite Hw'. now rewrite (proj2 (Nat.eqb_neq _ _) H).
  - intros k Hk. rewrite Hw'. destruct (Nat.eqb_spec (length p) k); [lia|]. apply Hw. cbn [length]. lia.
Qed.
(* The parity branch is dead for patterns whose third entry is not PAR. *)
Theorem encode6_places e c p w : ex_groups e = 4 -> encode6 e c p = Value w -> nth_error p 2 <> Some EPAR ->
  (forall i d, nth_error p i = Some d -> N.testbit w (N.of_nat (length p - 1 - i)) = demanded6 e c d) /\
  (forall j, (length p <= j)%nat -> N.testbit w (N.of_nat j) = false).
Proof.
  intros Hg E Hp. unfold encode6 in E. rewrite Hg in E. cbn [N.eqb] in E.
  destruct (co_dbank c mod 4 =? 0); [|discriminate]. cbn [check] in E. destruct (Nat.ltb 0 (length p) && Nat.leb (length p) 64); [|discriminate]. cbn [check] in E.
  destruct (encode6_loop e c p 0) as [r|] eqn:El; [|discriminate]. cbn [bind] in E.
  assert (r = w) as ->.
  { destruct (ex_parity e); [|now injection E as <-]. destruct (nth_error p 2) as [d|]; [|discriminate]. destruct d; cbn [is_par] in E; try (now injection E as <-); congruence. }
  assert (forall j, N.testbit w (N.of_nat j) = match bit_at p j with Some d => demanded6 e c d | None => false end) as H.
  { intros j. rewrite (encode6_loop_spec e c Hg p 0 w El) by (intros; apply N.bits_0). destruct (bit_at p j); [reflexivity|apply N.bits_0]. }
  split.
  - intros i d Hi. assert (i < length p)%nat as Hl by (apply nth_error_Some; congruence). rewrite H, bit_at_index, Hi by assumption. reflexivity.
  - intros j Hj. now rewrite H, bit_at_none.
Qed.

Lemma command_pattern_encode o m last t c w h : command_pattern (mkHandler o m last) t c = Value (w, h) -> m t <> [] /\ encode o last c (m t) = Value w.
Proof.
  unfold command_pattern. cbn [ph_over ph_map ph_last]. destruct (m t) as [|d p]; [discriminate|]. intros E. split; [discriminate|].
  destruct (encode o last c (d :: p)) as [r|]; [|discriminate]. cbn [bind] in E. congruence.
Qed.
Lemma all_types t : In t all_cmd_types \/ t = COUNT.
Proof. destruct t; cbn; intuition. Qed.

(* Everything the tables of one standard must satisfy. *)
Definition table_ok (hid : list desc) (m : CmdType -> list desc) (table : CmdType -> list (field * nat * nat)) : bool :=
  forallb (fun t => all_carried hid (m t) (table t)) (COUNT :: all_cmd_types).
Definition types_ok (m : CmdType -> list desc) (classes : list (list CmdType)) : bool :=
  forallb (fun t => forallb (fun t' =>
    alike classes t t' || distinct (m t) (m t') || negb (Nat.eqb (length (m t)) (length (m t'))) || Nat.eqb (length (m t)) 0) (COUNT :: all_cmd_types)) (COUNT :: all_cmd_types).
Definition alike_ok (m : CmdType -> list desc) (classes : list (list CmdType)) : Prop :=
  Forall (fun l => forall t t', In t l -> In t' l -> m t = m t') classes.

Theorem addresses_kept hid m table : table_ok hid m table = true -> forall o o' last last' t c c' w h h', within hid o -> within hid o' ->
  command_pattern (mkHandler o m last) t c = Value (w, h) -> command_pattern (mkHandler o' m last') t c' = Value (w, h') ->
  Forall (same_part c c') (table t).
Proof.
  intros T o o' last last' t c c' w h h' W W' E E'. apply command_pattern_encode in E as [_ E]. apply command_pattern_encode in E' as [_ E'].
  eapply carried_fields; [exact W|exact W'|exact E|exact E'|]. unfold table_ok in T. rewrite forallb_forall in T. apply T.
  destruct (all_types t) as [H| ->]; [now right|now left].
Qed.
Theorem types_kept m classes : types_ok m classes = true -> forall o o' last last' t t' c c' w h h',
  command_pattern (mkHandler o m last) t c = Value (w, h) -> command_pattern (mkHandler o' m last') t' c' = Value (w, h') ->
  length (m t) = length (m t') -> alike classes t t' = true.
Proof.
  intros T o o' last last' t t' c c' w h h' E E' Hl. apply command_pattern_encode in E as [Hn E]. apply command_pattern_encode in E' as [_ E'].
  unfold types_ok in T. rewrite forallb_forall in T. assert (forall t, In t (COUNT :: all_cmd_types)) as A by (intros x; destruct (all_types x) as [H| ->]; [now right|now left]).
  specialize (T t (A t)). rewrite forallb_forall in T. specialize (T t' (A t')).
  apply orb_true_iff in T as [T|T]; [apply orb_true_iff in T as [T|T]; [apply orb_true_iff in T as [T|T]|]|].
  - exact T.
  - exfalso. now apply (distinct_words _ _ _ _ _ _ _ _ _ _ E E' Hl T).
  - rewrite Hl, Nat.eqb_refl in T. discriminate.
  - apply Nat.eqb_eq in T. now apply length_zero_iff_nil in T.
Qed.
(* Conversely the types of one class are encoded alike. *)
Theorem alike_same m t t' o last c : m t = m t' -> command_pattern (mkHandler o m last) t c = command_pattern (mkHandler o m last) t' c.
Proof. intros H. unfold command_pattern. cbn [ph_over ph_map ph_last]. now rewrite H. Qed.

(* The settings the interfaces reach. *)
Lemma desc_eqb_refl d : desc_eqb d d = true. Proof. now apply desc_eqb_spec. Qed.
Lemma desc_eqb_sym a b : desc_eqb a b = desc_eqb b a.
Proof. destruct (desc_eqb a b) eqn:E, (desc_eqb b a) eqn:F; try reflexivity; [apply desc_eqb_spec in E|apply desc_eqb_spec in F]; subst; rewrite desc_eqb_refl in *; discriminate. Qed.
Lemma find_assign o d s e : ov_find (ov_assign o d s) e = if desc_eqb d e then Some s else ov_find o e.
Proof.
  induction o as [|[k t] o IH]; [reflexivity|]. cbn [ov_assign]. destruct (desc_eqb k d) eqn:E.
  - apply desc_eqb_spec in E. subst. cbn [ov_find]. destruct (desc_eqb d e); reflexivity.
  - cbn [ov_find]. rewrite IH. destruct (desc_eqb k e) eqn:F; [|reflexivity]. apply desc_eqb_spec in F. subst. now rewrite desc_eqb_sym, E.
Qed.
Lemma find_remove o d e : ov_find (ov_remove o d) e = if desc_eqb d e then None else ov_find o e.
Proof.
  unfold ov_remove. induction o as [|[k t] o IH]; cbn [filter fst]; [cbn; now destruct (desc_eqb d e)|]. destruct (desc_eqb k d) eqn:E; cbn [negb].
  - rewrite IH. apply desc_eqb_spec in E. subst. cbn [ov_find]. destruct (desc_eqb d e); reflexivity.
  - cbn [ov_find]. rewrite IH. destruct (desc_eqb k e) eqn:F; [|reflexivity]. apply desc_eqb_spec in F. subst. now rewrite desc_eqb_sym, E.
Qed.
Lemma within_assign hid o d s : existsb (desc_eqb d) hid = true -> within hid o -> within hid (ov_assign o d s).
Proof.
  intros H W e He. rewrite find_assign. destruct (desc_eqb d e) eqn:E; [|now apply W]. apply desc_eqb_spec in E. subst. congruence.
Qed.
Lemma within_update hid l : forallb (fun e => existsb (desc_eqb (fst e)) hid) l = true -> forall o, within hid o -> within hid (ov_update o l).
Proof.
  induction l as [|[d s] l IH]; cbn [forallb fst]; intros H o W; [exact W|]. apply andb_true_iff in H as [H1 H2]. unfold ov_update. cbn [fold_left fst snd].
  apply IH; [exact H2|]. now apply within_assign.
Qed.
Lemma within_remove hid o d : within hid o -> within hid (ov_remove o d).
Proof. intros W e He. rewrite find_remove. destruct (desc_eqb d e); [reflexivity|now apply W]. Qed.
Lemma within_list hid o : forallb (fun e => existsb (desc_eqb (fst e)) hid) o = true -> within hid o.
Proof.
  induction o as [|[k s] o IH]; intros H d Hd; [reflexivity|]. cbn [forallb fst] in H. apply andb_true_iff in H as [H1 H2]. cbn [ov_find].
  destruct (desc_eqb k d) eqn:E; [|now apply IH]. apply desc_eqb_spec in E. subst. congruence.
Qed.
Lemma within_settings hid o0 f : within hid o0 -> (forall o len read, within hid o -> within hid (f o len read)) -> forall o, settings o0 f o -> within hid o.
Proof. intros H0 Hf o H. induction H; [exact H0|now apply Hf]. Qed.
Ltac within_tac := repeat match goal with
  | |- within _ (if ?b then _ else _) => destruct b
  | |- within _ (ov_update _ _) => apply within_update; [reflexivity|]
  | |- within _ (ov_remove _ _) => apply within_remove
  | H : within _ ?o |- within _ ?o => exact H
  end.
Definition ddr4_hid := [DV; DX; DC 0; DC 1; DC 2].
Definition ddr5_hid := [DV; DX; DC 0; DC 1; DC 2; DC 3; DC 10].
Definition lpddr4_hid := [DC 0; DC 1; DC 2; DC 3; DC 4; DBL].
Definition lpddr5_hid := [DC 0].
Lemma ddr4_within o : settings (ph_over ddr4_handler) ddr4_overrides o -> within ddr4_hid o.
Proof. apply within_settings; [apply within_list; reflexivity|]. intros. unfold ddr4_overrides. within_tac. Qed.
Lemma ddr5_within o : settings (ph_over ddr5_handler) ddr5_overrides o -> within ddr5_hid o.
Proof. apply within_settings; [apply within_list; reflexivity|]. intros. unfold ddr5_overrides. cbv zeta. within_tac. Qed.
Lemma lpddr4_within o : settings (ph_over lpddr4_handler) lpddr4_overrides o -> within lpddr4_hid o.
Proof. apply within_settings; [apply within_list; reflexivity|]. intros. unfold lpddr4_overrides. within_tac. Qed.
Lemma lpddr5_within a o : settings (ph_over (lpddr5_handler a)) lpddr5_overrides o -> within lpddr5_hid o.
Proof. apply within_settings; [apply within_list; reflexivity|]. intros. unfold lpddr5_overrides. within_tac. Qed.

(* The tables, by computation over the finitely many command types. *)
Lemma ddr4_tables : table_ok ddr4_hid ddr4_patterns ddr4_carried = true /\ types_ok ddr4_patterns ddr4_alike = true.
Proof. split; vm_compute; reflexivity. Qed.
Lemma ddr5_tables : table_ok ddr5_hid ddr5_patterns ddr5_carried = true /\ types_ok ddr5_patterns ddr5_alike = true.
Proof. split; vm_compute; reflexivity. Qed.
Lemma lpddr4_tables : table_ok lpddr4_hid lpddr4_patterns lpddr4_carried = true /\ types_ok lpddr4_patterns [] = true.
Proof. split; vm_compute; reflexivity. Qed.
Lemma lpddr5_tables a : table_ok lpddr5_hid (lpddr5_patterns a) (lpddr5_carried a) = true /\ types_ok (lpddr5_patterns a) lpddr5_alike = true.
Proof. destruct a; split; vm_compute; reflexivity. Qed.

(* ---- LPDDR6 injectivity ---- *)

Definition carries6 (p : list desc6) (f : field) (k : nat) : bool :=
  existsb (fun d => match d with EC O => false | _ => match addr6 d with Some (g, m) => same_field f g && Nat.eqb m k | None => false end end) p.
Definition all_carried6 (p : list desc6) (l : list (field * nat * nat)) : bool :=
  forallb (fun x => match x with (f, lo, n) => forallb (fun k => carries6 p f (lo + k)) (seq 0 n) end) l.
Lemma command_pattern6_encode e m last t c w h : command_pattern6 (mkHandler6 e m last) t c = Value (w, h) -> m t <> [] /\ encode6 e c (m t) = Value w.
Proof.
  unfold command_pattern6. cbn [p6_extra p6_map p6_last]. destruct (m t) as [|d p]; [discriminate|]. intros E. split; [discriminate|].
  destruct (encode6 e c (d :: p)) as [r|]; [|discriminate]. cbn [bind] in E. congruence.
Qed.
Lemma lpddr6_no_parity t : nth_error (lpddr6_patterns t) 2 <> Some EPAR.
Proof. destruct t; discriminate. Qed.
Lemma places6 e last t c w h : ex_groups e = 4 -> command_pattern6 (mkHandler6 e lpddr6_patterns last) t c = Value (w, h) ->
  lpddr6_patterns t <> [] /\
  (forall i d, nth_error (lpddr6_patterns t) i = Some d -> N.testbit w (N.of_nat (length (lpddr6_patterns t) - 1 - i)) = demanded6 e c d).
Proof.
  intros Hg E. apply command_pattern6_encode in E as [Hn E]. split; [exact Hn|]. apply (encode6_places e c _ w Hg E (lpddr6_no_parity t)).
Qed.
Lemma lpddr6_agree e e' last last' t c c' w h h' d : ex_groups e = 4 -> ex_groups e' = 4 ->
  command_pattern6 (mkHandler6 e lpddr6_patterns last) t c = Value (w, h) -> command_pattern6 (mkHandler6 e' lpddr6_patterns last') t c' = Value (w, h') ->
  In d (lpddr6_patterns t) -> demanded6 e c d = demanded6 e' c' d.
Proof.
  intros G G' E E' Hin. apply places6 in E as [_ P]; [|exact G]. apply places6 in E' as [_ P']; [|exact G']. apply In_nth_error in Hin as [i Hi].
  rewrite <- (P i d Hi). now apply P'.
Qed.
Theorem lpddr6_addresses e e' last last' t c c' w h h' : ex_groups e = 4 -> ex_groups e' = 4 ->
  command_pattern6 (mkHandler6 e lpddr6_patterns last) t c = Value (w, h) -> command_pattern6 (mkHandler6 e' lpddr6_patterns last') t c' = Value (w, h') ->
  Forall (same_part c c') (lpddr6_carried t) /\
  (In ESC (lpddr6_patterns t) -> (co_sub c =? 1) = (co_sub c' =? 1)) /\
  (In EBL (lpddr6_patterns t) -> (ex_burst e =? 24) = (ex_burst e' =? 24) /\ (ex_burst e = 24 -> same_part c c' (Column, 0%nat, 6%nat))).
Proof.
  intros G G' E E'. pose proof (fun d => lpddr6_agree e e' last last' t c c' w h h' d G G' E E') as A.
  assert (forall f k, carries6 (lpddr6_patterns t) f k = true -> N.testbit (field_of c f) (N.of_nat k) = N.testbit (field_of c' f) (N.of_nat k)) as B.
  { intros f k H. apply existsb_exists in H as (d & Hin & H). specialize (A d Hin). destruct d as [| | | |j|j|j|[|j]|j| | |]; cbn [addr6] in H; try discriminate H;
      apply andb_true_iff in H as [H1 H2]; apply same_field_eq in H1; apply Nat.eqb_eq in H2; subst f k; exact A. }
  assert (Forall (same_part c c') (lpddr6_carried t)) as F.
  { assert (all_carried6 (lpddr6_patterns t) (lpddr6_carried t) = true) as T by (destruct t; vm_compute; reflexivity).
    apply Forall_forall. intros [[f lo] n] Hin. unfold all_carried6 in T. rewrite forallb_forall in T. specialize (T _ Hin). cbn in T.
    apply carried_part. intros k Hk. apply B. rewrite forallb_forall in T. apply T. apply in_seq. lia. }
  split; [exact F|]. split; [intros H; exact (A ESC H)|]. intros H. pose proof (A EBL H) as Hb. cbn [demanded6] in Hb. split; [exact Hb|].
  intros H24. apply carried_part. intros k Hk. cbn [Nat.add].
  assert (In (EC 0) (lpddr6_patterns t) /\ forallb (fun k => carries6 (lpddr6_patterns t) Column (1 + k)) (seq 0 5) = true) as [H0 H1].
  { destruct t; cbn in H; try (repeat (destruct H as [H|H]; [discriminate H|]); contradiction H); (split; [cbn; tauto|vm_compute; reflexivity]). }
  destruct k as [|k].
  - pose proof (A (EC 0) H0) as A0. cbn [demanded6] in A0. rewrite <- Hb, H24 in A0. exact A0.
  - apply B. rewrite forallb_forall in H1. apply (H1 k). apply in_seq. lia.
Qed.

Definition low6 (d : desc6) : option bool := match d with EH => Some true | EL | EV | EX | EPAR => Some false | _ => None end.
Fixpoint distinct6 (p q : list desc6) : bool :=
  match p, q with
  | a :: p, b :: q => match low6 a, low6 b with Some x, Some y => xorb x y | _, _ => false end || distinct6 p q
  | _, _ => false
  end.
Lemma distinct6_at : forall p q, distinct6 p q = true -> exists i a b x y, nth_error p i = Some a /\ nth_error q i = Some b /\ low6 a = Some x /\ low6 b = Some y /\ xorb x y = true.
Proof.
  induction p as [|a p IH]; intros [|b q] H; try discriminate. cbn [distinct6] in H. apply orb_true_iff in H as [H|H].
  - destruct (low6 a) as [x|] eqn:Ea; [|discriminate]. destruct (low6 b) as [y|] eqn:Eb; [|discriminate]. exists 0%nat, a, b, x, y. cbn. auto.
  - destruct (IH q H) as (i & r). exists (S i). exact r.
Qed.
Lemma low6_demanded e c d x : low6 d = Some x -> demanded6 e c d = x.
Proof. destruct d; cbn; congruence. Qed.
Definition types_ok6 (classes : list (list CmdType)) : bool :=
  forallb (fun t => forallb (fun t' =>
    alike classes t t' || distinct6 (lpddr6_patterns t) (lpddr6_patterns t') || negb (Nat.eqb (length (lpddr6_patterns t)) (length (lpddr6_patterns t')))
    || Nat.eqb (length (lpddr6_patterns t)) 0) (COUNT :: all_cmd_types)) (COUNT :: all_cmd_types).
Theorem lpddr6_types e e' last last' t t' c c' w h h' : ex_groups e = 4 -> ex_groups e' = 4 ->
  command_pattern6 (mkHandler6 e lpddr6_patterns last) t c = Value (w, h) -> command_pattern6 (mkHandler6 e' lpddr6_patterns last') t' c' = Value (w, h') ->
  length (lpddr6_patterns t) = length (lpddr6_patterns t') -> alike lpddr6_alike t t' = true.
Proof.
  intros G G' E E' Hl. apply places6 in E as [Hn P]; [|exact G]. apply places6 in E' as [_ P']; [|exact G'].
  assert (types_ok6 lpddr6_alike = true) as T by (vm_compute; reflexivity).
  unfold types_ok6 in T. rewrite forallb_forall in T. assert (forall t, In t (COUNT :: all_cmd_types)) as A by (intros x; destruct (all_types x) as [H| ->]; [now right|now left]).
  specialize (T t (A t)). rewrite forallb_forall in T. specialize (T t' (A t')).
  apply orb_true_iff in T as [T|T]; [apply orb_true_iff in T as [T|T]; [apply orb_true_iff in T as [T|T]|]|].
  - exact T.
  - exfalso. destruct (distinct6_at _ _ T) as (i & a & b & x & y & Ha & Hb & Hx & Hy & Hxy). specialize (P _ _ Ha). specialize (P' _ _ Hb). rewrite Hl in P. rewrite P in P'.
    rewrite (low6_demanded _ _ _ _ Hx), (low6_demanded _ _ _ _ Hy) in P'. subst. rewrite xorb_nilpotent in Hxy. discriminate.
  - rewrite Hl, Nat.eqb_refl in T. discriminate.
  - apply Nat.eqb_eq in T. now apply length_zero_iff_nil in T.
Qed.

(* In a series of commands the last pattern is the word of the command before. *)
Theorem run_places cs : forall h ws, pattern_run h cs = Value ws -> length ws = length cs /\
  forall k t c, nth_error cs k = Some (t, c) -> forall i d, nth_error (ph_map h t) i = Some d ->
    N.testbit (nth k ws 0) (N.of_nat (length (ph_map h t) - 1 - i)) =
    demanded (ph_over h) (match k with O => ph_last h | S j => nth j ws 0 end) c (length (ph_map h t) - 1 - i) d.
Proof.
  induction cs as [|[t c] r IH]; intros h ws E; cbn [pattern_run] in E.
  - injection E as <-. split; [reflexivity|]. intros [|k] t c H; discriminate.
  - destruct (command_pattern h t c) as [[w h1]|] eqn:C; [|discriminate]. cbn [bind fst snd] in E.
    destruct (pattern_run h1 r) as [vs|] eqn:R; [|discriminate]. cbn [bind] in E. injection E as <-.
    assert (ph_map h1 = ph_map h /\ ph_over h1 = ph_over h /\ ph_last h1 = w /\ encode (ph_over h) (ph_last h) c (ph_map h t) = Value w) as (M & O & L & W).
    { unfold command_pattern in C. destruct (ph_map h t) as [|x p] eqn:P; [discriminate|]. destruct (encode (ph_over h) (ph_last h) c (x :: p)) as [v|] eqn:F; [|discriminate].
      cbn [bind] in C. injection C as <- <-. auto. }
    destruct (IH h1 vs R) as [Len IH']. split; [cbn; now rewrite Len|]. intros [|k] t' c' H i d Hi.
    + injection H as -> ->. exact (proj1 (encode_places _ _ _ _ _ W) i d Hi).
    + cbn [nth_error nth] in *. rewrite <- M, <- O in *. rewrite (IH' k t' c' H i d Hi). destruct k; [now rewrite L|reflexivity].
Qed.
