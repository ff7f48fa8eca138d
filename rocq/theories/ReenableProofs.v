(* A bus that is switched off and on again. *)
From Coq Require Import NArith ZArith Lia List Bool.
From Verif Require Import Base Bits BusModel WaveSpec BitFacts StorageProofs BusProofs BusMore.
Import ListNotations.
Local Open Scope N_scope.
Ltac Zify.zify_post_hook ::= idtac.

Lemma disable_shape b t b' x : b_enabled b = true -> bus_disable b t = Value (b', x) ->
  b_enabled b' = false /\ b_disabled_at b' = u64_mul t (b_datarate b) /\ b_last_load b' = u64_mul t (b_datarate b) /\ storage_end (b_store b') = 0 /\ bc_count (b_store b') = 0%nat /\
  b_idle_stats b' = b_idle_stats b /\ b_datarate b' = b_datarate b /\ pd_set (b_pending b') && (pd_time (b_pending b') <? u64_mul t (b_datarate b)) = false.
Proof.
  intros On H. unfold bus_disable in H. rewrite On in H. unfold check at 1 in H. destruct (b_last_load b <=? _); [|discriminate].
  unfold add_previous_stats, check in H. destruct (pd_time _ <=? _) in H; [|discriminate]. cbn [with_enable b_pending b_stats b_last] in H.
  destruct (advance_stats _ _ _) in H; [|discriminate]. cbn [bind] in H.
  destruct (if 0 <? _ then _ else _) in H; [|discriminate]. cbn [bind] in H. cbn [with_store with_stats b_datarate with_enable] in H. destruct (b_datarate b =? 0); [discriminate|].
  injection H as <- _. do 7 (split; [reflexivity|]). cbn.
  destruct (pd_set (b_pending b) && (pd_time (b_pending b) <? u64_mul t (b_datarate b))) eqn:D; [reflexivity|exact D].
Qed.
Lemma idle_wave width idle n : wave_stats width idle [] n = sum_beats (fun _ => beat_stats width idle idle) (N.to_nat n).
Proof.
  unfold wave_stats. generalize (N.to_nat n). intros k. induction k as [|k IH]; [reflexivity|]. cbn [sum_beats]. rewrite IH. f_equal. unfold wire_before, wire. cbn. now destruct (N.of_nat k =? 0).
Qed.
Lemma sub_one v : 0 < v -> v < two64 -> u64_sub (u64_sub v 0) 1 = v - 1.
Proof.
  intros P L. unfold u64_sub. rewrite N.mod_0_l by exact two64_pos. rewrite (N.mod_small 1) by reflexivity.
  replace (v + two64 - 0) with (v + 1 * two64) by lia. rewrite N.mod_add, (N.mod_small v) by (lia || exact two64_pos).
  replace (v + two64 - 1) with (v - 1 + 1 * two64) by lia. rewrite N.mod_add, N.mod_small by (lia || exact two64_pos). reflexivity.
Qed.
Lemma advance_empty b vt S width idle : storage_end (b_store b) = 0 -> b_idle_stats b = bus_diff width idle idle -> N.of_nat width < two64 -> bounded width idle -> 0 < vt -> vt < two64 ->
  advance_stats b vt (wrap_stats S) = Value (wrap_stats (add_exact S (wave_stats width idle [] (vt - 1)))).
Proof.
  intros E I W B P L. unfold advance_stats. rewrite E. replace (N.min 0 vt) with 0 by lia. cbn [N.eqb loop bind]. rewrite andb_false_r. cbn [bind].
  destruct (N.ltb_spec 0 vt); [|lia]. rewrite I, bus_diff_beat by auto. rewrite stats_mul_wrap, stats_add_wrap, sub_one by lia. f_equal. f_equal. f_equal.
  rewrite idle_wave. symmetry. rewrite (sum_beats_const (beat_stats width idle idle)) by auto. f_equal. lia.
Qed.
Theorem reenabled max width rate high ls t t2 :
  (0 < width <= max)%nat -> N.of_nat width < two64 -> 0 < rate -> Forall (load_ok width rate) ls -> well_timed width rate 0 ls ->
  last_start rate ls < t * rate -> t < t2 -> t2 * rate < two64 ->
  exists b b' b2, bus_after max width rate high ls = Value b /\ bus_disable b t = Value (b', t) /\ bus_enable b' t2 = Value b2 /\
    (forall data n_bits, bus_load b2 t2 data n_bits = Fails Assertion) /\
    forall u, u * rate < two64 ->
      (u < t2 -> bus_get_stats b2 u = Fails Assertion) /\
      (t2 < u -> bus_get_stats b2 u = Value (wrap_stats (add_exact (wave_stats width (idle_word width high) (map (drive_of width rate) ls) (t * rate)) (wave_stats width (idle_word width high) [] (u * rate))))) /\
      (u = t2 -> bus_get_stats b2 u = Value (wrap_stats (add_exact (wave_stats width (idle_word width high) (map (drive_of width rate) ls) (t * rate)) (wave_stats width (idle_word width high) [] (u * rate - 1))))).
Proof.
  intros Hw H64 Hr F T Ht Lt Ht64. assert (t * rate < t2 * rate) as Ltr by (apply N.mul_lt_mono_pos_r; assumption).
  destruct (bus_after_inv max width rate high ls Hw H64 Hr F T) as [b [E B]].
  destruct (disable_ok max width rate _ ls b t Hw H64 Hr (word_of_bound _ _) B Ht ltac:(lia)) as [b' [E' [Off [R D]]]].
  destruct (disable_shape _ _ _ _ (bi_on _ _ _ _ _ _ B) E') as (_ & Da & Ll & Se & Ct & Is & Dr & Pd). rewrite (bi_rate _ _ _ _ _ _ B) in *.
  assert (forall v, v * rate < two64 -> u64_mul v rate = v * rate) as M by (intros v Hv; unfold u64_mul; apply N.mod_small; exact Hv).
  rewrite M in * by lia. destruct (D t (N.le_refl t) ltac:(lia)) as [G _]. unfold bus_get_stats in G. rewrite R, M, Ll, Off, Pd in G by lia. unfold check in G. rewrite N.leb_refl in G.
  destruct (N.eqb_spec (t * rate) 0); [lia|]. injection G as G.
  exists b, b'. unfold bus_enable. rewrite Off, R, M, Da by lia. unfold check at 1. destruct (N.ltb_spec (t * rate) (t2 * rate)); [|lia].
  eexists. split; [exact E|]. split; [exact E'|]. split; [reflexivity|].
  set (b2 := with_enable b' true (t * rate) (t2 * rate) (set_pending (t2 * rate) (b_idle_stats b'))).
  rewrite (bi_idles _ _ _ _ _ _ B) in Is.
  assert (forall v S, 0 < v -> v < two64 -> advance_stats b2 v (wrap_stats S) = Value (wrap_stats (add_exact S (wave_stats width (idle_word width high) [] (v - 1))))) as A.
  { intros v S P L. apply advance_empty; auto. apply word_of_bound. }
  split.
  - intros data nb. unfold bus_load. cbn [b2 with_enable b_enabled b_datarate]. rewrite R. destruct (N.eqb_spec rate 0); [lia|]. unfold check at 1.
    destruct (t2 <=? _); [|reflexivity]. rewrite M by exact Ht64. unfold check at 1. destruct (_ <=? t2 * rate); [|reflexivity].
    fold b2. unfold add_previous_stats, check at 1.
    change (b_pending b2) with (set_pending (t2 * rate) (b_idle_stats b')). change (b_stats b2) with (b_stats b'). cbn [set_pending pd_time pd_set]. rewrite N.leb_refl, N.ltb_irrefl. cbn [andb].
    rewrite G. unfold drives_of in A. rewrite A by lia. cbn [bind]. destruct (N.ltb_spec 0 (t2 * rate)); [|lia]. unfold bus_at. change (b_last_load b2) with (t2 * rate). unfold check at 1.
    destruct (N.leb_spec (t2 * rate) (t2 * rate - 1)); [lia|]. reflexivity.
  - intros u Hu. unfold bus_get_stats. cbn [b2 with_enable b_enabled b_datarate b_last_load b_stats]. fold b2. rewrite R, M by exact Hu. split; [|split].
    + intros L. assert (u * rate < t2 * rate) by (apply N.mul_lt_mono_pos_r; assumption). unfold check. destruct (N.leb_spec (t2 * rate) (u * rate)); [lia|reflexivity].
    + intros L. assert (t2 * rate < u * rate) by (apply N.mul_lt_mono_pos_r; assumption). unfold check. destruct (N.leb_spec (t2 * rate) (u * rate)); [|lia].
      destruct (N.eqb_spec (u * rate) 0); [lia|]. change (b_pending b2) with (set_pending (t2 * rate) (b_idle_stats b')). cbn [set_pending pd_set pd_time pd_stats andb].
      destruct (N.ltb_spec (t2 * rate) (u * rate)); [|lia]. rewrite G, Is, bus_diff_beat by (auto; apply word_of_bound). rewrite stats_add_wrap, A by lia. f_equal. f_equal.
      rewrite <- add_exact_assoc. f_equal. rewrite !idle_wave. replace (N.to_nat (u * rate)) with (S (N.to_nat (u * rate - 1))) by lia. cbn [sum_beats]. apply add_exact_comm.
    + intros ->. unfold check. rewrite N.leb_refl. destruct (N.eqb_spec (t2 * rate) 0); [lia|]. change (b_pending b2) with (set_pending (t2 * rate) (b_idle_stats b')). cbn [set_pending pd_set pd_time pd_stats andb].
      rewrite N.ltb_irrefl, G. rewrite A by lia. reflexivity.
Qed.
