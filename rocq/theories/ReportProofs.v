From Coq Require Import ZArith NArith QArith String List Bool Lia Arith.
From Verif Require Import Base Command CoreModel Bits StatsModel StatsSpec EnergyModel EnergySpec EnergyProofs EnergyMore IfEnergyModel EnergyExamples RoundTop CliModel CliTop ReportModel ReportSpec.
Import ListNotations.
Local Open Scope string_scope.

Definition the_core (e : energy) (arr : list json) : json :=
  JObj [("E_bg_act_shared", JReal (en_shared e)); ("E_PDNA", JReal (en_pdna e)); ("E_PDNP", JReal (en_pdnp e)); ("E_sref", JReal (en_sref e)); ("E_dsm", JReal (en_dsm e)); ("E_refab", JReal (en_refab e)); ("BankEnergy", JArr arr)].
Definition the_doc (a : architecture) (e : energy) (ie : ienergy) (arr : list json) : json :=
  JObj [("RankCount", JInt (N.of_nat (ar_ranks a))); ("DeviceCount", JInt (N.of_nat (ar_devices a))); ("BankCount", JInt (N.of_nat (ar_banks a))); ("TotalEnergy", JReal (en_total e + ie_total ie));
        ("CoreEnergy", the_core e arr);
        ("InterfaceEnergy", JObj [("controller", JObj [("dynamicEnergy", JReal (ie_cdyn ie)); ("staticEnergy", JReal (ie_cstat ie))]); ("dram", JObj [("dynamicEnergy", JReal (ie_ddyn ie)); ("staticEnergy", JReal (ie_dstat ie))])])].
Definition the_entry (x : energy_info) (r d b : nat) : json :=
  JObj [("ACT", JReal (e_act x)); ("PRE", JReal (e_pre x)); ("BG_ACT", JReal (e_bg_act x)); ("BG_PRE", JReal (e_bg_pre x)); ("RD", JReal (e_rd x)); ("WR", JReal (e_wr x));
        ("RDA", JReal (e_rda x)); ("WRA", JReal (e_wra x)); ("PRE_RDA", JReal (e_pre_rda x)); ("PRE_WRA", JReal (e_pre_wra x)); ("REF_AB", JReal (e_ref_ab x));
        ("REF_PB", JReal (e_ref_pb x)); ("REF_SB", JReal (e_ref_sb x)); ("REF_2B", JReal (e_ref_2b x)); ("REF_DB", JReal (e_ref_db x));
        ("Rank", JInt (N.of_nat r)); ("Device", JInt (N.of_nat d)); ("Bank", JInt (N.of_nat b))].

Lemma assign_all_app l m j : assign_all (l ++ m) j = match assign_all l j with Some x => assign_all m x | None => None end.
Proof. revert j. induction l as [|[p v] l IH]; intros j; [reflexivity|]. cbn [assign_all app]. destruct (assign p v j); auto. Qed.
Lemma nth_set i v l : (i < length l)%nat -> nth_error (set_nth i v l) i = Some v.
Proof. revert i. induction l as [|x l IH]; intros [|i] H; cbn in *; try lia; [reflexivity|]. apply IH. lia. Qed.
Lemma set_set i v w l : set_nth i v (set_nth i w l) = set_nth i v l.
Proof. revert i. induction l as [|x l IH]; intros [|i]; cbn; try reflexivity. now rewrite IH. Qed.
Lemma set_len i v l : length (set_nth i v l) = length l.
Proof. revert i. induction l as [|x l IH]; intros [|i]; cbn; auto. Qed.
Lemma assign_entry a e ie arr i k v m : nth_error arr i = Some (JObj m) ->
  assign [Member "CoreEnergy"; Member "BankEnergy"; Element i; Member k] v (the_doc a e ie arr) = Some (the_doc a e ie (set_nth i (JObj (put k v m)) arr)).
Proof. intros H. cbn [assign the_doc the_core get String.eqb Ascii.eqb Bool.eqb option_map]. rewrite H. reflexivity. Qed.
Lemma describe_one a e ie arr i r d b x : nth_error arr i = Some (info_json x) -> assign_all (describe i r d b) (the_doc a e ie arr) = Some (the_doc a e ie (set_nth i (the_entry x r d b) arr)).
Proof.
  intros H. assert (L : (i < length arr)%nat) by (apply nth_error_Some; congruence). unfold describe. cbn [assign_all]. rewrite (assign_entry _ _ _ _ _ _ _ _ H).
  rewrite (assign_entry _ _ _ _ _ _ _ _ (nth_set i _ arr L)), set_set. rewrite (assign_entry _ _ _ _ _ _ _ _ (nth_set i _ arr L)), set_set. reflexivity.
Qed.
Lemma flat_map_map {A B C} (f : A -> B) (g : B -> list C) l : flat_map g (map f l) = flat_map (fun x => g (f x)) l.
Proof. induction l as [|x l IH]; [reflexivity|]. cbn. now rewrite IH. Qed.
Lemma flat_map_flat {A B C} (f : A -> list B) (g : B -> list C) l : flat_map g (flat_map f l) = flat_map (fun x => flat_map g (f x)) l.
Proof. induction l as [|x l IH]; [reflexivity|]. cbn. now rewrite flat_map_app, IH. Qed.
Lemma describe_labels a : describe_all a = flat_map (fun l => describe (lb_index l) (lb_rank l) (lb_device l) (lb_bank l)) (labels (ar_ranks a) (ar_devices a) (ar_banks a)).
Proof.
  unfold describe_all, labels. rewrite flat_map_flat. apply flat_map_ext. intros r. rewrite flat_map_flat. apply flat_map_ext. intros d. now rewrite flat_map_map.
Qed.
Lemma visits_labels a : visits a = map (fun l => (lb_rank l, lb_device l, lb_bank l, lb_index l)) (labels (ar_ranks a) (ar_devices a) (ar_banks a)).
Proof.
  unfold visits, labels. rewrite flat_map_concat_map, flat_map_concat_map, concat_map, map_map. f_equal. apply map_ext. intros r.
  rewrite flat_map_concat_map, flat_map_concat_map, concat_map, map_map. f_equal. apply map_ext. intros d. rewrite map_map. reflexivity.
Qed.
Definition entry_of (lx : labelled * energy_info) : json := the_entry (snd lx) (lb_rank (fst lx)) (lb_device (fst lx)) (lb_bank (fst lx)).
Lemma nth_mid {A} (l : list A) x r : nth_error (l ++ x :: r) (length l) = Some x.
Proof. rewrite nth_error_app2, Nat.sub_diag by lia. reflexivity. Qed.
Lemma set_mid l x v r : set_nth (length l) v (l ++ x :: r) = (l ++ v :: r)%list.
Proof. induction l as [|y l IH]; [reflexivity|]. cbn. now rewrite IH. Qed.
Lemma loop_labels a e ie xs : forall ls done, map lb_index ls = seq (length done) (length xs) ->
  assign_all (flat_map (fun l => describe (lb_index l) (lb_rank l) (lb_device l) (lb_bank l)) ls) (the_doc a e ie (done ++ map info_json xs)) = Some (the_doc a e ie (done ++ map entry_of (combine ls xs))).
Proof.
  induction xs as [|x xs IH]; intros ls done H.
  - destruct ls; [reflexivity|discriminate].
  - destruct ls as [|l ls]; [discriminate|]. cbn [map length seq] in H. injection H as H1 H2. cbn [flat_map map combine]. rewrite assign_all_app, H1.
    rewrite (describe_one _ _ _ _ _ _ _ _ x) by apply nth_mid. rewrite set_mid.
    specialize (IH ls (done ++ [the_entry x (lb_rank l) (lb_device l) (lb_bank l)])%list). rewrite app_length in IH. cbn [length] in IH. rewrite Nat.add_1_r in IH. specialize (IH H2).
    rewrite <- !app_assoc in IH. cbn [app] in IH. exact IH.
Qed.

Section Doc.
Variable a : architecture.
Variable e : energy.
Variable ie : ienergy.
Hypothesis SZ : length (en_bank e) = (ar_ranks a * ar_devices a * ar_banks a)%nat.
Let ls := labels (ar_ranks a) (ar_devices a) (ar_banks a).
Lemma indices : map lb_index ls = seq 0 (length (en_bank e)).
Proof using SZ. unfold ls. rewrite labels_index, SZ. f_equal. lia. Qed.
Lemma document : json_document a e ie = Some (the_doc a e ie (map entry_of (combine ls (en_bank e)))).
Proof using SZ.
  unfold json_document. assert (length (en_bank e) =? ar_ranks a * ar_banks a * ar_devices a = true)%nat as -> by (apply Nat.eqb_eq; rewrite SZ; lia).
  change (energy_json e) with (Some (the_core e (map info_json (en_bank e)))).
  change (interface_json ie) with (Some (JObj [("controller", JObj [("dynamicEnergy", JReal (ie_cdyn ie)); ("staticEnergy", JReal (ie_cstat ie))]); ("dram", JObj [("dynamicEnergy", JReal (ie_ddyn ie)); ("staticEnergy", JReal (ie_dstat ie))])])).
  cbv beta iota. change (assign_all _ JNull) with (Some (the_doc a e ie (map info_json (en_bank e)))).
  rewrite describe_labels. apply (loop_labels a e ie (en_bank e) ls []). exact indices.
Qed.
Lemma ls_length : length ls = length (en_bank e). Proof using SZ. rewrite <- (map_length lb_index ls), indices, seq_length. reflexivity. Qed.
Lemma label_at r d b : (r < ar_ranks a)%nat -> (d < ar_devices a)%nat -> (b < ar_banks a)%nat ->
  nth_error ls (r * ar_banks a * ar_devices a + d * ar_banks a + b) = Some (mkLabelled r d b (r * ar_banks a * ar_devices a + d * ar_banks a + b)).
Proof using SZ.
  intros Hr Hd Hb. assert (In (mkLabelled r d b (r * ar_banks a * ar_devices a + d * ar_banks a + b)) ls) as I by (apply labels_in; cbn; lia).
  destruct (In_nth_error ls _ I) as (k & Hk). pose proof (nth_seq_index ls _ indices k _ Hk) as Q. cbn in Q. rewrite <- Q in Hk. exact Hk.
Qed.
Lemma entry_at r d b : (r < ar_ranks a)%nat -> (d < ar_devices a)%nat -> (b < ar_banks a)%nat ->
  let i := (r * ar_banks a * ar_devices a + d * ar_banks a + b)%nat in
  exists x, nth_error (en_bank e) i = Some x /\ nth_error (map entry_of (combine ls (en_bank e))) i = Some (the_entry x r d b).
Proof using SZ.
  intros Hr Hd Hb i. pose proof (label_at r d b Hr Hd Hb) as H. fold i in H. assert (B : (i < length (en_bank e))%nat) by (rewrite <- ls_length; apply nth_error_Some; congruence).
  destruct (nth_error (en_bank e) i) as [x|] eqn:E; [|apply nth_error_None in E; lia]. exists x. split; [reflexivity|]. rewrite nth_error_map.
  assert (nth_error (combine ls (en_bank e)) i = Some (mkLabelled r d b i, x)) as ->; [|reflexivity].
  clear B SZ. revert H E. fold i. generalize (mkLabelled r d b i) as l0. generalize i as j. generalize ls as l. generalize (en_bank e) as m. clear. induction m as [|y m IH]; intros [|l l'] [|j] l0 H E; cbn in *; try discriminate; [congruence|]. now apply IH.
Qed.
Theorem report_contents : exists doc, json_document a e ie = Some doc /\
  find [Member "TotalEnergy"] doc = Some (JReal (en_total e + ie_total ie)) /\
  (find [Member "RankCount"] doc = Some (JInt (N.of_nat (ar_ranks a))) /\ find [Member "DeviceCount"] doc = Some (JInt (N.of_nat (ar_devices a))) /\ find [Member "BankCount"] doc = Some (JInt (N.of_nat (ar_banks a)))) /\
  (forall r d b, (r < ar_ranks a)%nat -> (d < ar_devices a)%nat -> (b < ar_banks a)%nat ->
    let i := ((r * ar_devices a + d) * ar_banks a + b)%nat in let entry k := find [Member "CoreEnergy"; Member "BankEnergy"; Element i; Member k] doc in
    entry "Rank" = Some (JInt (N.of_nat r)) /\ entry "Device" = Some (JInt (N.of_nat d)) /\ entry "Bank" = Some (JInt (N.of_nat b)) /\
    exists x, nth_error (en_bank e) i = Some x /\ forall c, entry (key c) = Some (JReal (comp_at x c))) /\
  (let rank k := find [Member "CoreEnergy"; Member k] doc in
   rank "E_bg_act_shared" = Some (JReal (en_shared e)) /\ rank "E_PDNA" = Some (JReal (en_pdna e)) /\ rank "E_PDNP" = Some (JReal (en_pdnp e)) /\
   rank "E_sref" = Some (JReal (en_sref e)) /\ rank "E_dsm" = Some (JReal (en_dsm e)) /\ rank "E_refab" = Some (JReal (en_refab e))) /\
  (let side s k := find [Member "InterfaceEnergy"; Member s; Member k] doc in
   side "controller" "dynamicEnergy" = Some (JReal (ie_cdyn ie)) /\ side "controller" "staticEnergy" = Some (JReal (ie_cstat ie)) /\
   side "dram" "dynamicEnergy" = Some (JReal (ie_ddyn ie)) /\ side "dram" "staticEnergy" = Some (JReal (ie_dstat ie))).
Proof using SZ.
  eexists. split; [exact document|]. split; [reflexivity|]. split; [repeat split|]. split; [|split; repeat split].
  intros r d b Hr Hd Hb i. destruct (entry_at r d b Hr Hd Hb) as (x & E & N). cbn zeta in E, N. replace (r * ar_banks a * ar_devices a + d * ar_banks a + b)%nat with i in * by (unfold i; lia).
  cbn [find the_doc the_core List.find fst snd String.eqb Ascii.eqb Bool.eqb]. rewrite N. split; [reflexivity|]. split; [reflexivity|]. split; [reflexivity|]. exists x. split; [exact E|]. intros []; reflexivity.
Qed.

Lemma entry_sum l x : (energies (entry_of (l, x)) == ei_total x)%Q.
Proof. unfold entry_of, the_entry, ei_total. cbn [energies fst snd fold_right no_part existsb String.eqb Ascii.eqb Bool.eqb orb]. ring. Qed.
Lemma entries_sum : forall xs l, length l = length xs -> (energies (JArr (map entry_of (combine l xs))) == qsum ei_total xs)%Q.
Proof.
  induction xs as [|x xs IH]; intros [|l l'] H; try discriminate; [reflexivity|]. cbn [combine map energies fold_right] in *. rewrite qsum_cons.
  injection H as H. specialize (IH l' H). cbn [energies] in IH. rewrite IH. rewrite entry_sum. reflexivity.
Qed.
Lemma total_add x y : (ei_total (ei_add x y) == ei_total x + ei_total y)%Q.
Proof. unfold ei_total, ei_add. cbn [e_act e_pre e_bg_act e_bg_pre e_rd e_wr e_rda e_wra e_pre_rda e_pre_wra e_ref_ab e_ref_pb e_ref_sb e_ref_2b e_ref_db]. ring. Qed.
Lemma total_fold l : forall x, (ei_total (fold_left ei_add l x) == ei_total x + qsum ei_total l)%Q.
Proof. induction l as [|y l IH]; intros x; cbn [fold_left]; [rewrite qsum_nil; ring|]. rewrite IH, qsum_cons, total_add. ring. Qed.
Lemma total_banks : (en_total e == qsum ei_total (en_bank e) + en_shared e + en_pdna e + en_pdnp e + en_sref e + en_dsm e + en_refab e)%Q.
Proof.
  unfold en_total. assert (ei_total (fold_left ei_add (en_bank e) ei_zero) == qsum ei_total (en_bank e))%Q as E by (rewrite total_fold; change (ei_total ei_zero) with (ei_total ei_zero); unfold ei_total at 1; cbn; ring).
  rewrite E. ring.
Qed.
Theorem report_adds_up : forall doc q, json_document a e ie = Some doc -> find [Member "TotalEnergy"] doc = Some (JReal q) -> (energies doc == q)%Q.
Proof using SZ.
  intros doc q D T. rewrite document in D. injection D as <-. cbn [find the_doc List.find fst snd String.eqb Ascii.eqb Bool.eqb] in T. injection T as <-.
  pose proof (entries_sum (en_bank e) ls ls_length) as E. unfold the_doc, the_core. cbn [energies] in E.
  cbn [energies fold_right no_part existsb String.eqb Ascii.eqb Bool.eqb orb]. rewrite E, total_banks. unfold ie_total. ring.
Qed.

(* ---- the lines ---- *)
Lemma lines_of : forall xs done l, en_bank e = (done ++ xs)%list -> map lb_index l = seq (length done) (length xs) ->
  bank_lines e (map (fun l => (lb_rank l, lb_device l, lb_bank l, lb_index l)) l) = Some (map (fun lx => BankLine (lb_rank (fst lx)) (lb_device (fst lx)) (lb_bank (fst lx)) (info_parts (snd lx))) (combine l xs)).
Proof.
  induction xs as [|x xs IH]; intros done l E H.
  - destruct l; [reflexivity|discriminate].
  - destruct l as [|y l]; [discriminate|]. cbn [map length seq] in H. injection H as H1 H2. cbn [map bank_lines combine fst snd]. rewrite E, H1, nth_mid.
    rewrite (IH (done ++ [x])%list l); [reflexivity|rewrite <- app_assoc; exact E|rewrite app_length; cbn [length]; rewrite Nat.add_1_r; exact H2].
Qed.
Lemma lines : stdout_lines a e ie = Some (map (fun lx => BankLine (lb_rank (fst lx)) (lb_device (fst lx)) (lb_bank (fst lx)) (info_parts (snd lx))) (combine ls (en_bank e)) ++
  [CumulatedLine (info_parts (en_aggregated e)); SharedLine (shared_parts e); InterfaceLines (ie_cdyn ie) (ie_cstat ie) (ie_ddyn ie) (ie_dstat ie) (ie_total ie); TotalLine (en_total e + ie_total ie)])%list.
Proof using SZ. unfold stdout_lines. rewrite visits_labels. fold ls. rewrite (lines_of (en_bank e) [] ls eq_refl indices). reflexivity. Qed.
Lemma info_sum x : (parts_sum (info_parts x) == ei_total x - e_ref_db x)%Q.
Proof. unfold parts_sum, info_parts, ei_total. cbn [filter fst snd no_part existsb String.eqb Ascii.eqb Bool.eqb orb negb]. unfold qsum. cbn [fold_right snd]. ring. Qed.
Lemma shared_sum : (parts_sum (shared_parts e) == en_shared e + en_pdna e + en_pdnp e + en_sref e + en_dsm e + en_refab e)%Q.
Proof. unfold parts_sum, shared_parts. cbn [filter fst snd no_part existsb String.eqb Ascii.eqb Bool.eqb orb negb]. unfold qsum. cbn [fold_right snd]. ring. Qed.
Lemma banks_sum : forall xs l, length l = length xs ->
  (qsum printed (map (fun lx => BankLine (lb_rank (fst lx)) (lb_device (fst lx)) (lb_bank (fst lx)) (info_parts (snd lx))) (combine l xs)) == qsum ei_total xs - qsum e_ref_db xs)%Q.
Proof.
  induction xs as [|x xs IH]; intros [|l l'] H; try discriminate; [reflexivity|]. injection H as H. cbn [combine map]. rewrite !qsum_cons, (IH l' H). cbn [printed snd]. rewrite info_sum. ring.
Qed.
Lemma banks_short : forall xs l, (qsum printed_short (map (fun lx => BankLine (lb_rank (fst lx)) (lb_device (fst lx)) (lb_bank (fst lx)) (info_parts (snd lx))) (combine l xs)) == 0)%Q.
Proof. intros xs l. rewrite qsum_map. apply qsum_zero. reflexivity. Qed.
Theorem lines_contents : exists out, stdout_lines a e ie = Some out /\ total_line out (en_total e + ie_total ie) /\
  (forall r d b, (r < ar_ranks a)%nat -> (d < ar_devices a)%nat -> (b < ar_banks a)%nat ->
    exists x, nth_error (en_bank e) ((r * ar_devices a + d) * ar_banks a + b) = Some x /\ In (BankLine r d b (info_parts x)) out) /\
  (qsum printed out + qsum e_ref_db (en_bank e) == en_total e + ie_total ie)%Q /\
  (qsum printed_short out + qsum e_ref_db (en_bank e) == en_total e + ie_total ie + en_shared e)%Q.
Proof using SZ.
  eexists. split; [exact lines|]. split; [|split; [|split]].
  - split; [apply in_or_app; right; cbn; auto|]. intros q H. apply in_app_or in H as [H|H].
    + apply in_map_iff in H as (lx & E & _). discriminate.
    + cbn in H. destruct H as [H|[H|[H|[H|[]]]]]; try discriminate. congruence.
  - intros r d b Hr Hd Hb. pose proof (label_at r d b Hr Hd Hb) as H. replace ((r * ar_devices a + d) * ar_banks a + b)%nat with (r * ar_banks a * ar_devices a + d * ar_banks a + b)%nat by lia.
    set (i := (r * ar_banks a * ar_devices a + d * ar_banks a + b)%nat) in *. assert (B : (i < length (en_bank e))%nat) by (rewrite <- ls_length; apply nth_error_Some; congruence).
    destruct (nth_error (en_bank e) i) as [x|] eqn:E; [|apply nth_error_None in E; lia]. exists x. split; [reflexivity|]. apply in_or_app. left. apply in_map_iff. exists (mkLabelled r d b i, x). split; [reflexivity|].
    apply (nth_error_In _ i). clear B SZ. revert H E. generalize (mkLabelled r d b i) as l0. generalize i as j. generalize ls as l. generalize (en_bank e) as m. clear. induction m as [|y m IH]; intros [|l l'] [|j] l0 H E; cbn in *; try discriminate; [congruence|]. now apply IH.
  - rewrite qsum_app, (banks_sum _ _ ls_length), !qsum_cons, qsum_nil. cbn [printed]. rewrite shared_sum, total_banks. unfold ie_total. ring.
  - rewrite qsum_app, banks_short, !qsum_cons, qsum_nil. cbn [printed_short]. rewrite shared_sum, info_sum, total_from_aggregate.
    assert (e_ref_db (en_aggregated e) == qsum e_ref_db (en_bank e))%Q as ->.
    { pose proof (aggregated_sum e CRefDB) as A. change (e_ref_db (en_aggregated e)) with (comp_at (en_aggregated e) CRefDB). rewrite A.
      change (qsum e_ref_db (en_bank e)) with (qsum (fun i => comp_at i CRefDB) (en_bank e)). ring. }
    unfold ie_total. ring.
Qed.
End Doc.

(* Where the energies come from a calculation. *)
Lemma only_dual p st e : calc_energy p st = Exactly e -> covers p st -> es_std p <> LPDDR6 -> (qsum e_ref_db (en_bank e) == 0)%Q.
Proof.
  intros E C N. destruct (calc_ok p st (calc_usable p st e E) C) as (e' & E' & K). assert (e' = e) as -> by congruence. apply qsum_zero. intros x H.
  apply In_nth_error in H as (j & Hj). assert (B : (j < es_ranks p * es_devices p * es_banks p)%nat) by (rewrite <- (slot_count p st e E C); apply nth_error_Some; congruence).
  destruct (slot_value p st e j CRefDB K B) as (q & Q1 & Q2). cbn [energy_at] in Q1. rewrite Hj in Q1. injection Q1 as Q1. cbn [comp_at] in Q1. rewrite Q1, Q2.
  assert (kslot p CRefDB == 0)%Q as ->; [|ring]. unfold kslot. apply qsum_zero. intros w _. cbn [coef]. destruct (es_std p); try reflexivity. now destruct N.
Qed.
Lemma arch_size p st e : calc_energy p st = Exactly e -> covers p st ->
  length (en_bank e) = (ar_ranks (architecture_of p) * ar_devices (architecture_of p) * ar_banks (architecture_of p))%nat.
Proof. apply slot_count. Qed.

(* An LPDDR6 memory of two banks with some refreshes of both. *)
Definition ex_dual : espec := mkEspec LPDDR6 1 1 2 1 16 2 1 1 30 15 100 50 0 (1#2) false [mkPower 1 6 2 3 1 1 20 20 30 10 1 1 6].
Definition ex_dual_stats : sim_stats :=
  mkSim stats0 stats0 stats0 stats0 stats0 stats0 stats0 stats0 stats0 stats0 stats0
    (repeat (mkCS (mkCstats 1 1 0 0 0 0 0 2 0 0 0) (mkCycles 10 0 0 0 0 0) pp_zero) 2) [mkCS cs_zero (mkCycles 10 20 0 0 0 0) pp_zero].
Definition dual_energy : calc energy := calc_energy ex_dual ex_dual_stats.
Definition ex_ie : ienergy := mkIE 1 2 3 4.
Lemma dual_covers : covers ex_dual ex_dual_stats.
Proof. split; cbn; lia. Qed.
Definition dual_ok : bool := match dual_energy with Exactly e => negb (Qeq_bool (qsum e_ref_db (en_bank e)) 0) && negb (Qeq_bool (en_shared e) (qsum e_ref_db (en_bank e))) | _ => false end.
Lemma dual_shown : dual_ok = true.
Proof. vm_compute. reflexivity. Qed.
Lemma dual_differs : exists e, calc_energy ex_dual ex_dual_stats = Exactly e /\ ~ (qsum e_ref_db (en_bank e) == 0)%Q /\ ~ (en_shared e == qsum e_ref_db (en_bank e))%Q.
Proof.
  pose proof dual_shown as H. unfold dual_ok, dual_energy in H. destruct (calc_energy ex_dual ex_dual_stats) as [e| |]; try discriminate. exists e. split; [reflexivity|].
  apply andb_prop in H as [A B]. apply negb_true_iff in A, B. split; intros E; apply Qeq_bool_iff in E; congruence.
Qed.
Theorem lines_refuted : exists p st e ie out, calc_energy p st = Exactly e /\ covers p st /\ stdout_lines (architecture_of p) e ie = Some out /\ total_line out (en_total e + ie_total ie) /\ ~ (qsum printed out == en_total e + ie_total ie)%Q /\ ~ (qsum printed_short out == en_total e + ie_total ie)%Q.
Proof.
  destruct dual_differs as (e & E & A & B). destruct (lines_contents (architecture_of ex_dual) e ex_ie (arch_size _ _ _ E dual_covers)) as (out & O & T & _ & S1 & S2).
  exists ex_dual, ex_dual_stats, e, ex_ie, out. split; [exact E|]. split; [exact dual_covers|]. split; [exact O|]. split; [exact T|]. split; intros F.
  - apply A. rewrite F in S1. apply (Qplus_inj_l _ _ (en_total e + ie_total ex_ie)). rewrite S1. ring.
  - apply B. rewrite F in S2. apply (Qplus_inj_l _ _ (en_total e + ie_total ex_ie)). rewrite <- S2. reflexivity.
Qed.
Theorem lines_add_up p st e ie out q : calc_energy p st = Exactly e -> covers p st -> es_std p <> LPDDR6 ->
  stdout_lines (architecture_of p) e ie = Some out -> In (TotalLine q) out -> (qsum printed out == q)%Q.
Proof.
  intros E C N O I. destruct (lines_contents (architecture_of p) e ie (arch_size p st e E C)) as (out' & O' & (_ & T) & _ & S1 & _). assert (out' = out) as -> by congruence.
  rewrite (T q I), <- S1, (only_dual p st e E C N). ring.
Qed.
Theorem wrong_size a e ie : length (en_bank e) <> (ar_ranks a * ar_devices a * ar_banks a)%nat -> json_document a e ie = None.
Proof.
  intros H. unfold json_document. assert (length (en_bank e) =? ar_ranks a * ar_banks a * ar_devices a = false)%nat as -> by (apply Nat.eqb_neq; intros E; apply H; rewrite E; lia).
  destruct (energy_json e), (interface_json ie); try reflexivity.
Qed.
Lemma ddr4_case : exists e, calc_energy EnergyExamples.ex_ddr4 (EnergyExamples.ex_stats 1) = Exactly e /\ covers EnergyExamples.ex_ddr4 (EnergyExamples.ex_stats 1) /\ es_std EnergyExamples.ex_ddr4 <> LPDDR6.
Proof.
  destruct (calc_ok _ _ (well_formed_usable _ EnergyExamples.ex_ddr4_wf) (EnergyExamples.ex_covers 1)) as (e & E & _). exists e. split; [exact E|]. split; [apply EnergyExamples.ex_covers|discriminate].
Qed.
