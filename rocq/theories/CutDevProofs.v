From Coq Require Import NArith List Bool Lia Arith.
From Verif Require Import Base Command Bits CoreModel HistorySpec SerialModel InterfaceModel InterfaceSpec ByteModel DramModel DramSpec DramProofs ExtensionModel ExtensionSpec ExtensionDevice
  SerialSpec SerialProofs SerialCore SerialIface InterfaceCa CutModel CutSpec CutTop CutProofs CutIfModel CutIfSpec CutIfProofs CutDevModel CutDevSpec.
Import ListNotations.
Local Open Scope N_scope.

Lemma follows_ext x : follows (o_ext x) (r_ext x).
Proof.
  destruct x; unfold o_ext, r_ext.
  - apply follows_bind; [apply (follows_one T_bool)|intro; apply follows_ret].
  - apply follows_bind; [apply (follows_one T_u16)|intro]. apply follows_bind; [apply (follows_one T_u16)|intro; apply follows_ret].
Qed.
Lemma exts_whole ks : forall m s m' r, em_read r_ext m ks s = Value (Got m' r) -> l_exts m ks s = Value (Kept m' r).
Proof.
  induction ks as [|k ks IH]; intros m s m' r H; cbn [em_read l_exts] in *; [congruence|].
  destruct (em_alive m k); [|discriminate]. destruct (nth_error (em_objects m) k) as [v|]; [|discriminate].
  destruct (r_ext v s) as [v' s'| |] eqn:E; try discriminate. rewrite (proj1 (follows_ext v) _ _ _ E). now apply IH.
Qed.
Lemma device_whole d s y r : r_device d s = Value (Got y r) -> l_device d s = Value (Kept y r).
Proof.
  unfold r_device, l_device, em_deserialize. intros H. destruct (em_read r_ext (dv_ext d) (em_ser (dv_ext d)) s) as [[m s1| |]|f] eqn:E; try discriminate.
  rewrite (exts_whole _ _ _ _ _ E). cbn [bind] in *. apply value_eq in H. unfold r_bind in H.
  destruct (r_core (dr_core (dv_dram d)) s1) as [c s2| |] eqn:C; try discriminate. rewrite (whole_stream _ _ _ _ C).
  destruct (r_iface (dr_if (dv_dram d)) s2) as [i s3| |] eqn:F; try discriminate. rewrite (whole _ _ _ _ F). unfold r_ret in H. congruence.
Qed.

(* What is known of two devices of the same make. *)
Record pair_of (p : dspec) (o n : device) : Prop := {
  po_shape : same_shape (dr_core (dv_dram o)) (dr_core (dv_dram n));
  po_ext : exists e m e' m', dv_ext o = ext_of (fi_std (dp_if p)) e m /\ dv_ext n = ext_of (fi_std (dp_if p)) e' m';
  po_std : fi_std (if_spec (dr_if (dv_dram o))) = fi_std (dp_if p);
  po_run : exists sim i0 ys, iface_new (dp_if p) sim = Value i0 /\ calls_run ys i0 = Value (dr_if (dv_dram o))
}.
Lemma devices_pair p d0 ys o xs n : device_new p = Value d0 -> duses_run p ys d0 = Returned o -> duses_run p xs d0 = Returned n -> pair_of p o n.
Proof.
  intros N O H. destruct (device_new_shape _ _ N) as (Sh & Dn & X0 & _).
  destruct (duses_seen _ _ _ _ Sh H) as [[S1 (e & m & X1)] U]. destruct (uses_split _ _ _ _ U) as [[a Cr] Ir].
  destruct (duses_seen _ _ _ _ Sh O) as [[S2 (e' & m' & X2)] U2]. destruct (uses_split _ _ _ _ U2) as [[a2 Cr2] Ir2].
  unfold dram_new in Dn. apply bind_inv in Dn as (i0 & I0 & Dn). apply value_eq in Dn.
  assert (dr_core (dv_dram d0) = core_new (dp_core p)) as C0 by now rewrite <- Dn.
  assert (dr_if (dv_dram d0) = i0) as F0 by now rewrite <- Dn.
  rewrite C0 in Cr, Cr2. rewrite F0 in Ir, Ir2. constructor.
  - eapply (shape_of_sizes (dp_core p)); [eapply run_ops_sizes; [apply CoreBasics.core_new_sizes|exact Cr2]|eapply run_ops_sizes; [apply CoreBasics.core_new_sizes|exact Cr]].
  - exists e', m', e, m. auto.
  - now rewrite S2.
  - eauto.
Qed.
Lemma exts_written p o n : pair_of p o n -> em_serialize w_ext (dv_ext n) = Value (ext_items n).
Proof.
  intros [_ (e & m & e' & m' & _ & X) _ _]. unfold ext_items. rewrite X. destruct (fi_std (dp_if p)), m'; reflexivity.
Qed.
Lemma exts_read p o n rest : pair_of p o n -> l_exts (dv_ext o) (em_ser (dv_ext o)) (ext_items n ++ rest) = Value (Kept (dv_ext n) rest).
Proof.
  intros [_ (e & m & e' & m' & X & Y) _ _]. unfold ext_items. rewrite X, Y. destruct (fi_std (dp_if p)), m, m'; reflexivity.
Qed.
Lemma exts_cut p o n u v : pair_of p o n -> ext_items n = u ++ v ->
  exists x, l_exts (dv_ext o) (em_ser (dv_ext o)) u = Value (Kept x []) /\
    flat_map w_ext (em_objects x) = firstn (length u) (ext_items n) ++ map unread_item (skipn (length u) (ext_items o)).
Proof.
  intros [_ (e & m & e' & m' & X & Y) _ _]. unfold ext_items. rewrite X, Y. intros E. destruct m as [a b], m' as [a' b'].
  assert (u = firstn (length u) (u ++ v)) as U by (rewrite firstn_app, Nat.sub_diag, firstn_all, app_nil_r; reflexivity).
  rewrite <- E in U. assert (length u <= length (u ++ v))%nat as L by (rewrite app_length; lia). rewrite <- E in L. clear E.
  set (k := length u) in *. clearbody k. subst u. 
  destruct (fi_std (dp_if p)); cbn [ext_of em_register em_new em_objects em_ser app length flat_map w_ext fst snd] in *;
    destruct k as [|[|[|[|k]]]]; try lia; cbn; eexists; split; reflexivity.
Qed.
Lemma iface_lost p o n : pair_of p o n ->
  if match fi_std (dp_if p) with DDR4 => true | _ => false end then l_run (o_iface (dr_if (dv_dram o))) [] = Unset
  else exists z, l_run (o_iface (dr_if (dv_dram o))) [] = Kept z [] /\ parts z = map stale (parts (dr_if (dv_dram o))) /\ not_written z = not_written (dr_if (dv_dram o)).
Proof.
  intros [_ _ S (sim & i0 & ys & N & R)]. destruct (fi_std (dp_if p)) eqn:D; [exact (ddr4_nothing _ _ _ _ _ D N R)|apply nothing; congruence..].
Qed.

Lemma cut_in_exts p d0 ys o xs n u v : device_new p = Value d0 -> duses_run p ys d0 = Returned o -> duses_run p xs d0 = Returned n ->
  fi_std (dp_if p) <> DDR4 -> ext_items n = u ++ v ->
  exists z, l_device o u = Value (Kept z []) /\ ext_items z = firstn (length u) (ext_items n) ++ map unread_item (skipn (length u) (ext_items o)) /\
    members (core_fields (dr_core (dv_dram z))) = map unread (members (core_fields (dr_core (dv_dram o)))) /\ co_queue (dr_core (dv_dram z)) = co_queue (dr_core (dv_dram o)) /\
    lost (dr_if (dv_dram o)) (dr_if (dv_dram z)).
Proof.
  intros N O H D E. pose proof (devices_pair _ _ _ _ _ _ N O H) as P. destruct (exts_cut _ _ _ _ _ P E) as (x & X & Xi).
  pose proof (iface_lost _ _ _ P) as L. replace (match fi_std (dp_if p) with DDR4 => true | _ => false end) with false in L by (destruct (fi_std (dp_if p)); [contradiction|reflexivity..]).
  destruct L as (i & Li & Lp & Ln). destruct (empty_stream (dr_core (dv_dram o))) as (c & C & Cq & Cm).
  unfold l_device. rewrite X. cbn [bind]. rewrite C, Li. eexists. split; [reflexivity|]. cbn. split; [exact Xi|]. split; [exact Cm|]. split; [exact Cq|]. split; assumption.
Qed.
Lemma cut_in_core p d0 ys o xs n u v : device_new p = Value d0 -> duses_run p ys d0 = Returned o -> duses_run p xs d0 = Returned n ->
  fi_std (dp_if p) <> DDR4 -> w_core (dr_core (dv_dram n)) = u ++ v ->
  exists z, l_device o (ext_items n ++ u) = Value (Kept z []) /\ dv_ext z = dv_ext n /\
    left_behind (core_fields (dr_core (dv_dram n))) (core_fields (dr_core (dv_dram o))) u (members (core_fields (dr_core (dv_dram z)))) /\
    co_queue (dr_core (dv_dram z)) = co_queue (dr_core (dv_dram o)) /\ lost (dr_if (dv_dram o)) (dr_if (dv_dram z)).
Proof.
  intros N O H D E. pose proof (devices_pair _ _ _ _ _ _ N O H) as P.
  pose proof (iface_lost _ _ _ P) as L. replace (match fi_std (dp_if p) with DDR4 => true | _ => false end) with false in L by (destruct (fi_std (dp_if p)); [contradiction|reflexivity..]).
  destruct L as (i & Li & Lp & Ln). destruct (cut_stream _ _ _ _ (po_shape _ _ _ P) E) as (c & m & C & B & M & Q).
  unfold l_device. rewrite (exts_read _ _ _ _ P). cbn [bind]. rewrite C, Li. eexists. split; [reflexivity|]. cbn. split; [reflexivity|].
  split; [|split; [exact Q|split; assumption]]. unfold has_members in M. cbn in M |- *. rewrite M. exact B.
Qed.
Lemma cut_in_iface p d0 ys o xs n w : device_new p = Value d0 -> duses_run p ys d0 = Returned o -> duses_run p xs d0 = Returned n ->
  l_device o (ext_items n ++ w_core (dr_core (dv_dram n)) ++ w) =
  Value (match l_run (o_iface (dr_if (dv_dram o))) w with
         | Kept i r => Kept (mkDevice (dv_ext n) (mkDram (mkCore (co_ranks (dr_core (dv_dram n))) (co_queue (dr_core (dv_dram o))) (co_last (dr_core (dv_dram n)))) i)) r
         | Unset => Unset
         | Other => Other
         end).
Proof.
  intros N O H. pose proof (devices_pair _ _ _ _ _ _ N O H) as P. unfold l_device. rewrite (exts_read _ _ _ _ P). cbn [bind].
  now rewrite (whole_stream _ _ _ _ (reads_core _ _ (po_shape _ _ _ P) w)).
Qed.
Lemma ddr4_device p d0 ys o xs n u v : device_new p = Value d0 -> duses_run p ys d0 = Returned o -> duses_run p xs d0 = Returned n ->
  fi_std (dp_if p) = DDR4 -> ext_items n ++ w_core (dr_core (dv_dram n)) = u ++ v -> l_device o u = Value Unset.
Proof.
  intros N O H D E. pose proof (devices_pair _ _ _ _ _ _ N O H) as P. pose proof (iface_lost _ _ _ P) as L. rewrite D in L.
  apply split_at in E as [(u' & -> & E)|(f & _ & E & _)]; unfold l_device.
  - rewrite (exts_read _ _ _ _ P). cbn [bind]. destruct (cut_stream _ _ _ _ (po_shape _ _ _ P) E) as (c & m & C & _). now rewrite C, L.
  - destruct (exts_cut _ _ _ _ _ P E) as (x & X & _). rewrite X. cbn [bind]. destruct (empty_stream (dr_core (dv_dram o))) as (c & C & _). now rewrite C, L.
Qed.
Lemma device_stream p d0 ys o xs n order : device_new p = Value d0 -> duses_run p ys d0 = Returned o -> duses_run p xs d0 = Returned n ->
  w_device order n = Value (ext_items n ++ w_core (dr_core (dv_dram n)) ++ w_iface order (dr_if (dv_dram n))).
Proof. intros N O H. unfold w_device. rewrite (exts_written _ _ _ (devices_pair _ _ _ _ _ _ N O H)). reflexivity. Qed.

(* ---- what a broken-off stream does to a device ---- *)
From Verif Require Import InterfaceExamples DramExamples SerialExamples ExtensionExamples.
(* A device of its own state read from the first k values of its own stream. *)
Definition cut_device (s : standard) (k : nat) : option (device * device * list item * after_read device) :=
  match device_after (ex_dspec s) (device_day s) with
  | Some (d0, d) => match w_device (as_is (dr_if (dv_dram d))) d with
                    | Value w => match l_device d (firstn k w) with Value x => Some (d0, d, w, x) | Fails _ => None end
                    | Fails _ => None
                    end
  | None => None
  end.
Lemma cut_device_spec s k : match cut_device s k with
  | Some (d0, d, w, x) => device_new (ex_dspec s) = Value d0 /\ duses_run (ex_dspec s) (device_day s) d0 = Returned d /\
      w_device (as_is (dr_if (dv_dram d))) d = Value w /\ l_device d (firstn k w) = Value x
  | None => True
  end.
Proof.
  unfold cut_device. destruct (device_after (ex_dspec s) (device_day s)) as [[d0 d]|] eqn:A; [|exact I]. apply device_after_runs in A as [A B].
  destruct (w_device (as_is (dr_if (dv_dram d))) d) as [w|] eqn:W; [|exact I]. destruct (l_device d (firstn k w)) as [x|] eqn:L; [|exact I]. auto.
Qed.
Definition next_use (s : standard) : list duse := firstn 1 (device_later s).
Definition cut_breaks (s : standard) (k : nat) : bool :=
  match cut_device s k with
  | Some (d0, d, w, Kept z []) =>
      match dwatch (ex_dspec s) (next_use s) d, dwatch (ex_dspec s) (next_use s) z with
      | [Seen _ _ _ _], [InterfaceBroke UB] => Nat.ltb k (length w)
      | _, _ => false
      end
  | _ => false
  end.
Lemma cut_device_breaks s : s <> DDR4 -> exists d0 d w z,
  device_new (ex_dspec s) = Value d0 /\ duses_run (ex_dspec s) (device_day s) d0 = Returned d /\ w_device (as_is (dr_if (dv_dram d))) d = Value w /\ (40 < length w)%nat /\
  l_device d (firstn 40 w) = Value (Kept z []) /\ (exists a b c e, dwatch (ex_dspec s) (next_use s) d = [Seen a b c e]) /\ dwatch (ex_dspec s) (next_use s) z = [InterfaceBroke UB].
Proof.
  intros D. assert (cut_breaks s 40 = true) as B by (destruct s; [exfalso; exact (D eq_refl)|vm_compute; reflexivity..]). clear D. pose proof (cut_device_spec s 40) as H.
  unfold cut_breaks in B. destruct (cut_device s 40) as [[[[d0 d] w] x]|]; [|discriminate]. destruct x as [z [|]| |]; try discriminate. destruct H as (H1 & H2 & H3 & H4).
  exists d0, d, w, z. destruct (dwatch (ex_dspec s) (next_use s) d) as [|[a b c e| |] [|]]; try discriminate.
  destruct (dwatch (ex_dspec s) (next_use s) z) as [|[| |[]] [|]]; try discriminate. apply Nat.ltb_lt in B.
  split; [exact H1|]. split; [exact H2|]. split; [exact H3|]. split; [exact B|]. split; [exact H4|]. split; [now exists a, b, c, e|reflexivity].
Qed.
