(* Concrete managers and DRAM objects with extensions for the examples and the
   witnesses of refutations. *)
From Coq Require Import NArith QArith List Bool.
From Verif Require Import Base Command CoreModel Bits BusModel StatsModel DbiModel DbiPinModel PatternModel InterfaceModel InterfaceSpec InterfaceExamples DramModel DramSpec DramExamples.
From Verif Require Import SerialModel SerialSpec SerialProofs SerialExamples ExtensionModel ExtensionSpec ExtensionProofs ExtensionDevice.
Import ListNotations.
Local Open Scope N_scope.

(* Objects that are one byte. *)
Definition w_byte (n : N) : list item := [I_u8 n].
Definition r_byte (_ : N) : reader N := r_u8.
Lemma byte_reads v v' : reads (r_byte v') (w_byte v) v.
Proof. intros rest. reflexivity. Qed.
Definition some_acts : list (act N) := [Register 5 7; Register 3 8; With 5 (fun n => n + 1); With 9 (fun _ => 0); Register 4 1].
Definition same_types : list (act N) := [Register 5 0; Register 3 0; Register 4 0; With 3 (fun n => n + 2)].
Lemma some_distinct : NoDup (registered some_acts).
Proof. repeat constructor; cbn; intros H; repeat destruct H as [H|H]; discriminate || contradiction. Qed.

(* The stream names no types. *)
Lemma order_matters : exists (l l' : list (act N)) s m', NoDup (registered l) /\ NoDup (registered l') /\ (forall ty, In ty (registered l) <-> In ty (registered l')) /\
  em_serialize w_byte (acts_run l em_new) = Value s /\ em_deserialize r_byte (acts_run l' em_new) s = Value (Got m' []) /\
  em_get 5 (acts_run l em_new) = Some 7 /\ em_get 5 m' = Some 8.
Proof.
  exists [Register 5 7; Register 3 8], [Register 3 0; Register 5 0], [I_u8 7; I_u8 8]. eexists.
  split; [repeat constructor; cbn; intros H; repeat destruct H as [H|H]; discriminate || contradiction|].
  split; [repeat constructor; cbn; intros H; repeat destruct H as [H|H]; discriminate || contradiction|].
  split; [intros ty; cbn; tauto|]. split; [reflexivity|]. split; [reflexivity|]. split; reflexivity.
Qed.

(* ---- hooks ---- *)

Definition some_hooked : list (hooked N) := [mkHooked 1 10 5; mkHooked 2 20 4; mkHooked 3 30 2147483650].
Lemma replaced_called : exists (l : list (hooked N)) m, hooked_run l (em_new_hooks 8) = Value m /\ em_get 1 m = Some 11 /\ map (nth_error (em_objects m)) (em_called 1 m) = [Some 10; Some 11].
Proof. exists [mkHooked 1 10 1; mkHooked 1 11 1]. eexists. split; [vm_compute; reflexivity|]. split; vm_compute; reflexivity. Qed.
Lemma combined_differ : exists (l : list (hooked N)) m hook, hooked_run l (em_new_hooks 8) = Value m /\ em_called hook m = [0%nat] /\ static_called (map hk_hooks l) hook = [0%nat; 1%nat].
Proof. exists [mkHooked 1 10 1; mkHooked 2 20 2]. eexists. exists 3. split; [vm_compute; reflexivity|]. split; vm_compute; reflexivity. Qed.

(* ---- DRAM objects ---- *)

Definition device_after (p : dspec) (xs : list duse) : option (device * device) :=
  match device_new p with
  | Value d0 => match duses_run p xs d0 with Returned d => Some (d0, d) | _ => None end
  | Fails _ => None
  end.
Lemma device_after_runs p xs d0 d : device_after p xs = Some (d0, d) -> device_new p = Value d0 /\ duses_run p xs d0 = Returned d.
Proof.
  unfold device_after. destruct (device_new p) as [e0|]; [|discriminate]. destruct (duses_run p xs e0) as [e| |] eqn:R; try discriminate.
  intros E. injection E as <- <-. split; [reflexivity|exact R].
Qed.
(* The inversion is used where it is written; the last query drains the core. *)
Definition device_day (s : standard) : list duse :=
  [DbiEnable (match s with DDR4 | DDR5 => true | _ => false end); Plain (Both (cmd_at 0 ACT 0 3 0 [])); Plain (Both (cmd_at 20 RD 0 0 9 (burst_row s)));
   Plain (Both (cmd_at 60 WRA 0 0 9 (burst_row s)))] ++ match s with LPDDR6 => [] | _ => [MetaSet 7 0] end ++ [Plain (CoreOnly (cmd_at 150 ACT 4 0 0 [])); Plain (DramSpec.Ask 300)].
Definition device_later (s : standard) : list duse :=
  [Plain (Both (cmd_at 320 ACT 0 3 0 [])); Plain (Both (cmd_at 340 RD 0 0 9 (burst_row s))); DbiEnable false; Plain (DramSpec.Ask 400); Plain (Both (cmd_at 420 PREA 0 0 0 [])); Plain (DramSpec.Ask 500)].
Definition device_case (s : standard) : bool :=
  match device_after (ex_dspec s) (device_day s) with
  | Some (d0, d) => dram_serializable (dv_dram d) && forallb (kept_use (fi_std (dp_if (ex_dspec s)))) (device_day s) && forallb (fun b => b <=? 1) (kept_beats (dr_if (dv_dram d))) &&
      Nat.eqb (length (dwatch (ex_dspec s) (device_later s) d)) 6 && forallb (fun r => match r with Seen _ _ _ _ => true | _ => false end) (dwatch (ex_dspec s) (device_later s) d)
  | None => false
  end.
Definition agree_day (s : standard) : list duse :=
  [DbiEnable true; Plain (Both (cmd_at 0 ACT 0 3 0 [])); Plain (Both (cmd_at 20 RD 0 0 9 (burst_row s))); MetaSet 70000 5; Plain (DramSpec.Ask 300)].
Definition agree_case (s : standard) : option (option bool * option (N * N)) :=
  match device_after (ex_dspec s) (agree_day s) with
  | Some (_, d) => if forallb through_extensions (agree_day s) then Some (dbi_enabled d, meta_get d) else None
  | None => None
  end.

(* Read back, the extension of an LPDDR object says that inversion is on; the
   interface does not invert. *)
Definition restored (p : dspec) (xs : list duse) : option (device * device * device) :=
  match device_after p xs with
  | Some (d0, d) => match w_device (as_is (dr_if (dv_dram d))) d with
                    | Value s => match r_device d0 s with Value (Got d' []) => Some (d0, d, d') | _ => None end
                    | Fails _ => None
                    end
  | None => None
  end.
Lemma restored_runs p xs d0 d d' : restored p xs = Some (d0, d, d') -> device_new p = Value d0 /\ duses_run p xs d0 = Returned d /\
  exists s, w_device (as_is (dr_if (dv_dram d))) d = Value s /\ r_device d0 s = Value (Got d' []).
Proof.
  unfold restored. destruct (device_after p xs) as [[e0 e]|] eqn:A; [|discriminate]. destruct (w_device (as_is (dr_if (dv_dram e))) e) as [s|] eqn:W; [|discriminate].
  destruct (r_device e0 s) as [[e' [|x l]| |]|] eqn:R; try discriminate. intros E. injection E as <- <- <-. apply device_after_runs in A as [A B].
  split; [exact A|]. split; [exact B|]. exists s. split; [exact W|exact R].
Qed.
Definition claims (d : device) : option bool * option bool := (dbi_enabled d, inverting (if_dbi (dr_if (dv_dram d)))).
Definition claims_after (p : dspec) (xs : list duse) : option (option bool * option bool * (option bool * option bool)) :=
  match restored p xs with Some (_, d, d') => Some (claims d, claims d') | None => None end.
Lemma claims_runs p xs a b : claims_after p xs = Some (a, b) -> exists d0 d s d', device_new p = Value d0 /\ duses_run p xs d0 = Returned d /\
  w_device (as_is (dr_if (dv_dram d))) d = Value s /\ r_device d0 s = Value (Got d' []) /\ claims d = a /\ claims d' = b.
Proof.
  unfold claims_after. destruct (restored p xs) as [[[d0 d] d']|] eqn:R; [|discriminate]. intros E. injection E as <- <-.
  apply restored_runs in R as (A & B & s & C & D). exists d0, d, s, d'. split; [exact A|]. split; [exact B|]. split; [exact C|]. split; [exact D|]. split; reflexivity.
Qed.
Lemma claim_wrong s : In s [LPDDR4; LPDDR5; LPDDR6] -> exists d0 d w d',
  device_new (ex_dspec s) = Value d0 /\ duses_run (ex_dspec s) [DbiEnable true] d0 = Returned d /\ w_device (as_is (dr_if (dv_dram d))) d = Value w /\ r_device d0 w = Value (Got d' []) /\
  dbi_enabled d' = Some true /\ exists x, if_dbi (dr_if (dv_dram d')) = Some x /\ db_enable (di_dbi x) = false.
Proof.
  intros I. assert (claims_after (ex_dspec s) [DbiEnable true] = Some ((Some true, Some true), (Some true, Some false))) as C.
  { destruct I as [<-|[<-|[<-|[]]]]; vm_compute; reflexivity. }
  apply claims_runs in C as (d0 & d & w & d' & A & B & W & R & _ & K). exists d0, d, w, d'. split; [exact A|]. split; [exact B|]. split; [exact W|]. split; [exact R|].
  unfold claims in K. injection K as K1 K2. split; [exact K1|]. destruct (if_dbi (dr_if (dv_dram d'))) as [x|]; [|discriminate K2]. exists x. split; [reflexivity|]. now injection K2.
Qed.
(* Metadata: the copy in the extension and the interface part company. *)
Definition metas (d : device) : option extension * (N * N) := (em_get ty_meta (dv_ext d), if_meta (dr_if (dv_dram d))).
Definition metas_after (p : dspec) (xs : list duse) : option (option extension * (N * N)) := match restored p xs with Some (_, _, d') => Some (metas d') | None => None end.
Lemma meta_lost : exists d0 d w d',
  device_new (ex_dspec LPDDR6) = Value d0 /\ duses_run (ex_dspec LPDDR6) [MetaSet 3 9] d0 = Returned d /\ w_device (as_is (dr_if (dv_dram d))) d = Value w /\ r_device d0 w = Value (Got d' []) /\
  em_get ty_meta (dv_ext d') = Some (X_meta 3 9) /\ meta_get d' = Some (0, 0).
Proof.
  assert (metas_after (ex_dspec LPDDR6) [MetaSet 3 9] = Some (Some (X_meta 3 9), (0, 0))) as C by (vm_compute; reflexivity).
  unfold metas_after in C. destruct (restored (ex_dspec LPDDR6) [MetaSet 3 9]) as [[[d0 d] d']|] eqn:R; [|discriminate].
  apply restored_runs in R as (A & B & s & W & D). exists d0, d, s, d'. split; [exact A|]. split; [exact B|]. split; [exact W|]. split; [exact D|].
  unfold metas in C. injection C as C1 C2. split; [exact C1|]. unfold meta_get. rewrite C1, C2. reflexivity.
Qed.
