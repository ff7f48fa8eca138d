(* C39: the extension manager.  C47: hooks.  C48: a DRAM object with its extensions
   written to a stream and read back. *)
From Coq Require Import NArith List Bool.
From Verif Require Import Base Command CoreModel Bits BusModel StatsModel DbiModel DbiPinModel PatternModel InterfaceModel InterfaceSpec InterfaceExamples DramModel DramSpec DramExamples.
From Verif Require Import SerialModel SerialSpec SerialProofs SerialExamples ExtensionModel ExtensionSpec ExtensionProofs HookProofs ExtensionDevice ExtensionExamples.
Import ListNotations.
Local Open Scope N_scope.

(* After any registrations and changes through withExtension, the object of a type
   is the one registered last for that type with the later changes of that type. *)
Theorem C39_lookup : forall (V : Type) ty (l : list (act V)), em_get ty (acts_run l em_new) = latest ty l.
Proof. exact @lookup. Qed.
Print Assumptions C39_lookup.
Example C39_lookup_case : map (fun ty => latest ty some_acts) [3; 4; 5; 9] = [Some 8; Some 1; Some 8; None].
Proof. reflexivity. Qed.

Theorem C39_has : forall (V : Type) ty (l : list (act V)), em_has ty (acts_run l em_new) = true <-> In ty (registered l).
Proof. exact @has_run. Qed.
Print Assumptions C39_has.
Example C39_has_case : registered some_acts = [5; 3; 4] /\ em_has 3 (acts_run some_acts em_new) = true /\ em_has 9 (acts_run some_acts em_new) = false.
Proof. repeat split. Qed.

(* With every type registered once, the present objects are written in the order of
   registration. *)
Theorem C39_serialize : forall (V : Type) (w : V -> list item) l, NoDup (registered l) ->
  em_serialize w (acts_run l em_new) = Value (flat_map (fun ty => match latest ty l with Some v => w v | None => [] end) (registered l)).
Proof. exact @serialize_once. Qed.
Print Assumptions C39_serialize.
Example C39_serialize_case : NoDup (registered some_acts) /\ em_serialize w_byte (acts_run some_acts em_new) = Value [I_u8 8; I_u8 8; I_u8 1].
Proof. split; [exact some_distinct|reflexivity]. Qed.

(* With some type registered twice, writing throws. *)
Theorem C39_serialize_twice : forall (V : Type) (w : V -> list item) l, ~ NoDup (registered l) -> em_serialize w (acts_run l em_new) = Fails Exception.
Proof. exact @serialize_twice. Qed.
Print Assumptions C39_serialize_twice.
Example C39_serialize_twice_case : ~ NoDup (registered [Register 5 7; Register 3 1; Register 5 8]) /\ em_get 5 (acts_run [Register 5 7; Register 3 1; Register 5 8] em_new) = Some 8.
Proof. split; [|reflexivity]. cbn. intros H. inversion H as [|x r N _]. apply N. cbn. auto. Qed.

(* Read into a manager with the same types in the same order, whatever its objects,
   every type has the object that was written, also after further registrations and
   changes.  Missing for the full C39: matching by type (refuted below) and a type
   registered twice. *)
Theorem C39_round_trip_partial : forall (V : Type) (w : V -> list item) (r : V -> reader V) l l' rest,
  NoDup (registered l) -> registered l' = registered l ->
  (forall ty v v', latest ty l = Some v -> latest ty l' = Some v' -> forall more, r v' (w v ++ more) = Got v more) ->
  exists s m', em_serialize w (acts_run l em_new) = Value s /\ em_deserialize r (acts_run l' em_new) (s ++ rest) = Value (Got m' rest) /\
    forall later ty, em_get ty (acts_run later m') = em_get ty (acts_run later (acts_run l em_new)).
Proof. exact @round_trip. Qed.
Print Assumptions C39_round_trip_partial.
Example C39_round_trip_case : NoDup (registered some_acts) /\ registered same_types = registered some_acts /\
  (forall ty v v', latest ty some_acts = Some v -> latest ty same_types = Some v' -> forall more, r_byte v' (w_byte v ++ more) = Got v more) /\
  latest 3 same_types <> latest 3 some_acts.
Proof. split; [exact some_distinct|]. split; [reflexivity|]. split; [intros ty v v' _ _ more; exact (byte_reads v v' more)|discriminate]. Qed.

(* Matching by type: the same two types registered in another order exchange their objects. *)
Theorem C39_by_type_refuted : exists (l l' : list (act N)) s m', NoDup (registered l) /\ NoDup (registered l') /\ (forall ty, In ty (registered l) <-> In ty (registered l')) /\
  em_serialize w_byte (acts_run l em_new) = Value s /\ em_deserialize r_byte (acts_run l' em_new) s = Value (Got m' []) /\
  em_get 5 (acts_run l em_new) = Some 7 /\ em_get 5 m' = Some 8.
Proof. exact order_matters. Qed.
Print Assumptions C39_by_type_refuted.

(* The extensions of a DRAM object say what its interface does, after any use that
   does not reach around them: inversion is on if it was asked for last and the
   device has it; the metadata are those set last. *)
Theorem C39_extensions_agree : forall p d0 xs d, device_new p = Value d0 -> duses_run p xs d0 = Returned d -> forallb through_extensions xs = true ->
  let s := fi_std (dp_if p) in
  (s <> DDR5 -> dbi_enabled d = Some (can_invert (dp_if p) && last_dbi xs) /\
                exists x, if_dbi (dr_if (dv_dram d)) = Some x /\ db_enable (di_dbi x) = can_invert (dp_if p) && last_dbi xs) /\
  (s = DDR5 -> dbi_enabled d = None /\ if_dbi (dr_if (dv_dram d)) = None) /\
  (s = LPDDR6 -> meta_get d = Some (last_meta xs)) /\ (s <> LPDDR6 -> meta_get d = None).
Proof. exact extensions_agree. Qed.
Print Assumptions C39_extensions_agree.
Example C39_extensions_agree_case : map agree_case [DDR4; DDR5; LPDDR4; LPDDR5; LPDDR6] =
  [Some (Some true, None); Some (None, None); Some (Some true, None); Some (Some true, None); Some (Some true, Some (4464, 5))].
Proof. vm_compute. reflexivity. Qed.

(* Any registrations with hooks of up to 32 bits: calling a hook reaches, in the
   order of registration, exactly the extensions that support it; of several hooks
   in one call only the lowest counts. *)
Theorem C47_dispatch : forall (V : Type) digits (l : list (hooked V)), (digits <= 32)%nat ->
  exists m, hooked_run l (em_new_hooks digits) = Value m /\
    (forall hook b, lowest hook b -> b < N.of_nat digits -> em_called hook m = supporters b 0 (map hk_hooks l)) /\
    em_called 0 m = [].
Proof. exact @called_dynamic. Qed.
Print Assumptions C47_dispatch.
Example C47_dispatch_case : lowest 12 2 /\ map (fun b => supporters b 0 (map hk_hooks some_hooked)) [0; 1; 2; 31] = [[0%nat]; [2%nat]; [0%nat; 1%nat]; [2%nat]].
Proof. split; [|reflexivity]. split; [reflexivity|]. intros c H. destruct c as [|[c|c|]]; try reflexivity; destruct c; discriminate H. Qed.

(* Calling a hook changes exactly the extensions that support its lowest bit, each
   of them once, and leaves the registrations alone. *)
Theorem C47_applied : forall (V : Type) digits (l : list (hooked V)) m hook b f,
  (digits <= 32)%nat -> hooked_run l (em_new_hooks digits) = Value m -> lowest hook b -> b < N.of_nat digits ->
  em_objects (em_call_hook hook f m) = map (fun x => if N.testbit (hk_hooks x) b then f (hk_object x) else hk_object x) l /\
  forall ty, em_find ty (em_call_hook hook f m) = em_find ty m.
Proof. exact @hook_applied. Qed.
Print Assumptions C47_applied.
Example C47_applied_case : exists m, hooked_run some_hooked (em_new_hooks 32) = Value m /\ em_objects (em_call_hook 12 N.succ m) = [11; 21; 30].
Proof. eexists. split; vm_compute; reflexivity. Qed.

(* The static manager reaches the same extensions for a single hook. *)
Theorem C47_static : forall supported b, static_called supported (2 ^ b) = supporters b 0 supported.
Proof. exact static_single. Qed.
Print Assumptions C47_static.
Example C47_static_case : static_called [5; 4; 2147483650] (2 ^ 2) = [0%nat; 1%nat].
Proof. reflexivity. Qed.

(* Hooks wider than 32 bits: every registration is undefined. *)
Theorem C47_wide_undefined : forall (V : Type) digits ty (v : V) s m, length (em_hooks m) = digits -> (32 < digits)%nat -> em_register_hooks ty v s m = Fails UB.
Proof. exact @wide_undefined. Qed.
Print Assumptions C47_wide_undefined.
Example C47_wide_case : length (em_hooks (em_new_hooks (V := N) 64)) = 64%nat.
Proof. reflexivity. Qed.

(* Several hooks in one call: the static manager calls more extensions. *)
Theorem C47_combined_refuted : exists (l : list (hooked N)) m hook,
  hooked_run l (em_new_hooks 8) = Value m /\ em_called hook m = [0%nat] /\ static_called (map hk_hooks l) hook = [0%nat; 1%nat].
Proof. exact combined_differ. Qed.
Print Assumptions C47_combined_refuted.

(* An extension replaced by another of its type is still called. *)
Theorem C47_replaced_refuted : exists (l : list (hooked N)) m,
  hooked_run l (em_new_hooks 8) = Value m /\ em_get 1 m = Some 11 /\ map (nth_error (em_objects m)) (em_called 1 m) = [Some 10; Some 11].
Proof. exact replaced_called. Qed.
Print Assumptions C47_replaced_refuted.

(* Write a DRAM object after any uses that the stream keeps, with no implicit
   command pending, and read it into a newly made one to the last item: every later
   use of the two is seen alike.  Missing for the full C48: as for C30. *)
Theorem C48_checkpoint_partial : forall p d0 xs d order,
  device_new p = Value d0 -> duses_run p xs d0 = Returned d -> forallb (kept_use (fi_std (dp_if p))) xs = true ->
  dram_serializable (dv_dram d) = true -> traversal order (settings_of (if_pat (dr_if (dv_dram d)))) -> Forall (fun b => b <= 1) (kept_beats (dr_if (dv_dram d))) ->
  exists s d', w_device order d = Value s /\ r_device d0 s = Value (Got d' []) /\ forall later, dwatch p later d' = dwatch p later d.
Proof. exact device_checkpoint. Qed.
Print Assumptions C48_checkpoint_partial.
Example C48_checkpoint_case : map device_case [DDR4; DDR5; LPDDR4; LPDDR5; LPDDR6] = [true; true; true; true; true].
Proof. vm_compute. reflexivity. Qed.

(* Exactly what happens, after any uses whatever: the object that is read answers
   every later use as the one written with what the stream cannot hold taken from
   the object read into, its extensions being those written; unless a last beat of
   a DDR4 inverter has a byte above one, when reading is undefined. *)
Theorem C48_exactly : forall p d0 xs d order,
  device_new p = Value d0 -> duses_run p xs d0 = Returned d ->
  dram_serializable (dv_dram d) = true -> traversal order (settings_of (if_pat (dr_if (dv_dram d)))) ->
  exists s, w_device order d = Value s /\
    ((Forall (fun b => b <= 1) (kept_beats (dr_if (dv_dram d))) /\ exists d', r_device d0 s = Value (Got d' []) /\ forall later, dwatch p later d' = dwatch p later (forgetful_device d0 d)) \/
     (Exists (fun b => 1 < b) (kept_beats (dr_if (dv_dram d))) /\ r_device d0 s = Value BadBool)).
Proof. exact device_any. Qed.
Print Assumptions C48_exactly.
Example C48_exactly_case : map (fun s => match device_after (ex_dspec s) (agree_day s) with
    | Some (_, d) => dram_serializable (dv_dram d) && distinct_keys (map fst (as_is (dr_if (dv_dram d)))) | None => false end) [DDR4; DDR5; LPDDR4; LPDDR5; LPDDR6] = [true; true; true; true; true].
Proof. vm_compute. reflexivity. Qed.

(* Read back, the extension says that inversion is on and the interface does not invert. *)
Theorem C48_dbi_refuted : forall s, In s [LPDDR4; LPDDR5; LPDDR6] -> exists d0 d w d',
  device_new (ex_dspec s) = Value d0 /\ duses_run (ex_dspec s) [DbiEnable true] d0 = Returned d /\ w_device (as_is (dr_if (dv_dram d))) d = Value w /\ r_device d0 w = Value (Got d' []) /\
  dbi_enabled d' = Some true /\ exists x, if_dbi (dr_if (dv_dram d')) = Some x /\ db_enable (di_dbi x) = false.
Proof. exact claim_wrong. Qed.
Print Assumptions C48_dbi_refuted.

(* Read back, the extension holds the metadata and getMetaData gives zeros. *)
Theorem C48_meta_refuted : exists d0 d w d',
  device_new (ex_dspec LPDDR6) = Value d0 /\ duses_run (ex_dspec LPDDR6) [MetaSet 3 9] d0 = Returned d /\ w_device (as_is (dr_if (dv_dram d))) d = Value w /\ r_device d0 w = Value (Got d' []) /\
  em_get ty_meta (dv_ext d') = Some (X_meta 3 9) /\ meta_get d' = Some (0, 0).
Proof. exact meta_lost. Qed.
Print Assumptions C48_meta_refuted.
