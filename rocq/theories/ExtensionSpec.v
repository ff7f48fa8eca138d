(* What is expected of the extension managers and of the extensions. *)
From Coq Require Import NArith List Bool.
From Verif Require Import Base Command CoreModel Bits StatsModel InterfaceModel InterfaceSpec DramModel DramSpec ExtensionModel.
From Verif Require SerialSpec.
Import ListNotations.
Local Open Scope N_scope.

(* A user registers objects and changes the one registered for a type. *)
Inductive act (V : Type) := Register (ty : N) (v : V) | With (ty : N) (f : V -> V).
Arguments Register {V} ty v.
Arguments With {V} ty f.
Definition act_do {V} (m : manager V) (a : act V) : manager V :=
  match a with Register ty v => em_register ty v m | With ty f => em_with ty f m end.
Definition acts_run {V} (l : list (act V)) (m : manager V) : manager V := fold_left act_do l m.
(* The object of a type is the one registered last, with the changes since. *)
Definition latest {V} (ty : N) (l : list (act V)) : option V :=
  fold_left (fun o a => match a with
                        | Register t v => if t =? ty then Some v else o
                        | With t f => if t =? ty then option_map f o else o
                        end) l None.
(* The types in the order of their registration. *)
Definition registered {V} (l : list (act V)) : list N :=
  flat_map (fun a => match a with Register t _ => [t] | With _ _ => [] end) l.

(* Registrations of extensions with the hooks that they support. *)
Record hooked (V : Type) := mkHooked { hk_type : N; hk_object : V; hk_hooks : N }.
Arguments mkHooked {V} _ _ _.
Arguments hk_type {V} _.
Arguments hk_object {V} _.
Arguments hk_hooks {V} _.
Fixpoint hooked_run {V} (l : list (hooked V)) (m : manager V) : result (manager V) :=
  match l with
  | [] => Value m
  | x :: r => m1 <- em_register_hooks (hk_type x) (hk_object x) (hk_hooks x) m ;; hooked_run r m1
  end.
(* The lowest hook in a set of hooks. *)
Definition lowest (hook b : N) : Prop := N.testbit hook b = true /\ forall c, c < b -> N.testbit hook c = false.
(* The registrations that support a hook, by position. *)
Fixpoint supporters (b : N) (from : nat) (l : list N) : list nat :=
  match l with
  | [] => []
  | s :: r => (if N.testbit s b then [from] else []) ++ supporters b (S from) r
  end.

(* Use of a DRAM object with its extensions. *)
Inductive duse := Plain (u : use) | DbiEnable (e : bool) | MetaSet (a b : N).
Definition duse_do (p : dspec) (x : duse) (d : device) : dram_result device :=
  match x with
  | Plain u => match use_do p u (dv_dram d) with
               | Returned d' => Returned (mkDevice (dv_ext d) d')
               | CoreStops f => CoreStops f
               | InterfaceStops f c => InterfaceStops f c
               end
  | DbiEnable e => Returned (fst (dbi_enable e d))
  | MetaSet a b => Returned (meta_set a b d)
  end.
Fixpoint duses_run (p : dspec) (xs : list duse) (d : device) : dram_result device :=
  match xs with
  | [] => Returned d
  | x :: r => match duse_do p x d with Returned d1 => duses_run p r d1 | CoreStops f => CoreStops f | InterfaceStops f c => InterfaceStops f c end
  end.
(* Nobody reaches around the extensions. *)
Definition through_extensions (x : duse) : bool :=
  match x with Plain (Iface (SetDbi _)) | Plain (Iface (SetMeta _ _)) => false | _ => true end.
(* The last request. *)
Definition last_dbi (xs : list duse) : bool := fold_left (fun s x => match x with DbiEnable e => e | _ => s end) xs false.
Definition last_meta (xs : list duse) : N * N := fold_left (fun s x => match x with MetaSet a b => (a mod 65536, b mod 65536) | _ => s end) xs (0, 0).
(* Four bits wide DDR4 devices have no inversion. *)
Definition can_invert (p : ifspec) : bool := match fi_std p with DDR4 => negb (fi_bits p =? 4) | DDR5 => false | _ => true end.

(* What a user sees of a DRAM object: after each use the time of the last command,
   whether inversion is on and the metadata, the statistics if asked for; or in
   which part a use failed, after which nothing more is seen. *)
Inductive dreply := Seen (last : N) (inverting : option bool) (meta : option (N * N)) (stats : option sim_stats) | CoreBroke (f : failure) | InterfaceBroke (f : failure).
Definition answer (p : dspec) (x : duse) (d : device) : option sim_stats :=
  match x with
  | Plain (Ask t) => match dram_window p t (dv_dram d) with Returned (_, st) => Some st | _ => None end
  | _ => None
  end.
Fixpoint dwatch (p : dspec) (xs : list duse) (d : device) : list dreply :=
  match xs with
  | [] => []
  | x :: r => match duse_do p x d with
              | Returned d1 => Seen (dram_last_time (dv_dram d1)) (dbi_enabled d1) (meta_get d1) (answer p x d) :: dwatch p r d1
              | CoreStops f => [CoreBroke f]
              | InterfaceStops f _ => [InterfaceBroke f]
              end
  end.
(* The uses whose effect is written. *)
Definition kept_use (s : standard) (x : duse) : bool :=
  match x with
  | Plain (Iface (SetDbi e)) | DbiEnable e => match s with DDR4 | DDR5 => true | _ => negb e end
  | Plain (Iface (SetMeta _ _)) | Plain (Iface (Disable _)) => false
  | MetaSet _ _ => match s with LPDDR6 => false | _ => true end
  | _ => true
  end.

(* The object with what a stream cannot bring back taken from the object read into.
   The extensions themselves do come back. *)
Definition forgetful_device (target d : device) : device :=
  mkDevice (dv_ext d) (mkDram (dr_core (dv_dram d)) (SerialSpec.forgetful (dr_if (dv_dram target)) (dr_if (dv_dram d)))).
