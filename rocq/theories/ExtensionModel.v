(* The extension managers and the extensions of the DRAM classes.
   Citations: M = util/extension_manager.h, S = util/extension_manager_static.h,
   X = util/extensions.cpp, Xh = util/extensions.h, all under
   src/DRAMPower/DRAMPower. *)
From Coq Require Import NArith QArith List Bool.
From Verif Require Import Base Command CoreModel Bits BusModel StatsModel DbiModel DbiPinModel PatternModel InterfaceModel DramModel SerialModel.
Import ListNotations.
Local Open Scope N_scope.

(* ---- the manager ---- *)

(* ExtensionManager: M 47-48, and the hook cache of ExtensionManagerWithHooks: M
   163 (empty in a manager without hooks).  A std::type_index is a number.
   em_objects are the objects made by make_shared, in the order of their making;
   a shared_ptr or weak_ptr is a position in that list. *)
Record manager (V : Type) := mkManager {
  em_objects : list V; em_map : list (N * nat); em_ser : list nat; em_hooks : list (list nat)
}.
Arguments mkManager {V} _ _ _ _.
Arguments em_objects {V} _.
Arguments em_map {V} _.
Arguments em_ser {V} _.
Arguments em_hooks {V} _.
(* Constructors: M 73; with hooks M 166-172, 188-190, [digits] is
   numeric_limits::digits of the underlying type. *)
Definition em_new {V} : manager V := mkManager [] [] [] [].
(* With em_new: Constructors: M 73; with hooks M 166-172, 188-190, [digits] is
   numeric_limits::digits of the underlying type. *)
Definition em_new_hooks {V} (digits : nat) : manager V := mkManager [] [] [] (repeat [] digits).
(* m_extensions.find: M 89, 104, 114. *)
Definition em_find {V} (ty : N) (m : manager V) : option nat :=
  match find (fun e => fst e =? ty) (em_map m) with Some e => Some (snd e) | None => None end.
(* registerExtension_impl: M 60-69; m_extensions[typeIndex] = ext replaces. *)
Definition em_register {V} (ty : N) (v : V) (m : manager V) : manager V :=
  let k := length (em_objects m) in
  mkManager (em_objects m ++ [v]) ((ty, k) :: filter (fun e => negb (fst e =? ty)) (em_map m)) (em_ser m ++ [k]) (em_hooks m).
(* getExtension: M 83-94; the object that the pointer refers to. *)
Definition em_get {V} (ty : N) (m : manager V) : option V :=
  match em_find ty m with Some k => nth_error (em_objects m) k | None => None end.
(* hasExtension: M 97-105. *)
Definition em_has {V} (ty : N) (m : manager V) : bool := match em_find ty m with Some _ => true | None => false end.
(* A change of one object through a pointer to it, or of one entry of a vector;
   not functions of the source. *)
(* The pointers are those of M 47-48. *)
Fixpoint change_at {A} (k : nat) (f : A -> A) (l : list A) : list A :=
  match l, k with
  | [], _ => []
  | x :: r, O => f x :: r
  | x :: r, S k => x :: change_at k f r
  end.
(* As change_at, for the objects of the manager: M 47-48. *)
Definition em_change {V} (k : nat) (f : V -> V) (m : manager V) : manager V :=
  mkManager (change_at k f (em_objects m)) (em_map m) (em_ser m) (em_hooks m).
(* withExtension: M 108-119; [f] is what the functor makes of the object. *)
Definition em_with {V} (ty : N) (f : V -> V) (m : manager V) : manager V :=
  match em_find ty m with Some k => em_change k f m | None => m end.

(* wp.lock(): M 123, 132.  A weak_ptr is alive while m_extensions or the hook
   cache owns the object; a user that keeps a shared_ptr of its own is not
   modelled. *)
Definition em_alive {V} (m : manager V) (k : nat) : bool :=
  existsb (fun e => Nat.eqb (snd e) k) (em_map m) || existsb (existsb (Nat.eqb k)) (em_hooks m).
(* serialize: M 121-129; [w] is the serialize member of the objects. *)
Fixpoint em_write {V} (w : V -> list item) (m : manager V) (ks : list nat) : result (list item) :=
  match ks with
  | [] => Value []
  | k :: ks => if em_alive m k
               then match nth_error (em_objects m) k with
                    | Some v => rest <- em_write w m ks ;; Value (w v ++ rest)
                    | None => Fails UB
                    end
               else Fails Exception
  end.
(* With em_write: serialize: M 121-129; [w] is the serialize member of the
   objects. *)
Definition em_serialize {V} (w : V -> list item) (m : manager V) : result (list item) := em_write w m (em_ser m).
(* deserialize: M 130-138; [r] is the deserialize member of the objects. *)
Fixpoint em_read {V} (r : V -> reader V) (m : manager V) (ks : list nat) (s : list item) : result (parsed (manager V)) :=
  match ks with
  | [] => Value (Got m s)
  | k :: ks => if em_alive m k
               then match nth_error (em_objects m) k with
                    | Some v => match r v s with
                                | Got v' s' => em_read r (em_change k (fun _ => v') m) ks s'
                                | Mismatch => Value Mismatch
                                | BadBool => Value BadBool
                                end
                    | None => Fails UB
                    end
               else Fails Exception
  end.
(* With em_read: deserialize: M 130-138; [r] is the deserialize member of the
   objects. *)
Definition em_deserialize {V} (r : V -> reader V) (m : manager V) (s : list item) : result (parsed (manager V)) := em_read r m (em_ser m) s.

(* ---- hooks ---- *)

(* countZeros: M 26-38, [digits] is numeric_limits<T>::digits. *)
Fixpoint trailing (p : positive) : nat := match p with xO p => S (trailing p) | _ => O end.
(* With trailing: countZeros: M 26-38, [digits] is numeric_limits<T>::digits. *)
Definition count_zeros (digits : nat) (v : N) : nat := match v with N0 => digits | Npos p => trailing p end.
(* `1 << i` in updateHookCache: M 181.  The literal is an int: up to bit 30 the
   shift is plain, bit 31 gives INT_MIN, which widens to all bits from 31 up in the
   underlying type; a shift by 32 or more is undefined. *)
Definition hook_mask (digits i : nat) : result N :=
  if Nat.ltb i 31 then Value (2 ^ N.of_nat i)
  else if Nat.eqb i 31 then Value (2 ^ N.of_nat digits - 2 ^ 31)
  else Fails UB.
(* The body of the loop in updateHookCache: M 180-184. *)
Definition hook_push (digits k : nat) (supported : N) (i : nat) (h : list (list nat)) : result (list (list nat)) :=
  mask <- hook_mask digits i ;;
  match nth_error h i with
  | Some _ => Value (if N.land supported mask =? 0 then h else change_at i (fun l => l ++ [k]) h)
  | None => Fails UB
  end.
(* updateHookCache and registerExtension with hooks: M 174-185, 196-199. *)
Definition em_register_hooks {V} (ty : N) (v : V) (supported : N) (m : manager V) : result (manager V) :=
  let m1 := em_register ty v m in
  let k := length (em_objects m) in
  h <- loop (hook_push (length (em_hooks m)) k supported) (seq 0 (length (em_hooks m))) (em_hooks m1) ;;
  Value (mkManager (em_objects m1) (em_map m1) (em_ser m1) h).
(* callHook: M 202-212: the objects that the functor is applied to, in order. *)
Definition em_called {V} (hook : N) (m : manager V) : list nat :=
  nth (count_zeros (length (em_hooks m)) hook) (em_hooks m) [].
(* With em_called: callHook: M 202-212: the objects that the functor is applied
   to, in order. *)
Definition em_call_hook {V} (hook : N) (f : V -> V) (m : manager V) : manager V :=
  fold_left (fun m k => em_change k f m) (em_called hook m) m.
(* StaticExtensionManager::callHook: S 63-85, 95-105: the extensions of the tuple
   with a supported hook in common with [hook], by position; [supported] is
   getSupportedHooks of each. *)
Definition static_called (supported : list N) (hook : N) : list nat :=
  filter (fun k => negb (N.land (nth k supported 0) hook =? 0)) (seq 0 (length supported)).

(* ---- the extensions of the DRAM classes ---- *)

(* extensions::DBI with m_enabled (Xh 62-63) and extensions::MetaData with
   m_metadata (Xh 94).  The callbacks are those of registerExtensions: see below. *)
Inductive extension := X_dbi (enabled : bool) | X_meta (a b : N).
(* typeid(T). *)
(* As used in M 65, 90, 105, 114. *)
Definition ty_dbi : N := 0.
(* As used in M 65, 90, 105, 114. *)
Definition ty_meta : N := 1.
(* serialize and deserialize: X 27-32, 48-60. *)
Definition w_ext (x : extension) : list item :=
  match x with X_dbi e => [I_bool e] | X_meta a b => [I_u16 a; I_u16 b] end.
(* With w_ext: serialize and deserialize: X 27-32, 48-60. *)
Definition r_ext (x : extension) : reader extension :=
  match x with
  | X_dbi _ => e <~ r_bool ;; r_ret (X_dbi e)
  | X_meta _ _ => a <~ r_u16 ;; b <~ r_u16 ;; r_ret (X_meta a b)
  end.

(* A DRAM object with its extension manager: dram/dram_base.h 125. *)
Record device := mkDevice { dv_ext : manager extension; dv_dram : dram }.
(* registerExtensions: standards/ddr4/DDR4.cpp 26-37; lpddr4/LPDDR4.cpp 23-30;
   lpddr5/LPDDR5.cpp 25-31; lpddr6/LPDDR6.cpp 25-37; DDR5 has none. *)
Definition register_extensions (i : iface) : manager extension :=
  match fi_std (if_spec i) with
  | DDR5 => em_new
  | LPDDR6 => em_register ty_meta (X_meta (fst (if_meta i)) (snd (if_meta i))) (em_register ty_dbi (X_dbi false) em_new)
  | _ => em_register ty_dbi (X_dbi false) em_new
  end.
(* Constructors: as in DramModel, then registerExtensions. *)
(* DDR4.cpp 17-24; LPDDR4.cpp 14-21; LPDDR5.cpp 16-23; LPDDR6.cpp 16-23 (DDR5
   registers none). *)
Definition device_new (p : dspec) : result device :=
  d <- dram_new p ;; Value (mkDevice (register_extensions (dr_if d)) d).
(* withExtension<DBI>([](DBI& x) { r = x.enable(t, e); }): X 10-21; the callbacks
   (DDR4.cpp 27-36; LPDDR4.cpp 24-29; LPDDR5.cpp 26-30; LPDDR6.cpp 26-30) are
   if_enable_dbi.  None if there is no such extension. *)
Definition dbi_enable (e : bool) (d : device) : device * option bool :=
  match em_get ty_dbi (dv_ext d) with
  | None => (d, None)
  | Some _ =>
      let (i, ok) := if_enable_dbi e (dr_if (dv_dram d)) in
      (mkDevice (if ok then em_with ty_dbi (fun _ => X_dbi e) (dv_ext d) else dv_ext d) (mkDram (dr_core (dv_dram d)) i), Some ok)
  end.
(* isEnabled: X 23-25. *)
Definition dbi_enabled (d : device) : option bool :=
  match em_get ty_dbi (dv_ext d) with Some (X_dbi e) => Some e | _ => None end.
(* setMetaData: X 34-39 with the callback LPDDR6.cpp 31-33; the arguments are
   uint16_t. *)
Definition meta_set (a b : N) (d : device) : device :=
  match em_get ty_meta (dv_ext d) with
  | None => d
  | Some _ => mkDevice (em_with ty_meta (fun _ => X_meta (a mod 65536) (b mod 65536)) (dv_ext d))
                       (mkDram (dr_core (dv_dram d)) (if_set_meta a b (dr_if (dv_dram d))))
  end.
(* getMetaData: X 41-46 with the callback LPDDR6.cpp 34-36, which is set. *)
Definition meta_get (d : device) : option (N * N) :=
  match em_get ty_meta (dv_ext d) with Some _ => Some (if_meta (dr_if (dv_dram d))) | None => None end.
(* serialize and deserialize: dram/dram_base.h 86-96 with serialize_impl and
   deserialize_impl: DDR4.cpp 68-76; DDR5.cpp 51-59; LPDDR4.cpp 61-69; LPDDR5.cpp
   62-70; LPDDR6.cpp 68-76. *)
Definition w_device (order : overrides) (d : device) : result (list item) :=
  x <- em_serialize w_ext (dv_ext d) ;; Value (x ++ w_core (dr_core (dv_dram d)) ++ w_iface order (dr_if (dv_dram d))).
(* With w_device: serialize and deserialize: dram/dram_base.h 86-96 with
   serialize_impl and deserialize_impl: DDR4.cpp 68-76; DDR5.cpp 51-59; LPDDR4.cpp
   61-69; LPDDR5.cpp 62-70; LPDDR6.cpp 68-76. *)
Definition r_device (target : device) (s : list item) : result (parsed device) :=
  x <- em_deserialize r_ext (dv_ext target) s ;;
  Value (match x with
         | Got m s1 => (c <~ r_core (dr_core (dv_dram target)) ;; i <~ r_iface (dr_if (dv_dram target)) ;; r_ret (mkDevice m (mkDram c i))) s1
         | Mismatch => Mismatch
         | BadBool => BadBool
         end).
