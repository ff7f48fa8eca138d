(* Reading a whole device from a stream that breaks off: the extensions, the core
   (CutModel) and the interface (CutIfModel) one after the other.  Paths are under
   src/DRAMPower/DRAMPower; X is util/extensions.cpp, M util/extension_manager.h, as in
   ExtensionModel.  The simplifications of CutModel and CutIfModel hold here, too. *)
From Coq Require Import NArith List Bool.
From Verif Require Import Base Bits CoreModel SerialModel InterfaceModel ByteModel DramModel ExtensionModel CutModel CutIfModel.
Import ListNotations.
Local Open Scope N_scope.

(* deserialize of an extension: X 30-32, into the member; 53-59, into locals that are 0. *)
Definition o_ext (x : extension) : lprog extension :=
  match x with
  | X_dbi e => e' <-- o_bool e ;; LRet (X_dbi e')
  | X_meta _ _ => a <-- o_read T_u16 0 ;; b <-- o_read T_u16 0 ;; LRet (X_meta a b)
  end.
(* deserialize of the manager: M 130-138. *)
Fixpoint l_exts (m : manager extension) (ks : list nat) (s : list item) : result (after_read (manager extension)) :=
  match ks with
  | [] => Value (Kept m s)
  | k :: ks => if em_alive m k
               then match nth_error (em_objects m) k with
                    | Some v => match l_run (o_ext v) s with
                                | Kept v' s' => l_exts (em_change k (fun _ => v') m) ks s'
                                | Unset => Value Unset
                                | Other => Value Other
                                end
                    | None => Fails UB
                    end
               else Fails Exception
  end.
(* deserialize: dram/dram_base.h 91-96 with deserialize_impl: DDR4.cpp 73-76; DDR5.cpp
   56-59; LPDDR4.cpp 66-69; LPDDR5.cpp 67-70; LPDDR6.cpp 73-76. *)
Definition l_device (target : device) (s : list item) : result (after_read device) :=
  x <- l_exts (dv_ext target) (em_ser (dv_ext target)) s ;;
  Value (match x with
         | Kept m s1 =>
             match l_core (dr_core (dv_dram target)) s1 with
             | Got c s2 => match l_run (o_iface (dr_if (dv_dram target))) s2 with
                           | Kept i r => Kept (mkDevice m (mkDram c i)) r
                           | Unset => Unset
                           | Other => Other
                           end
             | _ => Other
             end
         | Unset => Unset
         | Other => Other
         end).
