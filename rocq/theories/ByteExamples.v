(* Concrete streams of bytes. *)
From Coq Require Import NArith List Bool Arith.
From Verif Require Import Base Command CoreModel HistorySpec ExampleCores Bits BusModel StatsModel PatternModel InterfaceModel InterfaceSpec InterfaceExamples DramModel DramSpec DramExamples
  SerialModel SerialCore SerialSpec SerialExamples ExtensionModel ExtensionSpec ExtensionExamples ByteModel ByteSpec ByteLayout.
Import ListNotations.
Local Open Scope N_scope.

Definition core_case (p : memspec) : bool :=
  match run_ops p (ser_ops ++ [Query 100]) (core_new p) with
  | Ok (s, _) =>
      let bytes := stream64 (w_core s) in
      is_serializable s && forallb shown (w_core s) && Nat.ltb 700 (length bytes) &&
      match from_bytes lp64 (p_core (core_new p)) (bytes ++ [1; 2; 3]) with Taken t [1; 2; 3] => co_last t =? co_last s | _ => false end &&
      match from_bytes lp64 (p_core (core_new p)) (firstn 699 bytes) with Short => true | _ => false end
  | _ => false
  end.
Definition iface_case (s : standard) : bool :=
  match iface_new (spec_of_std s) None with
  | Value i0 => match calls_run (SetMeta 9 3 :: first_part s) i0 with
                | Value i => distinct_keys (map fst (as_is i)) && forallb shown (w_iface (as_is i) i) && forallb (fun b => b <=? 1) (kept_beats i)
                | _ => false
                end
  | _ => false
  end.
Definition device_bytes_case (s : standard) : bool :=
  match device_after (ex_dspec s) (agree_day s) with
  | Some (d0, d) =>
      dram_serializable (dv_dram d) && distinct_keys (map fst (as_is (dr_if (dv_dram d)))) &&
      match w_device (as_is (dr_if (dv_dram d))) d with
      | Value w => forallb shown w && forallb (fun b => b <=? 1) (kept_beats (dr_if (dv_dram d))) &&
                   match from_bytes lp64 (p_device d0) (firstn 2999 (stream64 w)) with Short => true | _ => false end
      | Fails _ => false
      end
  | None => false
  end.
