(* The reports of the command line program: the JSON document of
   src/cli/lib/DRAMPower/cli/run.cpp (R) with the to_json members of
   src/DRAMPower/DRAMPower/data/energy.cpp (E), and the lines that stdoutResult
   prints with the formatters of src/cli/lib/DRAMPower/cli/util.hpp (U).

   A JSON value is the value nlohmann::json holds; how dump(4) (R 208) and fmt
   write numbers as text is not modelled.  Energies are the exact ones; a report is
   made of energies that are numbers. *)
From Coq Require Import NArith QArith String List Bool.
From Verif Require Import Base EnergyModel IfEnergyModel.
Import ListNotations.
Local Open Scope string_scope.

(* nlohmann::json (json_t), as used in R 169-206 and E 28-48, 86-114: null, numbers,
   arrays, objects.  An object is a list of members without repeated keys; their
   order is not looked at. *)
Inductive json := JNull | JReal (q : Q) | JInt (n : N) | JArr (l : list json) | JObj (m : list (string * json)).

(* The member of an object with key k replaced, or added: std::map behind
   json::operator[] in R 177-206, E 89-92, 112. *)
Fixpoint put (k : string) (v : json) (m : list (string * json)) : list (string * json) :=
  match m with
  | [] => [(k, v)]
  | (k', v') :: r => if String.eqb k' k then (k, v) :: r else (k', v') :: put k v r
  end.
(* std::map::find behind json::operator[] in R 177-206. *)
Fixpoint get (k : string) (m : list (string * json)) : option json :=
  match m with
  | [] => None
  | (k', v') :: r => if String.eqb k' k then Some v' else get k r
  end.

(* One step of an expression such as j["CoreEnergy"]["BankEnergy"].at(i)["Rank"]:
   R 177-206. *)
Inductive step := Member (k : string) | Element (i : nat).
(* list update behind json::at in R 201-203. *)
Fixpoint set_nth (i : nat) (v : json) (l : list json) : list json :=
  match l, i with
  | [], _ => []
  | _ :: r, O => v :: r
  | x :: r, S i' => x :: set_nth i' v r
  end.
(* Assignment to such an expression: R 177-206, E 89-92, 112.  operator[] turns null
   into an object and adds a missing member as null; on other kinds it throws, and
   so does at() on anything but an array and beyond its end: None. *)
Fixpoint assign (path : list step) (v : json) (j : json) : option json :=
  match path with
  | [] => Some v
  | Member k :: rest =>
      match j with
      | JNull => option_map (fun x => JObj [(k, x)]) (assign rest v JNull)
      | JObj m => option_map (fun x => JObj (put k x m)) (assign rest v (match get k m with Some x => x | None => JNull end))
      | _ => None
      end
  | Element i :: rest =>
      match j with
      | JArr l => match nth_error l i with
                  | Some x => option_map (fun y => JArr (set_nth i y l)) (assign rest v x)
                  | None => None
                  end
      | _ => None
      end
  end.

(* energy_info_t::to_json: E 28-48. *)
Definition info_json (e : energy_info) : json :=
  JObj [("ACT", JReal (e_act e)); ("PRE", JReal (e_pre e)); ("BG_ACT", JReal (e_bg_act e)); ("BG_PRE", JReal (e_bg_pre e)); ("RD", JReal (e_rd e)); ("WR", JReal (e_wr e));
        ("RDA", JReal (e_rda e)); ("WRA", JReal (e_wra e)); ("PRE_RDA", JReal (e_pre_rda e)); ("PRE_WRA", JReal (e_pre_wra e)); ("REF_AB", JReal (e_ref_ab e));
        ("REF_PB", JReal (e_ref_pb e)); ("REF_SB", JReal (e_ref_sb e)); ("REF_2B", JReal (e_ref_2b e)); ("REF_DB", JReal (e_ref_db e))].
(* energy_t::to_json: E 95-114; get_Bank_energy_keyword: energy.h 40-43. *)
Definition energy_json (e : energy) : option json :=
  assign [Member "BankEnergy"] (JArr (map info_json (en_bank e)))
    (JObj [("E_bg_act_shared", JReal (en_shared e)); ("E_PDNA", JReal (en_pdna e)); ("E_PDNP", JReal (en_pdnp e)); ("E_sref", JReal (en_sref e)); ("E_dsm", JReal (en_dsm e)); ("E_refab", JReal (en_refab e))]).
(* A sequence of assignments: R 177-206, E 89-92. *)
Fixpoint assign_all (l : list (list step * json)) (j : json) : option json :=
  match l with
  | [] => Some j
  | (path, v) :: r => match assign path v j with Some j' => assign_all r j' | None => None end
  end.
(* interface_energy_info_t::to_json: E 86-93. *)
Definition interface_json (e : ienergy) : option json :=
  assign_all [([Member "controller"; Member "dynamicEnergy"], JReal (ie_cdyn e)); ([Member "controller"; Member "staticEnergy"], JReal (ie_cstat e));
              ([Member "dram"; Member "dynamicEnergy"], JReal (ie_ddyn e)); ([Member "dram"; Member "staticEnergy"], JReal (ie_dstat e))] JNull.

(* CLIArchitectureConfig: util/cli_architecture_config.h 8-12; what jsonFileResult
   and stdoutResult ask of the object: R 171-174, 217-220; standards/ddr4/DDR4.cpp 40-46, ddr5/DDR5.cpp 23-29,
   lpddr4/LPDDR4.cpp 33-39, lpddr5/LPDDR5.cpp 34-40, lpddr6/LPDDR6.cpp 40-46. *)
Record architecture := mkArch { ar_banks : nat; ar_ranks : nat; ar_devices : nat }.
(* getCLIArchitectureConfig with the numbers of the memory specification:
   standards/ddr4/DDR4.cpp 40-46, ddr5/DDR5.cpp 23-29, lpddr4/LPDDR4.cpp 33-39,
   lpddr5/LPDDR5.cpp 34-40, lpddr6/LPDDR6.cpp 40-46. *)
Definition architecture_of (p : espec) : architecture := mkArch (es_banks p) (es_ranks p) (es_devices p).

(* The three assignments of the innermost loop: R 199-203. *)
Definition describe (i r d b : nat) : list (list step * json) :=
  [([Member "CoreEnergy"; Member "BankEnergy"; Element i; Member "Rank"], JInt (N.of_nat r));
   ([Member "CoreEnergy"; Member "BankEnergy"; Element i; Member "Device"], JInt (N.of_nat d));
   ([Member "CoreEnergy"; Member "BankEnergy"; Element i; Member "Bank"], JInt (N.of_nat b))].
(* The loops: R 194-206. *)
Definition describe_all (a : architecture) : list (list step * json) :=
  flat_map (fun r => flat_map (fun d => flat_map (fun b => describe (r * ar_banks a * ar_devices a + d * ar_banks a + b) r d b) (seq 0 (ar_banks a))) (seq 0 (ar_devices a))) (seq 0 (ar_ranks a)).
(* The document jsonFileResult writes: R 162-209.  None: an assertion or an
   exception.  Opening and writing the file is not modelled. *)
Definition json_document (a : architecture) (core : energy) (iface : ienergy) : option json :=
  match energy_json core, interface_json iface with
  | Some c, Some i =>
      match assign_all [([Member "RankCount"], JInt (N.of_nat (ar_ranks a))); ([Member "DeviceCount"], JInt (N.of_nat (ar_devices a))); ([Member "BankCount"], JInt (N.of_nat (ar_banks a)));
                        ([Member "TotalEnergy"], JReal (en_total core + ie_total iface)); ([Member "CoreEnergy"], c); ([Member "InterfaceEnergy"], i)] JNull with
      | Some j => if Nat.eqb (length (en_bank core)) (ar_ranks a * ar_banks a * ar_devices a) then assign_all (describe_all a) j else None
      | None => None
      end
  | _, _ => None
  end.

(* The lines of stdoutResult: R 212-242, with the numbers and names that the
   formatters give. *)
Inductive line :=
| BankLine (rank device bank : nat) (parts : list (string * Q))
| CumulatedLine (parts : list (string * Q))
| SharedLine (parts : list (string * Q))
| InterfaceLines (cdyn cstat ddyn dstat total : Q)
| TotalLine (q : Q).
(* fmt::formatter<energy_info_t>: U 63-99. *)
Definition info_parts (e : energy_info) : list (string * Q) :=
  [("ACT", e_act e); ("PRE", e_pre e); ("BG_ACT", e_bg_act e); ("BG_PRE", e_bg_pre e); ("RD", e_rd e); ("WR", e_wr e); ("RDA", e_rda e); ("WRA", e_wra e);
   ("PRE_RDA", e_pre_rda e); ("PRE_WRA", e_pre_wra e); ("REF_AB", e_ref_ab e); ("REF_PB", e_ref_pb e); ("REF_SB", e_ref_sb e); ("REF_2B", e_ref_2b e)].
(* fmt::formatter<energy_t>: U 19-40. *)
Definition shared_parts (e : energy) : list (string * Q) :=
  [("E_bg_act_shared", en_shared e); ("E_PDNA", en_pdna e); ("E_PDNP", en_pdnp e); ("E_sref", en_sref e); ("E_dsm", en_dsm e); ("E_refab", en_refab e)].
(* The bank lines: R 223-237.  None: an index beyond the vector, undefined. *)
Fixpoint bank_lines (e : energy) (l : list (nat * nat * nat * nat)) : option (list line) :=
  match l with
  | [] => Some []
  | (r, d, b, i) :: rest =>
      match nth_error (en_bank e) i, bank_lines e rest with
      | Some x, Some ls => Some (BankLine r d b (info_parts x) :: ls)
      | _, _ => None
      end
  end.
(* The loops of stdoutResult: R 223-237. *)
Definition visits (a : architecture) : list (nat * nat * nat * nat) :=
  flat_map (fun r => flat_map (fun d => map (fun b => (r, d, b, (r * ar_banks a * ar_devices a + d * ar_banks a + b)%nat)) (seq 0 (ar_banks a))) (seq 0 (ar_devices a))) (seq 0 (ar_ranks a)).
(* stdoutResult: R 212-242; fmt::formatter<interface_energy_info_t>: U 42-61. *)
Definition stdout_lines (a : architecture) (core : energy) (iface : ienergy) : option (list line) :=
  match bank_lines core (visits a) with
  | Some ls => Some (ls ++ [CumulatedLine (info_parts (en_aggregated core)); SharedLine (shared_parts core);
                            InterfaceLines (ie_cdyn iface) (ie_cstat iface) (ie_ddyn iface) (ie_dstat iface) (ie_total iface); TotalLine (en_total core + ie_total iface)])%list
  | None => None
  end.
