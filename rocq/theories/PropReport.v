(* C59: the reports that the command line program writes. *)
From Coq Require Import NArith QArith String List Bool Arith.
From Verif Require Import Base Command CoreModel Bits StatsModel StatsSpec EnergyModel EnergySpec IfEnergyModel EnergyExamples ReportModel ReportSpec ReportProofs.
Import ListNotations.
Local Open Scope string_scope.

(* Every number that was calculated is found in the document under its name, and every bank under its rank, device and bank. *)
Theorem C59_document p st e ie : calc_energy p st = Exactly e -> covers p st -> exists doc, json_document (architecture_of p) e ie = Some doc /\
  find [Member "TotalEnergy"] doc = Some (JReal (en_total e + ie_total ie)) /\
  (find [Member "RankCount"] doc = Some (JInt (N.of_nat (es_ranks p))) /\ find [Member "DeviceCount"] doc = Some (JInt (N.of_nat (es_devices p))) /\ find [Member "BankCount"] doc = Some (JInt (N.of_nat (es_banks p)))) /\
  (forall r d b, (r < es_ranks p)%nat -> (d < es_devices p)%nat -> (b < es_banks p)%nat ->
    let i := ((r * es_devices p + d) * es_banks p + b)%nat in let entry k := find [Member "CoreEnergy"; Member "BankEnergy"; Element i; Member k] doc in
    entry "Rank" = Some (JInt (N.of_nat r)) /\ entry "Device" = Some (JInt (N.of_nat d)) /\ entry "Bank" = Some (JInt (N.of_nat b)) /\
    exists x, nth_error (en_bank e) i = Some x /\ forall c, entry (key c) = Some (JReal (comp_at x c))) /\
  (let rank k := find [Member "CoreEnergy"; Member k] doc in
   rank "E_bg_act_shared" = Some (JReal (en_shared e)) /\ rank "E_PDNA" = Some (JReal (en_pdna e)) /\ rank "E_PDNP" = Some (JReal (en_pdnp e)) /\
   rank "E_sref" = Some (JReal (en_sref e)) /\ rank "E_dsm" = Some (JReal (en_dsm e)) /\ rank "E_refab" = Some (JReal (en_refab e))) /\
  (let side s k := find [Member "InterfaceEnergy"; Member s; Member k] doc in
   side "controller" "dynamicEnergy" = Some (JReal (ie_cdyn ie)) /\ side "controller" "staticEnergy" = Some (JReal (ie_cstat ie)) /\
   side "dram" "dynamicEnergy" = Some (JReal (ie_ddyn ie)) /\ side "dram" "staticEnergy" = Some (JReal (ie_dstat ie))).
Proof. exact (fun E C => report_contents (architecture_of p) e ie (arch_size p st e E C)). Qed.
Print Assumptions C59_document.
Example C59_document_case : exists e, calc_energy ex_ddr4 (ex_stats 1) = Exactly e /\ covers ex_ddr4 (ex_stats 1) /\ es_std ex_ddr4 <> LPDDR6.
Proof. exact ddr4_case. Qed.

(* All energies found anywhere in the document add up to its total. *)
Theorem C59_document_adds_up p st e ie doc q : calc_energy p st = Exactly e -> covers p st ->
  json_document (architecture_of p) e ie = Some doc -> find [Member "TotalEnergy"] doc = Some (JReal q) -> (energies doc == q)%Q.
Proof. exact (fun E C => report_adds_up (architecture_of p) e ie (arch_size p st e E C) doc q). Qed.
Print Assumptions C59_document_adds_up.

(* The lines on the standard output: there is one for every bank, and the total is printed. *)
Theorem C59_lines p st e ie : calc_energy p st = Exactly e -> covers p st -> exists out, stdout_lines (architecture_of p) e ie = Some out /\
  total_line out (en_total e + ie_total ie) /\
  (forall r d b, (r < es_ranks p)%nat -> (d < es_devices p)%nat -> (b < es_banks p)%nat ->
    exists x, nth_error (en_bank e) ((r * es_devices p + d) * es_banks p + b) = Some x /\ In (BankLine r d b (info_parts x)) out) /\
  (qsum printed out + qsum e_ref_db (en_bank e) == en_total e + ie_total ie)%Q /\
  (qsum printed_short out + qsum e_ref_db (en_bank e) == en_total e + ie_total ie + en_shared e)%Q.
Proof. exact (fun E C => lines_contents (architecture_of p) e ie (arch_size p st e E C)). Qed.
Print Assumptions C59_lines.

(* For every standard but LPDDR6 the numbers printed for the banks, the ranks and the interface add up to the total printed. *)
Theorem C59_lines_add_up p st e ie out q : calc_energy p st = Exactly e -> covers p st -> es_std p <> LPDDR6 ->
  stdout_lines (architecture_of p) e ie = Some out -> In (TotalLine q) out -> (qsum printed out == q)%Q.
Proof. exact (lines_add_up p st e ie out q). Qed.
Print Assumptions C59_lines_add_up.
Example C59_lines_add_up_case : exists e, calc_energy ex_ddr4 (ex_stats 1) = Exactly e /\ covers ex_ddr4 (ex_stats 1) /\ es_std ex_ddr4 <> LPDDR6.
Proof. exact ddr4_case. Qed.

(* For LPDDR6 they do not, and neither does the line that cumulates the banks together with the line of the shared energies. *)
Theorem C59_lines_add_up_refuted : exists p st e ie out, calc_energy p st = Exactly e /\ covers p st /\ stdout_lines (architecture_of p) e ie = Some out /\
  total_line out (en_total e + ie_total ie) /\ ~ (qsum printed out == en_total e + ie_total ie)%Q /\ ~ (qsum printed_short out == en_total e + ie_total ie)%Q.
Proof. exact lines_refuted. Qed.
Print Assumptions C59_lines_add_up_refuted.

(* Whatever the sizes of vectors and architecture are, nothing is written that labels only a part of the banks. *)
Theorem C59_wrong_size a e ie : length (en_bank e) <> (ar_ranks a * ar_devices a * ar_banks a)%nat -> json_document a e ie = None.
Proof. exact (wrong_size a e ie). Qed.
Print Assumptions C59_wrong_size.
Example C59_wrong_size_case : json_document (mkArch 2 1 1) (energy0 3) ie_zero = None /\ json_document (mkArch 2 1 1) (energy0 2) ie_zero <> None.
Proof. split; [apply C59_wrong_size|]; discriminate. Qed.
