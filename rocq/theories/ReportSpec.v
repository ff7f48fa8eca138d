(* What a reader finds in the reports. *)
From Coq Require Import NArith QArith String List Bool.
From Verif Require Import Base EnergyModel EnergySpec IfEnergyModel ReportModel.
Import ListNotations.
Local Open Scope string_scope.

(* Following members and elements of a document. *)
Fixpoint find (path : list step) (j : json) : option json :=
  match path, j with
  | [], _ => Some j
  | Member k :: rest, JObj m => match List.find (fun kv => String.eqb (fst kv) k) m with Some kv => find rest (snd kv) | None => None end
  | Element i :: rest, JArr l => match nth_error l i with Some x => find rest x | None => None end
  | _, _ => None
  end.
(* The names of the parts of the energy of one bank. *)
Definition key (c : component) : string :=
  match c with
  | CAct => "ACT" | CPre => "PRE" | CBgAct => "BG_ACT" | CBgPre => "BG_PRE" | CRd => "RD" | CWr => "WR" | CRda => "RDA" | CWra => "WRA" | CPreRda => "PRE_RDA" | CPreWra => "PRE_WRA"
  | CRefAB => "REF_AB" | CRefPB => "REF_PB" | CRefSB => "REF_SB" | CRef2B => "REF_2B" | CRefDB => "REF_DB"
  end.
(* A member of the document is an energy that has its place in no sum: the total
   itself, and the two precharge energies that are contained in others. *)
Definition no_part (k : string) : bool := existsb (String.eqb k) ["TotalEnergy"; "PRE_RDA"; "PRE_WRA"].
(* Sum of all energies anywhere in a document. *)
Fixpoint energies (j : json) : Q :=
  match j with
  | JReal q => q
  | JArr l => fold_right (fun x s => energies x + s)%Q 0%Q l
  | JObj m => fold_right (fun kv s => match kv with (k, v) => if no_part k then s else energies v + s end)%Q 0%Q m
  | _ => 0%Q
  end.

(* Sum of the numbers in a list of named numbers, without those contained in others. *)
Definition parts_sum (l : list (string * Q)) : Q := qsum snd (filter (fun kv => negb (no_part (fst kv))) l).
(* Sum of the numbers printed for banks, for the ranks and for the interface. *)
Definition printed (l : line) : Q :=
  match l with
  | BankLine _ _ _ ps => parts_sum ps
  | SharedLine ps => parts_sum ps
  | InterfaceLines a b c d _ => a + b + c + d
  | _ => 0
  end%Q.
(* The same, with the line that sums up the banks instead of the lines of the banks. *)
Definition printed_short (l : line) : Q :=
  match l with
  | CumulatedLine ps => parts_sum ps
  | SharedLine ps => parts_sum ps
  | InterfaceLines a b c d _ => a + b + c + d
  | _ => 0
  end%Q.
Definition total_line (ls : list line) (q : Q) : Prop := In (TotalLine q) ls /\ forall q', In (TotalLine q') ls -> q' = q.
