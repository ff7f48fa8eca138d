(* C65: the output file of the command line program: what the check of its path does
   to the files, and what the exit code means. *)
From Coq Require Import String List Bool Ascii Arith.
From Verif Require Import Base Bits EnergyModel IfEnergyModel CliModel OutputModel OutputSpec OutputProofs.
Import ListNotations.
Local Open Scope string_scope.

(* The check changes nothing but that it may create one empty file, and only when it
   succeeds. *)
Theorem C65_check_keeps : forall can cwd fs p m q fs', ensure_file can cwd fs p = Checked m q fs' -> (forall b, fs' b = fs b) \/ (m = "" /\ one_more fs fs').
Proof. exact check_keeps. Qed.
Print Assumptions C65_check_keeps.
Example C65_check_keeps_case : (exists q fs', ensure_file (fun _ => true) ["work"] ex_files (mkPath false ["new.json"]) = Checked "" q fs' /\ fs' ["work"; "new.json"] = Some (N_file [])) /\
  ensure_file (fun _ => true) ["work"] ex_files (mkPath false [".."; "nowhere"; "new.json"]) = Checked "Parent directory does not exist" (mkPath false [".."; "nowhere"; "new.json"]) ex_files.
Proof. split; [eexists; eexists; split; reflexivity|reflexivity]. Qed.

(* The path it arrives at is a file afterwards, however many links there are. *)
Theorem C65_check_file : forall can cwd fs p q fs', ensure_file can cwd fs p = Checked "" q fs' -> exists c, is_file fs' cwd q c.
Proof. exact check_file. Qed.
Print Assumptions C65_check_file.
Example C65_check_file_case : exists fs', ensure_file (fun _ => true) ["work"] ex_files (mkPath true ["out"; "abs"]) = Checked "" (mkPath true ["out"; "new.json"]) fs'.
Proof. eexists. reflexivity. Qed.

(* So is the path that was given, if it is no link, or if links name their targets
   from the root.  Missing: relative links. *)
Theorem C65_given_partial : forall can cwd fs p q fs', ensure_file can cwd fs p = Checked "" q fs' ->
  (fs_is_link cwd fs p = No \/ (absolute_links fs /\ fs_exists cwd fs p <> Throw)) -> exists c, is_file fs' cwd p c.
Proof. exact check_given. Qed.
Print Assumptions C65_given_partial.
Definition ex_linked : files := fun a => match a with [] | ["out"] => Some N_dir | ["out"; "abs"] => Some (N_link (mkPath true ["out"; "new.json"])) | _ => None end.
Example C65_given_case : absolute_links ex_linked /\ fs_is_link [] ex_linked (mkPath true ["out"; "abs"]) = Yes /\ fs_exists [] ex_linked (mkPath true ["out"; "abs"]) <> Throw /\
  exists q fs', ensure_file (fun _ => true) [] ex_linked (mkPath true ["out"; "abs"]) = Checked "" q fs'.
Proof.
  split; [|split; [reflexivity|split; [discriminate|eexists; eexists; reflexivity]]]. intros a t H. unfold ex_linked in H.
  repeat match type of H with context[match ?x with _ => _ end] => destruct x; try discriminate H end. injection H as <-. reflexivity.
Qed.
(* A relative link in another directory: the file is created in the current one. *)
Theorem C65_given_refuted : exists can cwd fs p q fs', ensure_file can cwd fs p = Checked "" q fs' /\ fs_exists cwd fs p <> Throw /\ (forall c, ~ is_file fs' cwd p c) /\
  fs' ["work"; "new.json"] = Some (N_file []) /\ fs ["work"; "new.json"] = None.
Proof. exact given_refuted. Qed.
Print Assumptions C65_given_refuted.

(* A new name in a directory is accepted and the file created there. *)
Theorem C65_check_creates : forall can cwd fs p a, find_node true cwd fs (mkPath true cwd) = At cwd N_dir -> find_node false cwd fs p = Free a -> can a = true ->
  exists fs', ensure_file can cwd fs p = Checked "" p fs' /\ fs' a = Some (N_file []) /\ forall b, b <> a -> fs' b = fs b.
Proof. exact check_creates. Qed.
Print Assumptions C65_check_creates.
Example C65_check_creates_case : find_node true ["work"] ex_files (mkPath true ["work"]) = At ["work"] N_dir /\ find_node false ["work"] ex_files (mkPath false [".."; "out"; "r.json"]) = Free ["out"; "r.json"].
Proof. split; reflexivity. Qed.

(* Without links in circles it ends with a message or success; with them an exception
   leaves it. *)
Theorem C65_check_returns : forall can cwd fs p, (forall w q, find_node w cwd fs q <> Loop) -> exists m q fs', ensure_file can cwd fs p = Checked m q fs'.
Proof. exact ensure_returns. Qed.
Print Assumptions C65_check_returns.
Definition no_links : files := fun a => match a with [] | ["work"] => Some N_dir | _ => None end.
Example C65_check_returns_case : forall w q, find_node w ["work"] no_links q <> Loop.
Proof.
  assert (forall w names f base, look w no_links f base names <> Loop) as H.
  { intros w. induction names as [|n r IH]; intros f base; rewrite look_step; [discriminate|]. destruct (String.eqb n "."); [apply IH|]. destruct (String.eqb n ".."); [apply IH|].
    assert (no_links (base ++ [n])%list = None \/ no_links (base ++ [n])%list = Some N_dir) as [-> | ->];
      [unfold no_links; repeat match goal with |- context[match ?x with _ => _ end] => destruct x end; auto|destruct r; discriminate|apply IH]. }
  intros w q. unfold find_node. destruct (pa_names q); [destruct (pa_absolute q); discriminate|apply H].
Qed.
Theorem C65_circles_refuted : exists can cwd fs p, ensure_file can cwd fs p = Escapes.
Proof. exists (fun _ => true), ["work"], ex_round, (mkPath false ["a"]). vm_compute. reflexivity. Qed.
Print Assumptions C65_circles_refuted.

(* Exit code 0 means that the configuration was accepted, everything was executed and
   the report is in the file that was named, with all other files as before. *)
Theorem C65_exit_success : forall can cwd fs config go report a fs', main_end can cwd fs config go report a = (Some 0%nat, fs') -> (forall code, a = A_error code -> code <> 0%nat) ->
  config = true /\ (exists x y z, go = Printed x y z) /\
  ((a = A_run None /\ fs' = fs) \/
   exists p pl, a = A_run (Some p) /\ names fs' cwd p pl /\ fs' pl = Some (N_file report) /\ forall b n, b <> pl -> fs b = Some n -> fs' b = Some n).
Proof. exact main_reports. Qed.
Print Assumptions C65_exit_success.
Example C65_exit_success_case : forall x y z, exists fs', main_end (fun _ => true) ["work"] ex_files true (Printed x y z) ["7"%char] (A_run (Some (mkPath false ["new.json"]))) = (Some 0%nat, fs').
Proof. intros. eexists. reflexivity. Qed.
(* Any other end leaves all files there were. *)
Theorem C65_exit_failure : forall can cwd fs config go report a e fs', main_end can cwd fs config go report a = (e, fs') -> e <> Some 0%nat -> keeps fs fs'.
Proof. exact main_failure. Qed.
Print Assumptions C65_exit_failure.
Example C65_exit_failure_case : exists fs', main_end (fun _ => true) ["work"] ex_files true Failed [] (A_run (Some (mkPath false ["trace.csv"]))) = (Some 1%nat, fs') /\ fs' ["work"; "trace.csv"] = Some (N_file ["1"%char]).
Proof. eexists. split; reflexivity. Qed.
(* Asking for the help text does not end with 0. *)
Theorem C65_help_refuted : exists can cwd fs config go report, fst (main_end can cwd fs config go report A_help) = Some 1%nat.
Proof. exists (fun _ => true), [], ex_files, true, Failed, []. reflexivity. Qed.
Print Assumptions C65_help_refuted.
