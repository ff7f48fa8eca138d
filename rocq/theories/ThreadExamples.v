(* Schedules of the CSV reader's threads. *)
From Coq Require Import NArith String List Bool Ascii Arith Lia.
From Verif Require Import Base Bits Command CsvModel CliModel CliSpec CsvProofs CliExamples ChunkModel ChunkSpec ChunkProofs ChunkLines ChunkExamples ThreadModel ThreadProofs ThreadText.
Import ListNotations.

(* Two lines of eight characters and one of seven, without and with its end; a chunk
   holds two lines. *)
Definition open_text : list ascii := ch "0,ACT,0" ++ [lf] ++ ch "9,PRE,0" ++ [lf] ++ ch "20,END,0".
Definition closed_text : list ascii := ch "0,ACT,0" ++ [lf] ++ ch "9,PRE,0" ++ [lf] ++ ch "9,END,0" ++ [lf].
Definition open_rows : list row := [[ch "0"; ch "ACT"; ch "0"]; [ch "9"; ch "PRE"; ch "0"]; [ch "20"; ch "END"; ch "0"]].
Definition closed_rows : list row := [[ch "0"; ch "ACT"; ch "0"]; [ch "9"; ch "PRE"; ch "0"]; [ch "9"; ch "END"; ch "0"]].
Definition open_file : source := mkSource 16 8 open_text.
Definition closed_file : source := mkSource 16 8 closed_text.
Lemma open_ok : no_doubled open_text /\ fits 16 open_text /\ smooth 16 open_text /\ csv_rows open_text = Some open_rows /\ ~ complete open_text.
Proof.
  split; [apply single_check; vm_compute; reflexivity|]. split; [apply fits_check; vm_compute; reflexivity|]. split; [apply smooth_check; vm_compute; reflexivity|].
  split; [vm_compute; reflexivity|]. vm_compute. discriminate.
Qed.
Lemma closed_ok : no_doubled closed_text /\ fits 16 closed_text /\ smooth 16 closed_text /\ csv_rows closed_text = Some closed_rows /\ complete closed_text.
Proof.
  split; [apply single_check; vm_compute; reflexivity|]. split; [apply fits_check; vm_compute; reflexivity|]. split; [apply smooth_check; vm_compute; reflexivity|].
  split; vm_compute; reflexivity.
Qed.
Definition from_open (f : source) (l : list bool) : option (consumer * producer * list row * list row) :=
  match opened f with Value s => match schedule f l s with Some s1 => Some (th_main s1, th_worker s1, th_out s1, th_queue s1) | None => None end | Fails _ => None end.
Definition main_ (n : nat) : list bool := repeat true n.
Definition worker_ (n : nat) : list bool := repeat false n.
(* read_row sees an empty queue; the thread it has started reads everything; read_row
   sees that no thread is active and the file is at its end. *)
Definition losing : list bool := main_ 8 ++ worker_ 5 ++ main_ 2.
(* read_row sees that the thread is not yet active and the file not at its end, and
   starts another thread after it. *)
Definition doubling : list bool := main_ 10 ++ worker_ 5 ++ main_ 2 ++ worker_ 5 ++ main_ 5.
Lemma lost_rows : from_open closed_file losing = Some (Over, Ended, firstn 2 closed_rows, skipn 2 closed_rows).
Proof. vm_compute. reflexivity. Qed.
Lemma doubled_rows : from_open open_file doubling = Some (Over, Ended, open_rows ++ skipn 2 open_rows, []).
Proof. vm_compute. reflexivity. Qed.
Definition throwing : list bool := main_ 10 ++ worker_ 5 ++ main_ 2 ++ worker_ 2.
Lemma thrown : from_open closed_file throwing = Some (AtEmpty, Failed Exception, firstn 2 closed_rows, skipn 2 closed_rows).
Proof. vm_compute. reflexivity. Qed.
