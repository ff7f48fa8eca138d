(* Files for the theorems about reading in chunks. *)
From Coq Require Import NArith String List Bool Ascii Arith Lia.
From Verif Require Import Base Bits Command CsvModel CliModel CliSpec CsvProofs CliExamples ChunkModel ChunkSpec ChunkProofs ChunkLines.
Import ListNotations.

Fixpoint closeb (n : nat) (l : list nat) : bool :=
  match l with a :: ((b :: _) as r) => Nat.leb b (a + n) && closeb n r | _ => true end.
Lemma fits_check n text : closeb n (starts text ++ [length text]) = true -> fits n text.
Proof.
  unfold fits. generalize (starts text ++ [length text]). induction l as [|x l IH]; intros H p a b r E; [destruct p; discriminate|].
  destruct l as [|y l]; [destruct p as [|? [|? ?]]; discriminate|]. apply andb_prop in H. destruct H as [A H]. destruct p as [|z p]; cbn [app] in E.
  - injection E as -> -> _. now apply Nat.leb_le.
  - injection E as _ E. exact (IH H p a b r E).
Qed.
Definition endb (o : option ascii) : bool := match o with Some c => match parse_flag c with NEWLINE => true | _ => false end | None => false end.
Lemma smooth_check n text : forallb (fun a => negb (endb (nth_error text (a + n - 1)) && endb (nth_error text (a + n)))) (starts text) = true -> smooth n text.
Proof.
  intros H a c d I C D Lc Ld. rewrite forallb_forall in H. specialize (H a I). rewrite C, D in H. unfold endb in H. apply flag_newline in Lc, Ld. rewrite Lc, Ld in H. discriminate.
Qed.
Fixpoint singleb (l : list ascii) : bool :=
  match l with a :: ((b :: _) as r) => negb (Ascii.eqb a "034" && Ascii.eqb b "034") && singleb r | _ => true end.
Lemma single_check text : singleb text = true -> no_doubled text.
Proof.
  induction text as [|x l IH]; intros H p q E; [destruct p; discriminate|].
  destruct l as [|y l]; [destruct p as [|? [|? ?]]; discriminate|]. cbn [singleb] in H. apply andb_prop in H. destruct H as [A H]. destruct p as [|z p]; cbn [app] in E.
  - injection E as -> -> _. discriminate A.
  - injection E as _ E. exact (IH H p q E).
Qed.

(* A byte order mark, quoted fields, all ends of lines, and a last line without one. *)
Definition mixed_text : list ascii :=
  ["239"; "187"; "191"]%char ++ ch "0,""a, b"",x" ++ [lf] ++ ch "10,ACT,y" ++ [cr; lf] ++ ch "20 , RD,z" ++ [lf; lf] ++ ch "30,""p" ++ [lf] ++ ch "q"",w".
Definition mixed_rows : list row := [[ch "0"; ch "a, b"; ch "x"]; [ch "10"; ch "ACT"; ch "y"]; [ch "20"; ch "RD"; ch "z"]; [ch "30"; ch "p" ++ [lf] ++ ch "q"; ch "w"]].
Lemma mixed_ok : no_doubled mixed_text /\ fits 16 mixed_text /\ smooth 16 mixed_text /\ length mixed_text = 45 /\ csv_rows mixed_text = Some mixed_rows.
Proof.
  split; [apply single_check; vm_compute; reflexivity|]. split; [apply fits_check; vm_compute; reflexivity|]. split; [apply smooth_check; vm_compute; reflexivity|].
  split; vm_compute; reflexivity.
Qed.
(* One chunk at a time it takes four. *)
Lemma mixed_fuel : read_file 3 (mkSource 16 4 mixed_text) = Some (Value mixed_rows) /\ read_file 1 (mkSource 16 4 mixed_text) = None.
Proof. split; vm_compute; reflexivity. Qed.

Definition simple_lines : list line :=
  [mkLine (map bare ["0"; "ACT"; "0"; "0"; "0"; "3"; "0"]%string) [lf];
   mkLine (map padded ["20"; "RD"; "0"; "0"; "0"; "3"; "9"; "0xDEadBEef01020304"]%string) [cr];
   mkLine (map bare ["60"; "WRA"; "0"; "0"; "0"; "3"; "9"; "00000000ffffffff"; "ignored"]%string) [lf];
   mkLine (map bare ["200"; "END"; "0"; "0"; "0"; "0"; "0"]%string) [lf]].
Lemma simple_ok : Forall simple_line simple_lines /\ Forall (fun l => line_length l <= 100) simple_lines /\ no_mark (lines_text simple_lines) /\ length (lines_text simple_lines) = 143.
Proof.
  split; [|split; [|split; [intros r H; vm_compute in H; discriminate H|vm_compute; reflexivity]]].
  - assert (H : Forall (fun l => (2 <= length (li_cells l))%nat /\ forallb cellb (li_cells l) = true /\ Forall line_end (li_end l) /\ length (li_end l) = 1 /\
      Forall (fun c => match c with mkCell _ _ _ => True | Quoted _ => False end) (li_cells l)) simple_lines).
    { repeat (apply Forall_cons; [|]); try apply Forall_nil;
        (split; [cbn; lia|]; split; [vm_compute; reflexivity|]; split; [repeat (apply Forall_cons; [unfold line_end, lf, cr; auto|]); apply Forall_nil|]; split; [reflexivity|cbn; repeat (apply Forall_cons; [exact I|]); apply Forall_nil]). }
    eapply Forall_impl; [|exact H]. intros l (A & B & C & D & E). split; [|split; assumption]. split; [exact A|]. split; [apply cells_check; exact B|]. auto.
  - repeat (apply Forall_cons; [vm_compute; lia|]). apply Forall_nil.
Qed.
Lemma simple_commands : no_doubled (lines_text simple_lines) /\ fits 100 (lines_text simple_lines) /\ smooth 100 (lines_text simple_lines) /\
  parse_command_list (lines_text simple_lines) = Value (Some (ex_commands ++ [ex_end])).
Proof.
  split; [apply single_check; vm_compute; reflexivity|]. split; [apply fits_check; vm_compute; reflexivity|]. split; [apply smooth_check; vm_compute; reflexivity|]. vm_compute; reflexivity.
Qed.

(* The flag of doubled quotes outlives the chunk. *)
Definition stale_text : list ascii := ch "x,y" ++ [lf] ++ ch "a""""b,""c""""d""" ++ [lf].
Lemma stale : csv_rows stale_text = Some [[ch "x"; ch "y"]; [ch "a""""b"; ch "c""d"]] /\ fits 13 stale_text /\ smooth 13 stale_text /\
  forall fuel, 1 <= fuel -> read_file fuel (mkSource 13 4096 stale_text) = Some (Value [[ch "x"; ch "y"]; [ch "a""b"; ch "c""d"]]).
Proof.
  split; [vm_compute; reflexivity|]. split; [apply fits_check; vm_compute; reflexivity|]. split; [apply smooth_check; vm_compute; reflexivity|]. intros [|[|fuel]] L; [lia|vm_compute; reflexivity|vm_compute; reflexivity].
Qed.
(* A file of a byte order mark only. *)
Definition mark_text : list ascii := ["239"; "187"; "191"]%char.
Lemma marked n page fuel : 3 <= n -> csv_rows mark_text = Some [] /\ read_file fuel (mkSource n page mark_text) = Some (Value [[mark_text]]).
Proof.
  intros L. split; [vm_compute; reflexivity|]. destruct n as [|[|[|n]]]; try lia.
  assert (forall ps, ps_pos ps = 0 -> chunk (mkSource (S (S (S n))) page mark_text) ps = mark_text) as C by (intros ps P; unfold chunk; rewrite P; cbn; now rewrite firstn_nil).
  unfold read_file. assert (next (mkSource (S (S (S n))) page mark_text) parser0 = Value (mkRead [] [] (mkParser 0 false true true))) as -> by (unfold next; rewrite C by reflexivity; reflexivity).
  cbn [rc_all rc_rows rc_end app rc_parser].
  assert (next (mkSource (S (S (S n))) page mark_text) (mkParser 0 false true true) = Value (mkRead [] [[mark_text]] (mkParser 0 false true true))) as -> by (unfold next; rewrite C by reflexivity; reflexivity).
  destruct fuel; reflexivity.
Qed.
Lemma empty_file n page fuel : 1 <= n -> csv_rows [] = Some [] /\ read_file fuel (mkSource n page []) = Some (Fails Exception).
Proof. intros L. split; [reflexivity|]. unfold read_file, next. assert (chunk (mkSource n page []) parser0 = []) as -> by (unfold chunk; cbn; apply firstn_nil). unfold mappable. cbn [length Nat.eqb negb orb ps_pos parser0 so_page]. destruct page as [|page]; [reflexivity|]. rewrite Nat.mod_0_l by lia. reflexivity. Qed.

Lemma long_line : endless (firstn 20 (ch "0,ACT,0,0,0,3,0,   and much more")) /\ length (ch "0,ACT,0,0,0,3,0,   and much more") = 32.
Proof. split; [|reflexivity]. unfold endless. assert (forallb (fun c => negb (endb (Some c))) (firstn 20 (ch "0,ACT,0,0,0,3,0,   and much more")) = true) as H by reflexivity. rewrite Forall_forall. rewrite forallb_forall in H. intros c I L. specialize (H c I). apply flag_newline in L. unfold endb in H. rewrite L in H. discriminate. Qed.
Definition short_lines : list line := [mkLine (map bare ["0"; "ACT"; "0"; "0"; "0"; "3"; "0"]%string) [lf]].
Lemma short_ok : Forall line_ok short_lines /\ length (lines_text short_lines) = 16 /\ no_mark (lines_text short_lines ++ ch "0,ACT,0,0,0,3,0,   and much more").
Proof.
  split; [|split; [reflexivity|intros r H; vm_compute in H; discriminate H]]. constructor; [|constructor]. split; [cbn; lia|]. split; [apply cells_check; vm_compute; reflexivity|].
  split; [constructor; [left; reflexivity|constructor]|cbn; auto].
Qed.
