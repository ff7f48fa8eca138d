(* Numbers, payloads and rows of a trace. *)
From Coq Require Import NArith String List Bool Ascii Arith Lia.
From Verif Require Import Base Bits Command CmdProofs CsvModel CliModel CliSpec CsvProofs.
Import ListNotations.
Local Open Scope N_scope.

(* ---- numbers ---- *)

Lemma digitb_spec : forall c, digitb c = true <-> digit c.
Proof. intros c. unfold digitb, digit. rewrite andb_true_iff, !N.leb_le. tauto. Qed.

Lemma digit_of_spec : forall c, digit_of c = if digitb c then Some (N_of_ascii c - 48) else None.
Proof. intros c. unfold digit_of, digitb. destruct ((48 <=? N_of_ascii c) && (N_of_ascii c <=? 57)); reflexivity. Qed.

(* The characters with a meaning of their own are no digits. *)
Lemma digit_only : forall c, digitb c = true -> Ascii.eqb c " " = false /\ Ascii.eqb c "-" = false /\ Ascii.eqb c "." = false /\ Ascii.eqb c "e" || Ascii.eqb c "E" = false.
Proof.
  intros c H.
  assert (K : forall d, digitb d = false -> Ascii.eqb c d = false).
  { intros d D. destruct (Ascii.eqb_spec c d) as [->|]; [congruence|reflexivity]. }
  rewrite !K by reflexivity. auto.
Qed.

Definition push (v : N) (c : ascii) : N := 10 * v + (N_of_ascii c - 48).

Lemma scan_digits : forall l prev s, Forall digit l -> sc_digit s = true -> sc_float s = false ->
  scan_run prev l s = if sc_has s || match l with [] => false | _ => true end
                      then Value ((if 2 ^ 63 - 1 <? fold_left push l (sc_int s) then CSV_DOUBLE else CSV_INT), (negb (sc_neg s), fold_left push l (sc_int s)))
                      else Value (CSV_NULL, (false, 0)).
Proof.
  induction l as [|c l IH]; intros prev s H D F.
  - cbn [scan_run fold_left]. rewrite F, orb_false_r. cbn [orb]. reflexivity.
  - inversion H as [|x y Hc Hl]; subst. apply digitb_spec in Hc. destruct (digit_only c Hc) as (A & B & C & E).
    cbn [scan_run]. rewrite A, B, C, E, digit_of_spec, Hc, D, F. cbn iota.
    rewrite IH by (auto; reflexivity). cbn [sc_has sc_int sc_neg]. rewrite orb_true_r. cbn [orb fold_left].
    replace (sc_int s * 10 + (N_of_ascii c - 48)) with (push (sc_int s) c) by (unfold push; lia). reflexivity.
Qed.

Lemma decimal_read : forall f n, decimal f n -> get_uint f = if n <? 2 ^ 63 then Value n else Fails Exception.
Proof.
  intros f n (Ne & Hd & V). unfold get_uint, field_type. destruct f as [|c f]; [contradiction|].
  rewrite (scan_digits (c :: f) None scan0 Hd eq_refl eq_refl). cbn [scan0 sc_has sc_neg sc_int orb negb].
  change (fold_left push (c :: f) 0) with (digits_value (c :: f)). rewrite V. unfold bind.
  destruct (N.ltb_spec n (2 ^ 63)) as [L|L].
  - assert (K : (2 ^ 63 - 1 <? n) = false) by (apply N.ltb_ge; lia). rewrite K. cbn [andb].
    assert (K2 : (2 ^ 64 - 1 <? n) = false) by (apply N.ltb_ge; assert (2 ^ 63 < 2 ^ 64) by reflexivity; lia). rewrite K2. reflexivity.
  - assert (K : (2 ^ 63 - 1 <? n) = true) by (apply N.ltb_lt; assert (0 < 2 ^ 63) by reflexivity; lia). rewrite K. reflexivity.
Qed.

(* What the scan keeps. *)
Lemma scan_sound : forall l prev s neg n, scan_run prev l s = Value (CSV_INT, (neg, n)) -> (sc_ws s = true -> sc_has s = false \/ sc_digit s = false) ->
  sc_float s = false /\ n < 2 ^ 63 /\ fold_left push (filter digitb l) (sc_int s) = n /\ (sc_has s = true \/ filter digitb l <> []) /\
  Forall (fun c => digit c \/ c = " "%char \/ c = "-"%char) l /\
  (In "-"%char l -> neg = true) /\ (sc_digit s = false -> filter digitb l = []) /\
  (forall a b, l = a ++ " "%char :: b -> (sc_has s = false /\ filter digitb a = []) \/ filter digitb b = []) /\ (sc_neg s = false -> neg = true).
Proof.
  induction l as [|c l IH]; intros prev s neg n H W.
  - cbn [scan_run] in H. destruct (sc_has s) eqn:Hs; [|discriminate].
    destruct (sc_float s) eqn:F; cbn [orb] in H; [discriminate|].
    destruct (2 ^ 63 - 1 <? sc_int s) eqn:L; [discriminate|]. injection H as <- <-.
    apply N.ltb_ge in L. assert (0 < 2 ^ 63) by reflexivity.
    split; [reflexivity|]. split; [lia|]. split; [reflexivity|]. split; [auto|]. split; [constructor|]. split; [intros []|]. split; [reflexivity|].
    split; [intros [|] b E; discriminate E|]. intros ->. reflexivity.
  - cbn [scan_run] in H.
    destruct (Ascii.eqb_spec c " ") as [->|N1].
    { destruct (sc_ws s) eqn:Ws.
      - destruct (IH _ _ _ _ H) as (A & B & C & D & E & F & G & I & J); [rewrite Ws; exact W|].
        split; [exact A|]. split; [exact B|]. split; [exact C|]. split; [exact D|]. split; [constructor; auto|].
        split; [intros [K|K]; [discriminate K|auto]|]. split; [exact G|]. split; [|exact J].
        intros [|a0 a] b Eq; cbn in Eq.
        + injection Eq as <-. destruct (W eq_refl) as [K|K]; [left; split; [exact K|reflexivity]|right; apply G; exact K].
        + injection Eq as <- ->. destruct (I a b eq_refl) as [K|K]; [left; exact K|right; exact K].
      - destruct prev as [d|]; [|discriminate]. destruct (is_digit d); [|discriminate].
        destruct (IH _ _ _ _ H) as (A & B & C & D & E & F & G & I & J); [intros _; right; reflexivity|]. cbn [sc_float sc_int sc_has sc_digit sc_neg] in *.
        split; [exact A|]. split; [exact B|]. split; [exact C|]. split; [exact D|]. split; [constructor; auto|].
        split; [intros [K|K]; [discriminate K|auto]|]. split; [intros _; apply G; reflexivity|]. split; [|exact J].
        intros [|a0 a] b Eq; cbn in Eq.
        + injection Eq as <-. right. apply G. reflexivity.
        + injection Eq as <- ->. destruct (I a b eq_refl) as [K|K]; [left; exact K|right; exact K]. }
    destruct (Ascii.eqb_spec c "-") as [->|N2].
    { destruct (sc_neg s) eqn:Sn; [|discriminate].
      destruct (IH _ _ _ _ H) as (A & B & C & D & E & F & G & I & J); [cbn [sc_ws sc_has sc_digit]; exact W|]. cbn [sc_float sc_int sc_has sc_digit sc_neg] in *.
      split; [exact A|]. split; [exact B|]. split; [exact C|]. split; [exact D|]. split; [constructor; auto|].
      split; [intros _; apply J; reflexivity|]. split; [exact G|]. split; [|discriminate].
      intros [|a0 a] b Eq; cbn in Eq; [discriminate Eq|]. injection Eq as <- ->.
      destruct (I a b eq_refl) as [K|K]; [left; exact K|right; exact K]. }
    destruct (Ascii.eqb_spec c ".") as [->|N3].
    { destruct (sc_dot s); [|discriminate]. destruct (IH _ _ _ _ H) as (A & _); [cbn [sc_ws sc_has sc_digit]; exact W|]. discriminate A. }
    destruct (Ascii.eqb c "e" || Ascii.eqb c "E").
    { exfalso. destruct (sc_float s || _); [|discriminate].
      assert (K : forall x : result (data_type * (bool * N)), (y <- x ;; Value (match fst y with CSV_INT => CSV_DOUBLE | _ => CSV_STRING end, (false, 0))) <> Value (CSV_INT, (neg, n))).
      { intros [[[] ?]|]; cbn; discriminate. }
      destruct l as [|d l]; [discriminate|]. destruct (Ascii.eqb d "+"); exact (K _ H). }
    rewrite digit_of_spec in H. destruct (digitb c) eqn:Dg; [|discriminate].
    destruct (sc_digit s) eqn:Sd; [|discriminate].
    destruct (IH _ _ _ _ H) as (A & B & C & D & E & F & G & I & J); [cbn; discriminate|]. cbn [sc_float sc_int sc_has sc_digit sc_neg] in *.
    rewrite A in C. cbn [filter]. rewrite Dg. cbn [fold_left].
    replace (push (sc_int s) c) with (sc_int s * 10 + (N_of_ascii c - 48)) by (unfold push; lia).
    split; [exact A|]. split; [exact B|]. split; [exact C|]. split; [right; discriminate|].
    split; [constructor; [left; apply digitb_spec; exact Dg|exact E]|].
    split; [intros [K|K]; [subst c; discriminate Dg|auto]|]. split; [discriminate|]. split; [|exact J].
    intros [|a0 a] b Eq; cbn in Eq; [injection Eq as -> _; contradiction|]. injection Eq as <- ->.
    destruct (I a b eq_refl) as [[K _]|K]; [discriminate K|right; exact K].
Qed.

Lemma uint_sound : forall f n, get_uint f = Value n -> like_number f n.
Proof.
  intros f n H. unfold get_uint, field_type in H. destruct f as [|c f]; [discriminate|].
  destruct (scan_run None (c :: f) scan0) as [[ty [neg v]]|] eqn:S; [|discriminate]. unfold bind in H.
  destruct ty; try discriminate. destruct (neg && (0 <? v)) eqn:Ng; [discriminate|]. destruct (2 ^ 64 - 1 <? v); [discriminate|]. injection H as ->.
  destruct (scan_sound _ _ _ _ _ S) as (A & B & C & D & E & F & G & I & J); [intros _; left; reflexivity|].
  cbn [scan0 sc_int sc_has] in *. unfold like_number.
  split; [split; [destruct D as [D|D]; [discriminate|exact D]|split; [|exact C]]|].
  { apply Forall_forall. intros x Hx. apply filter_In in Hx. apply digitb_spec. apply Hx. }
  split; [exact B|]. split; [exact E|]. split.
  - intros K. rewrite (F K) in Ng. cbn in Ng. apply N.ltb_ge in Ng. lia.
  - intros a b Eq. destruct (I a b Eq) as [[_ K]|K]; auto.
Qed.

(* ---- payload ---- *)

Lemma hex_digit_char : forall c x, hex_digit c = Some x <-> hexchar c x.
Proof.
  intros c x. split.
  - intros H. destruct c as [[] [] [] [] [] [] [] []]; vm_compute in H; try discriminate H; injection H as <-; split; try reflexivity; vm_compute; auto.
  - intros (L & H).
    assert (K : exists k, (k < 16)%nat /\ x = N.of_nat k) by (exists (N.to_nat x); split; [lia|rewrite N2Nat.id; reflexivity]).
    destruct K as (k & Lk & ->). rewrite Nat2N.id in H.
    do 16 (destruct k as [|k]; [cbn in H; destruct H as [H|H]; injection H as <-; reflexivity|]). lia.
Qed.

Lemma prints_read : forall l bs, prints l bs -> hex_bytes l = Value bs.
Proof.
  intros l bs H. induction H as [|a x b y l bs Ha Hb H IH]; [reflexivity|].
  cbn [hex_bytes]. unfold stoi2. apply hex_digit_char in Ha, Hb. rewrite Ha, Hb. cbn [bind]. rewrite IH. reflexivity.
Qed.

Lemma prints_even : forall l bs, prints l bs -> length l = (2 * length bs)%nat.
Proof. intros l bs H. induction H; cbn [length]; lia. Qed.

Lemma even_mod : forall k : nat, Nat.eqb (Nat.modulo (2 * k) 2) 0 = true.
Proof. intros k. rewrite Nat.mul_comm, Nat.mod_mul by discriminate. reflexivity. Qed.

Lemma prints_head : forall a b r bs, prints (a :: b :: r) bs -> Ascii.eqb a "0" && (Ascii.eqb b "x" || Ascii.eqb b "X") = false.
Proof.
  intros a b r bs H. inversion H as [|a' x b' y l bs' Ha Hb Hl]; subst. apply hex_digit_char in Hb.
  destruct (Ascii.eqb_spec b "x") as [->|]; [discriminate Hb|]. destruct (Ascii.eqb_spec b "X") as [->|]; [discriminate Hb|]. apply andb_false_r.
Qed.

Lemma payload_read : forall f bs g, prints f bs -> In g (prefixed f) -> hex_array g = Value bs.
Proof.
  intros f bs g H I. pose proof (prints_even f bs H) as L. pose proof (prints_read f bs H) as R.
  unfold hex_array. destruct I as [<-|[<-|[<-|[]]]].
  - rewrite L, even_mod. destruct f as [|a [|b r]]; [exact R|exact R|]. rewrite (prints_head a b r bs H). exact R.
  - change (length ("0"%char :: "x"%char :: f)) with (S (S (length f))). rewrite L. replace (S (S (2 * length bs))) with (2 * S (length bs))%nat by lia. rewrite even_mod. exact R.
  - change (length ("0"%char :: "X"%char :: f)) with (S (S (length f))). rewrite L. replace (S (S (2 * length bs))) with (2 * S (length bs))%nat by lia. rewrite even_mod. exact R.
Qed.

Lemma bytes_inv : forall n l bs, (length l <= n)%nat -> hex_bytes l = Value bs -> Nat.even (length l) = true ->
  length l = (2 * length bs)%nat /\ (Forall hexdigit l -> prints l bs).
Proof.
  induction n as [|n IH]; intros [|a [|b l]] bs Ln H E; cbn in Ln; try lia; cbn in E; try discriminate.
  1, 2: cbn in H; injection H as <-; split; [reflexivity|intros _; constructor].
  cbn [hex_bytes] in H. destruct (stoi2 a b) as [x|] eqn:Sx; [|discriminate]. cbn [bind] in H.
  destruct (hex_bytes l) as [xs|] eqn:Hl; [|discriminate]. cbn [bind] in H. injection H as <-.
  destruct (IH l xs ltac:(lia) Hl E) as (L & P). split; [cbn [length]; lia|].
  intros F. inversion F as [|? ? (u & Fa) F1]; subst. inversion F1 as [|? ? (v & Fb) F2]; subst.
  unfold stoi2 in Sx. pose proof Fa as Fa'. pose proof Fb as Fb'. apply hex_digit_char in Fa', Fb'. rewrite Fa', Fb' in Sx. injection Sx as <-.
  constructor; auto.
Qed.

Lemma payload_inv : forall g bs, hex_array g = Value bs ->
  exists f, In g (prefixed f) /\ length f = (2 * length bs)%nat /\ (Forall hexdigit f -> prints f bs).
Proof.
  intros g bs H. unfold hex_array in H. destruct (Nat.eqb (length g mod 2) 0) eqn:E; [|discriminate].
  assert (Ev : Nat.even (length g) = true).
  { apply Nat.eqb_eq in E. apply Nat.even_spec. exists (length g / 2)%nat. pose proof (Nat.div_mod (length g) 2 ltac:(discriminate)). lia. }
  assert (Same : hex_bytes g = Value bs -> exists f, In g (prefixed f) /\ length f = (2 * length bs)%nat /\ (Forall hexdigit f -> prints f bs)).
  { intros K. destruct (bytes_inv _ g bs (le_n _) K Ev) as (L & P). exists g. split; [left; reflexivity|]. auto. }
  destruct g as [|a [|b r]]; auto.
  destruct (Ascii.eqb_spec a "0") as [->|]; cbn [andb] in H; auto.
  assert (K : hex_bytes r = Value bs -> length r = (2 * length bs)%nat /\ (Forall hexdigit r -> prints r bs)).
  { intros K. apply (bytes_inv _ r bs (le_n _) K). exact Ev. }
  destruct (Ascii.eqb_spec b "x") as [->|]; cbn [orb] in H.
  - destruct (K H) as (L & P). exists r. split; [right; left; reflexivity|]. auto.
  - destruct (Ascii.eqb_spec b "X") as [->|]; auto. destruct (K H) as (L & P). exists r. split; [right; right; left; reflexivity|]. auto.
Qed.

(* Printing a payload and reading it back. *)
Lemma prints_unique : forall l bs bs', prints l bs -> prints l bs' -> bs = bs'.
Proof. intros l bs bs' H K. apply prints_read in H, K. congruence. Qed.

(* ---- rows ---- *)

Lemma name_read : forall t, t <> COUNT -> from_string (trace_name t) = t.
Proof. intros []; intros H; try reflexivity. contradiction. Qed.

Lemma name_inv : forall s, s = trace_name (from_string s) \/ from_string s = NOP /\ forall t, t <> COUNT -> s <> trace_name t.
Proof.
  intros s. unfold from_string.
  repeat match goal with |- context [String.eqb s ?x] => destruct (String.eqb_spec s x); [left; assumption|] end.
  right. split; [reflexivity|]. intros [] H; try assumption. contradiction.
Qed.

Lemma carries_needs : forall t, carries t <-> needs_data t = true.
Proof.
  intros t. unfold carries. split; [intros [ -> | [ -> | [ -> | -> ]]]; reflexivity|].
  destruct t; cbn; intros H; try discriminate; auto.
Qed.

Lemma proper_read : forall row c, proper row c -> parse_row row = Value (Some c).
Proof.
  intros row c (f0 & f1 & f2 & f3 & f4 & f5 & f6 & more & -> & (D0 & L0) & (D2 & L2) & (D3 & L3) & (D4 & L4) & (D5 & L5) & (D6 & L6) & Nc & Nm & Db & Sz & Cy & Cn).
  assert (U : forall f n, decimal f n -> n < 2 ^ 63 -> get_uint f = Value n).
  { intros f n D L. rewrite (decimal_read f n D). apply N.ltb_lt in L. rewrite L. reflexivity. }
  cbn [parse_row]. rewrite (U _ _ D0 L0), (U _ _ D2 L2), (U _ _ D3 L3), (U _ _ D4 L4), (U _ _ D5 L5), (U _ _ D6 L6). cbn [bind].
  rewrite Nm, (name_read _ Nc). destruct c as [ts ty bk bg rk rw co db da sz]. cbn in *.
  destruct (needs_data ty) eqn:Nd.
  - apply carries_needs in Nd. destruct (Cy Nd) as (f7 & rest & f & -> & If & P). rewrite (payload_read f da f7 P If). unfold lpddr6_dbank. rewrite <- Db, <- Sz. reflexivity.
  - assert (K : ~ carries ty) by (intros K; apply carries_needs in K; congruence). specialize (Cn K). subst da. unfold lpddr6_dbank. rewrite <- Db. cbn in Sz. rewrite Sz. reflexivity.
Qed.

Lemma accepted_read : forall row c, parse_row row = Value (Some c) -> read_row row c.
Proof.
  intros row c H. destruct row as [|f0 [|f1 [|f2 [|f3 [|f4 [|f5 [|f6 more]]]]]]]; try discriminate H.
  cbn [parse_row] in H.
  destruct (get_uint f0) as [ts|] eqn:U0; [|discriminate]. cbn [bind] in H.
  destruct (get_uint f2) as [rk|] eqn:U2; [|discriminate]. cbn [bind] in H.
  destruct (get_uint f3) as [bg|] eqn:U3; [|discriminate]. cbn [bind] in H.
  destruct (get_uint f4) as [bk|] eqn:U4; [|discriminate]. cbn [bind] in H.
  destruct (get_uint f5) as [rw|] eqn:U5; [|discriminate]. cbn [bind] in H.
  destruct (get_uint f6) as [co|] eqn:U6; [|discriminate]. cbn [bind] in H.
  exists f0, f1, f2, f3, f4, f5, f6, more. split; [reflexivity|].
  destruct (needs_data (from_string (string_of_list_ascii f1))) eqn:Nd.
  - destruct more as [|f7 rest]; [discriminate|]. destruct (hex_array f7) as [data|[]] eqn:Hx; try discriminate.
    assert (E : c = mkCommand ts (from_string (string_of_list_ascii f1)) bk bg rk rw co (lpddr6_dbank bk) data (8 * N.of_nat (length data))) by congruence.
    subst c. clear H. cbn [cmd_ts cmd_rank cmd_bankGroup cmd_bank cmd_row cmd_column cmd_type cmd_dbank cmd_sz_bits cmd_data].
    repeat (split; [apply uint_sound; assumption|]). split; [apply name_inv|]. split; [reflexivity|]. split; [reflexivity|].
    split; [|intros K; exfalso; apply K, carries_needs, Nd].
    intros _. destruct (payload_inv f7 data Hx) as (f & I & L & P). exists f7, rest, f. auto.
  - assert (E : c = mkCommand ts (from_string (string_of_list_ascii f1)) bk bg rk rw co (lpddr6_dbank bk) [] (8 * N.of_nat (@length N []))) by congruence.
    subst c. clear H. cbn [cmd_ts cmd_rank cmd_bankGroup cmd_bank cmd_row cmd_column cmd_type cmd_dbank cmd_sz_bits cmd_data].
    repeat (split; [apply uint_sound; assumption|]). split; [apply name_inv|]. split; [reflexivity|]. split; [reflexivity|].
    split; [|reflexivity]. intros K. apply carries_needs in K. congruence.
Qed.

(* ---- files ---- *)

Lemma rows_read : forall rows cs, Forall2 proper rows cs -> parse_rows rows = Value (Some cs).
Proof.
  intros rows cs H. induction H as [|row c rows cs P H IH]; [reflexivity|].
  cbn [parse_rows]. rewrite (proper_read row c P). cbn [bind]. rewrite IH. reflexivity.
Qed.

Lemma rows_accepted : forall rows cs, parse_rows rows = Value (Some cs) -> Forall2 read_row rows cs.
Proof.
  induction rows as [|row rows IH]; intros cs H; cbn [parse_rows] in H; [injection H as <-; constructor|].
  destruct (parse_row row) as [[c|]|] eqn:P; cbn [bind] in H; try discriminate.
  destruct (parse_rows rows) as [[cs1|]|] eqn:R; cbn [bind] in H; try discriminate. injection H as <-.
  constructor; [apply accepted_read; exact P|apply IH; reflexivity].
Qed.

Lemma proper_two : forall row c, proper row c -> (2 <= length row)%nat.
Proof. intros row c (f0 & f1 & f2 & f3 & f4 & f5 & f6 & more & -> & _). cbn. lia. Qed.

(* A text of proper lines is read as the commands it gives. *)
Theorem trace_read : forall ls cs, Forall line_ok ls -> no_mark (lines_text ls) -> Forall2 (fun l c => proper (fields (li_cells l)) c) ls cs ->
  parse_command_list (lines_text ls) = Value (Some cs).
Proof.
  intros ls cs Ok B H. unfold parse_command_list. rewrite (lines_read ls Ok B). apply rows_read.
  clear Ok B. induction H; cbn [map]; constructor; auto.
Qed.

(* The last line may lack its end. *)
Theorem open_trace_read : forall ls cs cells c, Forall line_ok ls -> Forall cell_ok cells -> no_mark (lines_text ls ++ cells_text cells) -> last (fields cells) [] <> [] ->
  Forall2 (fun l c => proper (fields (li_cells l)) c) ls cs -> proper (fields cells) c ->
  parse_command_list (lines_text ls ++ cells_text cells) = Value (Some (cs ++ [c])).
Proof.
  intros ls cs cells c Ok Oc B La H P. unfold parse_command_list.
  assert (L2 : (2 <= length cells)%nat) by (pose proof (proper_two _ _ P) as K; unfold fields in K; rewrite map_length in K; exact K).
  rewrite (open_line_read ls cells Ok L2 Oc La B). apply rows_read. clear Ok B. apply Forall2_app; [|constructor; [exact P|constructor]].
  induction H; cbn [map]; constructor; auto.
Qed.

(* Whatever is accepted was read row by row. *)
Theorem trace_accepted : forall text cs, parse_command_list text = Value (Some cs) -> exists rows, csv_rows text = Some rows /\ Forall2 read_row rows cs.
Proof.
  intros text cs H. unfold parse_command_list in H. destruct (csv_rows text) as [rows|]; [|discriminate]. exists rows. split; [reflexivity|]. apply rows_accepted. exact H.
Qed.

(* Rows that are refused. *)
Lemma short_refused : forall row, (length row < 7)%nat -> parse_row row = Value None.
Proof. intros [|f0 [|f1 [|f2 [|f3 [|f4 [|f5 [|f6 more]]]]]]] H; try reflexivity. cbn in H. lia. Qed.

Theorem bad_row_refused : forall rows row more cs, Forall2 proper rows cs -> (length row < 7)%nat -> parse_rows (rows ++ row :: more) = Value None.
Proof.
  intros rows row more cs H L. induction H as [|r c rows cs P H IH].
  - cbn [app parse_rows]. rewrite (short_refused row L). reflexivity.
  - cbn [app parse_rows]. rewrite (proper_read r c P). cbn [bind]. rewrite IH. reflexivity.
Qed.

Theorem bad_number_throws : forall f, (forall n, ~ like_number f n) -> exists e, get_uint f = Fails e.
Proof. intros f H. destruct (get_uint f) as [n|e] eqn:U; [|eauto]. exfalso. exact (H n (uint_sound f n U)). Qed.

Theorem odd_payload_refused : forall f, Nat.odd (length f) = true -> hex_array f = Fails Exception.
Proof.
  intros f H. unfold hex_array. destruct (Nat.eqb_spec (length f mod 2) 0) as [E|]; [|reflexivity].
  exfalso. rewrite <- Nat.negb_even in H. apply negb_true_iff in H.
  assert (K : Nat.even (length f) = true); [|congruence].
  apply Nat.even_spec. exists (length f / 2)%nat. pose proof (Nat.div_mod (length f) 2 ltac:(discriminate)). lia.
Qed.
