(* Exactly what is read from a row. *)
From Coq Require Import NArith String List Bool Ascii Arith Lia.
From Verif Require Import Base Bits Command CmdProofs CsvModel DramModel CliModel CliSpec CsvProofs CliProofs RowSpec.
Import ListNotations.
Local Open Scope N_scope.

Notation dash := "-"%char.
Notation sp := " "%char.
Definition dashes (l : list ascii) : nat := count_occ ascii_dec l dash.
Definition triple (f : list ascii) : Prop := exists a c b, f = a ++ c :: dash :: sp :: b /\ digit c.
Definition okc (c : ascii) : Prop := digit c \/ c = sp \/ c = dash.
Definition fd (l : list ascii) := filter digitb l.
(* No digit behind a blank; no digits on both sides of one. *)
Definition closed (l : list ascii) : Prop := forall a b, l = a ++ sp :: b -> fd b = [].
Definition joined (l : list ascii) : Prop := forall a b, l = a ++ sp :: b -> fd a = [] \/ fd b = [].
Definition starts (l : list ascii) : Prop := exists r, l = sp :: r.

Lemma fd_app a b : fd (a ++ b) = fd a ++ fd b.
Proof. apply filter_app. Qed.
Lemma not_digit_sp : ~ digit sp. Proof. intros [A B]. vm_compute in A. now apply A. Qed.
Lemma not_digit_dash : ~ digit dash. Proof. intros [A B]. vm_compute in A. now apply A. Qed.
Lemma fd_digit c l : digit c -> fd (c :: l) = c :: fd l.
Proof. intros D. unfold fd. cbn [filter]. now rewrite (proj2 (digitb_spec c) D). Qed.
Lemma fd_sp l : fd (sp :: l) = fd l. Proof. reflexivity. Qed.
Lemma fd_dash l : fd (dash :: l) = fd l. Proof. reflexivity. Qed.
Lemma fd_none l c : fd l = [] -> digit c -> ~ In c l.
Proof. intros E D I. assert (In c (fd l)) as K by (apply filter_In; split; [exact I|now apply digitb_spec]). rewrite E in K. exact K. Qed.

Lemma closed_sp l : closed (sp :: l) <-> fd l = [].
Proof.
  split; [intros C; exact (C [] l eq_refl)|]. intros E [|x a] b Eq; cbn in Eq; [injection Eq as <-; exact E|].
  injection Eq as _ ->. rewrite fd_app in E. apply app_eq_nil in E as [_ E]. exact E.
Qed.
Lemma closed_other c l : c <> sp -> (closed (c :: l) <-> closed l).
Proof.
  intros N. split.
  - intros C a b ->. exact (C (c :: a) b eq_refl).
  - intros C [|x a] b Eq; cbn in Eq; [injection Eq as -> _; contradiction|]. injection Eq as _ ->. exact (C a b eq_refl).
Qed.
Lemma joined_free c l : ~ digit c -> (joined (c :: l) <-> joined l).
Proof.
  intros N. assert (forall a, fd (c :: a) = fd a) as F.
  { intros a. unfold fd. cbn [filter]. destruct (digitb c) eqn:D; [apply digitb_spec in D; contradiction|reflexivity]. } split.
  - intros C a b ->. rewrite <- (F a). exact (C (c :: a) b eq_refl).
  - intros C [|x a] b Eq; cbn in Eq; [left; reflexivity|]. injection Eq as <- ->. rewrite F. exact (C a b eq_refl).
Qed.
Lemma joined_digit c l : digit c -> (joined (c :: l) <-> closed l).
Proof.
  intros D. split.
  - intros C a b ->. destruct (C (c :: a) b eq_refl) as [K|K]; [|exact K]. rewrite (fd_digit _ _ D) in K. discriminate.
  - intros C [|x a] b Eq; cbn in Eq; [injection Eq as -> _; destruct (not_digit_sp D)|]. injection Eq as _ ->. right. exact (C a b eq_refl).
Qed.
Lemma triple_cons c l : triple (c :: l) <-> triple l \/ digit c /\ exists r, l = dash :: sp :: r.
Proof.
  split.
  - intros ([|x a] & d & b & E & D); cbn in E; injection E as -> E; [right; split; [exact D|now exists b]|]. left. exists a, d, b. now split.
  - intros [(a & d & b & -> & D)|(D & r & ->)]; [now exists (c :: a), d, b|now exists [], c, r].
Qed.
Lemma triple_digit l : triple l -> fd l <> [].
Proof. intros (a & c & b & -> & D) E. apply (fd_none _ c E D). apply in_elt. Qed.
Lemma triple_free c l : ~ digit c -> (triple (c :: l) <-> triple l).
Proof. intros N. rewrite triple_cons. tauto. Qed.

(* The value, sign and size that come out. *)
Definition out (g : bool) (l : list ascii) (m : N) (sg : bool) (n : N) : Prop :=
  n = fold_left push (fd l) m /\ n < 2 ^ 63 /\ sg = negb (g && Nat.eqb (dashes l) 0) /\ (dashes l <= if g then 1 else 0)%nat /\ Forall okc l.
Lemma dashes_other c l : c <> dash -> dashes (c :: l) = dashes l.
Proof. intros N. unfold dashes. now apply count_occ_cons_neq. Qed.
Lemma dashes_dash l : dashes (dash :: l) = S (dashes l).
Proof. unfold dashes. now apply count_occ_cons_eq. Qed.

Notation st := mkScan.
Definition stop (s : scan) : result (data_type * (bool * N)) := Value ((if 2 ^ 63 - 1 <? sc_int s then CSV_DOUBLE else CSV_INT), (negb (sc_neg s), sc_int s)).
Lemma at_end g m : (if 2 ^ 63 - 1 <? m then CSV_DOUBLE else CSV_INT) = CSV_INT -> out g [] m (negb g) m.
Proof.
  intros E. destruct (N.ltb_spec (2 ^ 63 - 1) m) as [L|L]; [discriminate|]. repeat split; try lia; [cbn; destruct g; reflexivity|destruct g; cbn; lia|constructor].
Qed.
Lemma run_end g m ws dot dg prev sg n : scan_run prev [] (st ws g dot dg true false m) = Value (CSV_INT, (sg, n)) <-> out g [] m sg n.
Proof.
  cbn [scan_run sc_has sc_float sc_int sc_neg orb]. split.
  - destruct (N.ltb_spec (2 ^ 63 - 1) m) as [L|L]; [discriminate|]. intros E. injection E as <- <-. apply at_end. now rewrite (proj2 (N.ltb_ge _ _) L).
  - intros (-> & L & -> & _). cbn [fd filter fold_left] in *. rewrite (proj2 (N.ltb_ge (2 ^ 63 - 1) m)) by lia. cbn. rewrite andb_true_r. reflexivity.
Qed.
(* Anything but a digit, a blank and a minus gives no integer. *)
Lemma run_other c l prev s sg n : ~ okc c -> scan_run prev (c :: l) s = Value (CSV_INT, (sg, n)) -> False.
Proof.
  intros N R. assert (forall a r p q sg n, scan_run p a q = Value (CSV_INT, (sg, n)) -> r = true -> sc_float q = r -> False) as Fl.
  { intros a r p q sg' n' R' -> F. revert p q sg' n' R' F. induction a as [|x a IH]; intros p q sg' n' R' F; cbn [scan_run] in R'.
    - destruct (sc_has q); [rewrite F in R'; discriminate R'|discriminate R'].
    - destruct (Ascii.eqb x " ").
      + destruct (sc_ws q); [eapply IH; eassumption|]. destruct p as [d|]; [|discriminate]. destruct (is_digit d); [eapply IH; [eassumption|exact F]|discriminate].
      + destruct (Ascii.eqb x "-"); [destruct (sc_neg q); [eapply IH; [eassumption|exact F]|discriminate]|].
        destruct (Ascii.eqb x "."); [destruct (sc_dot q); [eapply IH; [eassumption|reflexivity]|discriminate]|].
        destruct (Ascii.eqb x "e" || Ascii.eqb x "E").
        * rewrite F in R'. cbn [orb] in R'. destruct a as [|d a']; [discriminate|]. destruct (Ascii.eqb d "+").
          -- destruct (match a' with [] => Value (CSV_NULL, (false, 0)) | _ :: _ => scan_run None a' scan0 end) as [[[] ?]|]; discriminate R'.
          -- destruct (scan_run None (d :: a') scan0) as [[[] ?]|]; discriminate R'.
        * destruct (digit_of x); [|discriminate]. destruct (sc_digit q); [|discriminate]. eapply IH; [eassumption|exact F]. }
  cbn [scan_run] in R.
  destruct (Ascii.eqb_spec c " ") as [->|]; [apply N; right; left; reflexivity|]. destruct (Ascii.eqb_spec c "-") as [->|]; [apply N; right; right; reflexivity|].
  destruct (Ascii.eqb c "."); [destruct (sc_dot s); [eapply Fl; [exact R|reflexivity|reflexivity]|discriminate]|].
  destruct (Ascii.eqb c "e" || Ascii.eqb c "E").
  - destruct (sc_float s || match prev, l with Some d, _ :: _ => is_digit d | _, _ => false end); [|discriminate]. destruct l as [|d a']; [discriminate|]. destruct (Ascii.eqb d "+").
    + destruct (match a' with [] => Value (CSV_NULL, (false, 0)) | _ :: _ => scan_run None a' scan0 end) as [[[] ?]|]; discriminate R.
    + destruct (scan_run None (d :: a') scan0) as [[[] ?]|]; discriminate R.
  - rewrite digit_of_spec in R. destruct (digitb c) eqn:D; [apply N; left; now apply digitb_spec|discriminate].
Qed.
Lemma okc_cases c : {digit c} + {c = sp} + {c = dash} + {~ okc c}.
Proof.
  destruct (digitb c) eqn:D; [left; left; left; now apply digitb_spec|]. destruct (ascii_dec c sp) as [->|A]; [left; left; right; reflexivity|]. destruct (ascii_dec c dash) as [->|B]; [left; right; reflexivity|].
  right. intros [K|[K|K]]; try contradiction. apply digitb_spec in K. congruence.
Qed.
Lemma out_bad g c l m sg n : ~ okc c -> out g (c :: l) m sg n -> False.
Proof. intros N (_ & _ & _ & _ & F). inversion F; contradiction. Qed.
Lemma out_sp g l m sg n : out g (sp :: l) m sg n <-> out g l m sg n.
Proof.
  unfold out. rewrite fd_sp, dashes_other by discriminate. split; intros (A & B & C & D & E); repeat (split; [assumption|]); [now inversion E|constructor; [right; left; reflexivity|exact E]].
Qed.
Lemma out_digit g c l m sg n : digit c -> (out g (c :: l) m sg n <-> out g l (push m c) sg n).
Proof.
  intros Dc. assert (c <> dash) as Nd by (intros ->; exact (not_digit_dash Dc)).
  unfold out. rewrite (fd_digit _ _ Dc), (dashes_other _ _ Nd). cbn [fold_left]. split; intros (A & B & C & D & E); repeat (split; [assumption|]); [now inversion E|constructor; [left; exact Dc|exact E]].
Qed.
Lemma out_dash g l m sg n : out g (dash :: l) m sg n <-> g = true /\ out false l m sg n.
Proof.
  unfold out. rewrite fd_dash, dashes_dash. destruct g; cbn [andb negb Nat.eqb].
  - split.
    + intros (A & B & C & D & E). split; [reflexivity|]. inversion E. repeat (split; [assumption|]). split; [lia|assumption].
    + intros (_ & A & B & C & D & E). repeat (split; [assumption|]). split; [lia|]. constructor; [right; right; reflexivity|exact E].
  - split; [intros (_ & _ & _ & D & _); lia|intros [D _]; discriminate].
Qed.
Ltac run_digit D := let H := fresh in pose proof (proj2 (digitb_spec _) D) as H; let A := fresh in let B := fresh in let C := fresh in let E := fresh in
  destruct (digit_only _ H) as (A & B & C & E); cbn [scan_run]; rewrite A, B, C, E, digit_of_spec, H; clear A B C E H; cbn [sc_digit sc_float sc_neg sc_dot sc_int sc_ws sc_has].
Ltac run_sp := cbn [scan_run]; change (Ascii.eqb sp " ") with true; cbn iota; cbn [sc_digit sc_float sc_neg sc_dot sc_int sc_ws sc_has].
Ltac run_dash := cbn [scan_run]; change (Ascii.eqb dash " ") with false; change (Ascii.eqb dash "-") with true; cbn iota; cbn [sc_digit sc_float sc_neg sc_dot sc_int sc_ws sc_has].

(* Behind the digits. *)
Lemma run_after l : forall prev g dot m sg n, scan_run prev l (st true g dot false true false m) = Value (CSV_INT, (sg, n)) <-> out g l m sg n /\ fd l = [].
Proof.
  induction l as [|c l IH]; intros prev g dot m sg n; [rewrite run_end; unfold fd; cbn; tauto|].
  destruct (okc_cases c) as [[[D| ->]| ->]|N].
  - run_digit D. rewrite (fd_digit _ _ D). split; [discriminate|intros [_ K]; discriminate K].
  - run_sp. rewrite IH, out_sp, fd_sp. reflexivity.
  - run_dash. rewrite out_dash, fd_dash. destruct g; [rewrite IH; tauto|]. split; [discriminate|]. intros [[K _] _]. discriminate K.
  - split; [intros R; destruct (run_other _ _ _ _ _ _ N R)|intros [O _]; destruct (out_bad _ _ _ _ _ _ N O)].
Qed.
(* Among the digits; only a minus that was there already may be the last character. *)
Lemma run_among l : forall c g dot m sg n, digit c \/ c = dash /\ g = false ->
  scan_run (Some c) l (st false g dot true true false m) = Value (CSV_INT, (sg, n)) <-> out g l m sg n /\ closed l /\ ~ (c = dash /\ starts l) /\ ~ triple (c :: l).
Proof.
  induction l as [|x l IH]; intros c g dot m sg n Hc.
  - rewrite run_end. split; [|tauto]. intros O. split; [exact O|]. split; [intros [|? ?] ? K; discriminate K|]. split; [intros (_ & r & K); discriminate K|].
    intros ([|? [|? ?]] & ? & ? & K & _); discriminate K.
  - destruct (okc_cases x) as [[[D| ->]| ->]|N].
    + run_digit D. replace (m * 10 + (N_of_ascii x - 48)) with (push m x) by (unfold push; lia). rewrite (IH x) by (left; exact D). rewrite (out_digit _ _ _ _ _ _ D).
      rewrite (closed_other x l) by (intros ->; exact (not_digit_sp D)). rewrite (triple_cons c (x :: l)).
      assert (x <> dash) by (intros ->; exact (not_digit_dash D)). assert (x <> sp) by (intros ->; exact (not_digit_sp D)).
      split; intros (A & B & C & E); (split; [exact A|]); (split; [exact B|]); split.
      * intros (_ & r & K). injection K as K _. contradiction.
      * intros [K|(_ & r & K)]; [exact (E K)|injection K as K _; contradiction].
      * intros (K & _). contradiction.
      * intros K. apply E. left. exact K.
    + run_sp. unfold is_digit. rewrite digit_of_spec. destruct (digitb c) eqn:Dc.
      * rewrite run_after, out_sp, closed_sp. assert (digit c) as Dc' by now apply digitb_spec. split.
        -- intros [A B]. split; [exact A|]. split; [exact B|]. split; [intros (-> & _); exact (not_digit_dash Dc')|]. rewrite triple_cons, (triple_free sp l not_digit_sp).
           intros [K|(_ & r & K)]; [exact (triple_digit _ K B)|discriminate K].
        -- tauto.
      * destruct Hc as [Hc|[-> ->]]; [apply digitb_spec in Hc; congruence|]. split; [discriminate|]. intros (_ & _ & K & _). exfalso. apply K. split; [reflexivity|now exists l].
    + run_dash. destruct g.
      * destruct Hc as [Hc|[_ K]]; [|discriminate K]. rewrite (IH dash) by (right; split; reflexivity). rewrite out_dash, (closed_other dash l) by discriminate. rewrite (triple_cons c (dash :: l)).
        split.
        -- intros (A & B & C & E). split; [split; [reflexivity|exact A]|]. split; [exact B|]. split; [intros (_ & r & K); discriminate K|].
           intros [K|(_ & r & K)]; [exact (E K)|]. injection K as ->. apply C. split; [reflexivity|now exists r].
        -- intros ((_ & A) & B & C & E). split; [exact A|]. split; [exact B|]. split; [|intros K; apply E; left; exact K].
           intros (_ & r & ->). apply E. right. split; [exact Hc|now exists r].
      * split; [discriminate|]. rewrite out_dash. intros ((K & _) & _). discriminate K.
    + split; [intros R; destruct (run_other _ _ _ _ _ _ N R)|intros [O _]; destruct (out_bad _ _ _ _ _ _ N O)].
Qed.
(* Before the digits. *)
Lemma run_before l : forall prev g dot sg n,
  scan_run prev l (st true g dot true false false 0) = Value (CSV_INT, (sg, n)) <-> out g l 0 sg n /\ joined l /\ fd l <> [] /\ ~ triple l.
Proof.
  induction l as [|x l IH]; intros prev g dot sg n.
  - cbn. split; [discriminate|]. intros (_ & _ & K & _). now destruct K.
  - destruct (okc_cases x) as [[[D| ->]| ->]|N].
    + run_digit D. change (0 * 10 + (N_of_ascii x - 48)) with (push 0 x). rewrite run_among by (left; exact D). rewrite (out_digit _ _ _ _ _ _ D), (joined_digit _ _ D), (fd_digit _ _ D).
      split; intros (A & B & C & E); (split; [exact A|]); (split; [exact B|]); (split; [|exact E]); [discriminate|]. intros (-> & _). exact (not_digit_dash D).
    + run_sp. rewrite IH, out_sp, (joined_free sp l not_digit_sp), fd_sp, (triple_free sp l not_digit_sp). reflexivity.
    + run_dash. rewrite out_dash, (joined_free dash l not_digit_dash), fd_dash, (triple_free dash l not_digit_dash). destruct g; [rewrite IH; tauto|].
      split; [discriminate|]. intros ((K & _) & _). discriminate K.
    + split; [intros R; destruct (run_other _ _ _ _ _ _ N R)|intros [O _]; destruct (out_bad _ _ _ _ _ _ N O)].
Qed.

Theorem uint_exactly f n : get_uint f = Value n <-> reads_uint f n.
Proof.
  assert (get_uint f = Value n <-> exists sg, scan_run None f scan0 = Value (CSV_INT, (sg, n)) /\ (sg = true -> n = 0)) as G.
  { unfold get_uint, field_type. destruct f as [|c f].
    - split; [discriminate|]. intros (sg & R & _). discriminate R.
    - split.
      + destruct (scan_run None (c :: f) scan0) as [[ty [neg v]]|] eqn:R; [|discriminate]. unfold bind. destruct ty; try discriminate.
        destruct (neg && (0 <? v)) eqn:Ng; [discriminate|]. destruct (2 ^ 64 - 1 <? v); [discriminate|]. intros E. injection E as ->. exists neg. split; [reflexivity|].
        intros ->. cbn in Ng. apply N.ltb_ge in Ng. lia.
      + intros (sg & R & Z). rewrite R. unfold bind. change scan0 with (st true true true true false false 0) in R. apply run_before in R as ((_ & L & _) & _).
        assert (sg && (0 <? n) = false) as ->. { destruct sg; [rewrite (Z eq_refl); reflexivity|reflexivity]. }
        rewrite (proj2 (N.ltb_ge (2 ^ 64 - 1) n)); [reflexivity|]. assert (2 ^ 63 < 2 ^ 64) by reflexivity. lia. }
  rewrite G. clear G. change scan0 with (st true true true true false false 0).
  split.
  - intros (sg & R & Z). apply run_before in R as ((A & B & C & D & E) & J & Ne & T). split; [|split; [exact D|exact T]].
    split; [split; [exact Ne|split; [|symmetry; exact A]]|].
    { apply Forall_forall. intros x Hx. apply filter_In in Hx as [_ Hx]. now apply digitb_spec. }
    split; [exact B|]. split; [exact E|]. split; [|exact J]. intros I. apply Z. rewrite C. cbn [andb]. apply count_occ_In with (eq_dec := ascii_dec) in I.
    unfold dashes. destruct (count_occ ascii_dec f dash) as [|k]; [inversion I|reflexivity].
  - intros (((Ne & _ & V) & B & E & Z & J) & D & T). exists (negb (Nat.eqb (dashes f) 0)). split.
    + apply run_before. split; [|split; [exact J|split; [exact Ne|exact T]]]. split; [symmetry; exact V|]. split; [exact B|]. split; [reflexivity|]. split; [exact D|exact E].
    + intros K. apply Z. apply (count_occ_In ascii_dec). unfold dashes in K. destruct (count_occ ascii_dec f dash) as [|k]; [discriminate K|]. apply Nat.lt_0_succ.
Qed.

(* ---- what else can come of a field ---- *)
Lemma ends_cons (c x : ascii) l : (exists r, l = r ++ [x]) -> exists r, c :: l = r ++ [x].
Proof. intros (r & ->). now exists (c :: r). Qed.
Definition ends_e (l : list ascii) : Prop := exists r, l = r ++ ["e"%char] \/ l = r ++ ["E"%char].
Lemma ends_e_cons c l : ends_e l -> ends_e (c :: l).
Proof. intros (r & [-> | ->]); exists (c :: r); [left|right]; reflexivity. Qed.
Lemma run_fails l : forall prev s f, (prev = None -> sc_ws s = true) -> scan_run prev l s = Fails f -> f = UB /\ ends_e l /\ (sc_float s = true \/ In "."%char l).
Proof.
  induction l as [l IH] using (well_founded_induction (Wf_nat.well_founded_ltof _ (@length ascii))). unfold Wf_nat.ltof in IH.
  intros prev s f W R. destruct l as [|c r]; cbn [scan_run] in R; [destruct (sc_has s); discriminate|].
  assert (forall pr q, sc_float q = sc_float s -> (pr = None -> sc_ws q = true) -> scan_run pr r q = Fails f -> f = UB /\ ends_e (c :: r) /\ (sc_float s = true \/ In "."%char (c :: r))) as Go.
  { intros pr q Fq Wq Rq. destruct (IH r ltac:(cbn; lia) pr q f Wq Rq) as (A & B & C). split; [exact A|]. split; [now apply ends_e_cons|]. rewrite Fq in C. destruct C as [C|C]; [now left|right; now right]. }
  destruct (Ascii.eqb c " ").
  - destruct (sc_ws s) eqn:Ws; [eapply Go; [|intros K; exact Ws|exact R]; reflexivity|]. destruct prev as [d|]; [|discriminate (W eq_refl)].
    destruct (is_digit d); [eapply Go; [| |exact R]; [reflexivity|intros K; discriminate K]|discriminate].
  - destruct (Ascii.eqb c "-"); [destruct (sc_neg s); [eapply Go; [| |exact R]; [reflexivity|intros K; discriminate K]|discriminate]|].
    destruct (Ascii.eqb_spec c ".") as [->|].
    + destruct (sc_dot s); [|discriminate]. assert (length r < length ("."%char :: r))%nat as Lr by (cbn; lia). refine (match IH r Lr _ _ _ _ R with conj A (conj B _) => _ end); [intros K; discriminate K|]. split; [exact A|]. split; [now apply ends_e_cons|]. right. now left.
    + destruct (Ascii.eqb c "e" || Ascii.eqb c "E") eqn:Ee.
      * destruct (sc_float s || match prev, r with Some d, _ :: _ => is_digit d | _, _ => false end) eqn:Fl; [|discriminate]. destruct r as [|d r'].
        -- injection R as <-. split; [reflexivity|]. split.
           ++ exists []. cbn. apply orb_true_iff in Ee as [Ee|Ee]; apply Ascii.eqb_eq in Ee; subst c; [left|right]; reflexivity.
           ++ left. destruct (sc_float s); [reflexivity|]. destruct prev; discriminate Fl.
        -- assert (forall a q, (length a <= length (d :: r'))%nat -> (exists b, d :: r' = b ++ a) -> q = scan_run None a scan0 -> forall x, (y <- q ;; Value (x y : data_type * (bool * N))) = Fails f ->
             f = UB /\ ends_e (c :: d :: r') /\ (sc_float s = true \/ In "."%char (c :: d :: r'))) as Sub.
           { intros a q La (b & Eb) -> x Rx. destruct (scan_run None a scan0) as [y|f'] eqn:Ra; [discriminate Rx|]. assert (f' = f) as <- by (cbn [bind] in Rx; congruence).
             destruct (IH a ltac:(cbn in La |- *; lia) None scan0 f' ltac:(reflexivity) Ra) as (A & (e & B) & C). split; [exact A|]. split.
             - rewrite Eb. apply ends_e_cons. exists (b ++ e). destruct B as [-> | ->]; [left|right]; apply app_assoc.
             - right. right. rewrite Eb. apply in_or_app. right. destruct C as [C|C]; [discriminate C|exact C]. }
           destruct (Ascii.eqb d "+").
           ++ destruct r' as [|z r'']; [discriminate R|]. refine (Sub (z :: r'') _ _ _ eq_refl _ R); [cbn; lia|now exists [d]].
           ++ refine (Sub (d :: r') _ _ _ eq_refl _ R); [lia|now exists []].
      * destruct (digit_of c); [|discriminate]. destruct (sc_digit s); [|discriminate]. eapply Go; [| |exact R]; [reflexivity|intros K; discriminate K].
Qed.
Lemma uint_fails f e : get_uint f = Fails e -> e = Exception \/ e = UB /\ overread f.
Proof.
  unfold get_uint, field_type. destruct f as [|c f]; [cbn; intros H; injection H as <-; now left|].
  destruct (scan_run None (c :: f) scan0) as [[ty [neg v]]|e'] eqn:R; cbn [bind].
  - intros H. left. destruct ty; try (injection H as <-; reflexivity). destruct (neg && (0 <? v)); [injection H as <-; reflexivity|]. destruct (2 ^ 64 - 1 <? v); [injection H as <-; reflexivity|discriminate].
  - intros H. assert (e' = e) as <- by congruence. right. destruct (run_fails _ None scan0 _ (fun _ => eq_refl) R) as (A & B & [C|C]); [discriminate C|]. split; [exact A|]. split; [exact C|exact B].
Qed.

(* ---- payload ---- *)
Lemma hexdigit_dec c : {x | hex_digit c = Some x /\ hexchar c x} + {hex_digit c = None /\ ~ hexdigit c}.
Proof.
  destruct (hex_digit c) as [x|] eqn:H; [left; exists x; split; [reflexivity|now apply hex_digit_char]|]. right. split; [reflexivity|]. intros (x & K). apply hex_digit_char in K. congruence.
Qed.
Lemma space_white c : is_space c = true <-> white c.
Proof. unfold is_space, white. rewrite orb_true_iff, andb_true_iff, N.eqb_eq, !N.leb_le. tauto. Qed.
Lemma white_hex c x : white c -> hexchar c x -> False.
Proof.
  intros W H. apply hex_digit_char in H. unfold hex_digit in H. destruct W as [W|W].
  - rewrite W in H. discriminate H.
  - assert ((48 <=? N_of_ascii c) = false) as A by (apply N.leb_gt; lia). assert ((65 <=? N_of_ascii c) = false) as B by (apply N.leb_gt; lia). assert ((97 <=? N_of_ascii c) = false) as C by (apply N.leb_gt; lia).
    cbv zeta in H. rewrite A, B, C in H. discriminate H.
Qed.
Lemma plus_hex x : hexchar "+"%char x -> False. Proof. intros H. apply hex_digit_char in H. discriminate H. Qed.
Lemma minus_hex x : hexchar dash x -> False. Proof. intros H. apply hex_digit_char in H. discriminate H. Qed.
Lemma minus_white : ~ white dash. Proof. intros [H|H]; [discriminate H|]. vm_compute in H. destruct H as [_ H]. now apply H. Qed.
Lemma pair_exactly a b v : stoi2 a b = Value v <-> reads_pair a b v.
Proof.
  unfold stoi2. destruct (hexdigit_dec a) as [(x & -> & Ha)|(-> & Ha)], (hexdigit_dec b) as [(y & -> & Hb)|(-> & Hb)].
  - split; [intros E; injection E as <-; now constructor|]. intros P. inversion P; subst.
    + apply hex_digit_char in Ha, Hb, H, H0. congruence.
    + exfalso. apply H0. now exists y.
    + exfalso. destruct H as [H| ->]; [exact (white_hex a x H Ha)|exact (plus_hex x Ha)].
    + destruct (minus_hex x Ha).
  - split; [intros E; injection E as <-; now constructor|]. intros P. inversion P; subst.
    + destruct Hb. now exists y.
    + apply hex_digit_char in Ha, H. congruence.
    + destruct Hb. now exists v.
    + destruct (minus_hex x Ha).
  - destruct (is_space a || Ascii.eqb a "+") eqn:Sp.
    + assert (white a \/ a = "+"%char) as W. { apply orb_true_iff in Sp as [Sp|Sp]; [left; now apply space_white|right; now apply Ascii.eqb_eq]. }
      split; [intros E; injection E as <-; apply pair_second; assumption|]. intros P. inversion P; subst.
      * destruct Ha. now exists x.
      * destruct Ha. now exists v.
      * apply hex_digit_char in Hb, H0. congruence.
      * destruct W as [W|W]; [destruct (minus_white W)|discriminate W].
    + destruct (Ascii.eqb_spec a "-") as [->|N].
      * split; [intros E; injection E as <-; now apply pair_minus|]. intros P. inversion P; subst.
        -- destruct Ha. now exists x.
        -- destruct Ha. now exists v.
        -- destruct H as [H|H]; [destruct (minus_white H)|discriminate H].
        -- apply hex_digit_char in Hb, H. congruence.
      * split; [discriminate|]. intros P. inversion P; subst.
        -- destruct Ha. now exists x.
        -- destruct Ha. now exists v.
        -- apply orb_false_iff in Sp as [S1 S2]. destruct H as [H| ->]; [apply space_white in H; congruence|discriminate S2].
        -- now destruct N.
  - split; [discriminate|]. intros P. inversion P; subst; [destruct Ha; now exists x|destruct Ha; now exists v|destruct Hb; now exists v|destruct Hb; now exists y].
Qed.
Lemma bytes_exactly : forall k l bs, (length l <= k)%nat -> (hex_bytes l = Value bs /\ Nat.even (length l) = true <-> reads_bytes l bs).
Proof.
  induction k as [|k IH]; intros [|a [|b l]] bs L; cbn in L; try lia.
  1, 2: cbn; (split; [intros [E _]; injection E as <-; constructor|intros P; inversion P; auto]).
  - cbn. split; [intros [_ E]; discriminate E|intros P; inversion P].
  - cbn [hex_bytes length Nat.even]. split.
    + intros [E Ev]. destruct (stoi2 a b) as [x|] eqn:Sx; [|discriminate]. cbn [bind] in E. destruct (hex_bytes l) as [xs|] eqn:Hl; [|discriminate]. cbn [bind] in E. injection E as <-.
      constructor; [now apply pair_exactly|]. apply IH; [lia|]. now split.
    + intros P. inversion P as [|? ? x ? xs Px Pl]; subst. apply pair_exactly in Px. apply (IH l xs ltac:(lia)) in Pl as [Pl Ev]. rewrite Px. cbn [bind]. rewrite Pl. now split.
Qed.
Lemma even_eqb k : Nat.eqb (Nat.modulo k 2) 0 = Nat.even k.
Proof.
  destruct (Nat.even k) eqn:E.
  - apply Nat.even_spec in E as (m & ->). apply even_mod.
  - apply Nat.eqb_neq. intros H. assert (Nat.even k = true) as K; [|congruence]. apply Nat.even_spec. exists (k / 2)%nat. pose proof (Nat.div_mod k 2 ltac:(discriminate)). lia.
Qed.
Theorem payload_exactly g bs : hex_array g = Value bs <-> reads_payload g bs.
Proof.
  unfold hex_array, reads_payload. rewrite even_eqb.
  assert (forall l, (forall f, ~ marked l f) -> (if Nat.even (length l) then hex_bytes l else Fails Exception) = Value bs <->
                    (exists f, marked l f /\ reads_bytes f bs) \/ (forall f, ~ marked l f) /\ reads_bytes l bs) as Plain.
  { intros l N. destruct (Nat.even (length l)) eqn:Ev.
    - split; [intros H; right; split; [exact N|]; apply (bytes_exactly _ l bs (le_n _)); now split|]. intros [(f & M & _)|[_ P]]; [destruct (N f M)|]. now apply (bytes_exactly _ l bs (le_n _)) in P.
    - split; [discriminate|]. intros [(f & M & _)|[_ P]]; [destruct (N f M)|]. apply (bytes_exactly _ l bs (le_n _)) in P as [_ P]. congruence. }
  destruct g as [|a [|b r]].
  - apply (Plain []). intros f [M|M]; discriminate M.
  - apply (Plain [a]). intros f [M|M]; discriminate M.
  - destruct (Ascii.eqb a "0" && (Ascii.eqb b "x" || Ascii.eqb b "X")) eqn:M.
    + assert (marked (a :: b :: r) r) as Mk.
      { apply andb_true_iff in M as [Ma Mb]. apply Ascii.eqb_eq in Ma. subst a. apply orb_true_iff in Mb as [Mb|Mb]; apply Ascii.eqb_eq in Mb; subst b; [left|right]; reflexivity. }
      assert (forall f, marked (a :: b :: r) f -> f = r) as Un by (intros f [K|K]; injection K; congruence).
      cbn [length Nat.even]. destruct (Nat.even (length r)) eqn:Ev.
      * split; [intros H; left; exists r; split; [exact Mk|]; apply (bytes_exactly _ r bs (le_n _)); now split|].
        intros [(f & Mf & P)|[N _]]; [|destruct (N r Mk)]. rewrite (Un f Mf) in P. now apply (bytes_exactly _ r bs (le_n _)) in P.
      * split; [discriminate|]. intros [(f & Mf & P)|[N _]]; [|destruct (N r Mk)]. rewrite (Un f Mf) in P. apply (bytes_exactly _ r bs (le_n _)) in P as [_ P]. congruence.
    + apply (Plain (a :: b :: r)). intros f [K|K]; injection K as -> -> _; discriminate M.
Qed.
Lemma stoi_fails a b e : stoi2 a b = Fails e -> e = Exception.
Proof.
  unfold stoi2. destruct (hex_digit a); [discriminate|]. destruct (hex_digit b); [|intros H; injection H as <-; reflexivity]. destruct (is_space a || Ascii.eqb a "+"); [discriminate|].
  destruct (Ascii.eqb a "-"); [discriminate|]. intros H. injection H as <-. reflexivity.
Qed.
Lemma hex_fails : forall k l e, (length l <= k)%nat -> hex_bytes l = Fails e -> e = Exception.
Proof.
  induction k as [|k IH]; intros [|a [|b l]] e L; cbn in L; try lia; try discriminate. cbn [hex_bytes]. destruct (stoi2 a b) as [x|f] eqn:Sx; cbn [bind].
  - destruct (hex_bytes l) as [xs|f] eqn:Hl; cbn [bind]; [discriminate|]. intros H. assert (f = e) as <- by congruence. apply (IH l); [lia|exact Hl].
  - intros H. assert (f = e) as <- by congruence. exact (stoi_fails _ _ _ Sx).
Qed.
Lemma payload_fails g e : hex_array g = Fails e -> e = Exception.
Proof. unfold hex_array. destruct (Nat.eqb (length g mod 2) 0); [|intros H; injection H as <-; reflexivity]. apply (hex_fails _ _ _ (le_n _)). Qed.

(* ---- rows ---- *)
Lemma name_exactly f t : from_string (string_of_list_ascii f) = t <-> reads_name f t.
Proof.
  split.
  - intros <-. destruct (name_inv (string_of_list_ascii f)) as [E|[E N]]; [|right; split; assumption].
    destruct (CmdType_eq_dec (from_string (string_of_list_ascii f)) COUNT) as [C|C]; [|left; split; assumption]. rewrite C in E. cbn in E. rewrite E in C. discriminate C.
  - intros [[C E]|[-> N]]; [rewrite E; now apply name_read|]. destruct (name_inv (string_of_list_ascii f)) as [E|[E _]]; [|exact E].
    destruct (CmdType_eq_dec (from_string (string_of_list_ascii f)) COUNT) as [C|C]; [|destruct (N _ C E)]. rewrite C in E. cbn in E. rewrite E in C. discriminate C.
Qed.
Theorem row_exactly row c : parse_row row = Value (Some c) <-> reads_row row c.
Proof.
  split.
  - intros H. destruct row as [|f0 [|f1 [|f2 [|f3 [|f4 [|f5 [|f6 more]]]]]]]; try discriminate H. cbn [parse_row] in H.
    destruct (get_uint f0) as [ts|] eqn:U0; [|discriminate]. cbn [bind] in H. destruct (get_uint f2) as [rk|] eqn:U2; [|discriminate]. cbn [bind] in H.
    destruct (get_uint f3) as [bg|] eqn:U3; [|discriminate]. cbn [bind] in H. destruct (get_uint f4) as [bk|] eqn:U4; [|discriminate]. cbn [bind] in H.
    destruct (get_uint f5) as [rw|] eqn:U5; [|discriminate]. cbn [bind] in H. destruct (get_uint f6) as [co|] eqn:U6; [|discriminate]. cbn [bind] in H.
    exists f0, f1, f2, f3, f4, f5, f6, more. split; [reflexivity|]. destruct (needs_data (from_string (string_of_list_ascii f1))) eqn:Nd.
    + destruct more as [|f7 rest]; [discriminate|]. destruct (hex_array f7) as [data|[]] eqn:Hx; try discriminate.
      assert (E : c = mkCommand ts (from_string (string_of_list_ascii f1)) bk bg rk rw co (lpddr6_dbank bk) data (8 * N.of_nat (length data))) by congruence.
      subst c. clear H. cbn [cmd_ts cmd_rank cmd_bankGroup cmd_bank cmd_row cmd_column cmd_type cmd_dbank cmd_sz_bits cmd_data].
      repeat (split; [now apply uint_exactly|]). split; [now apply name_exactly|]. split; [reflexivity|]. split; [reflexivity|]. split; [|intros K; exfalso; apply K, carries_needs, Nd].
      intros _. exists f7, rest. split; [reflexivity|now apply payload_exactly].
    + assert (E : c = mkCommand ts (from_string (string_of_list_ascii f1)) bk bg rk rw co (lpddr6_dbank bk) [] (8 * N.of_nat (@length N []))) by congruence.
      subst c. clear H. cbn [cmd_ts cmd_rank cmd_bankGroup cmd_bank cmd_row cmd_column cmd_type cmd_dbank cmd_sz_bits cmd_data].
      repeat (split; [now apply uint_exactly|]). split; [now apply name_exactly|]. split; [reflexivity|]. split; [reflexivity|]. split; [|reflexivity]. intros K. apply carries_needs in K. congruence.
  - intros (f0 & f1 & f2 & f3 & f4 & f5 & f6 & more & -> & D0 & D2 & D3 & D4 & D5 & D6 & Nm & Db & Sz & Cy & Cn). apply uint_exactly in D0, D2, D3, D4, D5, D6. apply name_exactly in Nm.
    cbn [parse_row]. rewrite D0, D2, D3, D4, D5, D6. cbn [bind]. rewrite Nm. destruct c as [ts ty bk bg rk rw co db da sz]. cbn in *. destruct (needs_data ty) eqn:Nd.
    + apply carries_needs in Nd. destruct (Cy Nd) as (f7 & rest & -> & P). apply payload_exactly in P. rewrite P. unfold lpddr6_dbank. rewrite <- Db, <- Sz. reflexivity.
    + assert (K : ~ carries ty) by (intros K; apply carries_needs in K; congruence). specialize (Cn K). subst da. unfold lpddr6_dbank. rewrite <- Db. cbn in Sz. rewrite Sz. reflexivity.
Qed.
Lemma readable f : (exists n, get_uint f = Value n) <-> exists n, reads_uint f n.
Proof. split; intros (n & H); exists n; now apply uint_exactly. Qed.
Lemma all_readable l : Forall (fun f => exists n, get_uint f = Value n) l <-> Forall (fun f => exists n, reads_uint f n) l.
Proof. split; intros H; (eapply Forall_impl; [|exact H]); intros f K; now apply readable. Qed.
Theorem row_refused_exactly row : parse_row row = Value None <-> refused_row row.
Proof.
  split.
  - intros H. destruct row as [|f0 [|f1 [|f2 [|f3 [|f4 [|f5 [|f6 more]]]]]]]; try (left; cbn; lia). right. cbn [parse_row] in H.
    destruct (get_uint f0) as [ts|] eqn:U0; [|discriminate]. cbn [bind] in H. destruct (get_uint f2) as [rk|] eqn:U2; [|discriminate]. cbn [bind] in H.
    destruct (get_uint f3) as [bg|] eqn:U3; [|discriminate]. cbn [bind] in H. destruct (get_uint f4) as [bk|] eqn:U4; [|discriminate]. cbn [bind] in H.
    destruct (get_uint f5) as [rw|] eqn:U5; [|discriminate]. cbn [bind] in H. destruct (get_uint f6) as [co|] eqn:U6; [|discriminate]. cbn [bind] in H.
    exists f0, f1, f2, f3, f4, f5, f6, more, (from_string (string_of_list_ascii f1)). split; [reflexivity|]. split; [|split; [now apply name_exactly|]].
    + apply all_readable. repeat (constructor; [eexists; eassumption|]). constructor.
    + destruct (needs_data (from_string (string_of_list_ascii f1))) eqn:Nd; [|discriminate]. split; [now apply carries_needs|]. intros f7 rest bs -> P. apply payload_exactly in P. rewrite P in H. discriminate.
  - intros [L|(f0 & f1 & f2 & f3 & f4 & f5 & f6 & more & t & -> & F & Nm & Cy & No)].
    + now apply short_refused.
    + apply all_readable in F. inversion F as [|? ? [n0 U0] F0]; subst. inversion F0 as [|? ? [n2 U2] F2]; subst. inversion F2 as [|? ? [n3 U3] F3]; subst. inversion F3 as [|? ? [n4 U4] F4]; subst.
      inversion F4 as [|? ? [n5 U5] F5]; subst. inversion F5 as [|? ? [n6 U6] _]; subst. apply name_exactly in Nm. apply carries_needs in Cy. cbn [parse_row]. rewrite U0, U2, U3, U4, U5, U6. cbn [bind]. rewrite Nm, Cy.
      destruct more as [|f7 rest]; [reflexivity|]. destruct (hex_array f7) as [bs|e] eqn:H; [destruct (No f7 rest bs eq_refl); now apply payload_exactly|]. rewrite (payload_fails _ _ H). reflexivity.
Qed.
Theorem row_dies row f : parse_row row = Fails f -> deadly_row row f.
Proof.
  intros H. destruct row as [|f0 [|f1 [|f2 [|f3 [|f4 [|f5 [|f6 more]]]]]]]; try discriminate H. cbn [parse_row] in H. unfold deadly_row. cbn [number_fields].
  assert (forall pre x post e, get_uint x = Fails e -> e = f -> Forall (fun f => exists n, get_uint f = Value n) pre ->
    exists pre' x' post', pre ++ x :: post = pre' ++ x' :: post' /\ Forall (fun g => exists n, reads_uint g n) pre' /\ (forall n, ~ reads_uint x' n) /\ (f = Exception \/ f = UB /\ overread x')) as Go.
  { intros pre x post e G -> F. exists pre, x, post. split; [reflexivity|]. split; [now apply all_readable|]. split; [intros n K; apply uint_exactly in K; congruence|now apply uint_fails]. }
  destruct (get_uint f0) as [ts|e] eqn:U0; cbn [bind] in H; [|apply (Go [] f0 [f2; f3; f4; f5; f6] e U0); [congruence|constructor]].
  assert (Forall (fun f => exists n, get_uint f = Value n) [f0]) as F0 by (constructor; [eexists; exact U0|constructor]).
  destruct (get_uint f2) as [rk|e] eqn:U2; cbn [bind] in H; [|apply (Go [f0] f2 [f3; f4; f5; f6] e U2); [congruence|exact F0]].
  assert (Forall (fun f => exists n, get_uint f = Value n) [f0; f2]) as F2 by (repeat (constructor; [eexists; eassumption|]); constructor).
  destruct (get_uint f3) as [bg|e] eqn:U3; cbn [bind] in H; [|apply (Go [f0; f2] f3 [f4; f5; f6] e U3); [congruence|exact F2]].
  assert (Forall (fun f => exists n, get_uint f = Value n) [f0; f2; f3]) as F3 by (repeat (constructor; [eexists; eassumption|]); constructor).
  destruct (get_uint f4) as [bk|e] eqn:U4; cbn [bind] in H; [|apply (Go [f0; f2; f3] f4 [f5; f6] e U4); [congruence|exact F3]].
  assert (Forall (fun f => exists n, get_uint f = Value n) [f0; f2; f3; f4]) as F4 by (repeat (constructor; [eexists; eassumption|]); constructor).
  destruct (get_uint f5) as [rw|e] eqn:U5; cbn [bind] in H; [|apply (Go [f0; f2; f3; f4] f5 [f6] e U5); [congruence|exact F4]].
  assert (Forall (fun f => exists n, get_uint f = Value n) [f0; f2; f3; f4; f5]) as F5 by (repeat (constructor; [eexists; eassumption|]); constructor).
  destruct (get_uint f6) as [co|e] eqn:U6; cbn [bind] in H; [|apply (Go [f0; f2; f3; f4; f5] f6 [] e U6); [congruence|exact F5]].
  destruct (needs_data (from_string (string_of_list_ascii f1))); [|discriminate]. destruct more as [|f7 rest]; [discriminate|]. destruct (hex_array f7) as [bs|e] eqn:Hx; [discriminate|].
  rewrite (payload_fails _ _ Hx) in H. discriminate.
Qed.
(* A field that cannot be read as a number ends the program, in a row long enough. *)
Theorem row_deadly row x : In x (number_fields row) -> (forall n, ~ reads_uint x n) -> exists f, parse_row row = Fails f /\ deadly_row row f.
Proof.
  intros I N. destruct row as [|f0 [|f1 [|f2 [|f3 [|f4 [|f5 [|f6 more]]]]]]]; try (exfalso; exact I). destruct (parse_row (f0 :: f1 :: f2 :: f3 :: f4 :: f5 :: f6 :: more)) as [[c|]|f] eqn:P.
  1,2: exfalso; cbn [parse_row] in P;
    destruct (get_uint f0) as [ts|] eqn:U0; [|discriminate P]; cbn [bind] in P; destruct (get_uint f2) as [rk|] eqn:U2; [|discriminate P]; cbn [bind] in P;
    destruct (get_uint f3) as [bg|] eqn:U3; [|discriminate P]; cbn [bind] in P; destruct (get_uint f4) as [bk|] eqn:U4; [|discriminate P]; cbn [bind] in P;
    destruct (get_uint f5) as [rw|] eqn:U5; [|discriminate P]; cbn [bind] in P; destruct (get_uint f6) as [co|] eqn:U6; [|discriminate P];
    cbn [number_fields In] in I; destruct I as [<-|[<-|[<-|[<-|[<-|[<-|[]]]]]]]; (eapply N; apply uint_exactly; eassumption).
  - exists f. split; [reflexivity|]. now apply row_dies.
Qed.

(* ---- texts ---- *)
Lemma rows_exactly rows cs : parse_rows rows = Value (Some cs) <-> Forall2 reads_row rows cs.
Proof.
  revert cs. induction rows as [|row rows IH]; intros cs; cbn [parse_rows].
  - split; [intros H; injection H as <-; constructor|]. intros H. inversion H. reflexivity.
  - split.
    + destruct (parse_row row) as [[c|]|] eqn:P; cbn [bind]; try discriminate. destruct (parse_rows rows) as [[cs1|]|] eqn:R; cbn [bind]; try discriminate. intros H. injection H as <-.
      constructor; [now apply row_exactly|now apply IH].
    + intros H. inversion H as [|? c ? cs1 H1 H2]; subst. apply row_exactly in H1. apply IH in H2. rewrite H1. cbn [bind]. rewrite H2. reflexivity.
Qed.
Lemma rows_ends rows : (exists cs, Forall2 reads_row rows cs) \/
  exists pre row post cs, rows = pre ++ row :: post /\ Forall2 reads_row pre cs /\ (refused_row row /\ parse_rows rows = Value None \/ exists f, deadly_row row f /\ parse_rows rows = Fails f).
Proof.
  induction rows as [|row rows IH]; [left; exists []; constructor|]. cbn [parse_rows]. destruct (parse_row row) as [[c|]|f] eqn:P; cbn [bind].
  - destruct IH as [(cs & F)|(pre & r & post & cs & E & F & IH)].
    + left. exists (c :: cs). constructor; [now apply row_exactly|exact F].
    + right. exists (row :: pre), r, post, (c :: cs). split; [now rewrite E|]. split; [constructor; [now apply row_exactly|exact F]|].
      destruct IH as [[A B]|(f & A & B)]; rewrite B; cbn [bind]; [left; now split|right; now exists f].
  - right. exists [], row, rows, []. split; [reflexivity|]. split; [constructor|]. left. split; [now apply row_refused_exactly|reflexivity].
  - right. exists [], row, rows, []. split; [reflexivity|]. split; [constructor|]. right. exists f. split; [now apply row_dies|reflexivity].
Qed.
Theorem text_exactly text cs : parse_command_list text = Value (Some cs) <-> exists rows, csv_rows text = Some rows /\ Forall2 reads_row rows cs.
Proof.
  unfold parse_command_list. destruct (csv_rows text) as [rows|].
  - rewrite rows_exactly. split; [intros H; now exists rows|]. intros (r & E & H). injection E as <-. exact H.
  - split; [discriminate|]. intros (r & E & _). discriminate E.
Qed.
(* What the program makes of a text: as C73 says if all rows are read; otherwise the
   first row that is not decides, whatever the device. *)
Theorem text_ends p text : exists rows, csv_rows text = Some rows /\
  ((exists cs, Forall2 reads_row rows cs /\ parse_command_list text = Value (Some cs)) \/
   exists pre row post cs, rows = pre ++ row :: post /\ Forall2 reads_row pre cs /\ (refused_row row /\ program p text = Failed \/ exists f, deadly_row row f /\ program p text = Died f)).
Proof.
  destruct (reading_ends text) as (rows & R). exists rows. split; [exact R|]. unfold program, parse_command_list. rewrite R. destruct (rows_ends rows) as [(cs & F)|(pre & row & post & cs & E & F & D)].
  - left. exists cs. split; [exact F|now apply rows_exactly].
  - right. exists pre, row, post, cs. split; [exact E|]. split; [exact F|]. destruct D as [[A B]|(f & A & B)]; rewrite B; [left; now split|right; now exists f].
Qed.
