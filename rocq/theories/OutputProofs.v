(* The output file of the command line program. *)
From Coq Require Import NArith String List Bool Ascii Arith Lia.
From Verif Require Import Base Bits CliModel OutputModel OutputSpec.
Import ListNotations.
Local Open Scope string_scope.

Lemma look_step w fs f base names : look w fs f base names =
  match names with
  | [] => At base N_dir
  | n :: rest =>
      if String.eqb n "." then look w fs f base rest
      else if String.eqb n ".." then look w fs f (removelast base) rest
      else match fs (base ++ [n])%list with
           | None => match rest with [] => Free (base ++ [n])%list | _ => Nowhere end
           | Some N_dir => look w fs f (base ++ [n])%list rest
           | Some (N_link t) =>
               if match rest with [] => negb w | _ => false end then At (base ++ [n])%list (N_link t)
               else match f with O => Loop | S f' => look w fs f' (if pa_absolute t then [] else base) (pa_names t ++ rest)%list end
           | Some x => match rest with [] => At (base ++ [n])%list x | _ => Nowhere end
           end
  end.
Proof. destruct f, names; reflexivity. Qed.

(* Induction over what a look goes through. *)
Lemma look_ind (P : nat -> place -> list string -> Prop) :
  (forall f base names,
    (forall f' b n, (f' < f)%nat -> P f' b n) ->
    (forall b n r, names = n :: r -> P f b r) -> P f base names) ->
  forall f base names, P f base names.
Proof.
  intros H. induction f as [f IHf] using lt_wf_ind. intros base names. revert base. induction names as [|n r IH]; intros base; apply H; try (intros; apply IHf; assumption); [discriminate|].
  intros b n' r' E. injection E as <- <-. apply IH.
Qed.

Lemma put_same a n fs : put_node a n fs a = Some n.
Proof. unfold put_node. destruct (list_eq_dec string_dec a a); congruence. Qed.
Lemma put_other a n fs b : b <> a -> put_node a n fs b = fs b.
Proof. unfold put_node. destruct (list_eq_dec string_dec b a); congruence. Qed.

(* A new file at a free place is seen there and changes nothing else. *)
Lemma look_new w fs a c : fs a = None -> forall f base names,
  look w (put_node a (N_file c) fs) f base names =
  match look w fs f base names with Free b => if list_eq_dec string_dec b a then At b (N_file c) else Free b | r => r end.
Proof.
  intros FA f base names. pattern f, base, names. revert f base names. apply look_ind. intros f base names IHf IHn. rewrite !look_step. destruct names as [|n r]; [reflexivity|].
  destruct (String.eqb n "."); [apply (IHn base n r eq_refl)|]. destruct (String.eqb n ".."); [apply (IHn (removelast base) n r eq_refl)|].
  unfold put_node at 1. destruct (list_eq_dec string_dec (base ++ [n])%list a) as [E|E].
  - rewrite E, FA. destruct r as [|m r]; [|reflexivity]. destruct (list_eq_dec string_dec a a); [reflexivity|congruence].
  - destruct (fs (base ++ [n])%list) as [[c'| |t|]|].
    + destruct r; reflexivity.
    + apply (IHn (base ++ [n])%list n r eq_refl).
    + destruct (match r with [] => negb w | _ => false end); [reflexivity|]. destruct f as [|f']; [reflexivity|]. apply IHf. lia.
    + destruct r; reflexivity.
    + destruct r; [|reflexivity]. destruct (list_eq_dec string_dec (base ++ [n])%list a); [contradiction|reflexivity].
Qed.
(* So does writing to a file. *)
Lemma look_write w fs a c c0 : fs a = Some (N_file c0) -> forall f base names,
  look w (put_node a (N_file c) fs) f base names =
  match look w fs f base names with At b (N_file x) => if list_eq_dec string_dec b a then At b (N_file c) else At b (N_file x) | r => r end.
Proof.
  intros FA f base names. pattern f, base, names. revert f base names. apply look_ind. intros f base names IHf IHn. rewrite !look_step. destruct names as [|n r]; [reflexivity|].
  destruct (String.eqb n "."); [apply (IHn base n r eq_refl)|]. destruct (String.eqb n ".."); [apply (IHn (removelast base) n r eq_refl)|].
  unfold put_node at 1. destruct (list_eq_dec string_dec (base ++ [n])%list a) as [E|E].
  - rewrite E, FA. destruct r as [|m r]; [|reflexivity]. destruct (list_eq_dec string_dec a a); [reflexivity|congruence].
  - destruct (fs (base ++ [n])%list) as [[c'| |t|]|].
    + destruct r; [|reflexivity]. destruct (list_eq_dec string_dec (base ++ [n])%list a); [contradiction|reflexivity].
    + apply (IHn (base ++ [n])%list n r eq_refl).
    + destruct (match r with [] => negb w | _ => false end); [reflexivity|]. destruct f as [|f']; [reflexivity|]. apply IHf. lia.
    + destruct r; reflexivity.
    + destruct r; reflexivity.
Qed.
(* What is reached is there. *)
Definition honest (fs : files) (r : reached) : Prop :=
  match r with At a (N_file c) => fs a = Some (N_file c) | At a N_other => fs a = Some N_other | At a (N_link t) => fs a = Some (N_link t) | Free a => fs a = None | _ => True end.
Lemma look_honest w fs f base names : honest fs (look w fs f base names).
Proof.
  pattern f, base, names. revert f base names. apply look_ind. intros f base names IHf IHn. rewrite look_step. destruct names as [|n r]; [exact I|].
  destruct (String.eqb n "."); [apply (IHn base n r eq_refl)|]. destruct (String.eqb n ".."); [apply (IHn (removelast base) n r eq_refl)|].
  destruct (fs (base ++ [n])%list) as [[c'| |t|]|] eqn:E.
  - destruct r; [exact E|exact I].
  - apply (IHn (base ++ [n])%list n r eq_refl).
  - destruct (match r with [] => negb w | _ => false end); [exact E|]. destruct f as [|f']; [exact I|]. apply IHf. lia.
  - destruct r; [exact E|exact I].
  - destruct r; [exact E|exact I].
Qed.
(* With links to spare the answer is the same. *)
Lemma look_more w fs f base names : forall g, (f <= g)%nat -> look w fs f base names <> Loop -> look w fs g base names = look w fs f base names.
Proof.
  pattern f, base, names. revert f base names. apply look_ind. intros f base names IHf IHn g G. rewrite !(look_step w fs f), (look_step w fs g). destruct names as [|n r]; [reflexivity|].
  destruct (String.eqb n "."); [apply (IHn base n r eq_refl g G)|]. destruct (String.eqb n ".."); [apply (IHn (removelast base) n r eq_refl g G)|].
  destruct (fs (base ++ [n])%list) as [[c'| |t|]|] eqn:E; try reflexivity; [apply (IHn (base ++ [n])%list n r eq_refl g G)|].
  destruct (match r with [] => negb w | _ => false end); [reflexivity|]. destruct f as [|f']; [intros H; now elim H|]. destruct g as [|g']; [lia|]. apply IHf; lia.
Qed.
(* Looking at a link itself or through it. *)
Lemma look_link fs f base names : 
  match look false fs f base names with
  | At a (N_link t) => exists k, (k <= f)%nat /\ look true fs f base names = match k with O => Loop | S k' => look true fs k' (if pa_absolute t then [] else removelast a) (pa_names t) end
  | r => look true fs f base names = r
  end.
Proof.
  pattern f, base, names. revert f base names. apply look_ind. intros f base names IHf IHn. rewrite (look_step false), (look_step true). destruct names as [|n r]; [reflexivity|].
  destruct (String.eqb n "."); [apply (IHn base n r eq_refl)|]. destruct (String.eqb n ".."); [apply (IHn (removelast base) n r eq_refl)|].
  destruct (fs (base ++ [n])%list) as [[c'| |t|]|] eqn:E.
  - destruct r; reflexivity.
  - apply (IHn (base ++ [n])%list n r eq_refl).
  - destruct r as [|m r]; cbn [negb].
    + exists f. split; [lia|]. rewrite removelast_last, app_nil_r. reflexivity.
    + destruct f as [|f']; [reflexivity|]. specialize (IHf f' (if pa_absolute t then [] else base) (pa_names t ++ m :: r)%list ltac:(lia)).
      destruct (look false fs f' _ _) as [a [c| |t'|]|a| |]; try exact IHf. destruct IHf as (k & K & H). exists k. split; [lia|exact H].
  - destruct r; reflexivity.
  - destruct r; reflexivity.
Qed.
(* A free place lies in a directory. *)
Lemma look_parent fs f base names n : forall a, look false fs f base (names ++ [n]) = Free a -> look true fs f base names = At (removelast a) N_dir.
Proof.
  pattern f, base, names. revert f base names. apply look_ind. intros f base names IHf IHn a. rewrite (look_step false), (look_step true). destruct names as [|m r]; cbn [app].
  - destruct (String.eqb n "."); [rewrite look_step; discriminate|]. destruct (String.eqb n ".."); [rewrite look_step; discriminate|].
    destruct (fs (base ++ [n])%list) as [[c'| |t|]|]; try discriminate; [rewrite look_step; discriminate|]. intros H. injection H as <-. now rewrite removelast_last.
  - destruct (String.eqb m "."); [apply (IHn base m r eq_refl)|]. destruct (String.eqb m ".."); [apply (IHn (removelast base) m r eq_refl)|].
    destruct (fs (base ++ [m])%list) as [[c'| |t|]|] eqn:E.
    + destruct r; discriminate.
    + apply (IHn (base ++ [m])%list m r eq_refl).
    + replace (match (r ++ [n])%list with [] => negb false | _ => false end) with false by (destruct r; reflexivity). 
      replace (match r with [] => negb true | _ => false end) with false by (destruct r; reflexivity). destruct f as [|f']; [discriminate|]. rewrite app_assoc. apply IHf. lia.
    + destruct r; discriminate.
    + destruct r; discriminate.
Qed.

(* ---- the same for paths ---- *)
Lemma find_new w cwd fs a c p : fs a = None ->
  find_node w cwd (put_node a (N_file c) fs) p = match find_node w cwd fs p with Free b => if list_eq_dec string_dec b a then At b (N_file c) else Free b | r => r end.
Proof. intros H. unfold find_node. destruct (pa_names p); [destruct (pa_absolute p); reflexivity|apply look_new; exact H]. Qed.
Lemma find_write w cwd fs a c c0 p : fs a = Some (N_file c0) ->
  find_node w cwd (put_node a (N_file c) fs) p = match find_node w cwd fs p with At b (N_file x) => if list_eq_dec string_dec b a then At b (N_file c) else At b (N_file x) | r => r end.
Proof. intros H. unfold find_node. destruct (pa_names p); [destruct (pa_absolute p); reflexivity|eapply look_write; exact H]. Qed.
Lemma find_honest w cwd fs p : honest fs (find_node w cwd fs p).
Proof. unfold find_node. destruct (pa_names p); [destruct (pa_absolute p); exact I|apply look_honest]. Qed.
Lemma find_plain cwd fs p : fs_is_link cwd fs p = No -> find_node true cwd fs p = find_node false cwd fs p.
Proof.
  unfold fs_is_link, find_node. destruct (pa_names p) as [|n r]; [destruct (pa_absolute p); reflexivity|]. pose proof (look_link fs max_links (if pa_absolute p then [] else cwd) (n :: r)) as H.
  destruct (look false fs max_links _ _) as [a [c| |t|]|a| |]; intros E; try exact H; discriminate E.
Qed.

(* ---- the check ---- *)
Lemma create_cases can cwd fs p m q fs' : fs_exists cwd fs p = No -> create_file can cwd fs p = Checked m q fs' ->
  q = p /\ ((m <> "" /\ fs' = fs) \/ (m = "" /\ exists a, find_node true cwd fs p = Free a /\ can a = true /\ fs' = put_node a (N_file []) fs)).
Proof.
  intros X. unfold create_file, open_output. destruct (fs_exists cwd fs (output_dir cwd _)); [|intros H; injection H as <- <- <-; split; [reflexivity|left; split; [discriminate|reflexivity]]|discriminate].
  destruct (fs_is_dir cwd fs (output_dir cwd _)); [|intros H; injection H as <- <- <-; split; [reflexivity|left; split; [discriminate|reflexivity]]|discriminate].
  unfold fs_exists in X. destruct (find_node true cwd fs p) as [a [c| |t|]|a| |]; try discriminate X; try (intros H; injection H as <- <- <-; split; [reflexivity|left; split; [discriminate|reflexivity]]).
  destruct (can a) eqn:C; intros H; injection H as <- <- <-; (split; [reflexivity|]); [right|left; split; [discriminate|reflexivity]]. split; [reflexivity|]. exists a. auto.
Qed.
Lemma resolve_loop_cases cwd fs n p : match resolve_loop cwd fs n p with
  | R_file q => exists a c, find_node true cwd fs q = At a (N_file c)
  | R_not_found q => fs_exists cwd fs q = No
  | _ => True
  end.
Proof.
  revert p. induction n as [|n IH]; intros p; [exact I|]. cbn [resolve_loop]. destruct (fs_read_link cwd fs p) as [t|]; [|exact I]. destruct (fs_exists cwd fs t) eqn:E; [|exact E|exact I].
  destruct (fs_is_file cwd fs t) eqn:F; [unfold fs_is_file in F; destruct (find_node true cwd fs t) as [a [c| |t'|]|a| |]; try discriminate F; eauto| |exact I].
  destruct (fs_is_dir cwd fs t); [exact I| |exact I]. destruct (fs_is_link cwd fs t); [apply IH|exact I|exact I].
Qed.
Lemma ensure_cases can cwd fs p m q fs' : ensure_file can cwd fs p = Checked m q fs' ->
  (fs' = fs /\ (m = "" -> exists a c, find_node true cwd fs q = At a (N_file c))) \/
  (m = "" /\ exists a, find_node true cwd fs q = Free a /\ can a = true /\ fs' = put_node a (N_file []) fs).
Proof.
  unfold ensure_file. destruct (fs_is_link cwd fs p) eqn:LK; [| |discriminate].
  - unfold resolve_symlink. rewrite LK. pose proof (resolve_loop_cases cwd fs 10 p) as R. destruct (resolve_loop cwd fs 10 p) as [t|t|t| |]; try discriminate.
    + intros H. injection H as <- <- <-. left. split; [reflexivity|intros _; exact R].
    + intros H. injection H as <- <- <-. left. split; [reflexivity|discriminate].
    + intros H. destruct (create_cases _ _ _ _ _ _ _ R H) as [-> [[M ->]|(-> & a & A & C & ->)]]; [left; split; [reflexivity|intros; contradiction]|right; split; [reflexivity|eauto]].
    + intros H. injection H as <- <- <-. left. split; [reflexivity|discriminate].
  - destruct (fs_is_file cwd fs p) eqn:F; [| |discriminate].
    + intros H. injection H as <- <- <-. left. split; [reflexivity|]. intros _. unfold fs_is_file in F. destruct (find_node true cwd fs p) as [a [c| |t|]|a| |]; try discriminate F. eauto.
    + destruct (fs_exists cwd fs p) eqn:X; [intros H; injection H as <- <- <-; left; split; [reflexivity|discriminate]| |discriminate].
      intros H. destruct (create_cases _ _ _ _ _ _ _ X H) as [-> [[M ->]|(-> & a & A & C & ->)]]; [left; split; [reflexivity|intros; contradiction]|right; split; [reflexivity|eauto]].
Qed.
Theorem ensure_keeps can cwd fs p m q fs' : ensure_file can cwd fs p = Checked m q fs' ->
  (forall b, fs' b = fs b) \/ (m = "" /\ exists a, fs a = None /\ fs' a = Some (N_file []) /\ forall b, b <> a -> fs' b = fs b).
Proof.
  intros H. destruct (ensure_cases _ _ _ _ _ _ _ H) as [[-> _]|(-> & a & A & C & ->)]; [left; reflexivity|right]. split; [reflexivity|]. exists a. pose proof (find_honest true cwd fs q) as F. rewrite A in F.
  split; [exact F|]. split; [apply put_same|]. intros b B. now apply put_other.
Qed.
Theorem ensure_file_there can cwd fs p q fs' : ensure_file can cwd fs p = Checked "" q fs' -> exists a c, find_node true cwd fs' q = At a (N_file c).
Proof.
  intros H. destruct (ensure_cases _ _ _ _ _ _ _ H) as [[-> K]|(_ & a & A & C & ->)]; [now apply K|]. pose proof (find_honest true cwd fs q) as F. rewrite A in F. exists a, [].
  rewrite find_new by exact F. rewrite A. destruct (list_eq_dec string_dec a a); [reflexivity|congruence].
Qed.
Theorem ensure_plain can cwd fs p q fs' : ensure_file can cwd fs p = Checked "" q fs' -> fs_is_link cwd fs p = No -> q = p.
Proof.
  unfold ensure_file. intros H L. rewrite L in H. destruct (fs_is_file cwd fs p); [injection H as <- _; reflexivity| |discriminate]. destruct (fs_exists cwd fs p) eqn:X; [discriminate H| |discriminate].
  destruct (create_cases _ _ _ _ _ _ _ X H) as [-> _]. reflexivity.
Qed.
(* Links whose targets are absolute mean the same to the check as to the system. *)
Lemma read_absolute cwd fs p t : absolute_links fs -> fs_read_link cwd fs p = Some t -> find_node true cwd fs p <> Loop -> find_node true cwd fs t = find_node true cwd fs p.
Proof.
  intros A. unfold fs_read_link. pose proof (find_honest false cwd fs p) as HO. destruct (find_node false cwd fs p) as [a [c| |t'|]|a| |] eqn:F; try discriminate. intros E. injection E as ->. cbn [honest] in HO.
  pose proof (A a t HO) as AB. unfold find_node in *. destruct (pa_names p) as [|n r]; [destruct (pa_absolute p); discriminate F|].
  pose proof (look_link fs max_links (if pa_absolute p then [] else cwd) (n :: r)) as L. rewrite F in L. destruct L as (k & K & L). rewrite L. destruct k as [|k]; [intros Q; now elim Q|]. rewrite AB. intros Q.
  destruct (pa_names t) as [|m s] eqn:N; [symmetry; apply look_step|]. apply look_more; [lia|exact Q].
Qed.
Lemma resolve_absolute cwd fs n : absolute_links fs -> forall p, find_node true cwd fs p <> Loop ->
  match resolve_loop cwd fs n p with R_file q | R_not_found q => find_node true cwd fs q = find_node true cwd fs p | _ => True end.
Proof.
  intros A. induction n as [|n IH]; intros p NL; [exact I|]. cbn [resolve_loop]. destruct (fs_read_link cwd fs p) as [t|] eqn:R; [|exact I]. pose proof (read_absolute cwd fs p t A R NL) as E.
  destruct (fs_exists cwd fs t); [|exact E|exact I]. destruct (fs_is_file cwd fs t); [exact E| |exact I]. destruct (fs_is_dir cwd fs t); [exact I| |exact I]. destruct (fs_is_link cwd fs t); try exact I.
  rewrite <- E in NL |- *. apply IH. exact NL.
Qed.
Theorem ensure_given can cwd fs p q fs' : ensure_file can cwd fs p = Checked "" q fs' -> (fs_is_link cwd fs p = No \/ (absolute_links fs /\ find_node true cwd fs p <> Loop)) ->
  exists a c, find_node true cwd fs' p = At a (N_file c).
Proof.
  intros H [L|[A NL]].
  { pose proof (ensure_plain _ _ _ _ _ _ H L). subst q. eapply ensure_file_there. exact H. }
  destruct (fs_is_link cwd fs p) eqn:LK; [| |unfold ensure_file in H; rewrite LK in H; discriminate H].
  2: { pose proof (ensure_plain _ _ _ _ _ _ H LK). subst q. eapply ensure_file_there. exact H. }
  assert (find_node true cwd fs q = find_node true cwd fs p) as E.
  { unfold ensure_file, resolve_symlink in H. rewrite LK in H. pose proof (resolve_absolute cwd fs 10 A p NL) as R. pose proof (resolve_loop_cases cwd fs 10 p) as RC. destruct (resolve_loop cwd fs 10 p) as [t|t|t| |]; try discriminate H.
    - injection H as <- _. exact R.
    - destruct (create_cases _ _ _ _ _ _ _ RC H) as [-> _]. exact R. }
  destruct (ensure_cases _ _ _ _ _ _ _ H) as [[-> K]|(_ & a & F & C & ->)]; [rewrite <- E; now apply K|]. pose proof (find_honest true cwd fs q) as HO. rewrite F in HO. exists a, [].
  rewrite find_new by exact HO. rewrite <- E, F. destruct (list_eq_dec string_dec a a); [reflexivity|congruence].
Qed.
(* Nothing is thrown unless links run in circles. *)
Theorem ensure_returns can cwd fs p : (forall w q, find_node w cwd fs q <> Loop) -> exists m q fs', ensure_file can cwd fs p = Checked m q fs'.
Proof.
  intros NL.
  assert (forall q, fs_exists cwd fs q <> Throw) as X by (intros q; unfold fs_exists; specialize (NL true q); destruct (find_node true cwd fs q) as [a [c| |t|]|a| |]; congruence).
  assert (forall q, fs_is_file cwd fs q <> Throw) as F by (intros q; unfold fs_is_file; specialize (NL true q); destruct (find_node true cwd fs q) as [a [c| |t|]|a| |]; congruence).
  assert (forall q, fs_is_dir cwd fs q <> Throw) as D by (intros q; unfold fs_is_dir; specialize (NL true q); destruct (find_node true cwd fs q) as [a [c| |t|]|a| |]; congruence).
  assert (forall q, fs_is_link cwd fs q <> Throw) as L by (intros q; unfold fs_is_link; specialize (NL false q); destruct (find_node false cwd fs q) as [a [c| |t|]|a| |]; congruence).
  assert (forall q, exists m q' fs', create_file can cwd fs q = Checked m q' fs') as C.
  { intros q. unfold create_file. destruct (fs_exists cwd fs (output_dir cwd _)) eqn:E; [|eauto|now elim (X _ E)]. destruct (fs_is_dir cwd fs (output_dir cwd _)) eqn:E2; [|eauto|now elim (D _ E2)]. destruct (open_output can cwd fs q) as [[a f]|]; eauto. }
  assert (forall n q, fs_is_link cwd fs q = Yes -> resolve_loop cwd fs n q <> R_throw) as R.
  { induction n as [|n IH]; intros q Q; [discriminate|]. cbn [resolve_loop]. unfold fs_read_link. unfold fs_is_link in Q. destruct (find_node false cwd fs q) as [a [c| |t|]|a| |]; try discriminate Q.
    destruct (fs_exists cwd fs t) eqn:E1; [|discriminate|now elim (X _ E1)]. destruct (fs_is_file cwd fs t) eqn:E2; [discriminate| |now elim (F _ E2)].
    destruct (fs_is_dir cwd fs t) eqn:E3; [discriminate| |now elim (D _ E3)]. destruct (fs_is_link cwd fs t) eqn:E4; [now apply IH|discriminate|now elim (L _ E4)]. }
  unfold ensure_file, resolve_symlink. destruct (fs_is_link cwd fs p) eqn:E; [| |now elim (L _ E)].
  - specialize (R 10%nat p E). destruct (resolve_loop cwd fs 10 p); eauto; congruence.
  - destruct (fs_is_file cwd fs p) eqn:E1; [eauto| |now elim (F _ E1)]. destruct (fs_exists cwd fs p) eqn:E2; [eauto|apply C|now elim (X _ E2)].
Qed.
(* A new name in an existing directory is accepted. *)
Theorem ensure_creates can cwd fs p a : find_node true cwd fs (mkPath true cwd) = At cwd N_dir -> find_node false cwd fs p = Free a -> can a = true ->
  exists fs', ensure_file can cwd fs p = Checked "" p fs' /\ forall b, fs' b = put_node a (N_file []) fs b.
Proof.
  intros CW F C. assert (fs_is_link cwd fs p = No) as L by (unfold fs_is_link; now rewrite F). pose proof (find_plain cwd fs p L) as T. rewrite F in T.
  exists (put_node a (N_file []) fs). split; [|reflexivity]. unfold ensure_file. rewrite L. unfold fs_is_file, fs_exists. rewrite T. unfold create_file.
  assert (forall d, find_node true cwd fs d = At (removelast a) N_dir \/ find_node true cwd fs d = At cwd N_dir -> fs_exists cwd fs d = Yes /\ fs_is_dir cwd fs d = Yes) as Z.
  { intros d [Z|Z]; unfold fs_exists, fs_is_dir; rewrite Z; split; reflexivity. }
  destruct (Z (output_dir cwd p)) as [Z1 Z2]; [|rewrite Z1, Z2; unfold open_output; rewrite T, C; reflexivity].
  unfold find_node in F. destruct (pa_names p) as [|n0 r0] eqn:N; [destruct (pa_absolute p); discriminate F|]. destruct (exists_last (l := n0 :: r0) ltac:(discriminate)) as (r & n & E). rewrite E in F.
  unfold output_dir, parent_path. cbn [pa_names pa_absolute]. rewrite N, E, removelast_last. destruct r as [|m r].
  - destruct (pa_absolute p) eqn:AB; cbn [negb]; [left|right; exact CW]. rewrite look_step in F. cbn [app] in F. unfold find_node. cbn [pa_names pa_absolute]. 
    rewrite <- (look_parent fs max_links [] [] n a); [symmetry; apply look_step|]. rewrite look_step. exact F.
  - left. unfold find_node. cbn [pa_names pa_absolute]. eapply look_parent. exact F.
Qed.

(* ---- main ---- *)
Lemma open_cases can cwd fs p a fs' : open_output can cwd fs p = Some (a, fs') ->
  fs' = put_node a (N_file []) fs /\ ((exists c, find_node true cwd fs p = At a (N_file c)) \/ find_node true cwd fs p = Free a).
Proof.
  unfold open_output. destruct (find_node true cwd fs p) as [b [c| |t|]|b| |]; try discriminate; destruct (can b); try discriminate; intros H; injection H as <- <-; split; eauto.
Qed.
Lemma find_put cwd fs p a x : find_node true cwd fs p = Free a \/ (exists c, find_node true cwd fs p = At a (N_file c)) -> find_node true cwd (put_node a (N_file x) fs) p = At a (N_file x).
Proof.
  pose proof (find_honest true cwd fs p) as HO. intros [F|[c F]]; rewrite F in HO; cbn [honest] in HO.
  - rewrite find_new by exact HO. rewrite F. destruct (list_eq_dec string_dec a a); congruence.
  - rewrite (find_write true cwd fs a x c p HO). rewrite F. destruct (list_eq_dec string_dec a a); congruence.
Qed.
Theorem main_success can cwd fs config go report a fs' : main_end can cwd fs config go report a = (Some 0%nat, fs') -> (forall code, a = A_error code -> code <> 0%nat) ->
  config = true /\ (exists x y z, go = Printed x y z) /\
  ((a = A_run None /\ fs' = fs) \/
   exists p pl, a = A_run (Some p) /\ find_node true cwd fs' p = At pl (N_file report) /\ forall b n, b <> pl -> fs b = Some n -> fs' b = Some n).
Proof.
  unfold main_end. intros H NE. destruct a as [|code|[p|]].
  - discriminate H.
  - injection H as E _. now elim (NE code eq_refl).
  - destruct (ensure_file can cwd fs p) as [m q fs1|] eqn:EN; [|discriminate H]. destruct (String.eqb m "") eqn:M; [|discriminate H]. apply String.eqb_eq in M. subst m.
    destruct config; [|discriminate H]. destruct go as [x y z| |f]; try discriminate H. cbn [negb] in H. destruct (open_output can cwd fs1 p) as [[pl fs2]|] eqn:O; [|discriminate H]. injection H as <-.
    split; [reflexivity|]. split; [eauto|]. right. exists p, pl. split; [reflexivity|]. destruct (open_cases _ _ _ _ _ _ O) as [-> F]. split.
    + apply find_put. right. exists []. apply find_put. tauto.
    + intros b n B HB. rewrite !put_other by exact B. destruct (ensure_keeps _ _ _ _ _ _ _ EN) as [K|(_ & a & A1 & A2 & A3)]; [now rewrite K|]. rewrite A3; [exact HB|]. intros ->. congruence.
  - destruct config; [|discriminate H]. destruct go as [x y z| |f]; try discriminate H. injection H as <-. split; [reflexivity|]. split; [eauto|]. left. split; reflexivity.
Qed.
Theorem main_failure can cwd fs config go report a e fs' : main_end can cwd fs config go report a = (e, fs') -> e <> Some 0%nat -> forall b n, fs b = Some n -> fs' b = Some n.
Proof.
  unfold main_end. intros H E b n B. destruct a as [|code|[p|]].
  - injection H as _ <-. exact B.
  - injection H as _ <-. exact B.
  - destruct (ensure_file can cwd fs p) as [m q fs1|] eqn:EN; [|injection H as _ <-; exact B].
    assert (fs1 b = Some n) as K. { destruct (ensure_keeps _ _ _ _ _ _ _ EN) as [K|(_ & a & A1 & A2 & A3)]; [now rewrite K|]. rewrite A3; [exact B|]. intros ->. congruence. }
    destruct (String.eqb m ""); [|injection H as _ <-; exact K]. destruct config; [|injection H as _ <-; exact K]. destruct go as [x y z| |f]; cbn [negb] in H; try (injection H as _ <-; exact K).
    destruct (open_output can cwd fs1 p) as [[pl fs2]|]; injection H as <- <-; [now elim E|exact K].
  - destruct config; [|injection H as _ <-; exact B]. destruct go as [x y z| |f]; injection H as _ <-; exact B.
Qed.
Theorem main_help can cwd fs config go report : main_end can cwd fs config go report A_help = (Some 1%nat, fs).
Proof. reflexivity. Qed.

(* ---- in terms of the specification ---- *)
Lemma look_leads fs f base ns : match look true fs f base ns with At a _ | Free a => leads fs base ns a | _ => True end.
Proof.
  pattern f, base, ns. revert f base ns. apply look_ind. intros f base ns IHf IHn. rewrite look_step. destruct ns as [|n r]; [constructor|].
  destruct (String.eqb n ".") eqn:D1.
  { apply String.eqb_eq in D1. subst n. specialize (IHn base "." r eq_refl). destruct (look true fs f base r); try exact I; now apply L_dot. }
  destruct (String.eqb n "..") eqn:D2.
  { apply String.eqb_eq in D2. subst n. specialize (IHn (removelast base) ".." r eq_refl). destruct (look true fs f (removelast base) r); try exact I; now apply L_up. }
  apply String.eqb_neq in D1, D2. destruct (fs (base ++ [n])%list) as [[c'| |t|]|] eqn:E.
  - destruct r; [|exact I]. apply L_end; auto. congruence.
  - specialize (IHn (base ++ [n])%list n r eq_refl). destruct (look true fs f (base ++ [n])%list r); try exact I; now apply L_down.
  - replace (match r with [] => negb true | _ => false end) with false by (destruct r; reflexivity). destruct f as [|f']; [exact I|].
    specialize (IHf f' (if pa_absolute t then [] else base) (pa_names t ++ r)%list ltac:(lia)). destruct (look true fs f' _ _); try exact I; now apply (L_link fs base n t).
  - destruct r; [|exact I]. apply L_end; auto. congruence.
  - destruct r; [|exact I]. apply L_end; auto. congruence.
Qed.
Lemma find_is_file cwd fs p a c : find_node true cwd fs p = At a (N_file c) -> names fs cwd p a /\ fs a = Some (N_file c).
Proof.
  intros F. pose proof (find_honest true cwd fs p) as HO. rewrite F in HO. split; [|exact HO]. unfold find_node in F. unfold names. destruct (pa_names p) as [|n r]; [destruct (pa_absolute p); discriminate F|].
  split; [discriminate|]. pose proof (look_leads fs max_links (if pa_absolute p then [] else cwd) (n :: r)) as L. now rewrite F in L.
Qed.
Theorem check_keeps can cwd fs p m q fs' : ensure_file can cwd fs p = Checked m q fs' -> (forall b, fs' b = fs b) \/ (m = "" /\ one_more fs fs').
Proof. exact (ensure_keeps can cwd fs p m q fs'). Qed.
Theorem check_file can cwd fs p q fs' : ensure_file can cwd fs p = Checked "" q fs' -> exists c, is_file fs' cwd q c.
Proof. intros H. destruct (ensure_file_there _ _ _ _ _ _ H) as (a & c & F). destruct (find_is_file _ _ _ _ _ F) as [A B]. exists c, a. auto. Qed.
Theorem check_given can cwd fs p q fs' : ensure_file can cwd fs p = Checked "" q fs' -> (fs_is_link cwd fs p = No \/ (absolute_links fs /\ fs_exists cwd fs p <> Throw)) -> exists c, is_file fs' cwd p c.
Proof.
  intros H A. destruct (ensure_given _ _ _ _ _ _ H) as (a & c & F). { destruct A as [A|[A B]]; [left; exact A|right; split; [exact A|]]. intros E. apply B. unfold fs_exists. now rewrite E. }
  destruct (find_is_file _ _ _ _ _ F) as [X Y]. exists c, a. auto.
Qed.
Theorem main_reports can cwd fs config go report a fs' : main_end can cwd fs config go report a = (Some 0%nat, fs') -> (forall code, a = A_error code -> code <> 0%nat) ->
  config = true /\ (exists x y z, go = Printed x y z) /\
  ((a = A_run None /\ fs' = fs) \/
   exists p pl, a = A_run (Some p) /\ names fs' cwd p pl /\ fs' pl = Some (N_file report) /\ forall b n, b <> pl -> fs b = Some n -> fs' b = Some n).
Proof.
  intros H E. destruct (main_success _ _ _ _ _ _ _ _ H E) as (A & B & [C|(p & pl & C1 & C2 & C3)]); (split; [exact A|]); (split; [exact B|]); [left; exact C|right]. destruct (find_is_file _ _ _ _ _ C2) as [X Y]. exists p, pl. auto.
Qed.
Theorem check_creates can cwd fs p a : find_node true cwd fs (mkPath true cwd) = At cwd N_dir -> find_node false cwd fs p = Free a -> can a = true ->
  exists fs', ensure_file can cwd fs p = Checked "" p fs' /\ fs' a = Some (N_file []) /\ forall b, b <> a -> fs' b = fs b.
Proof.
  intros A B C. destruct (ensure_creates can cwd fs p a A B C) as (fs' & E & F). exists fs'. split; [exact E|]. split; [rewrite F; apply put_same|]. intros b Hb. rewrite F. now apply put_other.
Qed.

(* ---- concrete files ---- *)
(* /work with a trace in it, /out with a link in it, and links in circles. *)
Definition ex_files : files := fun a =>
  match a with
  | [] => Some N_dir
  | ["work"] | ["out"] => Some N_dir
  | ["work"; "trace.csv"] => Some (N_file ["1"%char])
  | ["out"; "rel"] => Some (N_link (mkPath false ["new.json"]))
  | ["out"; "abs"] => Some (N_link (mkPath true ["out"; "new.json"]))
  | _ => None
  end.
Definition ex_round : files := fun a => match a with [] | ["work"] => Some N_dir | ["work"; "a"] => Some (N_link (mkPath false ["b"])) | ["work"; "b"] => Some (N_link (mkPath false ["a"])) | _ => None end.
Lemma leads_unique fs base ns a : leads fs base ns a -> forall b, leads fs base ns b -> a = b.
Proof.
  induction 1 as [base|base rest a _ IH|base rest a _ IH|base n rest a N1 N2 F L IH|base n t rest a N1 N2 F _ IH|base n N1 N2 F]; intros b H.
  - inversion H; reflexivity.
  - inversion H; subst; try congruence. now apply IH.
  - inversion H; subst; try congruence. now apply IH.
  - inversion H; subst; try congruence; [now apply IH|]. inversion L. reflexivity.
  - inversion H; subst; try congruence. apply IH. replace t with t0 by congruence. assumption.
  - inversion H; subst; try congruence. match goal with K : leads _ _ [] _ |- _ => inversion K end. reflexivity.
Qed.
Definition ex_rel : path := mkPath true ["out"; "rel"].
Theorem given_refuted : exists can cwd fs p q fs', ensure_file can cwd fs p = Checked "" q fs' /\ fs_exists cwd fs p <> Throw /\ (forall c, ~ is_file fs' cwd p c) /\
  fs' ["work"; "new.json"] = Some (N_file []) /\ fs ["work"; "new.json"] = None.
Proof.
  exists (fun _ => true), ["work"], ex_files, ex_rel, (mkPath false ["new.json"]), (put_node ["work"; "new.json"] (N_file []) ex_files).
  split; [reflexivity|]. split; [discriminate|]. split; [|split; reflexivity]. intros c (a & [_ L] & F).
  assert (leads (put_node ["work"; "new.json"] (N_file []) ex_files) [] ["out"; "rel"] ["out"; "new.json"]) as L2.
  { apply L_down; [discriminate|discriminate|reflexivity|]. eapply L_link; [discriminate|discriminate|reflexivity|]. apply (L_end _ ["out"] "new.json"); [discriminate|discriminate|discriminate]. }
  rewrite (leads_unique _ _ _ _ L _ L2) in F. discriminate F.
Qed.
