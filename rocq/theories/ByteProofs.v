(* Reading from bytes agrees with reading from items. *)
From Coq Require Import NArith QArith List Bool Arith Lia.
From Verif Require Import Base Command CoreModel Bits BusModel ToggleModel PinModel DbiModel DbiPinModel PatternModel InterfaceModel SerialModel DramModel ExtensionModel
  ByteModel ByteSpec.
Import ListNotations.
Local Open Scope nat_scope.

(* ---- the same calls on items ---- *)

Definition of_type (t : ty) : reader (val t) :=
  match t with
  | T_bool => r_bool | T_u8 => r_u8 | T_u16 => r_u16 | T_u64 => r_u64 | T_double => r_double | T_opt => r_opt | T_raw m => r_raw m
  | T_bytes n => r_bytes n | T_mem => r_mem | T_bank => r_bankstate | T_pin => r_pinstate | T_idle => r_idle | T_mode => r_mode
  | T_desc => r_desc | T_spec => r_spec | T_u8_bool => r_u8_as_bool
  end.
Fixpoint from_items {A} (p : prog A) : reader A :=
  match p with Ret a => r_ret a | Read t k => r_bind (of_type t) (fun v => from_items (k v)) end.
Definition does {A} (p : prog A) (r : reader A) : Prop := forall s, from_items p s = r s.

Lemma does_ret {A} (a : A) : does (Ret a) (r_ret a).
Proof. intro. reflexivity. Qed.
Lemma does_bind {A B} (p : prog A) r (f : A -> prog B) g : does p r -> (forall a, does (f a) (g a)) -> does (p_bind p f) (r_bind r g).
Proof.
  intros P F s. unfold does in P.
  assert (forall q s, from_items (p_bind q f) s = r_bind (from_items q) (fun a => from_items (f a)) s) as Q.
  { clear. induction q as [a|t k IH]; intro s; cbn [p_bind from_items]; [reflexivity|]. unfold r_bind. destruct (of_type t s); try reflexivity. rewrite IH. reflexivity. }
  rewrite Q. unfold r_bind. rewrite P. destruct (r s); try reflexivity. apply F.
Qed.
Lemma does_read t : does (p_read t) (of_type t).
Proof. intro s. cbn. unfold r_bind, r_ret. now destruct (of_type t s). Qed.
Lemma does_each {A} (p : A -> prog A) r ts : (forall t, does (p t) (r t)) -> does (p_each p ts) (r_each r ts).
Proof.
  intro H. induction ts as [|t ts IH]; cbn [p_each r_each]; [apply does_ret|].
  apply does_bind; [apply H|]. intro y. apply does_bind; [exact IH|]. intro. apply does_ret.
Qed.
Lemma does_times {A} (p : prog A) r n : does p r -> does (p_times p n) (r_times r n).
Proof.
  intro H. induction n as [|n IH]; cbn [p_times r_times]; [apply does_ret|].
  apply does_bind; [exact H|]. intro y. apply does_bind; [exact IH|]. intro. apply does_ret.
Qed.

Create HintDb reading.
Lemma does_u64 : does p_u64 r_u64. Proof. exact (does_read T_u64). Qed.
Lemma does_bool : does p_bool r_bool. Proof. exact (does_read T_bool). Qed.
Ltac seq := repeat first
  [ apply does_ret | apply does_u64 | apply does_bool
  | apply (does_read T_bank) | apply (does_read T_mem) | apply (does_read T_pin) | apply (does_read T_idle) | apply (does_read T_mode) | apply (does_read T_double)
  | apply (does_read T_opt) | apply (does_read (T_raw _)) | apply (does_read (T_bytes _)) | apply (does_read T_desc) | apply (does_read T_spec)
  | apply (does_read T_u8) | apply (does_read T_u16) | apply (does_read T_u8_bool)
  | solve [auto with reading nocore]
  | apply does_each; intro | apply does_times | apply does_bind; [|intro] ].
Lemma does_size : does p_size r_size. Proof. unfold p_size, r_size. seq. Qed.
#[local] Hint Resolve does_size : reading.
Lemma does_optional : does p_optional r_optional.
Proof. unfold p_optional, r_optional. apply does_bind; [apply does_bool|]. intros []; seq. Qed.
#[local] Hint Resolve does_optional : reading.
Lemma does_interval : does p_interval r_interval. Proof. unfold p_interval, r_interval. seq. Qed.
Lemma does_cstats : does p_cstats r_cstats. Proof. unfold p_cstats, r_cstats. seq. Qed.
#[local] Hint Resolve does_interval does_cstats : reading.
Lemma does_bank b : does (p_bank b) (r_bank b). Proof. unfold p_bank, r_bank. seq. Qed.
#[local] Hint Resolve does_bank : reading.
Lemma does_rank r : does (p_rank r) (r_rank r). Proof. unfold p_rank, r_rank. seq. Qed.
#[local] Hint Resolve does_rank : reading.
Lemma does_core c : does (p_core c) (r_core c). Proof. unfold p_core, r_core. seq. Qed.
Lemma does_stats : does p_stats r_stats. Proof. unfold p_stats, r_stats. seq. Qed.
#[local] Hint Resolve does_core does_stats : reading.
Lemma does_pending : does p_pending r_pending. Proof. unfold p_pending, r_pending. seq. Qed.
Lemma does_clock c : does (p_clock c) (r_clock c). Proof. unfold p_clock, r_clock. seq. Qed.
Lemma does_burst m v : does (p_burst m v) (r_burst m v). Proof. unfold p_burst, r_burst. seq. Qed.
#[local] Hint Resolve does_pending does_clock does_burst : reading.
Lemma does_container m c : does (p_container m c) (r_container m c). Proof. unfold p_container, r_container. seq. Qed.
#[local] Hint Resolve does_container : reading.
Lemma does_bus b : does (p_bus b) (r_bus b). Proof. unfold p_bus, r_bus. seq. Qed.
Lemma does_toggling : does p_toggling r_toggling. Proof. unfold p_toggling, r_toggling. seq. Qed.
#[local] Hint Resolve does_bus does_toggling : reading.
Lemma does_data d : does (p_data d) (r_data d). Proof. unfold p_data, r_data. seq. Qed.
Lemma does_bitstore m b : does (p_bitstore m b) (r_bitstore m b). Proof. unfold p_bitstore, r_bitstore. seq. Qed.
#[local] Hint Resolve does_data does_bitstore : reading.
Lemma does_pin p : does (p_pin p) (r_pin p). Proof. unfold p_pin, r_pin. seq. Qed.
Lemma does_lastburst c b : does (p_lastburst c b) (r_lastburst c b). Proof. unfold p_lastburst, r_lastburst. seq. Qed.
#[local] Hint Resolve does_pin does_lastburst : reading.
Lemma does_dbi d : does (p_dbi d) (r_dbi d). Proof. unfold p_dbi, r_dbi. cbv zeta. seq. Qed.
Lemma does_rank_if r : does (p_rank_if r) (r_rank_if r). Proof. unfold p_rank_if, r_rank_if. seq. Qed.
Lemma does_settings : does p_settings r_settings. Proof. unfold p_settings, r_settings, r_entry. seq. Qed.
#[local] Hint Resolve does_dbi does_rank_if does_settings : reading.
Lemma does_patterns h : does (p_patterns h) (r_patterns h). Proof. destruct h; unfold p_patterns, r_patterns; seq. Qed.
Lemma does_dbi_part i : does (p_dbi_part i) (r_dbi_part i).
Proof. unfold p_dbi_part, r_dbi_part. destruct (fi_std (if_spec i)), (if_dbi i); seq. Qed.
#[local] Hint Resolve does_patterns does_dbi_part : reading.
Lemma does_iface i : does (p_iface i) (r_iface i). Proof. unfold p_iface, r_iface. cbv zeta. seq. Qed.
Lemma does_ext x : does (p_ext x) (r_ext x). Proof. destruct x; unfold p_ext, r_ext; seq. Qed.
Lemma does_exts m ks : forall s, em_read r_ext m ks s = match from_items (p_exts m ks) s with
  | Got (Value m') r => Value (Got m' r) | Got (Fails f) _ => Fails f | Mismatch => Value Mismatch | BadBool => Value BadBool end.
Proof.
  revert m. induction ks as [|k ks IH]; intros m s; cbn [em_read p_exts]; [reflexivity|].
  destruct (em_alive m k); [|reflexivity]. destruct (nth_error (em_objects m) k) as [v|]; [|reflexivity].
  rewrite (does_bind _ _ _ (fun v' => from_items (p_exts (em_change k (fun _ => v') m) ks)) (does_ext v)) by (intros a s'; reflexivity).
  unfold r_bind. destruct (r_ext v s); try reflexivity. apply IH.
Qed.
Lemma does_device d s : r_device d s = match from_items (p_device d) s with
  | Got (Value d') r => Value (Got d' r) | Got (Fails f) _ => Fails f | Mismatch => Value Mismatch | BadBool => Value BadBool end.
Proof.
  unfold r_device, em_deserialize, p_device. rewrite does_exts.
  rewrite (does_bind _ (from_items (p_exts (dv_ext d) (em_ser (dv_ext d)))) _ (fun x => match x with
     | Value m => c <~ r_core (dr_core (dv_dram d)) ;; i <~ r_iface (dr_if (dv_dram d)) ;; r_ret (Value (mkDevice m (mkDram c i)))
     | Fails f => r_ret (Fails f) end)).
  - unfold r_bind at 3. destruct (from_items (p_exts (dv_ext d) (em_ser (dv_ext d))) s) as [[m|f] r| |]; try reflexivity.
    cbn [bind]. unfold r_bind. destruct (r_core (dr_core (dv_dram d)) r) as [c r'| |]; try reflexivity.
    now destruct (r_iface (dr_if (dv_dram d)) r') as [i r''| |].
  - intro. reflexivity.
  - intros [m|f]; [|apply does_ret]. apply does_bind; [apply does_core|]. intro c. apply does_bind; [apply does_iface|]. intro. apply does_ret.
Qed.

(* ---- items and bytes ---- *)

Section Layout.
Variable a : layout.
Hypothesis Good : lawful a.

Lemma got_item t s v rest : of_type t s = Got v rest -> exists i, s = i :: rest /\
  forall l, shows a i l -> length l = width a t /\ look a t l = Some v.
Proof.
  destruct Good as [G1 G2]. unfold shows. destruct s as [|i s]; [destruct t; discriminate|].
  destruct t; destruct i; cbn [of_type r_bool r_u8 r_u16 r_u64 r_double r_opt r_raw r_bytes r_mem r_bankstate r_pinstate r_idle r_mode r_desc r_spec r_u8_as_bool];
    try discriminate; intro E.
  all: try (injection E as <- <-; eexists; split; [reflexivity|]; intros l S; exact S).
  - destruct (Nat.eqb_spec max0 max) as [->|]; [|discriminate]. injection E as <- <-. eexists. split; [reflexivity|]. intros l S. exact S.
  - destruct (Nat.eqb_spec (length l) len) as [<-|]; [|discriminate]. injection E as <- <-. eexists. split; [reflexivity|]. intros l' S. exact S.
  - destruct (n <=? 1)%N eqn:L; [|discriminate]. injection E as <- <-. eexists. split; [reflexivity|].
    intros l S. cbn [typed projT1 projT2] in S. destruct S as [W K]. apply G2 in K. rewrite L in K. rewrite G1. now split.
Qed.
Lemma bad_item t s : of_type t s = BadBool -> exists i rest, s = i :: rest /\ forall l, shows a i l -> length l = width a t /\ look a t l = None.
Proof.
  destruct Good as [G1 G2]. unfold shows. destruct s as [|i s]; [destruct t; discriminate|].
  destruct t; destruct i; cbn [of_type r_bool r_u8 r_u16 r_u64 r_double r_opt r_raw r_bytes r_mem r_bankstate r_pinstate r_idle r_mode r_desc r_spec r_u8_as_bool];
    try discriminate.
  - destruct (Nat.eqb max0 max); discriminate.
  - destruct (Nat.eqb (length l) len); discriminate.
  - destruct (n <=? 1)%N eqn:L; [discriminate|]. intros _. eexists _, _. split; [reflexivity|]. intros l S. cbn [typed projT1 projT2] in S. destruct S as [W K]. apply G2 in K. rewrite L in K. rewrite G1. now split.
Qed.
Lemma take_some t l v more : length l = width a t -> look a t l = Some v -> take a t (l ++ more) = Taken v more.
Proof.
  intros W L. unfold take. rewrite <- W. destruct (Nat.ltb_spec (length (l ++ more)) (length l)) as [H|_]; [rewrite app_length in H; lia|].
  rewrite firstn_app, Nat.sub_diag, firstn_all, skipn_app, Nat.sub_diag, skipn_all. cbn. now rewrite app_nil_r, L.
Qed.
Lemma take_none t l more : length l = width a t -> look a t l = None -> take a t (l ++ more) = Bad.
Proof.
  intros W L. unfold take. rewrite <- W. destruct (Nat.ltb_spec (length (l ++ more)) (length l)) as [H|_]; [rewrite app_length in H; lia|].
  rewrite firstn_app, Nat.sub_diag, firstn_all. cbn. now rewrite app_nil_r, L.
Qed.
Lemma bytes_got {A} (p : prog A) : forall s x rest ls, from_items p s = Got x rest -> Forall2 (shows a) s ls ->
  exists used ls', ls = used ++ ls' /\ Forall2 (shows a) rest ls' /\
    (forall more, from_bytes a p (concat used ++ more) = Taken x more) /\
    (forall n, n < length (concat used) -> from_bytes a p (firstn n (concat used)) = Short).
Proof.
  induction p as [y|t k IH]; intros s x rest ls E F; cbn [from_items] in E.
  - injection E as <- <-. exists [], ls. repeat split; [exact F|]. intros n N. cbn in N. lia.
  - unfold r_bind in E. destruct (of_type t s) as [v r| |] eqn:O; try discriminate.
    destruct (got_item _ _ _ _ O) as (i & -> & Sh). inversion F as [|? l ? ls1 S1 F1]; subst. destruct (Sh _ S1) as [W L].
    destruct (IH v _ _ _ _ E F1) as (used & ls' & -> & R & T & Sho).
    exists (l :: used), ls'. split; [reflexivity|]. split; [exact R|]. cbn [concat from_bytes]. split.
    + intro more. rewrite <- app_assoc, (take_some _ _ _ _ W L). apply T.
    + intros n N. rewrite app_length in N. rewrite firstn_app. destruct (Nat.lt_ge_cases n (length l)) as [Q|Q].
      * replace (n - length l) with 0 by lia. cbn [firstn]. rewrite app_nil_r. unfold take.
        destruct (Nat.ltb_spec (length (firstn n l)) (width a t)) as [|H]; [reflexivity|]. rewrite firstn_length in H. lia.
      * rewrite firstn_all2 by exact Q. rewrite (take_some _ _ _ _ W L). apply Sho. lia.
Qed.
Lemma bytes_bad {A} (p : prog A) : forall s ls, from_items p s = BadBool -> Forall2 (shows a) s ls -> forall more, from_bytes a p (concat ls ++ more) = Bad.
Proof.
  induction p as [y|t k IH]; intros s ls E F more; cbn [from_items] in E; [discriminate|].
  unfold r_bind in E. cbn [from_bytes]. destruct (of_type t s) as [v r| |] eqn:O; try discriminate.
  - destruct (got_item _ _ _ _ O) as (i & -> & Sh). inversion F as [|? l ? ls1 S1 F1]; subst. destruct (Sh _ S1) as [W L].
    cbn [concat]. rewrite <- app_assoc, (take_some _ _ _ _ W L). eapply IH; eassumption.
  - destruct (bad_item _ _ O) as (i & r & -> & Sh). inversion F as [|? l ? ls1 S1 F1]; subst. destruct (Sh _ S1) as [W L].
    cbn [concat]. now rewrite <- app_assoc, (take_none _ _ _ W L).
Qed.
Lemma all_got {A} (p : prog A) s x bs : from_items p s = Got x [] -> represents a s bs ->
  (forall more, from_bytes a p (bs ++ more) = Taken x more) /\ forall n, n < length bs -> from_bytes a p (firstn n bs) = Short.
Proof.
  intros E (ls & F & ->). destruct (bytes_got _ _ _ _ _ E F) as (used & ls' & -> & R & T & Sh). inversion R; subst.
  rewrite app_nil_r. split; [exact T|exact Sh].
Qed.
Lemma all_bad {A} (p : prog A) s bs : from_items p s = BadBool -> represents a s bs -> forall more, from_bytes a p (bs ++ more) = Bad.
Proof. intros E (ls & F & ->). now apply bytes_bad with s. Qed.
End Layout.
