(* Proofs about the extension managers. *)
From Coq Require Import NArith List Bool Lia PeanoNat.
From Verif Require Import Base Command CoreModel Bits StatsModel InterfaceModel InterfaceSpec DramModel DramSpec SerialModel SerialProofs ExtensionModel ExtensionSpec.
Import ListNotations.
Local Open Scope N_scope.

Lemma change_length {A} k (f : A -> A) l : length (change_at k f l) = length l.
Proof. revert k. induction l as [|x r IH]; intros [|k]; cbn; auto. Qed.
Lemma change_nth {A} k (f : A -> A) l j : nth_error (change_at k f l) j = if Nat.eqb k j then option_map f (nth_error l j) else nth_error l j.
Proof.
  revert k j. induction l as [|x r IH]; intros k j.
  - replace (change_at k f []) with (@nil A) by now destruct k. destruct j; cbn [nth_error option_map]; now destruct (Nat.eqb _ _).
  - destruct k as [|k], j as [|j]; cbn; try reflexivity. apply IH.
Qed.

(* ---- the map ---- *)

Definition map_wf {V} (m : manager V) : Prop :=
  NoDup (map fst (em_map m)) /\ (forall e, In e (em_map m) -> (snd e < length (em_objects m))%nat) /\ NoDup (map snd (em_map m)).
Lemma find_in (l : list (N * nat)) ty e : find (fun e => fst e =? ty) l = Some e -> In e l /\ fst e = ty.
Proof. intros H. apply find_some in H as [H1 H2]. split; [exact H1|]. now apply N.eqb_eq. Qed.
Lemma em_find_in {V} ty (m : manager V) k : em_find ty m = Some k -> In (ty, k) (em_map m).
Proof. unfold em_find. destruct (find _ _) as [[t j]|] eqn:F; [|discriminate]. intros H. injection H as <-. apply find_in in F as [F <-]. exact F. Qed.
Lemma find_filter l ty t : find (fun e : N * nat => fst e =? t) (filter (fun e => negb (fst e =? ty)) l) = if t =? ty then None else find (fun e => fst e =? t) l.
Proof.
  induction l as [|e l IH]; cbn [filter find]; [now destruct (t =? ty)|]. destruct (N.eqb_spec (fst e) ty) as [E|E]; cbn [negb find].
  - rewrite IH. destruct (N.eqb_spec t ty) as [H|H]; [reflexivity|]. destruct (N.eqb_spec (fst e) t); [congruence|reflexivity].
  - destruct (N.eqb_spec (fst e) t) as [F|F]; [|exact IH]. destruct (N.eqb_spec t ty); [congruence|reflexivity].
Qed.
Lemma filter_map_incl {A B} (g : A -> B) f l x : In x (map g (filter f l)) -> In x (map g l).
Proof. rewrite !in_map_iff. intros (y & <- & H). apply filter_In in H as [H _]. eauto. Qed.
Lemma filter_nodup {A B} (g : A -> B) f l : NoDup (map g l) -> NoDup (map g (filter f l)).
Proof.
  induction l as [|x l IH]; cbn; intros H; [constructor|]. inversion_clear H as [|? ? H1 H2]. destruct (f x); cbn; [constructor|]; auto.
  intros I. apply H1. eapply filter_map_incl. exact I.
Qed.
Lemma register_wf {V} ty v (m : manager V) : map_wf m -> map_wf (em_register ty v m).
Proof.
  intros (A & B & C). unfold map_wf, em_register. cbn [em_map em_objects map fst snd]. split; [|split].
  - constructor; [|now apply filter_nodup]. rewrite in_map_iff. intros (e & E & I). apply filter_In in I as [_ I]. subst. now rewrite N.eqb_refl in I.
  - intros e [<-|I]; cbn [snd]; rewrite app_length; cbn [length]; [lia|]. apply filter_In in I as [I _]. specialize (B e I). lia.
  - constructor; [|now apply filter_nodup]. intros I. apply filter_map_incl in I. apply in_map_iff in I as (e & E & I). specialize (B e I). lia.
Qed.
Lemma with_wf {V} ty f (m : manager V) : map_wf m -> map_wf (em_with ty f m).
Proof.
  intros W. unfold em_with. destruct (em_find ty m); [|exact W]. destruct W as (A & B & C). unfold map_wf, em_change. cbn [em_map em_objects].
  rewrite change_length. auto.
Qed.
Lemma run_wf {V} (l : list (act V)) : forall m, map_wf m -> map_wf (acts_run l m).
Proof.
  induction l as [|a l IH]; intros m W; [exact W|]. apply (IH (act_do m a)). destruct a as [ty v|ty f]; [now apply register_wf|now apply with_wf].
Qed.
Lemma new_wf {V} : map_wf (@em_new V).
Proof. split; [constructor|]. split; [intros e []|constructor]. Qed.

Lemma get_register {V} ty v (m : manager V) t : map_wf m -> em_get t (em_register ty v m) = if ty =? t then Some v else em_get t m.
Proof.
  intros (_ & B & _). unfold em_get, em_find, em_register. cbn [em_map em_objects find fst].
  destruct (N.eqb_spec ty t) as [E|E].
  - cbn [snd]. rewrite nth_error_app2 by apply Nat.le_refl. now rewrite Nat.sub_diag.
  - rewrite find_filter. destruct (N.eqb_spec t ty) as [F|F]; [congruence|]. destruct (find _ (em_map m)) as [e|] eqn:Q; [|reflexivity].
    apply find_in in Q as [Q _]. apply nth_error_app1. now apply B.
Qed.
Lemma nodup_snd (l : list (N * nat)) a b k : NoDup (map snd l) -> In (a, k) l -> In (b, k) l -> a = b.
Proof.
  induction l as [|[x y] l IH]; cbn; intros N A B; [contradiction|]. inversion_clear N as [|? ? N1 N2].
  destruct A as [A|A], B as [B|B].
  - congruence.
  - injection A as -> ->. exfalso. apply N1. apply in_map_iff. exists (b, k). auto.
  - injection B as -> ->. exfalso. apply N1. apply in_map_iff. exists (a, k). auto.
  - auto.
Qed.
Lemma get_with {V} ty f (m : manager V) t : map_wf m -> em_get t (em_with ty f m) = if ty =? t then option_map f (em_get t m) else em_get t m.
Proof.
  intros W. unfold em_with. destruct (em_find ty m) as [k|] eqn:F.
  - unfold em_get. change (em_find t (em_change k f m)) with (em_find t m). destruct (em_find t m) as [j|] eqn:G; [|now destruct (ty =? t)].
    cbn [em_objects em_change]. rewrite change_nth. destruct (Nat.eqb_spec k j) as [E|E].
    + subst j. rewrite (nodup_snd _ ty t k (proj2 (proj2 W)) (em_find_in _ _ _ F) (em_find_in _ _ _ G)), N.eqb_refl. reflexivity.
    + destruct (N.eqb_spec ty t) as [Q|Q]; [subst; congruence|reflexivity].
  - unfold em_get. destruct (N.eqb_spec ty t) as [<-|Q]; [rewrite F|]; reflexivity.
Qed.
Definition latest_from {V} (ty : N) (o : option V) (l : list (act V)) : option V :=
  fold_left (fun o a => match a with
                        | Register t v => if t =? ty then Some v else o
                        | With t f => if t =? ty then option_map f o else o
                        end) l o.
Lemma get_run {V} ty (l : list (act V)) : forall m, map_wf m -> em_get ty (acts_run l m) = latest_from ty (em_get ty m) l.
Proof.
  induction l as [|a l IH]; intros m W; [reflexivity|]. unfold acts_run, latest_from. cbn [fold_left].
  change (em_get ty (acts_run l (act_do m a)) = latest_from ty (match a with Register t v => if t =? ty then Some v else em_get ty m | With t f => if t =? ty then option_map f (em_get ty m) else em_get ty m end) l).
  rewrite IH; [f_equal|]; destruct a as [t v|t f]; cbn [act_do]; [now apply get_register|now apply get_with|now apply register_wf|now apply with_wf].
Qed.
Lemma lookup {V} ty (l : list (act V)) : em_get ty (acts_run l em_new) = latest ty l.
Proof. rewrite get_run by apply new_wf. reflexivity. Qed.
Lemma latest_some {V} ty (l : list (act V)) : forall o, (latest_from ty o l <> None <-> o <> None \/ In ty (registered l)).
Proof.
  induction l as [|a l IH]; intros o; cbn [latest_from fold_left registered flat_map In]; [tauto|].
  change (latest_from ty (match a with Register t v => if t =? ty then Some v else o | With t f => if t =? ty then option_map f o else o end) l <> None <->
          o <> None \/ In ty ((match a with Register t _ => [t] | With _ _ => [] end) ++ registered l)).
  rewrite IH, in_app_iff. destruct a as [t v|t f]; destruct (N.eqb_spec t ty) as [E|E]; cbn [In option_map].
  - split; intros _; [auto|left; discriminate].
  - intuition congruence.
  - destruct o; cbn; intuition congruence.
  - tauto.
Qed.
Lemma has_get {V} ty (m : manager V) : map_wf m -> em_has ty m = match em_get ty m with Some _ => true | None => false end.
Proof.
  intros (_ & B & _). unfold em_has, em_get. destruct (em_find ty m) as [k|] eqn:F; [|reflexivity].
  pose proof (B _ (em_find_in _ _ _ F)) as L. cbn in L. destruct (nth_error (em_objects m) k) eqn:E; [reflexivity|]. apply nth_error_None in E. lia.
Qed.
Lemma has_run {V} ty (l : list (act V)) : em_has ty (acts_run l em_new) = true <-> In ty (registered l).
Proof.
  rewrite has_get by apply run_wf, new_wf. rewrite lookup. pose proof (latest_some ty l None) as H. change (latest_from ty None l) with (latest ty l) in H.
  destruct (latest ty l); split; intros Q; try reflexivity; try discriminate; [|].
  - destruct H as [H _]. destruct H as [H|H]; [discriminate|now contradiction H|exact H].
  - exfalso. destruct H as [_ H]. apply H; [now right|reflexivity].
Qed.

(* ---- writing and reading ---- *)

(* The object made by the k-th registration is the one made for its type. *)
Record ser_inv {V} (l : list (act V)) (m : manager V) : Prop := {
  si_wf : map_wf m;
  si_ser : em_ser m = seq 0 (length (registered l));
  si_len : length (em_objects m) = length (registered l);
  si_hooks : em_hooks m = [];
  si_map : forall ty k, In (ty, k) (em_map m) <-> nth_error (registered l) k = Some ty /\ (forall j, (k < j)%nat -> nth_error (registered l) j <> Some ty)
}.
Lemma nth_snoc {A} (l : list A) x k : nth_error (l ++ [x]) k = if Nat.ltb k (length l) then nth_error l k else if Nat.eqb k (length l) then Some x else None.
Proof.
  destruct (Nat.ltb_spec k (length l)) as [H|H]; [now apply nth_error_app1|]. rewrite nth_error_app2 by exact H.
  destruct (Nat.eqb_spec k (length l)) as [->|E]; [now rewrite Nat.sub_diag|]. destruct (k - length l)%nat as [|n] eqn:D; [lia|]. destruct n; reflexivity.
Qed.
Lemma registered_app {V} (l r : list (act V)) : registered (l ++ r) = registered l ++ registered r.
Proof. apply flat_map_app. Qed.
Lemma ser_step {V} l (a : act V) m : ser_inv l m -> ser_inv (l ++ [a]) (act_do m a).
Proof.
  intros [W S L H M]. destruct a as [ty v|ty f]; cbn [act_do].
  - constructor.
    + now apply register_wf.
    + rewrite registered_app. cbn [registered flat_map app em_ser em_register]. rewrite S, L, app_length. cbn [length]. now rewrite Nat.add_1_r, seq_S.
    + rewrite registered_app. cbn [registered flat_map app em_objects em_register]. rewrite !app_length, L. reflexivity.
    + exact H.
    + intros t k. rewrite registered_app. cbn [registered flat_map app em_map em_register In]. rewrite filter_In, M. cbn [fst]. split.
      * intros [E|((E & F) & G)].
        -- injection E as <- <-. split; [rewrite nth_snoc, <- L, Nat.ltb_irrefl, Nat.eqb_refl; reflexivity|].
           intros j Hj. rewrite nth_snoc, <- L. destruct (Nat.ltb_spec j (length (em_objects m))); [lia|]. destruct (Nat.eqb_spec j (length (em_objects m))); [lia|discriminate].
        -- assert (k < length (registered l))%nat as K by (apply nth_error_Some; congruence).
           split; [now rewrite nth_error_app1|]. intros j Hj. rewrite nth_snoc. destruct (Nat.ltb j _); [now apply F|]. destruct (Nat.eqb _ _); [|discriminate].
           intros X. injection X as <-. now rewrite N.eqb_refl in G.
      * intros (E & F). rewrite nth_snoc in E. destruct (Nat.ltb_spec k (length (registered l))) as [K|K].
        -- right. split; [split; [exact E|]|].
           ++ intros j Hj X. apply (F j Hj). rewrite nth_error_app1; [exact X|]. apply nth_error_Some. congruence.
           ++ destruct (N.eqb_spec t ty) as [->|D]; [|reflexivity]. exfalso. apply (F (length (registered l))); [exact K|]. rewrite nth_snoc, Nat.ltb_irrefl, Nat.eqb_refl. reflexivity.
        -- destruct (Nat.eqb_spec k (length (registered l))) as [D|D]; [|discriminate]. injection E as <-. left. now rewrite L, D.
  - assert (registered (l ++ [With ty f]) = registered l) as R by (rewrite registered_app; apply app_nil_r).
    assert (em_map (em_with ty f m) = em_map m /\ em_ser (em_with ty f m) = em_ser m /\ em_hooks (em_with ty f m) = em_hooks m /\
            length (em_objects (em_with ty f m)) = length (em_objects m)) as (E1 & E2 & E3 & E4).
    { unfold em_with. destruct (em_find ty m); cbn; rewrite ?change_length; auto. }
    constructor; [now apply with_wf|rewrite R, E2; exact S|rewrite R, E4; exact L|rewrite E3; exact H|]. intros t k. rewrite R, E1. apply M.
Qed.
Lemma ser_run_from {V} (r : list (act V)) : forall l m, ser_inv l m -> ser_inv (l ++ r) (acts_run r m).
Proof.
  induction r as [|a r IH]; intros l m H; [now rewrite app_nil_r|]. change (a :: r) with ([a] ++ r). rewrite app_assoc. apply IH. now apply ser_step.
Qed.
Lemma ser_new {V} : ser_inv [] (@em_new V).
Proof.
  constructor; try reflexivity; [apply new_wf|]. intros ty k. cbn. split; [contradiction|]. intros [H _]. destruct k; discriminate.
Qed.
Lemma ser_run {V} (l : list (act V)) : ser_inv l (acts_run l em_new).
Proof. exact (ser_run_from l [] em_new ser_new). Qed.

Lemma alive_iff {V} l (m : manager V) k : ser_inv l m ->
  (em_alive m k = true <-> exists ty, In (ty, k) (em_map m)).
Proof.
  intros I. unfold em_alive. rewrite (si_hooks _ _ I). cbn [existsb]. rewrite orb_false_r, existsb_exists. split.
  - intros ([t j] & H1 & H2). cbn in H2. apply Nat.eqb_eq in H2. subst. eauto.
  - intros (t & H). exists (t, k). split; [exact H|]. apply Nat.eqb_refl.
Qed.
Lemma map_find {V} l (m : manager V) ty k : ser_inv l m -> In (ty, k) (em_map m) -> em_find ty m = Some k.
Proof.
  intros I H. pose proof (si_wf _ _ I) as (N & _). unfold em_find. clear I. induction (em_map m) as [|[t j] r IH]; [contradiction|].
  cbn [map fst] in N. inversion_clear N as [|? ? N1 N2]. cbn [find fst]. destruct H as [H|H].
  - injection H as -> ->. now rewrite N.eqb_refl.
  - destruct (N.eqb_spec t ty) as [->|E]; [|now apply IH]. exfalso. apply N1. apply in_map_iff. exists (ty, k). auto.
Qed.
Lemma object_of {V} l (m : manager V) ty k : ser_inv l m -> In (ty, k) (em_map m) -> nth_error (em_objects m) k = em_get ty m.
Proof. intros I H. unfold em_get. now rewrite (map_find _ _ _ _ I H). Qed.
Lemma nodup_last {A} (l : list A) k x : NoDup l -> nth_error l k = Some x -> forall j, (k < j)%nat -> nth_error l j <> Some x.
Proof. intros N H j Hj E. rewrite NoDup_nth_error in N. assert (k = j); [|lia]. apply N; [apply nth_error_Some; congruence|congruence]. Qed.
Definition what {V} (w : V -> list item) (l : list (act V)) (ty : N) : list item := match latest ty l with Some v => w v | None => [] end.
Lemma nth_skip {A} (l : list A) k x : nth_error l k = Some x -> skipn k l = x :: skipn (S k) l.
Proof. revert k. induction l as [|y l IH]; intros [|k] H; cbn in H |- *; try discriminate; [now injection H as ->|]. now apply IH. Qed.
Lemma write_from {V} (w : V -> list item) l : NoDup (registered l) -> forall n k, (k + n = length (registered l))%nat ->
  em_write w (acts_run l em_new) (seq k n) = Value (flat_map (what w l) (skipn k (registered l))).
Proof.
  intros N. pose proof (ser_run l) as I. induction n as [|n IH]; intros k H; cbn [seq em_write].
  - rewrite skipn_all2 by lia. reflexivity.
  - destruct (nth_error (registered l) k) as [ty|] eqn:E; [|apply nth_error_None in E; lia].
    assert (In (ty, k) (em_map (acts_run l em_new))) as M by (apply (si_map _ _ I); split; [exact E|now apply nodup_last]).
    rewrite (proj2 (alive_iff _ _ _ I) (ex_intro _ ty M)). rewrite (object_of _ _ _ _ I M), lookup.
    rewrite IH by lia. rewrite (nth_skip _ _ _ E). cbn [flat_map]. unfold what at 2.
    destruct (latest ty l) as [v|] eqn:Q; [reflexivity|]. exfalso. pose proof (latest_some ty l None) as [_ L].
    apply L; [right; eapply nth_error_In; exact E|exact Q].
Qed.
Lemma serialize_once {V} (w : V -> list item) l : NoDup (registered l) ->
  em_serialize w (acts_run l em_new) = Value (flat_map (what w l) (registered l)).
Proof. intros N. unfold em_serialize. rewrite (si_ser _ _ (ser_run l)). now apply (write_from w l N _ 0%nat). Qed.
(* A type registered twice. *)
Lemma write_dead {V} (w : V -> list item) m l k n : ser_inv l m -> (k < n)%nat -> (n <= length (em_objects m))%nat -> em_alive m k = false ->
  forall from, (from <= k)%nat -> em_write w m (seq from (n - from)) = Fails Exception.
Proof.
  intros I H Hn D. assert (forall d from, (from + d = k)%nat -> em_write w m (seq from (n - from)) = Fails Exception) as G.
  { induction d as [|d IH]; intros from F; (destruct (n - from)%nat as [|r] eqn:R; [lia|]); cbn [seq em_write].
    - assert (from = k) as -> by lia. now rewrite D.
    - destruct (em_alive m from); [|reflexivity]. destruct (nth_error (em_objects m) from) as [v|] eqn:E; [|apply nth_error_None in E; lia].
      replace r with (n - S from)%nat by lia. rewrite IH by lia. reflexivity. }
  intros from F. apply (G (k - from)%nat). lia.
Qed.
Lemma not_nodup (l : list N) : ~ NoDup l -> exists i j x, (i < j)%nat /\ nth_error l i = Some x /\ nth_error l j = Some x.
Proof.
  induction l as [|y l IH]; intros H; [contradiction H; constructor|]. destruct (in_dec N.eq_dec y l) as [I|I].
  - apply In_nth_error in I as (j & J). exists 0%nat, (S j), y. repeat split; [lia|exact J].
  - destruct IH as (i & j & x & A & B & C); [intros N; apply H; now constructor|]. exists (S i), (S j), x. repeat split; [lia|exact B|exact C].
Qed.
Lemma serialize_twice {V} (w : V -> list item) l : ~ NoDup (registered l) -> em_serialize w (acts_run l em_new) = Fails Exception.
Proof.
  intros N. pose proof (ser_run l) as I. apply not_nodup in N as (i & j & x & Hij & Hi & Hj).
  unfold em_serialize. rewrite (si_ser _ _ I). assert (j < length (registered l))%nat as J by (apply nth_error_Some; congruence).
  assert (em_alive (acts_run l em_new) i = false) as D.
  { destruct (em_alive _ i) eqn:A; [|reflexivity]. exfalso. apply (alive_iff _ _ _ I) in A as (ty & A). apply (si_map _ _ I) in A as (A & B).
    rewrite Hi in A. injection A as <-. exact (B j Hij Hj). }
  pose proof (write_dead w _ l i (length (registered l)) I) as W. specialize (W ltac:(lia)). rewrite (si_len _ _ I) in W.
  specialize (W (Nat.le_refl _) D 0%nat ltac:(lia)). now rewrite Nat.sub_0_r in W.
Qed.
(* Reading back. *)
Lemma change_inv {V} l (m : manager V) k f : ser_inv l m -> ser_inv l (em_change k f m).
Proof.
  intros [W S L H M]. constructor; auto.
  - destruct W as (A & B & C). unfold map_wf, em_change. cbn. rewrite change_length. auto.
  - unfold em_change. cbn. now rewrite change_length.
Qed.
Lemma read_from {V} (w : V -> list item) (r : V -> reader V) l l' rest :
  NoDup (registered l) -> registered l' = registered l ->
  (forall ty v v', latest ty l = Some v -> latest ty l' = Some v' -> reads (r v') (w v) v) ->
  forall n k m, (k + n = length (registered l))%nat -> ser_inv l' m ->
    (forall ty j, nth_error (registered l) j = Some ty -> em_get ty m = if Nat.ltb j k then latest ty l else latest ty l') ->
  exists m', em_read r m (seq k n) (flat_map (what w l) (skipn k (registered l)) ++ rest) = Value (Got m' rest) /\ ser_inv l' m' /\
    forall ty j, nth_error (registered l) j = Some ty -> em_get ty m' = latest ty l.
Proof.
  intros N R C. induction n as [|n IH]; intros k m H I G; cbn [seq em_read].
  - rewrite skipn_all2 by lia. exists m. split; [reflexivity|]. split; [exact I|]. intros ty j J. rewrite (G ty j J).
    destruct (Nat.ltb_spec j k) as [Q|Q]; [reflexivity|]. assert (j < length (registered l))%nat by (apply nth_error_Some; congruence). lia.
  - destruct (nth_error (registered l) k) as [ty|] eqn:E; [|apply nth_error_None in E; lia].
    assert (In (ty, k) (em_map m)) as M by (apply (si_map _ _ I); rewrite R; split; [exact E|now apply nodup_last]).
    rewrite (proj2 (alive_iff _ _ _ I) (ex_intro _ ty M)), (object_of _ _ _ _ I M), (G ty k E), Nat.ltb_irrefl.
    assert (In ty (registered l)) as T by (eapply nth_error_In; exact E).
    destruct (latest ty l') as [v'|] eqn:Q'; [|exfalso; apply (proj2 (latest_some ty l' None)); [right; now rewrite R|exact Q']].
    destruct (latest ty l) as [v|] eqn:Q; [|exfalso; apply (proj2 (latest_some ty l None)); [now right|exact Q]].
    rewrite (nth_skip _ _ _ E). cbn [flat_map]. unfold what at 1. rewrite Q, <- app_assoc. rewrite (C ty v v' Q Q').
    apply IH; [lia|now apply change_inv|]. intros t j J. unfold em_get. change (em_find t (em_change k (fun _ => v) m)) with (em_find t m).
    assert (In (t, j) (em_map m)) as Mj by (apply (si_map _ _ I); rewrite R; split; [exact J|now apply nodup_last]).
    rewrite (map_find _ _ _ _ I Mj). cbn [em_objects em_change]. rewrite change_nth. pose proof (object_of _ _ _ _ I Mj) as O. rewrite O, (G t j J).
    destruct (Nat.eqb_spec k j) as [<-|D].
    + assert (t = ty) as -> by congruence. rewrite Nat.ltb_irrefl, Q', Q. destruct (Nat.ltb_spec k (S k)); [reflexivity|lia].
    + destruct (Nat.ltb_spec j k), (Nat.ltb_spec j (S k)); try reflexivity; lia.
Qed.
Lemma round_trip {V} (w : V -> list item) (r : V -> reader V) l l' rest :
  NoDup (registered l) -> registered l' = registered l ->
  (forall ty v v', latest ty l = Some v -> latest ty l' = Some v' -> reads (r v') (w v) v) ->
  exists s m', em_serialize w (acts_run l em_new) = Value s /\ em_deserialize r (acts_run l' em_new) (s ++ rest) = Value (Got m' rest) /\
    forall later ty, em_get ty (acts_run later m') = em_get ty (acts_run later (acts_run l em_new)).
Proof.
  intros N R C. exists (flat_map (what w l) (registered l)). pose proof (ser_run l') as I.
  destruct (read_from w r l l' rest N R C (length (registered l)) 0%nat (acts_run l' em_new)) as (m' & H1 & H2 & H3); [reflexivity|exact I| |].
  { intros ty j J. apply lookup. }
  exists m'. split; [now apply serialize_once|]. split; [unfold em_deserialize; rewrite (si_ser _ _ I), R; exact H1|].
  intros later ty. rewrite (get_run ty later m' (si_wf _ _ H2)), (get_run ty later _ (si_wf _ _ (ser_run l))). f_equal. rewrite lookup.
  destruct (in_dec N.eq_dec ty (registered l)) as [Q|Q].
  - apply In_nth_error in Q as (j & J). exact (H3 ty j J).
  - transitivity (@None V).
    + unfold em_get. destruct (em_find ty m') as [k|] eqn:F; [|reflexivity]. exfalso. apply Q. apply em_find_in in F. apply (si_map _ _ H2) in F as (F & _).
      rewrite R in F. eapply nth_error_In. exact F.
    + destruct (latest ty l) as [v|] eqn:L; [|reflexivity]. exfalso. apply Q. destruct (proj1 (latest_some ty l None)) as [X|X]; [change (latest ty l <> None); congruence|now contradiction X|exact X].
Qed.

(* ---- hooks ---- *)

Lemma mask_plain digits i : (digits <= 32)%nat -> (i < digits)%nat -> hook_mask digits i = Value (2 ^ N.of_nat i).
Proof.
  intros D I. unfold hook_mask. destruct (Nat.ltb_spec i 31); [reflexivity|]. destruct (Nat.eqb_spec i 31) as [->|E]; [|lia].
  assert (digits = 32%nat) as -> by lia. reflexivity.
Qed.
Lemma land_bit s i : (N.land s (2 ^ i) =? 0) = negb (N.testbit s i).
Proof.
  destruct (N.testbit s i) eqn:T; cbn [negb].
  - apply N.eqb_neq. intros H. assert (N.testbit (N.land s (2 ^ i)) i = false) as X by (rewrite H; apply N.bits_0).
    rewrite N.land_spec, T, N.pow2_bits_true in X. discriminate.
  - apply N.eqb_eq. apply N.bits_inj. intros j. rewrite N.land_spec, N.bits_0. destruct (N.eq_dec i j) as [<-|D]; [now rewrite T|].
    rewrite N.pow2_bits_false by exact D. apply andb_false_r.
Qed.
Lemma push_one digits k s i h l : (digits <= 32)%nat -> (i < digits)%nat -> nth_error h i = Some l ->
  hook_push digits k s i h = Value (change_at i (fun l => l ++ (if N.testbit s (N.of_nat i) then [k] else [])) h).
Proof.
  intros D I H. unfold hook_push. rewrite (mask_plain digits i D I). cbn [bind]. rewrite H, land_bit. destruct (N.testbit s (N.of_nat i)); [reflexivity|].
  cbn [negb]. f_equal. clear - H. revert i H. induction h as [|x h IH]; intros [|i] H; cbn in H |- *; try discriminate; [now rewrite app_nil_r|f_equal; now apply IH].
Qed.
(* One registration: the entries from [from] on get the new object. *)
Lemma push_all digits k s : (digits <= 32)%nat -> forall n from h, (from + n = digits)%nat -> length h = digits ->
  exists h', loop (hook_push digits k s) (seq from n) h = Value h' /\ length h' = digits /\
    forall i, nth i h' [] = nth i h [] ++ (if (Nat.leb from i && Nat.ltb i digits)%bool && N.testbit s (N.of_nat i) then [k] else []).
Proof.
  intros D. induction n as [|n IH]; intros from h F L; cbn [seq loop].
  - exists h. split; [reflexivity|]. split; [exact L|]. intros i. destruct (Nat.leb_spec from i), (Nat.ltb_spec i digits); cbn [andb]; try (now rewrite app_nil_r). lia.
  - destruct (nth_error h from) as [l|] eqn:E; [|apply nth_error_None in E; lia].
    rewrite (push_one digits k s from h l D ltac:(lia) E). cbn [bind].
    set (f := fun l : list nat => l ++ (if N.testbit s (N.of_nat from) then [k] else [])).
    destruct (IH (S from) (change_at from f h)) as (h' & A & B & C); [lia|now rewrite change_length|].
    exists h'. split; [exact A|]. split; [exact B|]. intros i. rewrite C.
    assert (nth i (change_at from f h) [] = if Nat.eqb from i then f (nth i h []) else nth i h []) as X.
    { pose proof (change_nth from f h i) as Y. destruct (Nat.ltb_spec i (length h)) as [Q|Q].
      - rewrite (nth_error_nth' _ [] (ltac:(rewrite change_length; exact Q))) in Y. rewrite (nth_error_nth' h [] Q) in Y. cbn [option_map] in Y.
        destruct (Nat.eqb from i); now injection Y.
      - rewrite !nth_overflow; [|exact Q|rewrite change_length; exact Q]. destruct (Nat.eqb_spec from i); [lia|reflexivity]. }
    rewrite X. destruct (Nat.eqb_spec from i) as [Q|Q].
    + subst i. destruct (Nat.leb_spec (S from) from); [lia|]. destruct (Nat.leb_spec from from); [|lia]. destruct (Nat.ltb_spec from digits); [|lia]. cbn [andb]. now rewrite app_nil_r.
    + destruct (Nat.leb_spec (S from) i), (Nat.leb_spec from i); try lia; reflexivity.
Qed.
Lemma hooked_from {V} (r : list (hooked V)) : forall m, (length (em_hooks m) <= 32)%nat ->
  exists m', hooked_run r m = Value m' /\ length (em_hooks m') = length (em_hooks m) /\
    forall i, (i < length (em_hooks m))%nat -> nth i (em_hooks m') [] = nth i (em_hooks m) [] ++ supporters (N.of_nat i) (length (em_objects m)) (map hk_hooks r).
Proof.
  induction r as [|x r IH]; intros m D; cbn [hooked_run map supporters].
  - exists m. split; [reflexivity|]. split; [reflexivity|]. intros i _. now rewrite app_nil_r.
  - unfold em_register_hooks. destruct (push_all _ (length (em_objects m)) (hk_hooks x) D (length (em_hooks m)) 0%nat (em_hooks m)) as (h & A & B & C); [reflexivity|reflexivity|].
    cbn [em_hooks em_register]. rewrite A. cbn [bind].
    destruct (IH (mkManager (em_objects (em_register (hk_type x) (hk_object x) m)) (em_map (em_register (hk_type x) (hk_object x) m)) (em_ser (em_register (hk_type x) (hk_object x) m)) h)) as (m' & E & F & G).
    { cbn [em_hooks]. now rewrite B. }
    exists m'. split; [exact E|]. cbn [em_hooks em_objects em_register] in F, G. split; [congruence|]. intros i Hi. rewrite G by (now rewrite B).
    rewrite C, app_length. cbn [length]. rewrite Nat.add_1_r, <- app_assoc. f_equal. destruct (Nat.ltb_spec i (length (em_hooks m))); [|lia]. reflexivity.
Qed.
Lemma trailing_spec p : N.testbit (Npos p) (N.of_nat (trailing p)) = true /\ forall c, c < N.of_nat (trailing p) -> N.testbit (Npos p) c = false.
Proof.
  induction p as [p IH|p IH|]; cbn [trailing]; [split; [reflexivity|intros c H; destruct c; discriminate H]| |split; [reflexivity|intros c H; destruct c; discriminate H]].
  destruct IH as [A B]. change (Npos p~0) with (2 * Npos p). rewrite Nat2N.inj_succ. split.
  - rewrite N.testbit_even_succ by apply N.le_0_l. exact A.
  - intros c H. destruct (N.eq_dec c 0) as [->|D]; [apply N.testbit_even_0|]. assert (c = N.succ (N.pred c)) as -> by lia.
    rewrite N.testbit_even_succ by apply N.le_0_l. apply B. lia.
Qed.
Lemma lowest_unique hook a b : lowest hook a -> lowest hook b -> a = b.
Proof.
  intros [A1 A2] [B1 B2]. destruct (N.lt_trichotomy a b) as [H|[H|H]]; [rewrite (B2 a H) in A1; discriminate|exact H|rewrite (A2 b H) in B1; discriminate].
Qed.
Lemma count_lowest digits hook b : lowest hook b -> count_zeros digits hook = N.to_nat b.
Proof.
  intros L. destruct hook as [|p]; [destruct L as [L _]; now rewrite N.bits_0 in L|]. cbn [count_zeros].
  rewrite (lowest_unique _ _ _ L (trailing_spec p)), Nat2N.id. reflexivity.
Qed.
Lemma called_dynamic {V} digits (l : list (hooked V)) : (digits <= 32)%nat ->
  exists m, hooked_run l (em_new_hooks digits) = Value m /\
    (forall hook b, lowest hook b -> b < N.of_nat digits -> em_called hook m = supporters b 0 (map hk_hooks l)) /\
    em_called 0 m = [].
Proof.
  intros D. destruct (hooked_from l (em_new_hooks digits)) as (m & A & B & C); cbn [em_hooks em_new_hooks] in *; [now rewrite repeat_length|].
  rewrite repeat_length in B, C. exists m. split; [exact A|]. split.
  - intros hook b L H. unfold em_called. rewrite (count_lowest _ _ _ L). rewrite C by lia. rewrite N2Nat.id. cbn [em_objects length].
    replace (nth (N.to_nat b) (repeat [] digits) []) with (@nil nat); [reflexivity|]. symmetry. clear. generalize (N.to_nat b). induction digits as [|d IH]; intros [|n]; cbn; auto.
  - unfold em_called. cbn [count_zeros]. apply nth_overflow. lia.
Qed.
Lemma supporters_filter b : forall l from, supporters b from l = filter (fun k => N.testbit (nth (k - from) l 0) b) (seq from (length l)).
Proof.
  induction l as [|s r IH]; intros from; [reflexivity|]. cbn [supporters length seq filter]. rewrite Nat.sub_diag. cbn [nth]. rewrite IH.
  assert (filter (fun k => N.testbit (nth (k - S from) r 0) b) (seq (S from) (length r)) = filter (fun k => N.testbit (nth (k - from) (s :: r) 0) b) (seq (S from) (length r))) as ->.
  { apply filter_ext_in. intros k K. apply in_seq in K. replace (k - from)%nat with (S (k - S from)) by lia. reflexivity. }
  now destruct (N.testbit s b).
Qed.
Lemma static_single supported b : static_called supported (2 ^ b) = supporters b 0 supported.
Proof.
  unfold static_called. rewrite supporters_filter. apply filter_ext. intros k. rewrite land_bit, negb_involutive, Nat.sub_0_r. reflexivity.
Qed.
Lemma wide_undefined {V} digits ty (v : V) s m : length (em_hooks m) = digits -> (32 < digits)%nat -> em_register_hooks ty v s m = Fails UB.
Proof.
  intros L D. unfold em_register_hooks. cbn [em_hooks em_register]. rewrite L.
  assert (forall n from h, (from + n = digits)%nat -> (from <= 32)%nat -> length h = digits -> loop (hook_push digits (length (em_objects m)) s) (seq from n) h = Fails UB) as G.
  { induction n as [|n IH]; intros from h F B Lh; [lia|]. cbn [seq loop]. unfold hook_push at 1.
    destruct (Nat.eq_dec from 32) as [->|Q]; [reflexivity|].
    assert (exists mask, hook_mask digits from = Value mask) as (mask & M).
    { unfold hook_mask. destruct (Nat.ltb_spec from 31); [eauto|]. destruct (Nat.eqb_spec from 31); [eauto|lia]. }
    rewrite M. cbn [bind]. destruct (nth_error h from) as [l|] eqn:E; [|apply nth_error_None in E; lia]. cbn [bind].
    apply IH; [lia|lia|]. destruct (_ =? 0); [exact Lh|now rewrite change_length]. }
  rewrite G; [reflexivity|lia|lia|exact L].
Qed.
