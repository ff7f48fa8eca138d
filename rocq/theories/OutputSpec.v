(* Where a path leads, with any number of links on the way. *)
From Coq Require Import String List Bool.
From Verif Require Import OutputModel.
Import ListNotations.
Local Open Scope string_scope.

Inductive leads (fs : files) : place -> list string -> place -> Prop :=
| L_here base : leads fs base [] base
| L_dot base rest a : leads fs base rest a -> leads fs base ("." :: rest) a
| L_up base rest a : leads fs (removelast base) rest a -> leads fs base (".." :: rest) a
| L_down base n rest a : n <> "." -> n <> ".." -> fs (base ++ [n])%list = Some N_dir -> leads fs (base ++ [n])%list rest a -> leads fs base (n :: rest) a
| L_link base n t rest a : n <> "." -> n <> ".." -> fs (base ++ [n])%list = Some (N_link t) ->
    leads fs (if pa_absolute t then [] else base) (pa_names t ++ rest)%list a -> leads fs base (n :: rest) a
| L_end base n : n <> "." -> n <> ".." -> (forall t, fs (base ++ [n])%list <> Some (N_link t)) -> leads fs base [n] (base ++ [n])%list.

(* The place a path names in a directory. *)
Definition names (fs : files) (cwd : place) (p : path) (a : place) : Prop :=
  pa_names p <> [] /\ leads fs (if pa_absolute p then [] else cwd) (pa_names p) a.
(* The path names a file with this content. *)
Definition is_file (fs : files) (cwd : place) (p : path) (content : list Ascii.ascii) : Prop :=
  exists a, names fs cwd p a /\ fs a = Some (N_file content).

(* Two states of the files that differ by at most one new, empty file. *)
Definition one_more (fs fs' : files) : Prop :=
  exists a, fs a = None /\ fs' a = Some (N_file []) /\ forall b, b <> a -> fs' b = fs b.
Definition keeps (fs fs' : files) : Prop := forall b n, fs b = Some n -> fs' b = Some n.

(* All links name their targets from the root. *)
Definition absolute_links (fs : files) : Prop := forall a t, fs a = Some (N_link t) -> pa_absolute t = true.
