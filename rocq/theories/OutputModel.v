(* The output file of the command line program: the check of its path and the exit
   code.  Citations: V = src/cli/main/validators.cpp, M = src/cli/main/main.cpp,
   R = src/cli/lib/DRAMPower/cli/run.cpp.

   The file system is a function from places (lists of names from the root) to
   nodes.  std::filesystem and the operating system are modelled by their
   documentation: following links, counting them, where a file is created.  Not
   modelled: permissions, except that creating a file may be refused; trailing
   slashes; other processes changing the files. *)
From Coq Require Import NArith String List Bool Ascii Arith.
From Verif Require Import Base Bits CliModel.
Import ListNotations.
Local Open Scope string_scope.

(* std::filesystem::path: V 29, 67.  The empty path is relative without names. *)
Record path := mkPath { pa_absolute : bool; pa_names : list string }.
(* What is_regular_file, is_directory and is_symlink distinguish: V 41, 47, 53. *)
Inductive node := N_file (content : list ascii) | N_dir | N_link (target : path) | N_other.
(* With node: a place is the list of names from the root. *)
Definition place := list string.
(* With node: the nodes of a file system. *)
Definition files := place -> option node.

(* Where a path leads: a node; a place that is free, in a directory; nowhere, since
   a directory on the way is missing or is none; or too many links.
   The status calls of V 23, 33, 41, 47, 53, 76, 79, 112, 131, 134 and the open of V
   87. *)
Inductive reached := At (a : place) (n : node) | Free (a : place) | Nowhere | Loop.
(* With reached: the directory base and the names still to go.  follow is false for
   the calls that look at a link itself (is_symlink V 23, 53, 112, read_symlink V
   31).  fuel is the number of links the system is ready to follow. *)
Fixpoint look (follow : bool) (fs : files) (fuel : nat) (base : place) (names : list string) {struct fuel} : reached :=
  (fix go (base : place) (names : list string) {struct names} : reached :=
     match names with
     | [] => At base N_dir
     | n :: rest =>
         if String.eqb n "." then go base rest
         else if String.eqb n ".." then go (removelast base) rest
         else
           match fs (base ++ [n])%list with
           | None => match rest with [] => Free (base ++ [n])%list | _ => Nowhere end
           | Some N_dir => go (base ++ [n])%list rest
           | Some (N_link t) =>
               if match rest with [] => negb follow | _ => false end
               then At (base ++ [n])%list (N_link t)
               else match fuel with
                    | O => Loop
                    | S f => look follow fs f (if pa_absolute t then [] else base) (pa_names t ++ rest)%list
                    end
           | Some x => match rest with [] => At (base ++ [n])%list x | _ => Nowhere end
           end
     end) base names.
(* The number of links Linux follows (MAXSYMLINKS): with look, V 33. *)
Definition max_links : nat := 40.
(* A path of the program is relative to the current directory: V 74, with the calls
   listed at reached. *)
Definition find_node (follow : bool) (cwd : place) (fs : files) (p : path) : reached :=
  match pa_names p with
  | [] => if pa_absolute p then At [] N_dir else Nowhere
  | ns => look follow fs max_links (if pa_absolute p then [] else cwd) ns
  end.

(* std::filesystem throws when it cannot tell: V 23 and the calls listed at
   reached. *)
Inductive answer := Yes | No | Throw.
(* std::filesystem::exists: V 33, 76, 134. *)
Definition fs_exists (cwd : place) (fs : files) (p : path) : answer :=
  match find_node true cwd fs p with At _ _ => Yes | Loop => Throw | _ => No end.
(* std::filesystem::is_regular_file: V 41, 131. *)
Definition fs_is_file (cwd : place) (fs : files) (p : path) : answer :=
  match find_node true cwd fs p with At _ (N_file _) => Yes | Loop => Throw | _ => No end.
(* std::filesystem::is_directory: V 47, 79. *)
Definition fs_is_dir (cwd : place) (fs : files) (p : path) : answer :=
  match find_node true cwd fs p with At _ N_dir => Yes | Loop => Throw | _ => No end.
(* std::filesystem::is_symlink: V 23, 53, 112. *)
Definition fs_is_link (cwd : place) (fs : files) (p : path) : answer :=
  match find_node false cwd fs p with At _ (N_link _) => Yes | Loop => Throw | _ => No end.
(* std::filesystem::read_symlink: V 31.  The target as it is written in the link. *)
Definition fs_read_link (cwd : place) (fs : files) (p : path) : option path :=
  match find_node false cwd fs p with At _ (N_link t) => Some t | _ => None end.

(* ResolveSymlinkResult, std::nullopt and an exception: V 10-18, 20. *)
Inductive resolved := R_file (p : path) | R_directory (p : path) | R_not_found (p : path) | R_none | R_throw.
(* resolve_symlink: the loop of V 30-60. *)
Fixpoint resolve_loop (cwd : place) (fs : files) (n : nat) (p : path) : resolved :=
  match n with
  | O => R_none
  | S n' =>
      match fs_read_link cwd fs p with
      | None => R_throw
      | Some t =>
          match fs_exists cwd fs t with
          | Throw => R_throw
          | No => R_not_found t
          | Yes =>
              match fs_is_file cwd fs t with
              | Throw => R_throw
              | Yes => R_file t
              | No =>
                  match fs_is_dir cwd fs t with
                  | Throw => R_throw
                  | Yes => R_directory t
                  | No => match fs_is_link cwd fs t with Throw => R_throw | Yes => resolve_loop cwd fs n' t | No => R_none end
                  end
              end
          end
      end
  end.
(* resolve_symlink: V 20-64, MAX_SYMLINK_RESOLVE_ITERATIONS (validators.h 10). *)
Definition resolve_symlink (cwd : place) (fs : files) (p : path) : resolved :=
  match fs_is_link cwd fs p with
  | Throw => R_throw
  | No => R_none
  | Yes => resolve_loop cwd fs 10 p
  end.

(* A file system with one node replaced; std::ofstream creating or emptying a file: V
   87, R 167. *)
Definition put_node (a : place) (n : node) (fs : files) : files := fun b => if list_eq_dec string_dec b a then Some n else fs b.
(* std::ofstream{filepath}: V 87, R 167.  An existing file is emptied; a free place
   gets an empty file if the system permits it; otherwise the stream is not open. *)
Definition open_output (can : place -> bool) (cwd : place) (fs : files) (p : path) : option (place * files) :=
  match find_node true cwd fs p with
  | At a (N_file _) => if can a then Some (a, put_node a (N_file []) fs) else None
  | Free a => if can a then Some (a, put_node a (N_file []) fs) else None
  | _ => None
  end.
(* path::parent_path: V 70. *)
Definition parent_path (p : path) : path := mkPath (pa_absolute p) (removelast (pa_names p)).

(* What a check ends with: the string is the message, empty for success (V 104, 122),
   together with the path as the check has left it (V 121, 128) and the files; or an
   exception. *)
Inductive checked := Checked (message : string) (p : path) (fs : files) | Escapes.
(* The directory a new file belongs to: V 69-75. *)
Definition output_dir (cwd : place) (p : path) : path :=
  let parent := parent_path p in
  if match pa_names parent with [] => negb (pa_absolute p) | _ => false end then mkPath true cwd else parent.
(* createFileInParentDirectory: V 67-105. *)
Definition create_file (can : place -> bool) (cwd : place) (fs : files) (p : path) : checked :=
  match fs_exists cwd fs (output_dir cwd p) with
  | Throw => Escapes
  | No => Checked "Parent directory does not exist" p fs
  | Yes =>
      match fs_is_dir cwd fs (output_dir cwd p) with
      | Throw => Escapes
      | No => Checked "Invlid path" p fs
      | Yes =>
          match open_output can cwd fs p with
          | Some (_, fs') => Checked "" p fs'
          | None => Checked "Could not create the file" p fs
          end
      end
  end.
(* The function of EnsureFileExists: V 110-141. *)
Definition ensure_file (can : place -> bool) (cwd : place) (fs : files) (p : path) : checked :=
  match fs_is_link cwd fs p with
  | Throw => Escapes
  | Yes =>
      match resolve_symlink cwd fs p with
      | R_throw => Escapes
      | R_none => Checked "Could not resolve the symlink" p fs
      | R_file q => Checked "" q fs
      | R_directory _ => Checked "Path is a directory" p fs
      | R_not_found q => create_file can cwd fs q
      end
  | No =>
      match fs_is_file cwd fs p with
      | Throw => Escapes
      | Yes => Checked "" p fs
      | No =>
          match fs_exists cwd fs p with
          | Throw => Escapes
          | Yes => Checked "Path is not a file" p fs
          | No => create_file can cwd fs p
          end
      end
  end.

(* What parseArgs leaves (M 21-50): the help text was asked for, so that app.exit
   returns 0; an error with another code; or the options. *)
Inductive arguments := A_help | A_error (code : nat) | A_run (jsonfile : option path).
(* The end of main (M 52-104) with the files it leaves; None: it is ended by an
   exception, an assertion or undefined behaviour.  go is the program after the
   configuration has been read (CliModel.program); config says whether getConfig (R
   244-264) accepts the file of the option -c.  After the help text main goes on with
   empty names (M 55-59), and getConfig cannot open a file without a name (R 247).
   The text of the report is an argument; that the array in it has the right length
   (R 189-193) is C49.  The option is checked through Option::check of CLI11, which
   hands the function a copy (version 2.4.2, lib/cli11/CMakeLists.txt 7), so that the
   path used later is the one given (M 42, R
   167); CLI11 ends with 105 when a check fails. *)
Definition main_end (can : place -> bool) (cwd : place) (fs : files) (config : bool) (go : program_end) (report : list ascii) (a : arguments) : option nat * files :=
  let after (config : bool) (json : option path) (fs : files) :=
    if negb config then (Some 1, fs)
    else match go with
         | Died _ => (None, fs)
         | Failed => (Some 1, fs)
         | Printed _ _ _ =>
             match json with
             | None => (Some 0, fs)
             | Some p => match open_output can cwd fs p with
                         | None => (Some 1, fs)
                         | Some (place, fs') => (Some 0, put_node place (N_file report) fs')
                         end
             end
         end in
  match a with
  | A_help => after false None fs
  | A_error code => (Some code, fs)
  | A_run None => after config None fs
  | A_run (Some p) =>
      match ensure_file can cwd fs p with
      | Escapes => (None, fs)
      | Checked m _ fs' => if String.eqb m "" then after config (Some p) fs' else (Some 105, fs')
      end
  end.
