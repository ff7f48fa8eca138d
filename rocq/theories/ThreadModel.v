(* The two threads of the CSV reader: read_row in the main thread, and the thread that
   reads a chunk.  Models src/cli/lib/DRAMPower/cli/csv.hpp, cited below as C, for
   every interleaving of the two.

   What the threads share are the queue of rows, the flag is_waitable and the flag
   _eof.  All accesses take effect at once and in the order of the program: the code
   reads empty(), is_waitable() and eof() without the lock, which the C++ memory model
   leaves undefined; here the hardware is taken to be kind. *)
From Coq Require Import NArith List Bool Ascii Arith.
From Verif Require Import Base Bits CsvModel ChunkModel.
Import ListNotations.

(* Where read_row is: before empty(), is_waitable(), inside wait(), before eof(),
   join() and the start of a thread, C 7519-7554; or the loop of run.cpp 119 is over. *)
Inductive consumer := AtEmpty | AtWaitable | Waiting | AtEof | AtJoin | AtStart | Over.
(* Where the reading thread is: read_csv, C 7488-7503, and next, C 7094-7121.  It has
   ended; has not begun; has called notify_all; pushes the rows of parse(), then those
   of end_feed(); or next() has failed, which ends the program. *)
Inductive producer := Ended | Begun | Notified | Parsing (l : list row) (r : read_chunk) | Feeding (l : list row) | Failed (e : failure).
(* The reader: main thread, reading thread, the queue (C 6397), is_waitable (C 5999),
   the parser, and the rows that run.cpp 119 has got. *)
Record threads := mkThreads { th_main : consumer; th_worker : producer; th_queue : list row; th_waitable : bool; th_parser : parser; th_out : list row }.
(* _notify_size: C 6397, 5920. *)
Definition notify_size : nat := 100.

(* One step of read_row and of the loop around it: C 7519-7554; wait(): C 5966-5975.
   None: over, or waiting for the other thread, or the program has been ended. *)
Definition main_step (s : threads) : option threads :=
  let at_ m := Some (mkThreads m (th_worker s) (th_queue s) (th_waitable s) (th_parser s) (th_out s)) in
  match th_worker s with
  | Failed _ => None
  | _ =>
    match th_main s with
    | AtEmpty => match th_queue s with
                 | [] => at_ AtWaitable
                 | x :: q => Some (mkThreads AtEmpty (th_worker s) q (th_waitable s) (th_parser s) (th_out s ++ [x]))
                 end
    | AtWaitable => if th_waitable s then at_ Waiting else at_ AtEof
    | Waiting => if Nat.leb notify_size (length (th_queue s)) || negb (th_waitable s) then at_ AtEmpty else None
    | AtEof => if ps_eof (th_parser s) then at_ Over else at_ AtJoin
    | AtJoin => match th_worker s with Ended => at_ AtStart | _ => None end
    | AtStart => Some (mkThreads AtEmpty Begun (th_queue s) (th_waitable s) (th_parser s) (th_out s))
    | Over => None
    end
  end.
(* One step of the reading thread: C 7488-7503, 7094-7121; push_back: C 5944-5951;
   notify_all and kill_all: C 5985-5996.  Only the reading thread uses mmap_pos and
   what else of the parser outlives next(), so these change together with _eof. *)
Definition worker_step (f : source) (s : threads) : option threads :=
  let at_ w := mkThreads (th_main s) w (th_queue s) (th_waitable s) (th_parser s) (th_out s) in
  let push x w := mkThreads (th_main s) w (th_queue s ++ [x]) (th_waitable s) (th_parser s) (th_out s) in
  match th_worker s with
  | Ended => None
  | Begun => Some (mkThreads (th_main s) Notified (th_queue s) true (th_parser s) (th_out s))
  | Notified => match next f (th_parser s) with Value r => Some (at_ (Parsing (rc_rows r) r)) | Fails e => Some (at_ (Failed e)) end
  | Parsing (x :: l) r => Some (push x (Parsing l r))
  | Parsing [] r => Some (mkThreads (th_main s) (Feeding (rc_end r)) (th_queue s) (th_waitable s) (rc_parser r) (th_out s))
  | Feeding (x :: l) => Some (push x (Feeding l))
  | Feeding [] => Some (mkThreads (th_main s) Ended (th_queue s) false (th_parser s) (th_out s))
  | Failed _ => None
  end.
(* The scheduler chooses: true for the main thread.  (No counterpart in the code.) *)
Definition thread_step (f : source) (main : bool) (s : threads) : option threads := if main then main_step s else worker_step f s.
(* A schedule, from a state.  (No counterpart in the code.) *)
Fixpoint schedule (f : source) (l : list bool) (s : threads) : option threads :=
  match l with
  | [] => Some s
  | b :: l => match thread_step f b s with Some s1 => schedule f l s1 | None => None end
  end.
(* The loop over the rows begins: the thread of the constructor is joined at once
   (C 6419-6422), and so is the one of begin() (C 7565-7575). *)
Definition opened (f : source) : result threads :=
  match next f parser0 with
  | Fails e => Fails e
  | Value r =>
      match rc_all r with
      | [] => match next f (rc_parser r) with
              | Fails e => Fails e
              | Value r2 => Value (mkThreads (match rc_all r2 with [] => Over | _ => AtEmpty end) Ended (rc_all r2) false (rc_parser r2) [])
              end
      | l => Value (mkThreads AtEmpty Ended l false (rc_parser r) [])
      end
  end.
(* Neither thread can go on.  (No counterpart in the code.) *)
Definition at_rest (f : source) (s : threads) : Prop := main_step s = None /\ worker_step f s = None.
