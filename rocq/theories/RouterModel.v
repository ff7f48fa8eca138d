(* A table of command handlers.  Models src/DRAMPower/DRAMPower/util/Router.h for
   commandEnum_t = CmdType.  The standards do not use it: they dispatch in a
   switch. *)
From Coq Require Import NArith List Bool.
From Verif Require Import Base Bits Command.
Import ListNotations.

(* static_cast<std::size_t>(cmd): the place of an enumerator in its enumeration,
   util/Router.h 41, 48; command/CmdType.h 15-40. *)
Fixpoint place (t : CmdType) (l : list CmdType) : nat :=
  match l with
  | [] => O
  | x :: r => if CmdType_beq t x then O else S (place t r)
  end.
Definition cmd_index (t : CmdType) : nat := place t all_cmd_types.

Section Router.
(* commandHandler_t, an std::function, util/Router.h 18: what it does to the world
   outside when it is called is left open; None is a function without target. *)
Variable H : Type.

(* m_router: util/Router.h 19, 58. *)
Definition router : Type := list (option H).

(* Router(defaultHandler): util/Router.h 31-33.  nop stands for the empty lambda
   that is taken when there is no default handler. *)
Definition router_new (nop : H) (default : option (option H)) : router :=
  repeat (match default with Some f => f | None => Some nop end) (cmd_index COUNT).

(* routeCommand<cmd>: util/Router.h 38-43. *)
Definition route_command (cmd : CmdType) (f : option H) (r : router) : result router :=
  if Nat.ltb (cmd_index cmd) (length r) then Value (upd (cmd_index cmd) (fun _ => f) r) else Fails Assertion.

(* executeCommand: util/Router.h 46-50; the handler it calls.  A function without
   target throws std::bad_function_call. *)
Definition execute_command (c : Command) (r : router) : result H :=
  match nth_error r (cmd_index (cmd_type c)) with
  | Some (Some f) => Value f
  | Some None => Fails Exception
  | None => Fails Assertion
  end.

(* size: util/Router.h 51-54. *)
Definition router_size (r : router) : nat := length r.
End Router.
Arguments router_new {H}.
Arguments route_command {H}.
Arguments execute_command {H}.
Arguments router_size {H}.
