(* C76: the table of command handlers. *)
From Coq Require Import NArith List Bool.
From Verif Require Import Base Bits Command RouterModel RouterProofs.
Import ListNotations.

(* Whatever is registered, in whatever order: a command calls the handler that was
   registered last for its type, or the default handler when there is none, and no
   other; a handler without target throws, and what is no command is refused. *)
Theorem C76_dispatch : forall H (nop : H) default rs, Forall (fun x => fst x <> COUNT) rs ->
  exists r, route_all rs (router_new nop default) = Value r /\ router_size r = 23 /\
    forall c, execute_command c r =
      if CmdType_beq (cmd_type c) COUNT then Fails Assertion
      else match last_for (cmd_type c) (match default with Some f => f | None => Some nop end) rs with Some f => Value f | None => Fails Exception end.
Proof. exact @router_dispatch. Qed.
Print Assumptions C76_dispatch.
Example C76_dispatch_case : exists r, route_all [(ACT, Some 1); (RD, None); (ACT, Some 2)] (router_new 0 (Some (Some 7))) = Value r /\
  map (fun t => execute_command (mkCommand 0 t 0 0 0 0 0 0 [] 0) r) [NOP; ACT; RD; END_OF_SIMULATION; COUNT] =
  [Value 7; Value 2; Fails Exception; Value 7; Fails Assertion].
Proof. eexists. split; reflexivity. Qed.

Theorem C76_no_command : forall H (r : router H) f, router_size r = 23 -> route_command COUNT f r = Fails Assertion.
Proof. exact @router_count. Qed.
Print Assumptions C76_no_command.
Example C76_no_command_case : router_size (router_new 0 None) = 23.
Proof. reflexivity. Qed.
