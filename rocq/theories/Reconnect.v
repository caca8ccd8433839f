(* The client over many connections: the server keeps a message until its acknowledgement has come and sends what it keeps
   over every new connection, first to last (the other side of websocket.go 144-229; StartListening is called again by the
   program when it has returned). What one connection does is AckQueue.v.
   Simplified: the server is not part of the repository; it is taken to keep messages in order, to send them in order, and
   to forget those whose acknowledgements reached it. Acknowledgements that were written may fail to reach it. *)
From Coq Require Import ZArith List.
From Verif Require Import AckQueue.
Import ListNotations.
Open Scope Z_scope.

(* life sent kept conns: after the connections conns (each: what it handled) of the messages sent, the server keeps kept *)
Inductive life : list Z -> list Z -> list (list Z) -> Prop :=
| life_start : life [] [] []
| life_more : forall sent kept conns new, life sent kept conns -> life (sent ++ new) (kept ++ new) conns
| life_conn : forall sent kept conns h k, life sent kept conns ->
    (exists rest, kept = as_arrived (arun ainit h) ++ rest) ->          (* what comes over the connection *)
    (k <= length (as_acks (arun ainit h)))%nat ->                       (* the acknowledgements that reach the server *)
    life sent (skipn k kept) (conns ++ [as_handled (arun ainit h)]).
