(* When the loop that reads a websocket gives the connection up: the read deadline, the pings and the pongs.
   websocket.go 20-32 (pongWait, pingPeriod), 108-141 (writeWorker), 156-229 (the loop of StartListening);
   crayfish/backend.go 42-56, 227-260 and 287-345 are the same for the connection to the helper.

   Times are milliseconds since the connection was made. The loop sets the read deadline 60 seconds ahead
   (line 159) and again only when a pong is read (160-164). A frame is read when the loop asks for one, that is
   when the frame before it has been handled. Asking the network when the deadline has passed gives an error
   even if bytes are waiting (net.Conn), and the loop returns it (167-172). Bytes that came with an earlier
   read lie in the buffer of the websocket library (ReadBufferSize 1024, line 58) and are had without asking
   the network; which frames came along with an earlier one is not determined by the code, so a frame carries a
   flag, a_with, that counts only if the frame had arrived when the network was last asked.
   Simplified: a frame arrives at one moment; the writes of writeWorker succeed (a failure closes the connection,
   Lost in Listener.v) and StopListening is not called. *)
From Coq Require Import ZArith List Bool.
Import ListNotations.
Open Scope Z_scope.

Definition pongWait : Z := 60000.                          (* websocket.go 25 *)
Definition pingPeriod : Z := pongWait * 9 / 10.            (* websocket.go 28 *)

Inductive frame : Type :=
| Pong                  (* the answer to a ping *)
| Request (work : Z)    (* a message of the server; handling and acknowledging it takes so long (182-225) *)
| Control               (* a ping of the server: answered by the library, the loop does not see it *)
| Bad.                  (* a close frame (167-172), or a message that is not a WebSocketMessage (174-181) *)

Record arrival : Type := mkArr { a_at : Z; a_frame : frame; a_with : bool }.

(* the loop (166-227), which is free at [free], with read deadline [dl], and last asked the network at [net]:
   the frames it reads with the time of reading, and when StartListening returns *)
Fixpoint listen (free dl net : Z) (l : list arrival) : list (Z * frame) * Z :=
  match l with
  | [] => ([], Z.max free dl)
  | a :: r =>
      let buffered := a_with a && (a_at a <=? net) in
      let s := if buffered then free else Z.max free (a_at a) in
      if buffered || (s <? dl) then
        let net' := if buffered then net else s in
        match a_frame a with
        | Pong => let '(rd, e) := listen s (s + pongWait) net' r in ((s, Pong) :: rd, e)
        | Request w => let '(rd, e) := listen (s + w) dl net' r in ((s, Request w) :: rd, e)
        | Control => let '(rd, e) := listen s dl net' r in ((s, Control) :: rd, e)
        | Bad => ([(s, Bad)], s)
        end
      else ([], Z.max free dl)
  end.

(* StartListening from the moment it is connected (156-164): writeWorker pings at multiples of pingPeriod (109, 131) *)
Definition connection (l : list arrival) : list (Z * frame) * Z := listen 0 pongWait 0 l.
Definition ping_time (k : Z) : Z := pingPeriod * k.
