(* One connection to the server with its two goroutines and the channel between them: the loop of StartListening reads,
   handles and queues acknowledgements, writeWorker writes them. websocket.go 77-99 (sendAck; 97: c.send <- b), 102-105
   (write, which fails after writeWait), 108-141 (writeWorker), 144-229 (StartListening; 147: the channel holds 256),
   236-246 (StopListening).

   A request is named by its number. What handling does is the subject of Receiving.v, when the deadline of reading
   passes that of Alive.v (here: Break).
   Simplified: only one call of StartListening (several share wsconn, Listener.v); frames that are not requests, and
   frames that do not parse (which end the loop like an error of reading), are left out. *)
From Coq Require Import ZArith List Bool.
Import ListNotations.
Open Scope Z_scope.

Definition channel_size : nat := 256%nat.     (* websocket.go 147 *)

Inductive reader : Type :=
| RRead                  (* in ReadMessage, 167 *)
| RHandle (id : Z)       (* 183-217 *)
| RSend (id : Z)         (* in sendAck, 219 *)
| RDone.                 (* StartListening has returned *)
Inductive writer : Type :=
| WSelect                (* in select, 116 *)
| WWriting (m : option Z) (* in write: an acknowledgement (125) or a ping (133) *)
| WDone.

Record astate : Type := mkA {
  as_reader : reader;
  as_writer : writer;
  as_queue : list Z;       (* the channel, first to be taken first *)
  as_open : bool;
  as_arrived : list Z;     (* the requests that came over the connection *)
  as_in : list Z;          (* those of them not yet read *)
  as_handled : list Z;
  as_acks : list Z }.      (* acknowledgements written *)

Inductive aevent : Type :=
| Arrive (id : Z)        (* the server sends a request *)
| Loop (lf : bool)     (* the loop goes on, if it can; lf: of a closed connection, a frame in the read buffer is had *)
| Worker                 (* writeWorker takes the next acknowledgement *)
| Tick                   (* writeWorker takes the tick *)
| Written (ok : bool)    (* the write of writeWorker returns *)
| Break                  (* the connection breaks, is closed by the server, or the time for reading is over *)
| Stop.                  (* StopListening *)

Definition astep (s : astate) (e : aevent) : astate :=
  let closed := mkA (as_reader s) (as_writer s) (as_queue s) false (as_arrived s) (as_in s) (as_handled s) (as_acks s) in
  match e with
  | Arrive id =>
      if as_open s then mkA (as_reader s) (as_writer s) (as_queue s) true (as_arrived s ++ [id]) (as_in s ++ [id]) (as_handled s) (as_acks s)
      else s
  | Loop lf =>
      match as_reader s with
      | RRead =>
          (* an error: return, and the deferred Close (154, 172) *)
          let give_up := mkA RDone (as_writer s) (as_queue s) false (as_arrived s) (as_in s) (as_handled s) (as_acks s) in
          match as_in s with
          | id :: r => if as_open s || lf then mkA (RHandle id) (as_writer s) (as_queue s) (as_open s) (as_arrived s) r (as_handled s) (as_acks s)
                       else give_up
          | [] => if as_open s then s else give_up
          end
      | RHandle id => mkA (RSend id) (as_writer s) (as_queue s) (as_open s) (as_arrived s) (as_in s) (as_handled s ++ [id]) (as_acks s)
      | RSend id =>
          if Nat.ltb (length (as_queue s)) channel_size
          then mkA RRead (as_writer s) (as_queue s ++ [id]) (as_open s) (as_arrived s) (as_in s) (as_handled s) (as_acks s)
          else s
      | RDone => s
      end
  | Worker =>
      match as_writer s, as_queue s with
      | WSelect, id :: q => mkA (as_reader s) (WWriting (Some id)) q (as_open s) (as_arrived s) (as_in s) (as_handled s) (as_acks s)
      | _, _ => s
      end
  | Tick =>
      match as_writer s with
      | WSelect => mkA (as_reader s) (WWriting None) (as_queue s) (as_open s) (as_arrived s) (as_in s) (as_handled s) (as_acks s)
      | _ => s
      end
  | Written ok =>
      match as_writer s with
      | WWriting m =>
          if as_open s && ok
          then mkA (as_reader s) WSelect (as_queue s) true (as_arrived s) (as_in s) (as_handled s)
                 (as_acks s ++ match m with Some id => [id] | None => [] end)
          else mkA (as_reader s) WDone (as_queue s) false (as_arrived s) (as_in s) (as_handled s) (as_acks s)   (* 110-114 *)
      | _ => s
      end
  | Break | Stop => closed
  end.
Definition arun (s : astate) (h : list aevent) : astate := fold_left astep h s.
(* connected, the worker started *)
Definition ainit : astate := mkA RRead WSelect [] true [] [] [] [].
