(* Starting and stopping to listen: the connections to the server and the one global variable that names
   the current one. websocket.go 33-44 (Conn, wsconn), 77-99 (sendAck), 108-141 (writeWorker), 144-230
   (StartListening), 237-247 (StopListening).

   Every call of StartListening makes a connection and runs a loop; the n-th call makes connection n and
   loop n. wsconn is the connection of the last call. The loop goes through wsconn, not through the
   connection it made, each time it reads and each time it acknowledges. What handling a message does is
   the subject of Receiving.v; here it is one step, and a request is named by its number.
   Simplified: the channel of acknowledgements has no bound (that is in AckQueue.v); deadlines and pings are in
   Alive.v, a connection lost for whatever reason is the event Lost; frames that are not requests, and
   frames that do not parse (which end the loop like a loss), are left out. *)
From Coq Require Import ZArith List Lia Bool.
Import ListNotations.
Open Scope Z_scope.

Record conn : Type := mkConn {
  c_dialed : bool;        (* ws is not nil *)
  c_open : bool;
  c_arrived : list Z;     (* the requests the server has sent over it, first to last *)
  c_in : list Z;          (* those not yet read *)
  c_send : list Z;        (* acknowledgements waiting in the channel *)
  c_acks : list Z;        (* acknowledgements written to it, first to last *)
  c_writer : bool }.      (* a writeWorker runs *)
Definition new_conn : conn := mkConn false false [] [] [] [] false.

Inductive loop : Type :=
| LNone                          (* not started *)
| LDial                          (* in connect *)
| LRead (d : nat)                (* at the head of the loop; d is the connection to be closed on return *)
| LBlocked (d k : nat)           (* in ReadMessage of connection k *)
| LHandle (d k : nat) (id : Z)   (* handling request id, read from connection k *)
| LDone.

Record lstate : Type := mkL {
  l_conn : nat -> conn;
  l_loop : nat -> loop;
  l_n : nat;                          (* calls of StartListening so far; wsconn is connection l_n - 1 *)
  l_handled : list (nat * Z);         (* the requests handled, with the connection they came over *)
  l_dead : bool }.

Inductive levent : Type :=
| Start                          (* StartListening is called *)
| Dial (l : nat) (ok : bool)     (* connect of loop l returns *)
| Stop                           (* StopListening is called *)
| Arrive (k : nat) (id : Z)      (* the server sends a request over connection k *)
| Lost (k : nat)                 (* connection k breaks *)
| Step (l : nat)                 (* loop l goes on *)
| Write (k : nat).               (* the writeWorker of connection k takes the next acknowledgement *)

Definition upd {A} (f : nat -> A) (i : nat) (a : A) : nat -> A := fun j => if Nat.eqb j i then a else f j.

Definition close (c : conn) : conn :=
  mkConn (c_dialed c) false (c_arrived c) (c_in c) (c_send c) (c_acks c) (c_writer c).

Definition cur (s : lstate) : nat := Nat.pred (l_n s).

Definition lstep (s : lstate) (e : levent) : lstate :=
  if l_dead s then s else
  let with_loop l t := mkL (l_conn s) (upd (l_loop s) l t) (l_n s) (l_handled s) false in
  match e with
  (* 147: wsconn = &Conn{...} *)
  | Start => mkL (upd (l_conn s) (l_n s) new_conn) (upd (l_loop s) (l_n s) LDial) (S (l_n s)) (l_handled s) false
  | Dial l ok =>
      match l_loop s l with
      | LDial =>
          if ok then
            (* 72: ws of its own connection is set; 154-165: all that follows goes through wsconn *)
            let c := l_conn s l in
            let cs := upd (l_conn s) l (mkConn true true (c_arrived c) (c_in c) (c_send c) (c_acks c) (c_writer c)) in
            let g := cs (cur s) in
            if c_dialed g
            then mkL (upd cs (cur s) (mkConn true (c_open g) (c_arrived g) (c_in g) (c_send g) (c_acks g) true))
                   (upd (l_loop s) l (LRead (cur s))) (l_n s) (l_handled s) false
            else mkL cs (l_loop s) (l_n s) (l_handled s) true    (* SetReadDeadline of a nil ws *)
          else with_loop l LDone
      | _ => s
      end
  (* 237-247 *)
  | Stop =>
      if Nat.eqb (l_n s) 0 then s else
      if c_dialed (l_conn s (cur s))
      then mkL (upd (l_conn s) (cur s) (close (l_conn s (cur s)))) (l_loop s) (l_n s) (l_handled s) false
      else s
  | Arrive k id =>
      let c := l_conn s k in
      if c_open c
      then mkL (upd (l_conn s) k (mkConn (c_dialed c) true (c_arrived c ++ [id]) (c_in c ++ [id]) (c_send c)
             (c_acks c) (c_writer c))) (l_loop s) (l_n s) (l_handled s) false
      else s
  | Lost k => mkL (upd (l_conn s) k (close (l_conn s k))) (l_loop s) (l_n s) (l_handled s) false
  | Step l =>
      match l_loop s l with
      (* 168: wsconn.ws.ReadMessage() *)
      | LRead d =>
          if c_dialed (l_conn s (cur s)) then with_loop l (LBlocked d (cur s))
          else mkL (l_conn s) (l_loop s) (l_n s) (l_handled s) true
      | LBlocked d k =>
          let c := l_conn s k in
          if c_open c then
            match c_in c with
            | [] => s
            | id :: t =>
                mkL (upd (l_conn s) k (mkConn (c_dialed c) true (c_arrived c) t (c_send c) (c_acks c) (c_writer c)))
                  (upd (l_loop s) l (LHandle d k id)) (l_n s) (l_handled s) false
            end
          else (* 169-174: returns; 154: closes *)
            mkL (upd (l_conn s) d (close (l_conn s d))) (upd (l_loop s) l LDone) (l_n s) (l_handled s) false
      (* 187-219 *)
      | LHandle d k id =>
          let c := l_conn s (cur s) in
          mkL (upd (l_conn s) (cur s) (mkConn (c_dialed c) (c_open c) (c_arrived c) (c_in c) (c_send c ++ [id])
                 (c_acks c) (c_writer c)))
            (upd (l_loop s) l (LRead d)) (l_n s) (l_handled s ++ [(k, id)]) false
      | _ => s
      end
  (* 115-128 *)
  | Write k =>
      let c := l_conn s k in
      if c_writer c then
        match c_send c with
        | [] => s
        | id :: t =>
            if c_open c
            then mkL (upd (l_conn s) k (mkConn (c_dialed c) true (c_arrived c) (c_in c) t (c_acks c ++ [id]) true))
                   (l_loop s) (l_n s) (l_handled s) false
            else mkL (upd (l_conn s) k (mkConn (c_dialed c) false (c_arrived c) (c_in c) t (c_acks c) false))
                   (l_loop s) (l_n s) (l_handled s) false
        end
      else s
  end.

Definition lrun (s : lstate) (h : list levent) : lstate := fold_left lstep h s.
Definition linit : lstate := mkL (fun _ => new_conn) (fun _ => LNone) 0 [] false.

(* what StopListening returns: nil, or ErrNotListening *)
Definition stop_ok (s : lstate) : bool := negb (Nat.eqb (l_n s) 0).
