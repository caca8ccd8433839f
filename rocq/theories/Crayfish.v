(* Requests to the helper process: /repo/crayfish/envelope.go 10-50, avatar.go 10-56, register.go 41-86
   (HandleEnvelope, DecryptAvatar, CrayfishRegisterWithCode send a request and wait for the answer in the
   same four steps) and backend.go 222-352 (writeWorker, StartWebsocket, handleCrayfishResponseMessage).
   A transition system: the callers, the writer, the helper, the reader and the connection take steps in any
   order. The JSON texts of requests and answers are opaque; a request is identified with its text. *)
From Coq Require Import ZArith List Lia Bool.
From Verif Require Import Bytes.
Import ListNotations.
Open Scope Z_scope.

(* an answer: its type and its message *)
Definition resp := (Z * bytes)%type.

(* where a caller is: before `c.wsconn.send <- m` (envelope.go 33), before `c.receiveChannel = make(...)` (34),
   before c.receiveChannel is read in line 35, waiting on the channel read there, or after line 35 *)
Inductive pc := PSend | PMake | PEval | PRecv (ch : nat) | PDone (r : resp).
Record client := mkCl { c_req : bytes; c_pc : pc }.

Record cstate := mkC {
  rc : option nat;                 (* CrayfishInstance.receiveChannel *)
  bufs : list (option resp);       (* the channels made so far; each holds at most one answer *)
  sendq : list bytes;              (* Conn.send *)
  inflight : list bytes;           (* requests the helper has not answered yet *)
  incoming : list resp;            (* answers not read yet *)
  reader : option (nat * resp);    (* the reader blocked in `c.receiveChannel <- response` *)
  clients : list client }.
Definition init : cstate := mkC None [] [] [] [] None [].

Inductive event :=
  | EStart (r : bytes)   (* somebody makes a request *)
  | EClient (i : nat)    (* the i-th caller executes its next instruction *)
  | EWrite               (* writeWorker (222-259) sends a request *)
  | EAnswer (k : nat)    (* the helper answers the k-th request it has *)
  | EAck (m : bytes)     (* the helper sends an acknowledgement *)
  | ERead                (* StartWebsocket reads an answer (304-336) and handles it (360-366) *)
  | EUnblock             (* the blocked reader goes on *)
  | EReconnect.          (* the connection is lost and made again (260-303): a new Conn *)

Fixpoint set_nth {A} (i : nat) (x : A) (l : list A) : list A :=
  match i, l with
  | _, [] => []
  | O, _ :: t => x :: t
  | S i, y :: t => y :: set_nth i x t
  end.
Definition set_pc (i : nat) (c : client) (p : pc) (s : cstate) : list client := set_nth i (mkCl (c_req c) p) (clients s).
Definition remove_nth {A} (k : nat) (l : list A) : list A := firstn k l ++ skipn (S k) l.

(* one step; None if it is not possible (the process is blocked or has nothing to do) *)
Definition step (helper : bytes -> resp) (e : event) (s : cstate) : option cstate :=
  match e with
  | EStart r => Some (mkC (rc s) (bufs s) (sendq s) (inflight s) (incoming s) (reader s) (clients s ++ [mkCl r PSend]))
  | EClient i =>
      match nth_error (clients s) i with
      | None => None
      | Some c =>
          match c_pc c with
          | PSend => if Nat.ltb (length (sendq s)) 256
                     then Some (mkC (rc s) (bufs s) (sendq s ++ [c_req c]) (inflight s) (incoming s) (reader s) (set_pc i c PMake s))
                     else None
          | PMake => Some (mkC (Some (length (bufs s))) (bufs s ++ [None]) (sendq s) (inflight s) (incoming s) (reader s) (set_pc i c PEval s))
          | PEval => match rc s with
                     | Some ch => Some (mkC (rc s) (bufs s) (sendq s) (inflight s) (incoming s) (reader s) (set_pc i c (PRecv ch) s))
                     | None => None
                     end
          | PRecv ch => match nth_error (bufs s) ch with
                        | Some (Some r) => Some (mkC (rc s) (set_nth ch None (bufs s)) (sendq s) (inflight s) (incoming s) (reader s) (set_pc i c (PDone r) s))
                        | _ => None
                        end
          | PDone _ => None
          end
      end
  | EWrite => match sendq s with
              | m :: q => Some (mkC (rc s) (bufs s) q (inflight s ++ [m]) (incoming s) (reader s) (clients s))
              | [] => None
              end
  | EAnswer k => match nth_error (inflight s) k with
                 | Some m => Some (mkC (rc s) (bufs s) (sendq s) (remove_nth k (inflight s)) (incoming s ++ [helper m]) (reader s) (clients s))
                 | None => None
                 end
  | EAck m => Some (mkC (rc s) (bufs s) (sendq s) (inflight s) (incoming s ++ [(1, m)]) (reader s) (clients s))
  | ERead => match reader s, incoming s with
             | None, r :: q =>
                 match rc s with
                 | Some ch => if 1 <? fst r
                              then match nth_error (bufs s) ch with
                                   | Some None => Some (mkC (rc s) (set_nth ch (Some r) (bufs s)) (sendq s) (inflight s) q None (clients s))
                                   | _ => Some (mkC (rc s) (bufs s) (sendq s) (inflight s) q (Some (ch, r)) (clients s))
                                   end
                              else Some (mkC (rc s) (bufs s) (sendq s) (inflight s) q None (clients s))
                 | None => Some (mkC (rc s) (bufs s) (sendq s) (inflight s) q None (clients s))
                 end
             | _, _ => None
             end
  | EUnblock => match reader s with
                | Some (ch, r) => match nth_error (bufs s) ch with
                                  | Some None => Some (mkC (rc s) (set_nth ch (Some r) (bufs s)) (sendq s) (inflight s) (incoming s) None (clients s))
                                  | _ => None
                                  end
                | None => None
                end
  | EReconnect => match reader s with
                  | None => Some (mkC (rc s) (bufs s) [] [] [] None (clients s))
                  | Some _ => None
                  end
  end.

Fixpoint run (helper : bytes -> resp) (es : list event) (s : cstate) : option cstate :=
  match es with
  | [] => Some s
  | e :: es => match step helper e s with Some s' => run helper es s' | None => None end
  end.

(* only one request at a time: nobody starts one while another is waiting *)
Definition finished (s : cstate) : Prop := forall c, In c (clients s) -> exists r, c_pc c = PDone r.
Fixpoint sequential (helper : bytes -> resp) (es : list event) (s : cstate) : Prop :=
  match es with
  | [] => True
  | e :: es => match e with EStart _ => finished s | _ => True end
               /\ match step helper e s with Some s' => sequential helper es s' | None => True end
  end.
