(* The command line program on top of the library: the messages that the library hands to messageHandler, and the lines
   that are typed (/repo/cmd/textsecure/main.go 98-106, 187-205, 218-265; bufio.Reader of the Go library). *)
From Coq Require Import ZArith List Lia Bool.
From Verif Require Import Bytes Res Receiving Gateway.
Import ListNotations.
Open Scope Z_scope.

(* ---- messages ---- *)

(* What the handler sees of a message of the library (/repo/handler.go 90-106, 140-145, message.go 15): Group is always nil *)
Definition cmsg_of (m : message) : cmsg := mkCmsg (m_source m) None (m_group m) (m_text m) (m_atts m).
(* the messages handed over while listening (/repo/handler.go 108-110, 147-149), in order *)
Definition handed_over (tr : list trace) : list message :=
  flat_map (fun x => match x with TAct (ACall (HMessage m)) => [m] | _ => [] end) tr.
(* the program with its handler, given the frames that arrive; cur is the variable to *)
Definition attached C (f : flags) (sk : bytes) (st : rstate) (fs : list frame) (cur : bytes) : bytes * list (list effect) :=
  messages f (map cmsg_of (handed_over (fst (fst (listen C sk st fs))))) cur.

(* ---- lines ---- *)

(* What is typed or piped: the pieces that successive reads give, as far as there is room for them *)
Definition input := list bytes.
(* the bytes up to and with the first newline *)
Fixpoint upto_newline (b : bytes) : option bytes :=
  match b with
  | [] => None
  | c :: r => if c =? 10 then Some [10] else option_map (cons c) (upto_newline r)
  end.
Inductive slice := Line (b : bytes) | Full (b : bytes) | Eof (b : bytes).
(* bufio.Reader.ReadSlice('\n') with a buffer of 4096 bytes, of which buf are filled *)
Definition room : nat := 4096.
Fixpoint readSlice (buf : bytes) (i : input) : slice * input :=
  match upto_newline buf with
  | Some l => (Line l, i)
  | None =>
      if (room <=? length buf)%nat then (Full buf, i)
      else match i with
      | [] => (Eof buf, [])
      | c :: r =>
          let k := (room - length buf)%nat in
          if (length c <=? k)%nat then readSlice (buf ++ c) r
          else
            let buf' := buf ++ firstn k c in
            (match upto_newline buf' with Some l => Line l | None => Full buf' end, skipn k c :: r)
      end
  end.
(* bufio.Reader.ReadLine: the newline is cut off, and a carriage return before it *)
Definition chop (l : bytes) : bytes :=
  let l1 := removelast l in
  match rev l1 with 13 :: r => rev r | _ => l1 end.
(* readLine (98-106): every call makes a new reader, so what the buffer holds beyond the line is lost; whether the line was
   complete is not looked at. None is log.Fatal, which ends the program. *)
Definition readLine (i : input) : option bytes * input :=
  match readSlice [] i with
  | (Line l, r) => (Some (chop l), r)
  | (Full b, r) => (Some (match rev b with 13 :: t => rev t | _ => b end), r)
  | (Eof [], r) => (None, r)
  | (Eof b, r) => (Some b, r)
  end.
(* conversationLoop (187-205): the messages that are sent until the input ends and with it the program; None if it has not
   ended after so many lines *)
Fixpoint conversation (fuel : nat) (i : input) : option (list bytes) :=
  match fuel with
  | O => None
  | S n =>
      match readLine i with
      | (None, _) => Some []
      | (Some [], r) => conversation n r
      | (Some l, r) => option_map (cons l) (conversation n r)
      end
  end.
