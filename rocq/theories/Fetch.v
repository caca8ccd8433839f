(* How an attachment is fetched: getAttachment (/repo/attachments.go 24-38) and what handleSingleAttachment (98-112) does with
   the answer. url_ok says when url.Parse of the Go library accepts an address that begins with "https://", a host and a slash:
   the part before the first "#" has no control characters, and there every "%" before the first "?", and every "%" after the
   "#", is followed by two hexadecimal digits. This is from knowledge of that library, whose source is not in the repository: trusted. http.NewRequest fails exactly when it does not (the method is GET, there is no
   body); its error is not looked at, and line 29 writes to the request, which is then nil. Neither is the status of the answer.
   Not modelled: the time that fetching takes (the client has no limit). *)
From Coq Require Import ZArith List Bool.
From Verif Require Import Bytes Res Content Receiving Attachments.
Import ListNotations.
Open Scope Z_scope.

Fixpoint upto (c : Z) (b : bytes) : bytes := match b with [] => [] | x :: r => if x =? c then [] else x :: upto c r end.
Fixpoint after (c : Z) (b : bytes) : bytes := match b with [] => [] | x :: r => if x =? c then r else after c r end.
Definition ctl (c : Z) : bool := (c <? 32) || (c =? 127).
Definition ishex (c : Z) : bool := ((48 <=? c) && (c <=? 57)) || ((97 <=? c) && (c <=? 102)) || ((65 <=? c) && (c <=? 70)).
Fixpoint escapes_ok (b : bytes) : bool :=
  match b with
  | [] => true
  | c :: r => if c =? 37 then match r with h1 :: h2 :: t => ishex h1 && ishex h2 && escapes_ok t | _ => false end else escapes_ok r
  end.
Definition url_ok (url : bytes) : bool :=
  let u := upto 35 url in negb (existsb ctl u) && escapes_ok (upto 63 u) && escapes_ok (after 35 url).

(* the network: no answer, or a status and the body as far as it can be read *)
Inductive answer := NoAnswer (e : err) | Answered (status : Z) (body : res bytes).
Definition getAttachment (net : bytes -> answer) (url : bytes) : res bytes :=
  if url_ok url then match net url with NoAnswer e => Err e | Answered _ b => b end else Panic.
Definition fetch (net : bytes -> answer) (a : attptr) : res bytes := getAttachment net (attachment_location a).
Definition with_net (ou : outside) (net : bytes -> answer) : outside :=
  mkOutside (fetch net) (ou_group ou) (ou_known ou) (ou_crayfish ou) (ou_contacts ou) (ou_reply ou) (ou_verified ou).
