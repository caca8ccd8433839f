(* Group credentials: /repo/groupsv2/credentials.go 22-80. The clock and the server are arguments; a
   credential is its redemption day and its bytes. Days are days since 1970 (getToday, 34-36). *)
From Coq Require Import ZArith List Lia Bool.
From Verif Require Import Bytes Res.
Import ListNotations.
Open Scope Z_scope.

Definition credential := (Z * bytes)%type.
(* var Credentials (32): nil at start *)
Definition cache := option (list credential).

(* GetGroupAuthCredentials (66-80): a transport or server error leaves the cache alone; the error of
   Decode (77) is ignored, so an answer that cannot be decoded counts as an empty one *)
Inductive reply := RFail (e : err) | RGarbage | RCreds (l : list credential).
Definition GetGroupAuthCredentials (serve : Z -> Z -> reply) (a b : Z) (c : cache) : res unit * cache :=
  match serve a b with
  | RFail e => (Err e, c)
  | RGarbage => (Ok tt, Some [])
  | RCreds l => (Ok tt, Some l)
  end.

(* GetCredentialForRedemption (38-54) *)
Definition GetCredentialForRedemption (serve : Z -> Z -> reply) (today day : Z) (c : cache) : res credential * cache :=
  let (r, c1) := match c with
                 | None => GetGroupAuthCredentials serve today (today + 7) c
                 | Some _ => (Ok tt, c)
                 end in
  match r with
  | Ok _ => (match find (fun x : credential => fst x =? day) (match c1 with Some l => l | None => [] end) with
             | Some x => Ok x
             | None => Err ENotFound
             end, c1)
  | Err e => (Err e, c1)
  | Panic => (Panic, c1)
  end.
(* GetCredentialForToday (56-64) *)
Definition GetCredentialForToday (serve : Z -> Z -> reply) (today : Z) (c : cache) : res credential * cache :=
  GetCredentialForRedemption serve today today c.

(* a process that asks for a credential on the given days *)
Fixpoint run (serve : Z -> Z -> reply) (days : list Z) (c : cache) : list (res credential) * cache :=
  match days with
  | [] => ([], c)
  | d :: t => let (r, c1) := GetCredentialForToday serve d c in let (l, c2) := run serve t c1 in (r :: l, c2)
  end.
