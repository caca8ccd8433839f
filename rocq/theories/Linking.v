(* Linking other devices to the account: the provisioning message, the verification code that is kept
   between attempts, and the list of linked devices. Model of /repo/link.go, of /repo/crypto.go 130-169 and
   of /repo/server.go 420-509. *)
From Coq Require Import ZArith List Lia Bool.
From Verif Require Import Bytes Res Wire Crypto Cbc Session Builder RecordCodec Encodings.
Import ListNotations.
Open Scope Z_scope.

Section Linking.
Variable C : crypto.

(* what addNewDevice reads from the globals identityKey and config.ConfigFile *)
Record account := mkAccount { ac_pub : bytes; ac_priv : bytes; ac_uuid : bytes; ac_tel : bytes }.

(* the ProvisionMessage of /repo/server.go 480-486 (field numbers: protobuf/Provisioning.pb.go 199-210);
   IdentityKey.Serialize puts the byte 5 in front of the public key (axolotl/keys.go 62-64) *)
Definition provision_slots (a : account) (code : bytes) : slots :=
  [(1, [WLen (5 :: ac_pub a)]); (2, [WLen (ac_priv a)]); (3, [WLen (ac_tel a)]); (4, [WLen code]); (8, [WLen (ac_uuid a)])].

(* "TextSecure Provisioning Message" *)
Definition provisioning_info : bytes :=
  [84;101;120;116;83;101;99;117;114;101;32;80;114;111;118;105;115;105;111;110;105;110;103;32;77;101;115;115;97;103;101].

(* provisioningCipher (/repo/crypto.go 131-169), with the new key pair and the random iv as arguments *)
Definition provisioningCipher (ours : keypair) (iv : bytes) (pm : slots) (their : bytes) : res bytes :=
  let secret := hkdf C (dh C (fst ours) their) [] provisioning_info 64 in
  let aesKey := firstn 32 secret in
  let macKey := skipn 32 secret in
  let* ct := aesEncrypt C aesKey iv (marshal pm) in
  let body := [1] ++ ct ++ hmac C macKey ([1] ++ ct) in
  Ok (marshal [(1, [WLen (5 :: snd ours)]); (2, [WLen body])]).

(* transport.Transport.PutJSON: None is an error of the transport, Some the status of the answer;
   response.IsError (/repo/transport/transport.go 65-67) *)
Definition bad_status (s : Z) : bool := (s <? 200) || (300 <=? s).
Definition put_result (r : option Z) : res unit :=
  match r with
  | None => Err EOther
  | Some s => if bad_status s then Err (EServer s) else Ok tt
  end.

(* addNewDevice (/repo/server.go 472-509): what is put to /v1/provisioning/<ephemeralId>, and the result *)
Definition addNewDevice (a : account) (ours : keypair) (iv eph key code : bytes) (put : option Z)
  : option (bytes * bytes) * res unit :=
  match decodeKey key with
  | Err e => (None, Err e)
  | Panic => (None, Panic)
  | Ok pk =>
      match provisioningCipher ours iv (provision_slots a code) pk with
      | Err e => (None, Err e)
      | Panic => (None, Panic)
      | Ok ct => (Some (eph, enc64 ct), put_result put)
      end
  end.

(* getNewDeviceVerificationCode (/repo/server.go 424-434): neither the status of the answer nor the error of
   the decoder is looked at; a body without a code gives the empty one *)
Definition getCode (r : option (Z * option bytes)) : res bytes :=
  match r with
  | None => Err EOther
  | Some (_, Some code) => Ok code
  | Some (_, None) => Ok []
  end.

(* The global code2 (/repo/link.go 11), the pending timers that will clear it (29-33), and the clock, in
   seconds. A timer fires on time. *)
Record lstate := mkL { l_code : bytes; l_timers : list nat; l_now : nat }.
Definition lstart : lstate := mkL [] [] 0.

Inductive act :=
| Second
| Link (eph key : bytes) (ours : keypair) (iv : bytes) (get : option (Z * option bytes)) (put : option Z).

(* one call of AddNewLinkedDevice as seen from outside: when, the code the server gave during the call, the
   code in the message and the message that was sent, and the result *)
Record obs := mkObs { o_at : nat; o_got : option bytes; o_code : option bytes; o_sent : option (bytes * bytes); o_res : res unit }.

(* a second passes: /repo/link.go 30-33 in every goroutine whose timer fires *)
Definition second (s : lstate) : lstate :=
  let t := map pred (l_timers s) in
  mkL (if existsb (Nat.eqb 0) t then [] else l_code s) (filter (fun n => negb (Nat.eqb 0 n)) t) (S (l_now s)).

Definition sent_code (x : option (bytes * bytes)) (code : bytes) : option bytes :=
  match x with Some _ => Some code | None => None end.

(* AddNewLinkedDevice (/repo/link.go 14-35) *)
Definition AddNewLinkedDevice (a : account) (eph key : bytes) (ours : keypair) (iv : bytes)
    (get : option (Z * option bytes)) (put : option Z) (s : lstate) : lstate * obs :=
  let go (code : bytes) (got : option bytes) :=
    let '(sent, r) := addNewDevice a ours iv eph key code put in
    (mkL code (match r with Ok _ => 10%nat :: l_timers s | _ => l_timers s end) (l_now s),
     mkObs (l_now s) got (sent_code sent code) sent r) in
  match l_code s with
  | [] =>
      match getCode get with
      | Ok code => go code (Some code)
      | Err e => (s, mkObs (l_now s) None None None (Err e))
      | Panic => (s, mkObs (l_now s) None None None Panic)
      end
  | code => go code None
  end.

Definition lstep (a : account) (x : act) (s : lstate) : lstate * list obs :=
  match x with
  | Second => (second s, [])
  | Link eph key ours iv get put =>
      let '(s', o) := AddNewLinkedDevice a eph key ours iv get put s in (s', [o])
  end.
Fixpoint lrun (a : account) (l : list act) (s : lstate) : lstate * list obs :=
  match l with
  | [] => (s, [])
  | x :: r => let '(s1, o1) := lstep a x s in let '(s2, o2) := lrun a r s1 in (s2, o1 ++ o2)
  end.

(* ---- the devices of the account ---- *)

(* unlinkDevice (/repo/server.go 464-470); UnlinkDevice (/repo/textsecure.go 120-122) *)
Definition unlinkDevice (r : option Z) : res unit :=
  match r with None => Err EOther | Some _ => Ok tt end.

(* the body of an answer: the JSON value null, a list, or something the decoder stops at, after having stored
   the devices before *)
Inductive listing (A : Type) := LNull | LList (l : list A) | LBroken (l : list A).
Arguments LNull {A}.
Arguments LList {A} l.
Arguments LBroken {A} l.
(* getLinkedDevices (/repo/server.go 446-462). json stores null into the pointer whose address it is given;
   line 461 then follows the nil pointer. *)
Definition getLinkedDevices {A} (r : option (Z * listing A)) : res (list A) :=
  match r with
  | None => Err EOther
  | Some (_, LNull) => Panic
  | Some (_, LList l) => Ok l
  | Some (_, LBroken l) => Ok l
  end.
End Linking.
Arguments LNull {A}.
Arguments LList {A} l.
Arguments LBroken {A} l.
