(* The safety number of a peer: /repo/store.go 235-238 MyIdentityKey, 250-265 ContactIdentityKey, 267-282 GetFingerprint.
   The file with the identity key of a peer is w_ids (Builder.v); that a damaged file is an error is C25. *)
From Coq Require Import ZArith List Lia Bool.
From Verif Require Import Bytes Res Messages Builder Sending Fingerprint.
Import ListNotations.
Open Scope Z_scope.

(* 235-238 *)
Definition MyIdentityKey (w : world) : bytes := key_ser (snd (w_ident w)).
(* 250-265: the name is cleaned by recID; without a file UnknownContactError *)
Definition ContactIdentityKey (w : world) (id : bytes) : res bytes :=
  let* clean := recID id in
  match w_ids w clean with Some b => Ok (5 :: b) | None => Err ENotFound end.
(* 267-282: the local identifier is the number in the configuration, the other one is given by the caller *)
Definition GetFingerprint (H : bytes -> bytes) (w : world) (tel uuid ident : bytes) : res (list bytes * bytes) :=
  let* rk := ContactIdentityKey w uuid in
  CreateFingerprintSimple H 1 tel (MyIdentityKey w) ident rk.
