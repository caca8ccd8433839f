(* The remote attestation that precedes contact discovery. Model of
   /repo/contactsDiscovery/remoteAttestationUtil.go (quote.go is a comment only). *)
From Coq Require Import ZArith List Lia Bool.
From Verif Require Import Bytes Res Crypto Gcm Session Builder Contacts.
Import ListNotations.
Open Scope Z_scope.

(* RemoteAttestationResponse (25-35) *)
Record aresp := mkAresp { ar_eph : bytes; ar_static : bytes; ar_quote : bytes; ar_iv : bytes; ar_ct : bytes; ar_tag : bytes; ar_sig : bytes }.

(* the body of the answer: the JSON value null, something the decoder refuses, or a map of attestations, each of which
   may be null *)
Inductive abody := ANull | ARefused | AMap (l : list (bytes * option aresp)).

Section Attestation.
Variable C : crypto.
Variable G : gcm.

(* remoteAttestationKeys (144-169): client key and server key. NewECPublicKey panics unless it is given 32 bytes
   (/repo/axolotl/keys.go 28-32, 48-53). *)
Definition remoteAttestationKeys (kp : keypair) (eph stat : bytes) : res (bytes * bytes) :=
  if negb (length eph =? 32)%nat then Panic
  else if negb (length stat =? 32)%nat then Panic
  else
    let master := dh C (fst kp) eph ++ dh C (fst kp) stat in
    let publics := (snd kp ++ eph) ++ stat in
    let keys := hkdf C master publics [] 64 in
    Ok (firstn 32 keys, firstn 32 (skipn 32 keys)).

(* getRequestId (171-173) *)
Definition getRequestId (keys : bytes * bytes) (r : aresp) : res bytes :=
  AesgcmDecrypt G (snd keys) (ar_iv r) (ar_ct r) (ar_tag r).

(* validateAndBuildRemoteAttestation (115-142); the verification of the quote and of its signature is commented out
   (131-135), the name of the enclave is not used *)
Definition validateAndBuildRemoteAttestation (r : option aresp) (kp : keypair) : res attest :=
  match r with
  | None => Panic
  | Some r =>
      let* keys := remoteAttestationKeys kp (ar_eph r) (ar_static r) in
      let* id := getRequestId keys r in
      Ok (mkAttest id (fst keys) (snd keys))
  end.

(* the loop (94-110) *)
Fixpoint validateAll (l : list (bytes * option aresp)) (kp : keypair) : res (list (bytes * attest)) :=
  match l with
  | [] => Ok []
  | (k, r) :: t =>
      match validateAndBuildRemoteAttestation r kp with
      | Ok a => let* rest := validateAll t kp in Ok ((k, a) :: rest)
      | Err _ => validateAll t kp
      | Panic => Panic
      end
  end.

(* GetAndVerifyMultiRemoteAttestation (58-113): None is an error of the transport; the status is not looked at. null
   makes the pointer nil that line 90 follows. The map is a list in the order in which it is gone through. *)
Definition GetAndVerifyMultiRemoteAttestation (kp : keypair) (answer : option abody) : res (list (bytes * attest)) :=
  match answer with
  | None => Err EOther
  | Some ANull => Panic
  | Some ARefused => Err EBadFormat
  | Some (AMap l) =>
      if ((length l <? 1) || (3 <? length l))%nat then Err EOther else validateAll l kp
  end.
End Attestation.
