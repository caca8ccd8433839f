(* AES-GCM (crypto/cipher of the Go library) as a primitive: the two operations, the laws used, and a toy
   instance. Used by /repo/crypto/aesgcm.go, /repo/profiles and /repo/contactDiscoveryCrypto. *)
From Coq Require Import ZArith List Lia Bool.
From Verif Require Import Bytes Res Crypto.
Import ListNotations.
Open Scope Z_scope.

(* key, nonce, additional data, plain text / cipher text with the tag at the end *)
Record gcm := mkGcm {
  seal : bytes -> bytes -> bytes -> bytes -> bytes;
  gopen : bytes -> bytes -> bytes -> bytes -> option bytes }.

Record gcm_ok (G : gcm) : Prop := {
  seal_length : forall k n a p, length (seal G k n a p) = (length p + 16)%nat;
  seal_wf : forall k n a p, wfb p -> wfb (seal G k n a p);
  gopen_seal : forall k n a p, gopen G k n a (seal G k n a p) = Some p;
  gopen_only : forall k n a c p, gopen G k n a c = Some p -> c = seal G k n a p }.

(* the plain text in front of a hash of everything *)
Definition toy_tag (k n a p : bytes) : bytes :=
  toy_expand 16 (toy_hash (toy_hash (toy_hash (toy_hash 17 k) n) a) p).
Definition toy_seal (k n a p : bytes) : bytes := p ++ toy_tag k n a p.
Definition toy_open (k n a c : bytes) : option bytes :=
  let p := firstn (length c - 16) c in
  if beq c (toy_seal k n a p) then Some p else None.
Definition toygcm : gcm := mkGcm toy_seal toy_open.

Lemma toygcm_ok : gcm_ok toygcm.
Proof.
  constructor; cbn [toygcm seal gopen].
  - intros. unfold toy_seal, toy_tag. now rewrite app_length, toy_expand_length.
  - intros. apply Forall_app. split; [assumption|apply toy_expand_wf].
  - intros. unfold toy_open.
    assert (E : firstn (length (toy_seal k n a p) - 16) (toy_seal k n a p) = p).
    { unfold toy_seal at 1. rewrite app_length. unfold toy_tag at 1. rewrite toy_expand_length.
      replace (length p + 16 - 16)%nat with (length p) by lia. apply firstn_app_exact. reflexivity. }
    rewrite E, beq_refl. reflexivity.
  - intros k n a c p. unfold toy_open. destruct (beq _ _) eqn:E; [|discriminate].
    apply beq_eq in E. intros [= <-]. exact E.
Qed.

(* AesgcmEncrypt (/repo/crypto/aesgcm.go 29-39): Seal panics unless the nonce has 12 bytes *)
Definition AesgcmEncrypt (G : gcm) (key nonce input : bytes) : res bytes :=
  if negb (aes_key_ok key) then Err EKeySize
  else if negb (length nonce =? 12)%nat then Panic
  else Ok (seal G key nonce [] input).
(* AesgcmDecrypt (11-24); Open panics likewise *)
Definition AesgcmDecrypt (G : gcm) (key nonce data mac : bytes) : res bytes :=
  if negb (aes_key_ok key) then Err EKeySize
  else if negb (length nonce =? 12)%nat then Panic
  else match gopen G key nonce [] (data ++ mac) with Some p => Ok p | None => Err EMac end.
