(* AES-CBC with the padding rules of /repo/axolotl/crypto.go (and /repo/crypto.go, whose aesEncrypt /
   aesDecrypt use the same rules with the iv prepended). *)
From Coq Require Import ZArith List Lia Bool.
From Verif Require Import Bytes Res Crypto.
Import ListNotations.
Open Scope Z_scope.

Definition bxor (a b : bytes) : bytes := map (fun p => Z.lxor (fst p) (snd p)) (combine a b).

(* a byte string as n blocks of 16 *)
Fixpoint chunk16 (n : nat) (l : bytes) : list bytes :=
  match n with
  | O => []
  | S n' => firstn 16 l :: chunk16 n' (skipn 16 l)
  end.
Definition blocks (l : bytes) : list bytes := chunk16 (length l / 16) l.

Section Cbc.
Variable C : crypto.

(* cipher.NewCBCEncrypter(...).CryptBlocks *)
Fixpoint cbc_enc (key prev : bytes) (bl : list bytes) : list bytes :=
  match bl with
  | [] => []
  | b :: t => let c := aesE C key (bxor b prev) in c :: cbc_enc key c t
  end.

(* cipher.NewCBCDecrypter(...).CryptBlocks *)
Fixpoint cbc_dec (key prev : bytes) (bl : list bytes) : list bytes :=
  match bl with
  | [] => []
  | c :: t => bxor (aesD C key c) prev :: cbc_dec key c t
  end.

(* axolotl/crypto.go 51-52: pad to a multiple of the block size *)
Definition pkcs_pad (pt : bytes) : bytes :=
  let pad := (16 - length pt mod 16)%nat in pt ++ repeat (Z.of_nat pad) pad.

(* axolotl/crypto.go 46-57 Encrypt. NewCBCEncrypter panics if the iv is not one block. *)
Definition Encrypt (key iv pt : bytes) : res bytes :=
  if negb (aes_key_ok key) then Err EKeySize
  else if negb (Nat.eqb (length iv) 16) then Panic
  else Ok (concat (cbc_enc key iv (blocks (pkcs_pad pt)))).

(* axolotl/crypto.go 25-43 Decrypt. The iv is the first block of the input, which is decrypted along
   with the rest and dropped. An empty input panics at line 38 (index -1); lines 35 and 42 panic on
   bounds. *)
Definition Decrypt (key ct : bytes) : res bytes :=
  if negb (aes_key_ok key) then Err EKeySize
  else if negb (Nat.eqb (length ct mod 16) 0) then Err EBlock
  else match length ct with
  | O => Panic
  | _ =>
    let out := concat (cbc_dec key (firstn 16 ct) (blocks ct)) in
    let pad := last out 0 in
    if pad >? 16 then Err EPad
    else if zlen out - pad <? 16 then Panic
    else Ok (skipn 16 (firstn (Z.to_nat (zlen out - pad)) out))
  end.

(* crypto.go 65-82 aesEncrypt with its random iv as an argument, and 85-105 aesDecrypt *)
Definition aesEncrypt (key iv pt : bytes) : res bytes :=
  let* c := Encrypt key iv pt in Ok (iv ++ c).
Definition aesDecrypt (key ct : bytes) : res bytes := Decrypt key ct.

(* axolotl/crypto.go 66-70 and 60-63. size > 32 would panic; all callers pass 8, 10 or a length. *)
Definition ComputeTruncatedMAC (msg key : bytes) (size : nat) : bytes := firstn size (hmac C key msg).

(* crypto.go 45-49 and 52-56 *)
Definition appendMAC (key b : bytes) : bytes := b ++ hmac C key b.
Definition verifyMAC (key b mac : bytes) : bool := beq (hmac C key b) mac.
End Cbc.
