(* The cryptographic primitives the Go code calls, as the fields of a record over which every theorem
   quantifies, the functional laws used, and a toy instance showing that the laws are consistent. *)
From Coq Require Import ZArith List Lia Bool.
From Verif Require Import Bytes.
Import ListNotations.
Open Scope Z_scope.

Record crypto : Type := mkCrypto {
  hmac : bytes -> bytes -> bytes;                    (* HMAC-SHA256, key then message *)
  hkdf : bytes -> bytes -> bytes -> nat -> bytes;    (* HKDF-SHA256: input key, salt, info, size *)
  dh : bytes -> bytes -> bytes;                      (* curve25519.ScalarMult: private, public *)
  basepub : bytes -> bytes;                          (* curve25519.ScalarBaseMult *)
  aesE : bytes -> bytes -> bytes;                    (* AES block encryption: key, block *)
  aesD : bytes -> bytes -> bytes;                    (* AES block decryption *)
  sigok : bytes -> bytes -> bytes -> bool            (* Ed25519 check behind curve25519sign.Verify *)
}.

Definition aes_key_ok (k : bytes) : bool :=
  let n := length k in Nat.eqb n 16 || Nat.eqb n 24 || Nat.eqb n 32.

Record crypto_ok (C : crypto) : Prop := {
  hmac_length : forall k m, length (hmac C k m) = 32%nat;
  hmac_wf : forall k m, wfb (hmac C k m);
  hkdf_length : forall i s f n, length (hkdf C i s f n) = n;
  hkdf_wf : forall i s f n, wfb (hkdf C i s f n);
  dh_comm : forall a b, dh C a (basepub C b) = dh C b (basepub C a);
  basepub_length : forall a, length (basepub C a) = 32%nat;
  basepub_wf : forall a, wfb (basepub C a);
  aes_length : forall k b, aes_key_ok k = true -> length b = 16%nat -> length (aesE C k b) = 16%nat;
  aesD_length : forall k b, aes_key_ok k = true -> length b = 16%nat -> length (aesD C k b) = 16%nat;
  aes_wf : forall k b, aes_key_ok k = true -> length b = 16%nat -> wfb b -> wfb (aesE C k b);
  aes_inv : forall k b, aes_key_ok k = true -> length b = 16%nat -> wfb b ->
              aesD C k (aesE C k b) = b
}.

(* ---- toy instance: polynomial hashes modulo 2^24 and multiplication modulo 2^32 (chosen so that the
   kernel can compute with it quickly) ---- *)
Definition toy_mask (x : Z) : Z := Z.land x 16777215.
Fixpoint toy_hash (acc : Z) (m : bytes) : Z :=
  match m with [] => acc | b :: t => toy_hash (toy_mask (acc * 33 + b + 1)) t end.
Fixpoint toy_expand (n : nat) (s : Z) : bytes :=
  match n with
  | O => []
  | S n' => Z.land (Z.shiftr s 10) 255 :: toy_expand n' (toy_mask (s * 77 + 12345))
  end.
Definition toy_hmac (k m : bytes) : bytes := toy_expand 32 (toy_hash (toy_hash 7 k * 3 + 1) m).
Definition toy_hkdf (i s f : bytes) (n : nat) : bytes :=
  toy_expand n (toy_hash (toy_hash (toy_hash 11 i * 5 + 2) s * 7 + 3) f).
Definition toy_mul (x y : Z) : bytes := le_enc 4 (Z.land (x * y) 4294967295) ++ zeros 28.
Definition toy_pub (a : bytes) : bytes := toy_mul 9 (le_dec (firstn 4 a)).
Definition toy_dh (a b : bytes) : bytes := toy_mul (le_dec (firstn 4 a)) (le_dec (firstn 4 b)).
Fixpoint toy_add (sg : Z) (k b : bytes) : bytes :=
  match b with
  | [] => []
  | x :: t => ((x + sg * hd 0 k) mod 256) :: toy_add sg (tl k) t
  end.
Definition toy_sig (pub msg sig : bytes) : bool :=
  beq (firstn 32 sig) (toy_expand 32 (toy_hash (toy_hash 13 pub) msg)).

Definition toy : crypto := {|
  hmac := toy_hmac; hkdf := toy_hkdf; dh := toy_dh; basepub := toy_pub;
  aesE := toy_add 1; aesD := toy_add (-1); sigok := toy_sig |}.

Lemma toy_expand_length n s : length (toy_expand n s) = n.
Proof. revert s; induction n; intros; cbn [toy_expand length]; auto. Qed.

Lemma toy_expand_wf n s : wfb (toy_expand n s).
Proof.
  revert s; induction n; intros; cbn [toy_expand]; constructor; [|apply IHn].
  change 255 with (Z.ones 8). rewrite Z.land_ones by lia. apply Z.mod_pos_bound. lia.
Qed.

Lemma toy_add_length sg k b : length (toy_add sg k b) = length b.
Proof. revert k; induction b; intros; simpl; auto. Qed.

Lemma toy_add_wf sg k b : wfb (toy_add sg k b).
Proof.
  revert k; induction b; intros; cbn [toy_add]; constructor; [|apply IHb].
  apply Z.mod_pos_bound. lia.
Qed.

Lemma toy_add_inv k b : wfb b -> toy_add (-1) k (toy_add 1 k b) = b.
Proof.
  intros H; revert k; induction H as [|x b Hx Hb IH]; intros; cbn [toy_add]; [reflexivity|].
  rewrite IH. f_equal. unfold isbyte in Hx.
  rewrite Zplus_mod_idemp_l. replace (x + 1 * hd 0 k + -1 * hd 0 k) with x by lia.
  apply Z.mod_small. exact Hx.
Qed.

Lemma toy_mul_length x y : length (toy_mul x y) = 32%nat.
Proof. unfold toy_mul, zeros. rewrite app_length, le_enc_length, repeat_length. reflexivity. Qed.

Lemma toy_mul_wf x y : wfb (toy_mul x y).
Proof. unfold toy_mul. apply wfb_app. split; [apply le_enc_wf|apply wfb_zeros]. Qed.

Lemma toy_pub_dec b : le_dec (firstn 4 (toy_pub b)) = Z.land (9 * le_dec (firstn 4 b)) 4294967295.
Proof.
  unfold toy_pub, toy_mul. rewrite firstn_app_exact by apply le_enc_length. apply le_dec_enc.
  change 4294967295 with (Z.ones 32). rewrite Z.land_ones by lia. change (256 ^ Z.of_nat 4) with (2 ^ 32).
  apply Z.mod_pos_bound. lia.
Qed.

Theorem toy_ok : crypto_ok toy.
Proof.
  constructor; cbn [toy hmac hkdf dh basepub aesE aesD]; intros.
  - apply toy_expand_length.
  - apply toy_expand_wf.
  - apply toy_expand_length.
  - apply toy_expand_wf.
  - unfold toy_dh. rewrite !toy_pub_dec. unfold toy_mul. change 4294967295 with (Z.ones 32).
    rewrite !Z.land_ones by lia. rewrite !Zmult_mod_idemp_r. do 3 f_equal. lia.
  - apply toy_mul_length.
  - apply toy_mul_wf.
  - now rewrite toy_add_length.
  - now rewrite toy_add_length.
  - apply toy_add_wf.
  - now apply toy_add_inv.
Qed.
