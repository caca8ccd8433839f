(* Signatures with Curve25519 keys: /repo/curve25519sign/curve25519sign.go. The Edwards curve, the field
   arithmetic and SHA-512 are primitives with the laws used; ed25519.Verify (of the library
   signal-golang/ed25519) is spelled out over them. *)
From Coq Require Import ZArith List Lia Bool.
From Verif Require Import Bytes Res Crypto Session.
Import ListNotations.
Open Scope Z_scope.
Ltac Zify.zify_post_hook ::= Z.to_euclidean_division_equations.

Record edwards := mkEd {
  pt : Type;
  padd : pt -> pt -> pt;
  pneg : pt -> pt;
  smul : Z -> pt -> pt;
  base : pt;
  ordL : Z;                              (* the order of the base point *)
  penc : pt -> bytes;                    (* ExtendedGroupElement.ToBytes *)
  pdec : bytes -> option pt;             (* ExtendedGroupElement.FromBytes *)
  mont_y : bytes -> bytes;               (* (x - 1) / (x + 1) on encoded field elements *)
  montpub : bytes -> bytes;              (* the Curve25519 public key of a private key *)
  sha512 : bytes -> bytes }.

(* one byte of a byte string replaced *)
Definition upd (i : nat) (f : Z -> Z) (l : bytes) : bytes := firstn i l ++ f (nth i l 0) :: skipn (S i) l.
Definition sign_of (l : bytes) (i : nat) : Z := Z.land (nth i l 0) 128.

Record edwards_ok (E : edwards) : Prop := {
  ord_pos : 0 < ordL E < 2 ^ 253;
  ed_order : forall a, smul E (a mod ordL E) (base E) = smul E a (base E);
  ed_combine : forall h a s, padd E (smul E h (pneg E (smul E a (base E)))) (smul E s (base E)) = smul E (s - h * a) (base E);
  penc_length : forall P, length (penc E P) = 32%nat;
  penc_wf : forall P, wfb (penc E P);
  pdec_penc : forall a, pdec E (penc E (smul E a (base E))) = Some (smul E a (base E));
  montpub_length : forall a, length (montpub E a) = 32%nat;
  (* the Edwards form of a public key is the Montgomery one up to the sign; for private keys as NewECKeyPair
     (axolotl/keys.go 73-88) makes them *)
  mont_penc : forall a, length a = 32%nat -> let P := penc E (smul E (le_dec (clamp a)) (base E)) in
    upd 31 (fun c => Z.lor c (sign_of P 31)) (mont_y E (upd 31 (fun c => Z.land c 127) (montpub E (clamp a)))) = P }.

Section S.
Variable E : edwards.

Definition sign_div : bytes := 254 :: repeat 255 31.

(* Sign (16-65) *)
Definition Sign (priv msg random : bytes) : bytes :=
  let pk := penc E (smul E (le_dec priv) (base E)) in
  let r := le_dec (sha512 E (sign_div ++ priv ++ msg ++ random)) mod ordL E in
  let R := penc E (smul E r (base E)) in
  let hram := le_dec (sha512 E (R ++ pk ++ msg)) mod ordL E in
  let s := (hram * le_dec priv + r) mod ordL E in
  upd 63 (fun c => Z.lor c (sign_of pk 31)) (R ++ le_enc 32 s).

(* ed25519.Verify *)
Definition ed_verify (A msg sig : bytes) : bool :=
  if negb (Z.land (nth 63 sig 0) 224 =? 0) then false
  else match pdec E A with
       | None => false
       | Some P =>
           let h := le_dec (sha512 E (firstn 32 sig ++ A ++ msg)) mod ordL E in
           let R := padd E (smul E h (pneg E P)) (smul E (le_dec (skipn 32 sig)) (base E)) in
           beq (firstn 32 sig) (penc E R)
       end.

(* Verify (68-100): the answer, and the signature as it is left behind (line 97 writes through the pointer;
   the public key is passed by value) *)
Definition Verify (pub msg sig : bytes) : bool * bytes :=
  let y := mont_y E (upd 31 (fun c => Z.land c 127) pub) in
  let A := upd 31 (fun c => Z.lor c (sign_of sig 63)) y in
  let sig' := upd 63 (fun c => Z.land c 127) sig in
  (ed_verify A msg sig', sig').
End S.

(* ---- toy instance: integers modulo the order of the real base point, an odd number. P and -P differ in
   parity, which serves as the sign; half of the even one of the two is the y coordinate. ---- *)
Definition toyL : Z := 2 ^ 252 + 27742317777372353535851937790883648493.
Definition toy_y (P : Z) : Z := if Z.even P then P / 2 else (toyL - P) / 2.
Definition toy_penc (P : Z) : bytes := le_enc 32 (toy_y P + 2 ^ 255 * (P mod 2)).
Definition toy_pdec (b : bytes) : option Z :=
  let v := le_dec b in
  let y := v mod 2 ^ 255 in
  let P := if v / 2 ^ 255 =? 0 then 2 * y else toyL - 2 * y in
  if (0 <=? P) && (P <? toyL) then Some P else None.
Definition toyed : edwards := mkEd Z (fun a b => (a + b) mod toyL) (fun a => (- a) mod toyL)
  (fun k P => (k * P) mod toyL) 1 toyL toy_penc toy_pdec (fun x => x)
  (fun a => le_enc 32 (toy_y (le_dec a mod toyL))) (fun m => toy_expand 64 (toy_hash 19 m)).

Lemma le_enc_snoc n : forall v, le_enc (S n) v = le_enc n v ++ [(v / 256 ^ Z.of_nat n) mod 256].
Proof.
  induction n as [|n IH]; intros v.
  - cbn [le_enc app]. change (256 ^ Z.of_nat 0) with 1. now rewrite Z.div_1_r.
  - cbn [le_enc app] in *. f_equal. rewrite IH. f_equal. f_equal. f_equal.
    rewrite Nat2Z.inj_succ, Z.pow_succ_r by lia. now rewrite Z.div_div by lia.
Qed.
Lemma le_enc_mod n : forall v, le_enc n (v mod 256 ^ Z.of_nat n) = le_enc n v.
Proof.
  induction n as [|n IH]; intros v; [reflexivity|]. cbn [le_enc].
  rewrite Nat2Z.inj_succ, Z.pow_succ_r by lia. set (K := 256 ^ Z.of_nat n) in *.
  assert (0 < K) by (unfold K; lia).
  replace ((v mod (256 * K)) mod 256) with (v mod 256).
  - f_equal. rewrite <- (IH (v / 256)). f_equal. rewrite Z.mul_comm. rewrite (Z.mul_comm K).
    rewrite Z.rem_mul_r by lia. rewrite Z.add_comm, Z.mul_comm, Z.div_add_l by lia.
    rewrite (Z.div_small (v mod 256)) by (apply Z.mod_pos_bound; lia). lia.
  - rewrite Z.rem_mul_r by lia. rewrite Z.mul_comm, Z.mod_add by lia. now rewrite Z.mod_mod by lia.
Qed.

Lemma upd_last n (f : Z -> Z) (l : bytes) c : length l = n -> upd n f (l ++ [c]) = l ++ [f c].
Proof.
  intros H. unfold upd. rewrite firstn_app_exact by exact H. f_equal.
  rewrite app_nth2 by lia. rewrite H, Nat.sub_diag. cbn [nth]. f_equal.
  apply skipn_all2. rewrite app_length. cbn [length]. lia.
Qed.

Lemma bit_sweep : forallb (fun y => forallb (fun s => (Z.lor y s =? y + s) && (Z.land (y + s) 128 =? s) && (Z.land (y + s) 127 =? y)
  && (Z.land y 127 =? y)) [0; 128]) (map Z.of_nat (seq 0 32)) = true.
Proof. vm_compute. reflexivity. Qed.
Lemma bit_facts y s : 0 <= y < 32 -> s = 0 \/ s = 128 ->
  Z.lor y s = y + s /\ Z.land (y + s) 128 = s /\ Z.land (y + s) 127 = y /\ Z.land y 127 = y.
Proof.
  intros Hy Hs. pose proof (proj1 (forallb_forall _ _) bit_sweep y) as B. cbn beta in B.
  assert (I : In y (map Z.of_nat (seq 0 32))).
  { apply in_map_iff. exists (Z.to_nat y). split; [lia|]. apply in_seq. lia. }
  specialize (B I). pose proof (proj1 (forallb_forall _ _) B s) as D. cbn beta in D.
  assert (J : In s [0; 128]) by (destruct Hs as [->| ->]; cbn; auto). specialize (D J).
  rewrite !andb_true_iff, !Z.eqb_eq in D. tauto.
Qed.
Lemma sign_two c : Z.land c 128 = 0 \/ Z.land c 128 = 128.
Proof.
  change 128 with (Z.shiftl 1 7).
  destruct (Z.testbit c 7) eqn:T; [right|left]; apply Z.bits_inj'; intros n Hn; rewrite Z.land_spec.
  - destruct (Z.eq_dec n 7) as [->|N]; [rewrite T; reflexivity|]. rewrite Z.shiftl_spec by lia.
    destruct (Z.ltb_spec n 7); [rewrite (Z.testbit_neg_r 1) by lia; apply andb_false_r|].
    replace (Z.testbit 1 (n - 7)) with false; [apply andb_false_r|]. symmetry. apply Z.bits_above_log2; [lia|]. change (Z.log2 1) with 0. lia.
  - rewrite Z.bits_0. destruct (Z.eq_dec n 7) as [->|N]; [rewrite T; reflexivity|]. rewrite Z.shiftl_spec by lia.
    destruct (Z.ltb_spec n 7); [rewrite (Z.testbit_neg_r 1) by lia; apply andb_false_r|].
    replace (Z.testbit 1 (n - 7)) with false; [apply andb_false_r|]. symmetry. apply Z.bits_above_log2; [lia|]. change (Z.log2 1) with 0. lia.
Qed.

Lemma toy_y_range P : 0 <= P < toyL -> 0 <= toy_y P < 2 ^ 252.
Proof.
  intros H. assert (B : toyL < 2 ^ 253) by (vm_compute; reflexivity).
  unfold toy_y. generalize dependent toyL. intros L H B. change (2 ^ 252) with (2 ^ 253 / 2).
  destruct (Z.even P); lia.
Qed.

Lemma toyed_ok : edwards_ok toyed.
Proof.
  assert (LP : 0 < toyL < 2 ^ 253) by (split; vm_compute; reflexivity).
  assert (LO : toyL mod 2 = 1) by (vm_compute; reflexivity).
  constructor; cbn [toyed pt padd pneg smul base ordL penc pdec mont_y montpub sha512].
  - exact LP.
  - intros a. rewrite !Z.mul_1_r. apply Z.mod_mod. lia.
  - intros h a s. rewrite !Z.mul_1_r. rewrite Zplus_mod_idemp_l, Zplus_mod_idemp_r.
    pose proof (Z.div_mod (- (a mod toyL)) toyL ltac:(lia)) as D1. pose proof (Z.div_mod a toyL ltac:(lia)) as D2.
    set (x := (- (a mod toyL)) mod toyL) in *. set (q1 := (- (a mod toyL)) / toyL) in *. set (q2 := a / toyL) in *.
    replace (h * x + s) with (s - h * a + h * (q2 - q1) * toyL); [apply Z.mod_add; lia|].
    replace x with (- (a mod toyL) - toyL * q1) by (clear - D1; lia). set (m := a mod toyL) in *. clearbody m q1 q2.
    rewrite D2. ring.
  - intros P. apply le_enc_length.
  - intros P. apply le_enc_wf.
  - intros a. rewrite Z.mul_1_r. set (P := a mod toyL). assert (HP : 0 <= P < toyL) by (apply Z.mod_pos_bound; lia).
    pose proof (toy_y_range P HP) as HY. unfold toy_pdec, toy_penc. cbv zeta.
    assert (P2 : 2 ^ 252 < 2 ^ 255) by (vm_compute; reflexivity).
    rewrite le_dec_enc.
    2:{ change (256 ^ Z.of_nat 32) with (2 ^ 256). change (2 ^ 256) with (2 * 2 ^ 255).
        pose proof (Z.mod_pos_bound P 2 ltac:(lia)). nia. }
    assert (D : (toy_y P + 2 ^ 255 * (P mod 2)) / 2 ^ 255 = P mod 2).
    { rewrite Z.mul_comm, Z.div_add by lia. rewrite Z.div_small by lia. lia. }
    assert (M : (toy_y P + 2 ^ 255 * (P mod 2)) mod 2 ^ 255 = toy_y P).
    { rewrite Z.mul_comm, Z.mod_add by lia. apply Z.mod_small. lia. }
    rewrite D, M. unfold toy_y. rewrite Zeven_mod. 
    assert (X : (if P mod 2 =? 0 then 2 * (if Zeq_bool (P mod 2) 0 then P / 2 else (toyL - P) / 2)
                 else toyL - 2 * (if Zeq_bool (P mod 2) 0 then P / 2 else (toyL - P) / 2)) = P).
    { clear D M HY P2. clearbody P. generalize dependent toyL. intros L LP LO HP. unfold Zeq_bool. destruct (P mod 2 ?= 0) eqn:C;
        [apply Z.compare_eq in C|change (P mod 2 < 0) in C|apply Z.gt_lt in C].
      - rewrite C. cbn [Z.eqb]. lia.
      - exfalso. pose proof (Z.mod_pos_bound P 2 ltac:(lia)). lia.
      - destruct (P mod 2 =? 0) eqn:Q; [apply Z.eqb_eq in Q; lia|]. lia. }
    rewrite X. rewrite (proj2 (Z.leb_le 0 P)), (proj2 (Z.ltb_lt P toyL)) by lia. reflexivity.
  - intros a. apply le_enc_length.
  - intros a _. cbv zeta. rewrite Z.mul_1_r. set (P := le_dec (clamp a) mod toyL).
    assert (HP : 0 <= P < toyL) by (apply Z.mod_pos_bound; lia). pose proof (toy_y_range P HP) as HY.
    unfold toy_penc. rewrite !(le_enc_snoc 31). rewrite !upd_last by (apply le_enc_length).
    set (s := P mod 2). assert (Hs : s = 0 \/ s = 1) by (unfold s; lia).
    set (y := toy_y P) in *. clearbody y s.
    change (256 ^ Z.of_nat 31) with (2 ^ 248).
    assert (T : (y + 2 ^ 255 * s) / 2 ^ 248 = y / 2 ^ 248 + 128 * s).
    { change (2 ^ 255) with (128 * 2 ^ 248). replace (y + 128 * 2 ^ 248 * s) with (y + (128 * s) * 2 ^ 248) by lia.
      apply Z.div_add. lia. }
    assert (Y : 0 <= y / 2 ^ 248 < 16).
    { split; [apply Z.div_pos; lia|]. apply Z.div_lt_upper_bound; [lia|]. change (2 ^ 248 * 16) with (2 ^ 252). lia. }
    assert (Lo : le_enc 31 (y + 2 ^ 255 * s) = le_enc 31 y).
    { rewrite <- (le_enc_mod 31 (y + _)), <- (le_enc_mod 31 y). f_equal. change (256 ^ Z.of_nat 31) with (2 ^ 248).
      change (2 ^ 255) with (128 * 2 ^ 248). replace (y + 128 * 2 ^ 248 * s) with (y + (128 * s) * 2 ^ 248) by lia.
      apply Z.mod_add. lia. }
    rewrite Lo, T. unfold sign_of. rewrite app_nth2 by (rewrite le_enc_length; lia). rewrite le_enc_length.
    cbn [Nat.sub nth]. f_equal. f_equal. set (t := y / 2 ^ 248) in *. clearbody t. clear T Lo HY.
    rewrite (Z.mod_small t), (Z.mod_small (t + 128 * s)) by lia.
    destruct (bit_facts t (128 * s)) as (B1 & B2 & B3 & B4); [lia|lia|]. now rewrite B2, B4, B1.
Qed.
