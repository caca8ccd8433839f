(* C60 (verifying a signature does not change it) and C85 (what Sign makes, Verify accepts). *)
From Coq Require Import ZArith List Lia Bool.
From Verif Require Import Bytes Res Crypto Session CurveSign.
Import ListNotations.
Open Scope Z_scope.
Ltac Zify.zify_post_hook ::= Z.to_euclidean_division_equations.

(* ---- C85 ---- *)
Lemma split64 (l m : bytes) : length l = 32%nat -> length m = 32%nat ->
  firstn 32 (l ++ m) = l /\ skipn 32 (l ++ m) = m.
Proof. intros A B. split; [now apply firstn_app_exact|now apply skipn_app_exact]. Qed.

Lemma upd_snd i f (l m : bytes) : length l = 32%nat -> (32 <= i)%nat -> upd i f (l ++ m) = l ++ upd (i - 32) f m.
Proof.
  intros L I. unfold upd. rewrite firstn_app, skipn_app, L. rewrite (firstn_all2 l), (skipn_all2 l) by lia.
  rewrite app_nth2 by lia. rewrite L. cbn [app]. rewrite <- app_assoc. replace (S i - 32)%nat with (S (i - 32)) by lia. reflexivity.
Qed.

Lemma skipn_nth_cons n : forall l : bytes, (n < length l)%nat -> skipn n l = nth n l 0 :: skipn (S n) l.
Proof. induction n as [|n IH]; intros [|x l] H; cbn [length] in H; try lia; [reflexivity|]. cbn [skipn nth]. apply IH. lia. Qed.

(* Any message signed with a key pair made by NewECKeyPair, with any 64 random bytes, verifies under the
   public key of the pair. *)
Theorem C85_sign_verify : forall E, edwards_ok E -> forall rnd msg random, length rnd = 32%nat ->
  fst (Verify E (montpub E (clamp rnd)) msg (Sign E (clamp rnd) msg random)) = true.
Proof.
  intros E OK rnd msg random HL. pose proof (mont_penc E OK rnd HL) as MP. cbv zeta in MP.
  set (priv := clamp rnd) in *. clearbody priv. unfold Sign. set (pk := penc E (smul E (le_dec priv) (base E))) in *.
  set (r := le_dec (sha512 E (sign_div ++ priv ++ msg ++ random)) mod ordL E).
  set (R := penc E (smul E r (base E))). set (hram := le_dec (sha512 E (R ++ pk ++ msg)) mod ordL E).
  set (s := (hram * le_dec priv + r) mod ordL E). pose proof (ord_pos E OK) as OP.
  assert (HS : 0 <= s < 2 ^ 253). { pose proof (Z.mod_pos_bound (hram * le_dec priv + r) (ordL E) ltac:(lia)). fold s in H. lia. }
  assert (HR : length R = 32%nat) by apply (penc_length E OK).
  (* the encoded scalar and its top byte *)
  rewrite (le_enc_snoc 31). set (lo := le_enc 31 s). assert (HLo : length lo = 31%nat) by apply le_enc_length.
  set (t := (s / 256 ^ Z.of_nat 31) mod 256).
  assert (Ht : 0 <= t < 32).
  { unfold t. change (256 ^ Z.of_nat 31) with (2 ^ 248). assert (0 <= s / 2 ^ 248 < 32).
    { split; [apply Z.div_pos; lia|]. apply Z.div_lt_upper_bound; [lia|]. change (2 ^ 248 * 32) with (2 ^ 253). lia. }
    rewrite Z.mod_small; lia. }
  set (sg := sign_of pk 31) in *. assert (Hsg : sg = 0 \/ sg = 128) by apply sign_two.
  destruct (bit_facts t sg Ht Hsg) as (B1 & B2 & B3 & B4).
  rewrite upd_snd by (try exact HR; lia). change (63 - 32)%nat with 31%nat. rewrite upd_last by exact HLo. rewrite B1.
  unfold Verify. cbv zeta. cbn [fst].
  assert (N : sign_of (R ++ lo ++ [t + sg]) 63 = sg).
  { unfold sign_of. rewrite app_assoc, app_nth2 by (rewrite app_length; lia). rewrite app_length, HR, HLo. cbn [Nat.add Nat.sub nth]. exact B2. }
  rewrite N, MP. rewrite upd_snd by (try exact HR; lia). change (63 - 32)%nat with 31%nat. rewrite upd_last by exact HLo. rewrite B3.
  assert (LE : lo ++ [t] = le_enc 32 s) by (rewrite (le_enc_snoc 31); reflexivity).
  unfold ed_verify.
  assert (N2 : nth 63 (R ++ lo ++ [t]) 0 = t).
  { rewrite app_assoc, app_nth2 by (rewrite app_length; lia). rewrite app_length, HR, HLo. reflexivity. }
  rewrite N2. assert (Z.land t 224 = 0).
  { assert (X : forall t, 0 <= t < 32 -> Z.land t 224 = 0); [|now apply X]. clear. intros t H.
    assert (B : forallb (fun y => Z.land y 224 =? 0) (map Z.of_nat (seq 0 32)) = true) by (vm_compute; reflexivity).
    pose proof (proj1 (forallb_forall _ _) B t) as D. cbn beta in D. apply Z.eqb_eq. apply D.
    apply in_map_iff. exists (Z.to_nat t). split; [lia|]. apply in_seq. lia. }
  rewrite H. cbn [Z.eqb negb]. unfold pk at 1. rewrite (pdec_penc E OK). cbv zeta.
  destruct (split64 R (lo ++ [t])) as [S1 S2]; [exact HR|rewrite app_length, HLo; reflexivity|]. rewrite S1, S2. fold hram.
  rewrite (ed_combine E OK). rewrite LE, le_dec_enc by (change (256 ^ Z.of_nat 32) with (2 ^ 256); assert (2 ^ 253 < 2 ^ 256) by (vm_compute; reflexivity); lia).
  assert (Q : smul E (s - hram * le_dec priv) (base E) = smul E r (base E)).
  { rewrite <- (ed_order E OK (s - _)). unfold s. rewrite Zminus_mod_idemp_l.
    replace (hram * le_dec priv + r - hram * le_dec priv) with r by lia. apply (ed_order E OK). }
  rewrite Q. apply beq_refl.
Qed.
Print Assumptions C85_sign_verify.

Definition sx_rnd : bytes := repeat 77 32.
Definition sx_rnd2 : bytes := repeat 80 32.
Definition sx_sig : bytes := Eval vm_compute in Sign toyed (clamp sx_rnd) [104; 105] (repeat 9 64).
Definition sx_sig2 : bytes := Eval vm_compute in Sign toyed (clamp sx_rnd2) [104; 105] (repeat 9 64).
(* both signs of the public key occur; another message is refused, another key too *)
Example C85_example :
  fst (Verify toyed (montpub toyed (clamp sx_rnd)) [104; 105] sx_sig) = true
  /\ fst (Verify toyed (montpub toyed (clamp sx_rnd2)) [104; 105] sx_sig2) = true
  /\ fst (Verify toyed (montpub toyed (clamp sx_rnd)) [104; 106] sx_sig) = false
  /\ fst (Verify toyed (montpub toyed (clamp sx_rnd2)) [104; 105] sx_sig) = false
  /\ sign_of sx_sig 63 <> sign_of sx_sig2 63.
Proof. split; [|split; [|split; [|split]]]; vm_compute; try reflexivity; discriminate. Qed.

(* ---- C60 ---- *)
(* Verifying leaves a signature with the top bit cleared, ... *)
Theorem C60_what_is_left : forall E pub msg sig, length sig = 64%nat ->
  let sig' := snd (Verify E pub msg sig) in
  length sig' = 64%nat /\ firstn 63 sig' = firstn 63 sig /\ nth 63 sig' 0 = nth 63 sig 0 mod 128.
Proof.
  intros E pub msg sig L sig'. unfold sig', Verify. cbn [snd]. unfold upd.
  rewrite (skipn_all2 (n := 64) sig) by lia.
  assert (L63 : length (firstn 63 sig) = 63%nat) by (rewrite firstn_length, L; reflexivity).
  repeat split.
  - rewrite app_length, L63. reflexivity.
  - now apply firstn_app_exact.
  - rewrite app_nth2 by lia. rewrite L63. cbn [Nat.sub nth]. change 127 with (Z.ones 7). rewrite Z.land_ones by lia. reflexivity.
Qed.
Print Assumptions C60_what_is_left.

Lemma sign_clear c : Z.land (Z.land c 127) 128 = 0.
Proof. rewrite <- Z.land_assoc. change (Z.land 127 128) with 0. apply Z.land_0_r. Qed.

(* ... so that the second answer is the one for a signature without it: right only if the bit was not set. *)
Theorem C60_verify_twice : forall E pub msg sig, length sig = 64%nat -> 0 <= nth 63 sig 0 < 128 ->
  snd (Verify E pub msg sig) = sig
  /\ Verify E pub msg (snd (Verify E pub msg sig)) = Verify E pub msg sig.
Proof.
  intros E pub msg sig L B. assert (X : snd (Verify E pub msg sig) = sig).
  { unfold Verify. cbn [snd]. unfold upd. change 127 with (Z.ones 7). rewrite Z.land_ones by lia.
    rewrite (Z.mod_small (nth 63 sig 0)) by exact B.
    rewrite <- (firstn_skipn 63 sig) at 4. f_equal. symmetry. apply skipn_nth_cons. lia. }
  split; [exact X|]. now rewrite X.
Qed.
Print Assumptions C60_verify_twice.

(* A genuine signature is accepted the first time and refused the second. *)
Theorem C60_verify_twice_refuted : exists E, edwards_ok E /\ exists rnd msg random, length rnd = 32%nat /\
  let pub := montpub E (clamp rnd) in
  let sig := Sign E (clamp rnd) msg random in
  fst (Verify E pub msg sig) = true
  /\ fst (Verify E pub msg (snd (Verify E pub msg sig))) = false.
Proof.
  exists toyed. split; [exact toyed_ok|]. exists sx_rnd2, [104; 105], (repeat 9 64). split; [reflexivity|].
  cbv zeta. split; vm_compute; reflexivity.
Qed.
Print Assumptions C60_verify_twice_refuted.
