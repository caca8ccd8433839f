From Coq Require Import ZArith List Lia Bool.
From Verif Require Import Bytes Res Crypto Cbc.
Import ListNotations.
Open Scope Z_scope.

Lemma bxor_length a b : length (bxor a b) = Nat.min (length a) (length b).
Proof. unfold bxor. now rewrite map_length, combine_length. Qed.

Lemma lxor_byte a b : isbyte a -> isbyte b -> isbyte (Z.lxor a b).
Proof.
  unfold isbyte. intros Ha Hb. split.
  - apply Z.lxor_nonneg. lia.
  - destruct (Z.eq_dec (Z.lxor a b) 0) as [->|Hn]; [lia|].
    apply Z.log2_lt_pow2 with (b := 8); [|].
    + assert (0 <= Z.lxor a b) by (apply Z.lxor_nonneg; lia). lia.
    + eapply Z.le_lt_trans; [apply Z.log2_lxor; lia|].
      apply Z.max_lub_lt.
      * destruct (Z.eq_dec a 0) as [->|]; [cbn; lia|]. apply Z.log2_lt_pow2; lia.
      * destruct (Z.eq_dec b 0) as [->|]; [cbn; lia|]. apply Z.log2_lt_pow2; lia.
Qed.

Lemma bxor_wf a b : wfb a -> wfb b -> wfb (bxor a b).
Proof.
  intros Ha; revert b; induction Ha as [|x a Hx Ha IH]; intros [|y b] Hb; try constructor.
  - inversion Hb; subst. now apply lxor_byte.
  - inversion Hb; subst. now apply IH.
Qed.

Lemma bxor_cancel a b : length a = length b -> bxor (bxor a b) b = a.
Proof.
  revert b; induction a as [|x a IH]; intros [|y b] H; simpl in *; try discriminate; auto.
  unfold bxor in *. cbn [combine map fst snd]. f_equal.
  - rewrite Z.lxor_assoc, Z.lxor_nilpotent, Z.lxor_0_r. reflexivity.
  - apply IH. congruence.
Qed.

Definition block (b : bytes) : Prop := length b = 16%nat /\ wfb b.

Lemma concat_chunk16 n l : length l = (16 * n)%nat -> concat (chunk16 n l) = l.
Proof.
  revert l; induction n as [|n IH]; intros l H.
  - destruct l; [reflexivity|simpl in H; lia].
  - change (chunk16 (S n) l) with (firstn 16 l :: chunk16 n (skipn 16 l)).
    change (concat (firstn 16 l :: chunk16 n (skipn 16 l))) with (firstn 16 l ++ concat (chunk16 n (skipn 16 l))).
    rewrite IH; [apply firstn_skipn|]. rewrite skipn_length. lia.
Qed.

Lemma chunk16_blocks n l : length l = (16 * n)%nat -> wfb l -> Forall block (chunk16 n l).
Proof.
  revert l; induction n as [|n IH]; intros l H Hw.
  - constructor.
  - change (chunk16 (S n) l) with (firstn 16 l :: chunk16 n (skipn 16 l)). constructor.
    + split; [rewrite firstn_length; lia|now apply wfb_firstn].
    + apply IH; [rewrite skipn_length; lia|now apply wfb_skipn].
Qed.

Lemma chunk16_length n l : length (chunk16 n l) = n.
Proof. revert l; induction n; intros; simpl; auto. Qed.

Lemma chunk16_concat bl : Forall block bl -> chunk16 (length bl) (concat bl) = bl.
Proof.
  induction 1 as [|b bl [Hl Hw] Hbl IH]; [reflexivity|].
  change (chunk16 (length (b :: bl)) (concat (b :: bl)))
    with (firstn 16 (b ++ concat bl) :: chunk16 (length bl) (skipn 16 (b ++ concat bl))).
  now rewrite firstn_app_exact, skipn_app_exact, IH.
Qed.

Lemma concat_length16 bl : Forall block bl -> length (concat bl) = (16 * length bl)%nat.
Proof.
  induction 1 as [|b bl [Hl Hw] Hbl IH]; [reflexivity|].
  change (concat (b :: bl)) with (b ++ concat bl). rewrite app_length, IH. simpl length. lia.
Qed.

Lemma blocks_concat bl : Forall block bl -> blocks (concat bl) = bl.
Proof.
  intros H. unfold blocks. rewrite concat_length16 by auto.
  replace (16 * length bl / 16)%nat with (length bl).
  - now apply chunk16_concat.
  - rewrite Nat.mul_comm, Nat.div_mul; lia.
Qed.

Lemma concat_wf bl : Forall block bl -> wfb (concat bl).
Proof.
  induction 1 as [|b bl [Hl Hw] Hbl IH]; [constructor|].
  change (concat (b :: bl)) with (b ++ concat bl). apply wfb_app. auto.
Qed.

Lemma last_app_ne {A} (a b : list A) d : b <> [] -> last (a ++ b) d = last b d.
Proof.
  intros H. induction a as [|x a IH]; [reflexivity|].
  cbn [app]. rewrite <- IH. destruct (a ++ b) eqn:E; [|reflexivity].
  destruct a; simpl in E; congruence.
Qed.

Section P.
Variable C : crypto.
Hypothesis OK : crypto_ok C.

Lemma cbc_enc_blocks key iv bl :
  aes_key_ok key = true -> block iv -> Forall block bl -> Forall block (cbc_enc C key iv bl).
Proof.
  intros Hk Hiv H; revert iv Hiv; induction H as [|b bl [Hl Hw] Hbl IH]; intros iv [Il Iw]; [constructor|].
  cbn [cbc_enc].
  assert (B : block (aesE C key (bxor b iv))).
  { split.
    - apply (aes_length C OK); auto. rewrite bxor_length. lia.
    - apply (aes_wf C OK); auto; [rewrite bxor_length; lia|now apply bxor_wf]. }
  constructor; auto.
Qed.

Lemma cbc_dec_enc key iv bl :
  aes_key_ok key = true -> block iv -> Forall block bl ->
  cbc_dec C key iv (cbc_enc C key iv bl) = bl.
Proof.
  intros Hk Hiv H; revert iv Hiv; induction H as [|b bl [Hl Hw] Hbl IH]; intros iv [Il Iw]; [reflexivity|].
  cbn [cbc_enc cbc_dec].
  assert (B : block (aesE C key (bxor b iv))).
  { split.
    - apply (aes_length C OK); auto. rewrite bxor_length. lia.
    - apply (aes_wf C OK); auto; [rewrite bxor_length; lia|now apply bxor_wf]. }
  rewrite (aes_inv C OK); auto; [|rewrite bxor_length; lia|now apply bxor_wf].
  rewrite bxor_cancel by congruence. f_equal. now apply IH.
Qed.

Lemma pkcs_pad_facts pt :
  let pad := (16 - length pt mod 16)%nat in
  (1 <= pad <= 16)%nat /\ (length (pkcs_pad pt) mod 16 = 0)%nat /\
  (16 <= length (pkcs_pad pt))%nat /\
  length (pkcs_pad pt) = (length pt + pad)%nat /\ last (pkcs_pad pt) 0 = Z.of_nat pad.
Proof.
  intros pad. pose proof (Nat.mod_upper_bound (length pt) 16 ltac:(lia)) as Hm.
  assert (Hp : (1 <= pad <= 16)%nat) by (subst pad; lia).
  assert (Hl : length (pkcs_pad pt) = (length pt + pad)%nat).
  { unfold pkcs_pad. rewrite app_length, repeat_length. reflexivity. }
  split; [exact Hp|]. split; [|split; [|split; [exact Hl|]]].
  - rewrite Hl. subst pad.
    pose proof (Nat.div_mod (length pt) 16 ltac:(lia)) as D.
    replace (length pt + (16 - length pt mod 16))%nat with ((length pt / 16 + 1) * 16)%nat by lia.
    apply Nat.mod_mul. lia.
  - rewrite Hl. subst pad.
    pose proof (Nat.div_mod (length pt) 16 ltac:(lia)) as D. lia.
  - unfold pkcs_pad. fold pad. destruct pad as [|n] eqn:E; [lia|].
    assert (L : forall (A:Type) (l : list A) (x d:A) n, last (l ++ repeat x (S n)) d = x).
    { clear. intros. replace (repeat x (S n)) with (repeat x n ++ [x]).
      - rewrite app_assoc. apply last_last.
      - clear. induction n; simpl; auto. now rewrite IHn. }
    apply L.
Qed.

Lemma pkcs_pad_wf pt : wfb pt -> wfb (pkcs_pad pt).
Proof.
  intros H. unfold pkcs_pad. apply wfb_app. split; auto.
  pose proof (pkcs_pad_facts pt) as [Hp _]. cbv zeta in Hp.
  apply Forall_forall. intros x Hx. apply repeat_spec in Hx. subst x. unfold isbyte. lia.
Qed.

Lemma mul16 (n : nat) : (n mod 16 = 0)%nat -> n = (16 * (n / 16))%nat.
Proof. intros H. pose proof (Nat.div_mod n 16 ltac:(lia)). lia. Qed.

Lemma Encrypt_ok key iv pt :
  aes_key_ok key = true -> length iv = 16%nat ->
  Encrypt C key iv pt = Ok (concat (cbc_enc C key iv (blocks (pkcs_pad pt)))).
Proof. intros Hk Hi. unfold Encrypt. now rewrite Hk, Hi. Qed.

Lemma padded_blocks pt : wfb pt ->
  Forall block (blocks (pkcs_pad pt)) /\ concat (blocks (pkcs_pad pt)) = pkcs_pad pt.
Proof.
  intros Hw. pose proof (pkcs_pad_facts pt) as (_ & Hm & _). cbv zeta in *.
  pose proof (mul16 _ Hm) as E. unfold blocks. split.
  - apply chunk16_blocks; auto. now apply pkcs_pad_wf.
  - now apply concat_chunk16.
Qed.

(* Decrypt inverts Encrypt with the iv in front. *)
Theorem Decrypt_Encrypt key iv pt c :
  wfb pt -> wfb iv -> Encrypt C key iv pt = Ok c -> Decrypt C key (iv ++ c) = Ok pt.
Proof.
  intros Hw Hiw E. unfold Encrypt in E.
  destruct (aes_key_ok key) eqn:Hk; [|discriminate].
  destruct (Nat.eqb (length iv) 16) eqn:Hi; [|discriminate]. apply Nat.eqb_eq in Hi.
  cbn [negb] in E. injection E as <-.
  destruct (padded_blocks pt Hw) as [Hb Hcat].
  pose proof (pkcs_pad_facts pt) as (Hp & Hm & H16 & Hlen & Hlast). cbv zeta in *.
  set (bl := blocks (pkcs_pad pt)) in *.
  assert (Hiv : block iv) by (split; auto).
  pose proof (cbc_enc_blocks key iv bl Hk Hiv Hb) as Hcb.
  assert (Hall : Forall block (iv :: cbc_enc C key iv bl)) by (constructor; auto).
  change (iv ++ concat (cbc_enc C key iv bl)) with (concat (iv :: cbc_enc C key iv bl)).
  pose proof (concat_length16 _ Hall) as HL. change (length (iv :: cbc_enc C key iv bl)) with (S (length (cbc_enc C key iv bl))) in HL.
  unfold Decrypt. rewrite Hk. cbn [negb].
  rewrite HL at 1. rewrite Nat.mul_comm, Nat.mod_mul by lia. cbn [Nat.eqb negb].
  destruct (length (concat (iv :: cbc_enc C key iv bl))) eqn:EL; [lia|].
  rewrite blocks_concat by auto.
  change (concat (iv :: cbc_enc C key iv bl)) with (iv ++ concat (cbc_enc C key iv bl)).
  rewrite firstn_app_exact by auto.
  cbn [cbc_dec]. rewrite cbc_dec_enc by auto.
  change (concat (bxor (aesD C key iv) iv :: bl)) with (bxor (aesD C key iv) iv ++ concat bl).
  rewrite Hcat.
  set (g := bxor (aesD C key iv) iv).
  assert (Hg : length g = 16%nat).
  { unfold g. rewrite bxor_length, (aesD_length C OK) by auto. lia. }
  assert (HLast : last (g ++ pkcs_pad pt) 0 = Z.of_nat (16 - length pt mod 16)).
  { rewrite <- Hlast. apply last_app_ne. intros N. rewrite N in H16. simpl in H16. lia. }
  rewrite HLast. unfold zlen. rewrite app_length, Hg, Hlen. clear HLast Hlast Hlen Hm HL EL.
  set (pad := (16 - length pt mod 16)%nat) in *.
  destruct (Z.gtb_spec (Z.of_nat pad) 16); [lia|].
  replace (Z.of_nat (16 + (length pt + pad)) - Z.of_nat pad)
    with (Z.of_nat (16 + length pt)) by lia.
  destruct (Z.ltb_spec (Z.of_nat (16 + length pt)) 16); [lia|].
  rewrite Nat2Z.id. unfold pkcs_pad. rewrite app_assoc.
  rewrite firstn_app_exact by (rewrite app_length; lia).
  now rewrite skipn_app_exact.
Qed.
End P.
