From Coq Require Import ZArith List Lia Bool.
From Verif Require Import Bytes Res Wire WireProofs Crypto Cbc Messages.
Import ListNotations.
Open Scope Z_scope.

Lemma key32_ok k : length k = 32%nat -> key32 k = Ok k.
Proof. intros H. unfold key32. now rewrite H. Qed.

Lemma key32_inv b k : key32 b = Ok k -> k = b /\ length b = 32%nat.
Proof.
  unfold key32. destruct (Nat.eqb (length b) 32) eqn:E; [|discriminate].
  apply Nat.eqb_eq in E. intros H. injection H as <-. auto.
Qed.

Lemma key_unser_ser k : length k = 32%nat -> key_unser (key_ser k) = Ok k.
Proof. intros H. unfold key_unser, key_ser. now apply key32_ok. Qed.

Lemma key_unser_inv b k : key_unser b = Ok k -> exists t, b = t :: k /\ length k = 32%nat.
Proof. destruct b as [|t r]; simpl; [discriminate|]. intros H. apply key32_inv in H as [-> H]. eauto. Qed.

Section P.
Variable C : crypto.
Hypothesis OK : crypto_ok C.

Lemma getMac_length v s r k d : length (getMac C v s r k d) = 8%nat.
Proof.
  unfold getMac, ComputeTruncatedMAC, macLength. rewrite firstn_length, (hmac_length C OK). reflexivity.
Qed.

(* A freshly made WhisperMessage of version 3 reads back as itself. *)
Lemma Load_newWhisper macKey rkey counter prev ct s r :
  length rkey = 32%nat -> 0 <= counter < 2 ^ 32 -> 0 <= prev < 2 ^ 32 -> zlen ct < 2 ^ 64 ->
  let m := newWhisperMessage C 3 macKey rkey counter prev ct s r in
  LoadWhisperMessage (wm_ser m) = Ok m.
Proof.
  intros Hk Hc Hp Hct m.
  set (body := encode (whisper_fields rkey counter prev ct)).
  set (data := 51 :: body).
  assert (Hm : m = mkWmsg 3 rkey counter prev ct (data ++ getMac C 3 s r macKey data)) by reflexivity.
  set (mac := getMac C 3 s r macKey data) in *.
  assert (Lm : length mac = 8%nat) by apply getMac_length.
  rewrite Hm. cbn [wm_ser].
  unfold LoadWhisperMessage.
  assert (L : length (data ++ mac) = (S (length body) + 8)%nat).
  { rewrite app_length, Lm. reflexivity. }
  replace (zlen (data ++ mac) - 8 <? 1) with false.
  2:{ symmetry. apply Z.ltb_ge. unfold zlen. rewrite L. lia. }
  change (hd 0 (data ++ mac)) with 51.
  change (highBitsToInt 51) with 3. cbn [Z.eqb negb currentVersion Pos.eqb].
  replace (firstn (length (data ++ mac) - macLength) (data ++ mac)) with data.
  2:{ symmetry. apply firstn_app_exact. rewrite L. unfold macLength. subst data. cbn [length]. lia. }
  subst data. cbn [skipn]. subst body.
  rewrite parse_encode.
  - cbn. unfold key_unser. cbn. rewrite key32_ok by auto. cbn [bind].
    rewrite !to_u32_id by auto. reflexivity.
  - unfold whisper_fields. repeat constructor; cbn [fst snd wf_val]; unfold max_field; try lia.
    unfold zlen, key_ser. cbn [length]. rewrite Hk. lia.
Qed.

Lemma Load_newPreKey reg pkid spkid base ident wm :
  length base = 32%nat -> length ident = 32%nat ->
  0 <= reg < 2 ^ 32 -> 0 <= pkid < 2 ^ 32 -> 0 < spkid < 2 ^ 32 ->
  zlen (wm_ser wm) < 2 ^ 64 -> LoadWhisperMessage (wm_ser wm) = Ok wm ->
  let m := newPreKeyWhisperMessage 3 reg pkid spkid base ident wm in
  LoadPreKeyWhisperMessage (pk_ser m) = Ok (mkPkmsg 3 reg pkid spkid base ident wm (pk_ser m)).
Proof.
  intros Hb Hi Hr Hp Hs Hl Hw m. subst m.
  unfold newPreKeyWhisperMessage. cbn [pk_ser].
  set (body := encode (prekey_fields reg pkid spkid base ident (wm_ser wm))).
  change (makeVersionByte 3 currentVersion) with 51.
  unfold LoadPreKeyWhisperMessage. change (highBitsToInt 51) with 3.
  cbn [Z.eqb negb currentVersion Pos.eqb].
  subst body. rewrite parse_encode.
  - cbn. rewrite (to_u32_id spkid) by lia.
    replace (spkid =? 0) with false by lia.
    rewrite Hw. cbn [bind]. unfold key_unser. cbn. rewrite !key32_ok by auto. cbn [bind].
    rewrite !to_u32_id by lia. reflexivity.
  - unfold prekey_fields. repeat constructor; cbn [fst snd wf_val]; unfold max_field; try lia;
      unfold zlen, key_ser; cbn [length]; rewrite ?Hb, ?Hi; lia.
Qed.

Lemma verifyMAC_new macKey rkey counter prev ct s r :
  verifyMAC C (newWhisperMessage C 3 macKey rkey counter prev ct s r) s r macKey = true.
Proof.
  unfold verifyMAC, newWhisperMessage. cbn [wm_ser wm_version].
  set (data := makeVersionByte 3 currentVersion :: encode (whisper_fields rkey counter prev ct)).
  set (mac := getMac C 3 s r macKey data).
  assert (Lm : length mac = 8%nat) by apply getMac_length.
  assert (L : (length (data ++ mac) - macLength)%nat = length data).
  { rewrite app_length, Lm. unfold macLength. lia. }
  rewrite L, firstn_app_exact, skipn_app_exact by auto. apply beq_refl.
Qed.
End P.
