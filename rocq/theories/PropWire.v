(* C18-C21: wire format of messages, and CBC *)
From Coq Require Import ZArith List Lia Bool.
From Verif Require Import Bytes Res Wire WireProofs Crypto Cbc CbcProofs Messages MessagesProofs.
Import ListNotations.
Open Scope Z_scope.

(* ------------------------------------------------------------------ C18 *)
Theorem C18_whisper_round_trip : forall C, crypto_ok C ->
  forall macKey rkey counter prev ct sender receiver,
  length rkey = 32%nat -> 0 <= counter < 2 ^ 32 -> 0 <= prev < 2 ^ 32 -> zlen ct < 2 ^ 64 ->
  exists m, LoadWhisperMessage (wm_ser (newWhisperMessage C 3 macKey rkey counter prev ct sender receiver)) = Ok m /\
    wm_version m = 3 /\ wm_rkey m = rkey /\ wm_counter m = counter /\ wm_prev m = prev /\ wm_ct m = ct.
Proof.
  intros C OK macKey rkey counter prev ct s r H1 H2 H3 H4.
  eexists. split; [apply (Load_newWhisper C OK); auto|]. repeat split.
Qed.
Print Assumptions C18_whisper_round_trip.

(* The prekey message carries the registration id, both prekey ids, base key, identity key and the
   whole inner message. A signed prekey id of zero is the one value that does not survive. *)
Theorem C18_prekey_round_trip : forall C, crypto_ok C ->
  forall macKey rkey counter prev ct sender receiver reg pkid spkid base ident,
  length rkey = 32%nat -> 0 <= counter < 2 ^ 32 -> 0 <= prev < 2 ^ 32 -> zlen ct < 2 ^ 63 ->
  length base = 32%nat -> length ident = 32%nat ->
  0 <= reg < 2 ^ 32 -> 0 <= pkid < 2 ^ 32 -> 0 < spkid < 2 ^ 32 ->
  let wm := newWhisperMessage C 3 macKey rkey counter prev ct sender receiver in
  exists m, LoadPreKeyWhisperMessage (pk_ser (newPreKeyWhisperMessage 3 reg pkid spkid base ident wm)) = Ok m /\
    pk_version m = 3 /\ pk_reg m = reg /\ pk_pkid m = pkid /\ pk_spkid m = spkid /\
    pk_base m = base /\ pk_ident m = ident /\
    wm_version (pk_msg m) = 3 /\ wm_rkey (pk_msg m) = rkey /\ wm_counter (pk_msg m) = counter /\
    wm_prev (pk_msg m) = prev /\ wm_ct (pk_msg m) = ct /\ wm_ser (pk_msg m) = wm_ser wm.
Proof.
  intros C OK macKey rkey counter prev ct s r reg pkid spkid base ident H1 H2 H3 H4 H5 H6 H7 H8 H9 wm.
  eexists. split; [apply Load_newPreKey; auto|repeat split].
  - subst wm. unfold newWhisperMessage. cbn [wm_ser]. rewrite zlen_app. unfold zlen at 2.
    rewrite (getMac_length C OK). unfold whisper_fields. rewrite zlen_cons. cbn [encode flat_map].
    rewrite !zlen_app, zlen_nil. unfold enc_field. cbn [fst snd wtype enc_val].
    rewrite !zlen_app.
    assert (V : forall v, zlen (varint v) <= 10).
    { intros v. unfold varint, zlen. assert (G : forall n w, (length (enc_varint n w) <= n)%nat).
      { induction n; intros; cbn [enc_varint]; [reflexivity|]. destruct (w <? 128); cbn [length]; [lia|].
        specialize (IHn (w / 128)). lia. }
      specialize (G 10%nat v). lia. }
    assert (K : zlen (key_ser rkey) = 33) by (unfold zlen, key_ser; cbn [length]; lia).
    pose proof (V (1 * 8 + 2)). pose proof (V (zlen (key_ser rkey))). pose proof (V (2 * 8 + 0)).
    pose proof (V counter). pose proof (V (3 * 8 + 0)). pose proof (V prev). pose proof (V (4 * 8 + 2)).
    pose proof (V (zlen ct)). lia.
  - subst wm. apply (Load_newWhisper C OK); auto. lia.
Qed.
Print Assumptions C18_prekey_round_trip.

Example C18_example :
  LoadWhisperMessage (wm_ser (newWhisperMessage toy 3 [1] (repeat 9 32) (2 ^ 32 - 1) 300 [7; 8] [1] [2]))
  = Ok (newWhisperMessage toy 3 [1] (repeat 9 32) (2 ^ 32 - 1) 300 [7; 8] [1] [2]).
Proof. vm_compute. reflexivity. Qed.

(* ------------------------------------------------------------------ C19 *)
(* Refuted: the ratchet key field of a well-formed message of the right version is cut off after its
   first byte and then required to have exactly 32 bytes. *)
Definition bad_whisper : bytes := [51] ++ encode [(1, WLen [5]); (4, WLen [])] ++ repeat 0 8.
Theorem C19_parse_panics_refuted :
  LoadWhisperMessage bad_whisper = Panic /\
  LoadPreKeyWhisperMessage [] = Panic /\
  LoadPreKeyWhisperMessage
    ([51] ++ encode [(2, WLen (repeat 5 33)); (3, WLen (repeat 5 33)); (4, WLen bad_whisper); (6, WVarint 1)])
  = Panic.
Proof. vm_compute. auto. Qed.

(* What has to be true of a message for parsing to panic: everything else is well formed and the key
   is not 33 bytes long. *)
Definition whisper_panics (b : bytes) : Prop :=
  9 <= zlen b /\ highBitsToInt (hd 0 b) = 3 /\
  exists fs ct rk, parse (skipn 1 (firstn (length b - 8) b)) = Some fs /\
    get_len 4 fs = Some ct /\ get_len 1 fs = Some rk /\ length rk <> 33%nat.

Lemma key_unser_panic b : key_unser b = Panic <-> length b <> 33%nat.
Proof.
  destruct b as [|x k]; cbn [key_unser length].
  - split; [lia|reflexivity].
  - unfold key32. destruct (Nat.eqb_spec (length k) 32); split; try discriminate; try lia; auto.
Qed.

Lemma bind_panic {A B} (r : res A) (f : A -> res B) :
  bind r f = Panic <-> r = Panic \/ exists a, r = Ok a /\ f a = Panic.
Proof.
  destruct r; cbn [bind]; split.
  - intros H. right. eauto.
  - intros [H|(x & H & H')]; [discriminate|]. injection H as ->. exact H'.
  - discriminate.
  - intros [H|(x & H & H')]; discriminate.
  - auto.
  - reflexivity.
Qed.

Theorem C19_whisper_panic_iff : forall b, LoadWhisperMessage b = Panic <-> whisper_panics b.
Proof.
  intros b. unfold LoadWhisperMessage, whisper_panics, macLength, currentVersion.
  destruct (Z.ltb_spec (zlen b - 8) 1).
  { split; [discriminate|]. intros (H1 & _). lia. }
  destruct (Z.eqb_spec (highBitsToInt (hd 0 b)) 3) as [E|E]; cbn [negb].
  2:{ split; [discriminate|]. intros (_ & H1 & _). lia. }
  destruct (parse _) as [fs|] eqn:EP.
  2:{ split; [discriminate|]. intros (_ & _ & fs & ct & rk & H1 & _). discriminate. }
  destruct (get_len 4 fs) as [ct|] eqn:E4.
  2:{ split; [discriminate|]. intros (_ & _ & fs' & ct & rk & H1 & H2 & _). injection H1 as <-. congruence. }
  destruct (get_len 1 fs) as [rk|] eqn:E1.
  2:{ split; [discriminate|]. intros (_ & _ & fs' & ct' & rk & H1 & H2 & H3 & _). injection H1 as <-. congruence. }
  rewrite bind_panic, key_unser_panic. split.
  - intros [H1|(a & _ & H1)]; [|discriminate]. repeat split; [lia|exact E|].
    exists fs, ct, rk. auto.
  - intros (_ & _ & fs' & ct' & rk' & H1 & H2 & H3 & H4). left. injection H1 as <-. congruence.
Qed.
Print Assumptions C19_whisper_panic_iff.

Theorem C19_prekey_panic_iff : forall b, LoadPreKeyWhisperMessage b = Panic <->
  b = [] \/
  exists b0 body fs base ident msg v,
    b = b0 :: body /\ highBitsToInt b0 = 3 /\ parse body = Some fs /\
    get_len 2 fs = Some base /\ get_len 3 fs = Some ident /\ get_len 4 fs = Some msg /\
    get_varint 6 fs = Some v /\ to_u32 v <> 0 /\
    (whisper_panics msg \/
     ((exists wm, LoadWhisperMessage msg = Ok wm) /\ (length base <> 33%nat \/ length ident <> 33%nat))).
Proof.
  intros [|b0 body].
  { split; [auto|reflexivity]. }
  unfold LoadPreKeyWhisperMessage, currentVersion.
  split.
  - destruct (Z.eqb_spec (highBitsToInt b0) 3) as [E|E]; cbn [negb]; [|discriminate].
    destruct (parse body) as [fs|] eqn:EP; [|discriminate].
    destruct (get_len 2 fs) as [base|] eqn:E2; [|discriminate].
    destruct (get_len 3 fs) as [ident|] eqn:E3; [|discriminate].
    destruct (get_len 4 fs) as [msg|] eqn:E4; [|discriminate].
    destruct (get_varint 6 fs) as [v|] eqn:E6; [|discriminate].
    destruct (Z.eqb_spec (to_u32 v) 0) as [E0|E0]; [discriminate|].
    rewrite bind_panic. intros H. right. exists b0, body, fs, base, ident, msg, v.
    repeat split; auto.
    destruct H as [H|(wm & Hw & H)]; [left; now apply C19_whisper_panic_iff|right].
    split; [eauto|]. rewrite bind_panic in H.
    destruct H as [H|(bk & Hb & H)]; [left; now apply key_unser_panic|].
    rewrite bind_panic in H. destruct H as [H|(ik & Hi & H)]; [|discriminate].
    right. now apply key_unser_panic.
  - intros [H|(b0' & body' & fs & base & ident & msg & v & H & Hv & HP & H2 & H3 & H4 & H6 & H0 & H5)];
      [discriminate|].
    injection H as <- <-. rewrite Hv. cbn [Z.eqb Pos.eqb negb]. rewrite HP, H2, H3, H4, H6.
    destruct (Z.eqb_spec (to_u32 v) 0); [congruence|].
    rewrite bind_panic. destruct H5 as [H5|((wm & Hw) & H5)].
    + left. now apply C19_whisper_panic_iff.
    + right. exists wm. split; auto. rewrite bind_panic.
      destruct (Nat.eq_dec (length base) 33) as [L|L]; [|left; now apply key_unser_panic].
      right. destruct (key_unser base) as [bk|e|] eqn:EB.
      * exists bk. split; auto. rewrite bind_panic. left. apply key_unser_panic. tauto.
      * destruct base as [|x k]; [discriminate|]. cbn [key_unser] in EB. unfold key32 in EB.
        destruct (Nat.eqb _ _); discriminate.
      * apply key_unser_panic in EB. congruence.
Qed.
Print Assumptions C19_prekey_panic_iff.

(* ------------------------------------------------------------------ C20 *)
Lemma cbc_enc_length C key iv bl : length (cbc_enc C key iv bl) = length bl.
Proof. revert iv; induction bl; intros; cbn [cbc_enc length]; auto. Qed.

Theorem C20_cbc_round_trip : forall C, crypto_ok C -> forall key iv pt,
  aes_key_ok key = true -> length iv = 16%nat -> wfb iv -> wfb pt ->
  exists ct, Encrypt C key iv pt = Ok ct /\ Decrypt C key (iv ++ ct) = Ok pt /\
    aesEncrypt C key iv pt = Ok (iv ++ ct) /\ aesDecrypt C key (iv ++ ct) = Ok pt /\
    (length ct mod 16 = 0)%nat /\ (length pt < length ct <= length pt + 16)%nat.
Proof.
  intros C OK key iv pt Hk Hl Hi Hp.
  assert (E : Encrypt C key iv pt = Ok (concat (cbc_enc C key iv (blocks (pkcs_pad pt))))).
  { apply Encrypt_ok; auto. }
  eexists. split; [exact E|]. split; [eapply (Decrypt_Encrypt C OK); eauto|].
  split; [unfold aesEncrypt; now rewrite E|].
  split; [eapply (Decrypt_Encrypt C OK); eauto|].
  destruct (padded_blocks pt Hp) as [Hb Hn].
  assert (Hiv : block iv) by (split; auto).
  pose proof (cbc_enc_blocks C OK key iv (blocks (pkcs_pad pt)) Hk Hiv Hb) as H1.
  rewrite concat_length16 by auto. rewrite cbc_enc_length.
  pose proof (concat_length16 _ Hb) as HL. rewrite Hn in HL.
  destruct (pkcs_pad_facts pt) as (F1 & F2 & F3 & F4 & _). cbv zeta in F1, F4.
  split; [rewrite Nat.mul_comm; apply Nat.mod_mul; lia|].
  rewrite <- HL, F4. lia.
Qed.
Print Assumptions C20_cbc_round_trip.

Example C20_example :
  (let* ct := Encrypt toy (repeat 3 32) (repeat 1 16) (repeat 200 32) in
   let* pt := Decrypt toy (repeat 3 32) (repeat 1 16 ++ ct) in Ok (length ct, pt)) = Ok (48%nat, repeat 200 32).
Proof. vm_compute. reflexivity. Qed.

(* ------------------------------------------------------------------ C21 *)
(* Refuted: an empty input and an input of one block can panic, and paddings no encryption produces
   are accepted: pad length 0, and pad bytes that disagree. *)
Definition k21 : bytes := zeros 32.
Theorem C21_padding_refuted :
  Decrypt toy k21 [] = Panic /\
  Decrypt toy k21 (repeat 7 15 ++ [3]) = Ok [] /\
  Decrypt toy (repeat 1 32) (repeat 7 15 ++ [3]) = Panic /\
  (exists ct pt, Decrypt toy k21 (zeros 16 ++ ct) = Ok pt /\ last (blocks ct) [] = repeat 9 15 ++ [0]) /\
  (exists ct pt, Decrypt toy k21 (zeros 16 ++ ct) = Ok pt /\ last (blocks ct) [] = repeat 9 15 ++ [4] /\
  Encrypt toy k21 (zeros 16) pt <> Ok ct).
Proof.
  split; [vm_compute; reflexivity|]. split; [vm_compute; reflexivity|].
  split; [vm_compute; reflexivity|]. split.
  - exists (repeat 9 15 ++ [0]), (repeat 9 15 ++ [0]). vm_compute. auto.
  - exists (repeat 9 15 ++ [4]), (repeat 9 12). vm_compute. repeat split; congruence.
Qed.

(* When it panics, and what is accepted, exactly. *)
Definition cbc_plain (C : crypto) (key ct : bytes) : bytes :=
  concat (cbc_dec C key (firstn 16 ct) (blocks ct)).

Lemma concat_chunk16_len C key n : forall ct prev, crypto_ok C -> aes_key_ok key = true ->
  length prev = 16%nat -> length ct = (16 * n)%nat ->
  length (concat (cbc_dec C key prev (chunk16 n ct))) = (16 * n)%nat.
Proof.
  induction n as [|n IH]; intros ct prev OK Hk Hp Hl; [reflexivity|].
  cbn [chunk16 cbc_dec concat]. rewrite app_length, bxor_length.
  assert (L : length (firstn 16 ct) = 16%nat) by (rewrite firstn_length; lia).
  rewrite (aesD_length C OK) by auto. rewrite IH; auto; [lia|rewrite skipn_length; lia].
Qed.

Theorem C21_panic_iff : forall C, crypto_ok C -> forall key ct,
  Decrypt C key ct = Panic <->
  aes_key_ok key = true /\
  (ct = [] \/ (length ct = 16%nat /\ 1 <= last (cbc_plain C key ct) 0 <= 16)).
Proof.
  intros C OK key ct. unfold Decrypt, cbc_plain.
  destruct (aes_key_ok key) eqn:Hk; cbn [negb].
  2:{ split; [discriminate|]. intros []; discriminate. }
  destruct (Nat.eqb_spec (length ct mod 16) 0) as [E|E]; cbn [negb].
  2:{ split; [discriminate|]. intros [_ [->|[H _]]]; exfalso; apply E; [reflexivity|now rewrite H]. }
  destruct (length ct) as [|n0] eqn:EL.
  { split; [|reflexivity]. intros _. split; auto. left. destruct ct; [reflexivity|discriminate]. }
  pose proof (mul16 _ E) as M. rewrite <- EL in *.
  set (out := concat (cbc_dec C key (firstn 16 ct) (blocks ct))).
  assert (HO : length out = length ct).
  { unfold out, blocks. rewrite concat_chunk16_len; auto. rewrite firstn_length. lia. }
  destruct (Z.gtb_spec (last out 0) 16) as [G|G].
  { split; [discriminate|]. intros [_ [->|[_ H]]]; [discriminate|lia]. }
  unfold zlen. rewrite HO.
  destruct (Z.ltb_spec (Z.of_nat (length ct) - last out 0) 16) as [B|B].
  - split; [|reflexivity]. intros _. split; auto. right. lia.
  - split; [discriminate|]. intros [_ [->|[H1 H2]]]; [discriminate|lia].
Qed.
Print Assumptions C21_panic_iff.

(* The only padding rule enforced: the last byte is at most 16 and is taken as the number of bytes to
   drop. *)
Theorem C21_accepts_iff : forall C, crypto_ok C -> forall key ct pt,
  Decrypt C key ct = Ok pt <->
  aes_key_ok key = true /\ (length ct mod 16 = 0)%nat /\ ct <> [] /\
  let out := cbc_plain C key ct in
  last out 0 <= 16 /\ 16 <= zlen out - last out 0 /\
  pt = skipn 16 (firstn (Z.to_nat (zlen out - last out 0)) out).
Proof.
  intros C OK key ct pt. unfold Decrypt. fold (cbc_plain C key ct). cbv zeta.
  destruct (aes_key_ok key) eqn:Hk; cbn [negb].
  2:{ split; [discriminate|]. intros []; discriminate. }
  destruct (Nat.eqb_spec (length ct mod 16) 0) as [E|E]; cbn [negb].
  2:{ split; [discriminate|]. intros (_ & H & _). congruence. }
  destruct ct as [|x ct'].
  { split; [discriminate|]. intros (_ & _ & H & _). congruence. }
  cbn [length]. set (out := cbc_plain C key (x :: ct')).
  destruct (Z.gtb_spec (last out 0) 16) as [G|G].
  { split; [discriminate|]. intros (_ & _ & _ & H & _). lia. }
  destruct (Z.ltb_spec (zlen out - last out 0) 16) as [B|B].
  { split; [discriminate|]. intros (_ & _ & _ & _ & H & _). lia. }
  split.
  - intros H. injection H as <-. repeat split; auto; try lia. discriminate.
  - intros (_ & _ & _ & _ & _ & ->). reflexivity.
Qed.
Print Assumptions C21_accepts_iff.
