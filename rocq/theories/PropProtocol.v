(* C189: the first messages of a session, and the first replies, byte by byte. The specification below is
   written from the published X3DH / Double Ratchet message format (key schedule with the info strings
   "WhisperText", "WhisperRatchet" and "WhisperMessageKeys", version byte 0x33, the protobuf tags of
   axolotl/protobuf/WhisperTextProtocol.proto, the eight byte MAC over both identities) and does not use
   the session layer's definitions: only lists, the primitives, and base-128 numbers. *)
From Coq Require Import String Ascii ZArith List Lia Bool.
From Verif Require Import Bytes Res Wire WireProofs Crypto Cbc CbcProofs Messages MessagesProofs Session
  SessionProofs Builder Conversation Examples.
Import ListNotations.
Open Scope Z_scope.

Definition text (s : string) : bytes := map (fun a => Z.of_N (N_of_ascii a)) (list_ascii_of_string s).

(* b is the base-128 form of v: low digits first, bit 7 set on all but the last, no idle last digit *)
Definition base128 (v : Z) (b : bytes) : Prop :=
  exists ds d, b = map (fun x => x + 128) ds ++ [d] /\
    Forall (fun x => 0 <= x < 128) (ds ++ [d]) /\ (ds = [] \/ d <> 0) /\
    v = fold_right (fun x acc => x + 128 * acc) 0 (ds ++ [d]).

(* c is the AES-CBC encryption of pt with PKCS#7 padding *)
Definition is_cbc (C : crypto) (key iv pt c : bytes) : Prop :=
  exists pad ps cs, (1 <= pad <= 16)%nat /\
    pt ++ repeat (Z.of_nat pad) pad = concat ps /\ Forall (fun p => length p = 16%nat) ps /\
    c = concat cs /\ length cs = length ps /\
    forall i, (i < length ps)%nat -> exists x, length x = 16%nat /\
      (forall j, (j < 16)%nat -> nth j x 0 = Z.lxor (nth j (nth i ps []) 0) (nth j (nth i (iv :: cs) []) 0)) /\
      nth i cs [] = aesE C key x.

Section Spec.
Variable C : crypto.

(* X3DH: the shared secret *)
Definition x3dh (ika eka : bytes) (ikb spkb : bytes) (opkb : option bytes) : bytes :=
  hkdf C (repeat 255 32 ++ dh C ika spkb ++ dh C eka ikb ++ dh C eka spkb ++
          match opkb with Some k => dh C eka k | None => [] end) [] (text "WhisperText") 64.
(* a step of the root chain: root key and the output of a DH give a root key and a chain key *)
Definition kdf_rk (rk out : bytes) : bytes := hkdf C out rk (text "WhisperRatchet") 64.
(* the n-th key of a sending chain and the message keys made from it *)
Definition nth_ck (ck : bytes) (n : nat) : bytes := Nat.iter n (fun k => hmac C k [2]) ck.
Definition msg_keys (ck : bytes) (n : nat) : bytes :=
  hkdf C (hmac C (nth_ck ck n) [1]) [] (text "WhisperMessageKeys") 80.

(* the n-th message of a chain: ratchet key, counter, previous counter, ciphertext, MAC *)
Definition ratchet_message (sender receiver ratchet ck : bytes) (n : nat) (pt m : bytes) : Prop :=
  let keys := msg_keys ck n in
  exists nb lb ct, base128 (Z.of_nat n) nb /\ base128 (zlen ct) lb /\
    is_cbc C (firstn 32 keys) (skipn 64 keys) pt ct /\
    let body := 51 :: [10; 33; 5] ++ ratchet ++ [16] ++ nb ++ [24; 0] ++ [34] ++ lb ++ ct in
    m = body ++ firstn 8 (hmac C (firstn 32 (skipn 32 keys)) ((5 :: sender) ++ (5 :: receiver) ++ body)).

(* the message of an initiator around it: prekey id if a one-time prekey was used, base key, identity,
   message, registration id, signed prekey id *)
Definition initial_message (pkid : option Z) (reg spkid : Z) (base ident inner m : bytes) : Prop :=
  exists pb lb rb' sb,
    match pkid with Some i => exists d, base128 i d /\ pb = [8] ++ d | None => pb = [] end /\
    base128 (zlen inner) lb /\ base128 reg rb' /\ base128 spkid sb /\
    m = 51 :: pb ++ [18; 33; 5] ++ base ++ [26; 33; 5] ++ ident ++ [34] ++ lb ++ inner
        ++ [40] ++ rb' ++ [48] ++ sb.
End Spec.

(* ---- the model's encoders meet the specification ---- *)
Lemma base128_varint v : 0 <= v < 2 ^ 64 -> base128 v (varint v).
Proof.
  unfold varint. intros H.
  assert (G : forall n v, 0 <= v < 2 ^ (7 * Z.of_nat n + 7) -> base128 v (enc_varint (S n) v)).
  { clear. induction n as [|n IH]; intros v Hv.
    - cbn in Hv. cbn [enc_varint]. rewrite (proj2 (Z.ltb_lt v 128)) by lia.
      exists [], v. repeat split; auto. cbn. constructor; [lia|constructor]. cbn. lia.
    - rewrite enc_varint_S. destruct (Z.ltb_spec v 128).
      + exists [], v. repeat split; auto. cbn. constructor; [lia|constructor]. cbn. lia.
      + assert (Hp : 2 ^ (7 * Z.of_nat (S n) + 7) = 128 * 2 ^ (7 * Z.of_nat n + 7)).
        { replace (7 * Z.of_nat (S n) + 7) with (7 + (7 * Z.of_nat n + 7)) by lia.
          rewrite Z.pow_add_r by lia. reflexivity. }
        assert (Hq : 0 <= v / 128 < 2 ^ (7 * Z.of_nat n + 7)).
        { split; [apply Z.div_pos; lia|]. apply Z.div_lt_upper_bound; lia. }
        destruct (IH _ Hq) as (ds & d & E & F & D & V).
        exists (v mod 128 :: ds), d. rewrite E. repeat split; auto.
        * cbn [app]. constructor; auto. apply Z.mod_pos_bound. lia.
        * right. destruct D as [D|D]; auto. subst ds. cbn in V.
          assert (0 < v / 128) by (apply Z.div_str_pos; lia). lia.
        * cbn [app fold_right]. rewrite <- V. pose proof (Z.div_mod v 128). lia. }
  apply G. cbn. lia.
Qed.

Lemma nth_bxor a b j : (j < length a)%nat -> (j < length b)%nat ->
  nth j (bxor a b) 0 = Z.lxor (nth j a 0) (nth j b 0).
Proof.
  revert b j; induction a as [|x a IH]; intros [|y b] j Ha Hb; cbn in Ha, Hb; try lia.
  destruct j; [reflexivity|]. change (bxor (x :: a) (y :: b)) with (Z.lxor x y :: bxor a b). cbn [nth].
  apply IH; lia.
Qed.

Lemma cbc_enc_nth C (OK : crypto_ok C) key bl : aes_key_ok key = true ->
  Forall (fun p => length p = 16%nat) bl -> forall prev, length prev = 16%nat ->
  length (cbc_enc C key prev bl) = length bl /\
  forall i, (i < length bl)%nat -> exists x, length x = 16%nat /\
    (forall j, (j < 16)%nat ->
       nth j x 0 = Z.lxor (nth j (nth i bl []) 0) (nth j (nth i (prev :: cbc_enc C key prev bl) []) 0)) /\
    nth i (cbc_enc C key prev bl) [] = aesE C key x.
Proof.
  intros HK F. induction F as [|p bl Hp F IH]; intros prev Hprev.
  - split; [reflexivity|]. cbn. lia.
  - cbn [cbc_enc].
    assert (Hx : length (bxor p prev) = 16%nat) by (rewrite bxor_length, Hp, Hprev; reflexivity).
    destruct (IH (aesE C key (bxor p prev)) (aes_length C OK _ _ HK Hx)) as (L & N).
    split; [cbn [length]; lia|]. intros [|i] Hi.
    + exists (bxor p prev). split; auto. split; [|reflexivity]. intros j Hj. cbn [nth].
      apply nth_bxor; lia.
    + cbn [length] in Hi. destruct (N i) as (x & Lx & Nx & Ex); [lia|].
      exists x. split; auto.
Qed.

Lemma chunk16_16 n : forall l, length l = (16 * n)%nat ->
  Forall (fun p : bytes => length p = 16%nat) (chunk16 n l).
Proof.
  induction n as [|n IH]; intros l Hl; cbn [chunk16]; constructor.
  - rewrite firstn_length. lia.
  - apply IH. rewrite skipn_length. lia.
Qed.

Lemma is_cbc_Encrypt C (OK : crypto_ok C) key iv pt c : Encrypt C key iv pt = Ok c -> is_cbc C key iv pt c.
Proof.
  unfold Encrypt. destruct (aes_key_ok key) eqn:HK; [|discriminate]. cbn [negb].
  destruct (Nat.eqb_spec (length iv) 16) as [Hi|]; [|discriminate]. cbn [negb].
  intros E. assert (Ec : c = concat (cbc_enc C key iv (blocks (pkcs_pad pt)))) by congruence. clear E.
  set (pad := (16 - length pt mod 16)%nat).
  assert (Hpad : (1 <= pad <= 16)%nat).
  { pose proof (Nat.mod_upper_bound (length pt) 16). unfold pad. lia. }
  assert (Hl : length (pkcs_pad pt) = (16 * (length (pkcs_pad pt) / 16))%nat).
  { apply mul16. unfold pkcs_pad. rewrite app_length, repeat_length. fold pad.
    replace (length pt + pad)%nat with (16 + length pt / 16 * 16)%nat.
    2:{ pose proof (Nat.div_mod (length pt) 16). pose proof (Nat.mod_upper_bound (length pt) 16).
        unfold pad. lia. }
    rewrite Nat.mod_add by lia. reflexivity. }
  pose proof (chunk16_16 _ _ Hl) as F. fold (blocks (pkcs_pad pt)) in F.
  destruct (cbc_enc_nth C OK key _ HK F iv Hi) as (L & N).
  exists pad, (blocks (pkcs_pad pt)), (cbc_enc C key iv (blocks (pkcs_pad pt))).
  split; auto. split. { unfold blocks. rewrite concat_chunk16 by exact Hl. reflexivity. }
  split; auto.
Qed.

(* ---- sending a list of texts in a row ---- *)
Fixpoint send_all (C : crypto) (w : world) (rid : bytes) (dev : Z) (pts : list bytes)
  : list (res (bytes * mtype)) :=
  match pts with
  | [] => []
  | p :: t => let (r, l) := SessionEncryptMessage C w rid dev p in
              r :: send_all C (apply_effs w l) rid dev t
  end.

Section P.
Variable C : crypto.
Hypothesis OK : crypto_ok C.

Lemma nth_ck_ckn c n : ck_key (ckn C c n) = nth_ck C (ck_key c) n.
Proof. induction n; [reflexivity|]. rewrite ckn_S. cbn [getNextChainKey ck_key]. rewrite IHn. reflexivity. Qed.

(* a session state about to send message n of a chain *)
Record at_chain (s : sstate) (me peer ratchet : bytes) (c : ckey) (n : nat) : Prop := {
  ac_ver : s_version s = 3;
  ac_loc : s_local s = me;
  ac_rem : s_remote s = peer;
  ac_prev : s_prev s = 0;
  ac_sender : exists priv mks, s_sender s = Some (mkChain ratchet priv (Some (ckn C c n)) mks) }.

Lemma zlen_cipher c pt : zlen (cipher_of C (getMessageKeys C c) pt) <= zlen pt + 16.
Proof.
  set (ct := cipher_of C (getMessageKeys C c) pt).
  assert (Ect : Encrypt C (mk_cipher (getMessageKeys C c)) (mk_iv (getMessageKeys C c)) pt = Ok ct)
    by apply (cipher_of_ok C OK).
  destruct (is_cbc_Encrypt C OK _ _ _ _ Ect) as (pad & ps & cs & Hp & Epad & F & Ec & L & N).
  assert (Gs : forall l : list bytes, Forall (fun p => length p = 16%nat) l ->
    length (concat l) = (16 * length l)%nat).
  { clear. induction 1; [reflexivity|]. cbn [concat length]. rewrite app_length. lia. }
  assert (Fc : Forall (fun p : bytes => length p = 16%nat) cs).
  { apply Forall_forall. intros x Hx. destruct (In_nth _ _ [] Hx) as (i & Hi & Ei).
    destruct (N i) as (y & Ly & _ & Ey); [lia|]. rewrite <- Ei, Ey. apply (aes_length C OK); auto.
    unfold aes_key_ok. destruct (getMessageKeys_ok C OK c) as (Hk & _). rewrite Hk. reflexivity. }
  pose proof (f_equal (@length Z) Epad) as E2. rewrite app_length, repeat_length, (Gs ps F) in E2.
  rewrite Ec. unfold zlen. rewrite (Gs cs Fc). unfold bytes in *. lia.
Qed.

Lemma varint_10 v : zlen (varint v) <= 10.
Proof.
  unfold varint. assert (G : forall n v, zlen (enc_varint n v) <= Z.of_nat n).
  { induction n as [|n IH]; intros x; [cbn; lia|]. cbn [enc_varint]. destruct (x <? 128).
    - unfold zlen. cbn [length]. lia.
    - rewrite zlen_cons. specialize (IH (x / 128)). lia. }
  apply (G 10%nat).
Qed.

Lemma zlen_wm k r i q ct a b : length r = 32%nat ->
  zlen (wm_ser (newWhisperMessage C 3 k r i q ct a b)) <= zlen ct + 200.
Proof.
  intros Hr. unfold newWhisperMessage. cbn [wm_ser]. unfold whisper_fields, encode. cbn [flat_map].
  unfold enc_field. cbn [fst snd wtype enc_val]. rewrite app_nil_r, !zlen_app, zlen_cons, !zlen_app.
  assert (Hz : zlen (key_ser r) = 33) by (unfold zlen, key_ser; cbn [length]; lia). rewrite Hz.
  assert (zlen (getMac C 3 a b k
    (makeVersionByte 3 currentVersion
       :: (varint (1 * 8 + 2) ++ varint 33 ++ key_ser r) ++ (varint (2 * 8 + 0) ++ varint i) ++
          (varint (3 * 8 + 0) ++ varint q) ++ varint (4 * 8 + 2) ++ varint (zlen ct) ++ ct)) = 8)
    by (unfold zlen; rewrite (getMac_length C OK); reflexivity).
  pose proof (varint_10 (1 * 8 + 2)). pose proof (varint_10 33). pose proof (varint_10 (2 * 8 + 0)).
  pose proof (varint_10 i). pose proof (varint_10 (3 * 8 + 0)). pose proof (varint_10 q).
  pose proof (varint_10 (4 * 8 + 2)). pose proof (varint_10 (zlen ct)). lia.
Qed.

Lemma whisper_bytes me peer ratchet c n pt : zlen pt < 2 ^ 60 ->
  ck_index c = 0 -> Z.of_nat n < 2 ^ 32 -> length ratchet = 32%nat ->
  ratchet_message C me peer ratchet (ck_key c) n pt
    (wm_ser (newWhisperMessage C 3 (mk_mac (getMessageKeys C (ckn C c n))) ratchet (ck_index (ckn C c n)) 0
       (cipher_of C (getMessageKeys C (ckn C c n)) pt) me peer)).
Proof.
  intros Hpt H0 Hn Hr. unfold ratchet_message. cbv zeta.
  set (ct := cipher_of C (getMessageKeys C (ckn C c n)) pt).
  assert (Ect : Encrypt C (mk_cipher (getMessageKeys C (ckn C c n))) (mk_iv (getMessageKeys C (ckn C c n))) pt
                = Ok ct) by apply (cipher_of_ok C OK).
  pose proof (is_cbc_Encrypt C OK _ _ _ _ Ect) as Hcbc.
  exists (varint (Z.of_nat n)), (varint (zlen ct)), ct.
  split; [apply base128_varint; lia|]. split.
  { apply base128_varint. split; [apply zlen_nonneg|].
    pose proof (zlen_cipher (ckn C c n) pt) as Hz. fold ct in Hz. lia. }
  split. { unfold getMessageKeys in Hcbc. cbn [mk_cipher mk_iv] in Hcbc. rewrite nth_ck_ckn in Hcbc. exact Hcbc. }
  unfold newWhisperMessage. cbn [wm_ser]. rewrite (ckn_index C) by auto.
  assert (Eb : makeVersionByte 3 currentVersion :: encode (whisper_fields ratchet (Z.of_nat n) 0 ct)
    = 51 :: [10; 33; 5] ++ ratchet ++ [16] ++ varint (Z.of_nat n) ++ [24; 0] ++ [34] ++ varint (zlen ct) ++ ct).
  { change (makeVersionByte 3 currentVersion) with 51. f_equal. unfold whisper_fields, encode.
    cbn [flat_map]. unfold enc_field. cbn [fst snd wtype enc_val]. rewrite app_nil_r.
    assert (Hz : zlen (key_ser ratchet) = 33) by (unfold zlen, key_ser; cbn [length]; lia).
    rewrite Hz. change (varint 33) with [33]. change (varint (1 * 8 + 2)) with [10].
    change (varint (2 * 8 + 0)) with [16]. change (varint (3 * 8 + 0)) with [24]. change (varint 0) with [0].
    change (varint (4 * 8 + 2)) with [34]. unfold key_ser. rewrite <- !app_assoc. reflexivity. }
  rewrite Eb. unfold getMac. change (3 >=? 3) with true. cbv iota.
  unfold ComputeTruncatedMAC, key_ser, macLength, getMessageKeys. cbn [mk_mac]. rewrite nth_ck_ckn.
  rewrite <- app_assoc. reflexivity.
Qed.

Lemma initial_bytes reg pkid spkid base ident wm :
  0 <= reg < 2 ^ 32 -> 0 <= pkid < 2 ^ 32 -> 0 <= spkid < 2 ^ 32 -> zlen (wm_ser wm) < 2 ^ 62 ->
  length base = 32%nat -> length ident = 32%nat ->
  initial_message (Some pkid) reg spkid base ident (wm_ser wm)
    (pk_ser (newPreKeyWhisperMessage 3 reg pkid spkid base ident wm)).
Proof.
  intros Hr Hp Hs Hw Hb Hi. exists ([8] ++ varint pkid), (varint (zlen (wm_ser wm))), (varint reg), (varint spkid).
  pose proof (zlen_nonneg (wm_ser wm)).
  split; [exists (varint pkid); split; [apply base128_varint; lia|reflexivity]|].
  split; [apply base128_varint; lia|]. split; [apply base128_varint; lia|].
  split; [apply base128_varint; lia|].
  unfold newPreKeyWhisperMessage. cbn [pk_ser]. change (makeVersionByte 3 currentVersion) with 51. f_equal.
  unfold prekey_fields, encode. cbn [flat_map]. unfold enc_field. cbn [fst snd wtype enc_val].
  rewrite app_nil_r.
  assert (Hz : forall k : bytes, length k = 32%nat -> zlen (key_ser k) = 33)
    by (intros k Hk; unfold zlen, key_ser; cbn [length]; lia).
  rewrite !Hz by auto. change (varint 33) with [33]. change (varint (1 * 8 + 0)) with [8].
  change (varint (2 * 8 + 2)) with [18]. change (varint (3 * 8 + 2)) with [26].
  change (varint (4 * 8 + 2)) with [34]. change (varint (5 * 8 + 0)) with [40].
  change (varint (6 * 8 + 0)) with [48]. unfold key_ser. rewrite <- !app_assoc. reflexivity.
Qed.

Lemma sess_set w rid dev v : w_sess (set_sess w rid dev v) rid dev = v.
Proof. unfold set_sess. cbn [w_sess]. rewrite beq_refl, Z.eqb_refl. reflexivity. Qed.

(* what sending from such a state gives, text after text *)
Lemma send_all_chain pend rid dev me peer ratchet c pts :
  ck_index c = 0 -> length (ck_key c) = 32%nat -> length ratchet = 32%nat ->
  length me = 32%nat -> length peer = 32%nat ->
  (forall p, pend = Some p -> exists base, pp_base p = key_ser base /\ length base = 32%nat) ->
  forall n w s prevs reg, w_sess w rid dev = Some (s, prevs) -> at_chain s me peer ratchet c n ->
  s_pending s = pend -> s_lreg s = reg ->
  forall k pt, nth_error pts k = Some pt ->
  let wm := newWhisperMessage C 3 (mk_mac (getMessageKeys C (ckn C c (n + k)))) ratchet
              (ck_index (ckn C c (n + k))) 0 (cipher_of C (getMessageKeys C (ckn C c (n + k))) pt) me peer in
  nth_error (send_all C w rid dev pts) k =
    Some (match pend with
          | None => Ok (wm_ser wm, CIPHERTEXT)
          | Some p => Ok (pk_ser (newPreKeyWhisperMessage 3 reg (pp_pkid p) (pp_spkid p mod 2 ^ 32)
                            (tl (pp_base p)) me wm), PREKEY_BUNDLE)
          end).
Proof.
  intros H0 Hk Hr Hme Hpe Hpend. induction pts as [|q pts IH]; intros n w s prevs reg Hs A Hp Hreg k pt Hpt;
    [destruct k; discriminate|].
  cbn [send_all]. unfold SessionEncryptMessage, LoadSession. rewrite Hs. cbn [r_cur r_prevs].
  destruct A as [Av Al Ar Apv (priv & mks & As)].
  assert (E : ss_encrypt C s q =
    let wm := newWhisperMessage C 3 (mk_mac (getMessageKeys C (ckn C c n))) ratchet
              (ck_index (ckn C c n)) 0 (cipher_of C (getMessageKeys C (ckn C c n)) q) me peer in
    let s' := with_sender s (Some (mkChain ratchet priv (Some (ckn C c (S n))) mks)) in
    match pend with
    | None => Ok (wm_ser wm, CIPHERTEXT, s')
    | Some p => Ok (pk_ser (newPreKeyWhisperMessage 3 reg (pp_pkid p) (pp_spkid p mod 2 ^ 32)
                            (tl (pp_base p)) me wm), PREKEY_BUNDLE, s')
    end).
  { pose proof (ss_encrypt_ok C OK s _ (ckn C c n) q As eq_refl (ckn_key_length C OK c n Hk)) as X.
    cbn [ch_rpub ch_rpriv ch_mks] in X. specialize (X Hr Av). rewrite Al, Ar, Apv, Hreg, Hp in X.
    specialize (X Hme Hpe). cbv zeta in X |- *. destruct pend as [p|].
    - destruct (Hpend p eq_refl) as (base & Eb & Lb). rewrite (X base Eb Lb), Eb. reflexivity.
    - exact X. }
  rewrite E. cbv zeta. clear E.
  set (s' := with_sender s (Some (mkChain ratchet priv (Some (ckn C c (S n))) mks))).
  assert (A' : at_chain s' me peer ratchet c (S n)).
  { constructor; auto. exists priv, mks. reflexivity. }
  destruct k as [|k].
  - cbn [nth_error] in Hpt. assert (q = pt) by congruence. subst q. rewrite Nat.add_0_r.
    destruct pend; reflexivity.
  - cbn [nth_error] in Hpt. rewrite Nat.add_succ_r.
    assert (G : forall w1, w1 = apply_effs w [EStoreSession rid dev s' prevs] ->
      nth_error (send_all C w1 rid dev pts) k = 
        Some (let wm := newWhisperMessage C 3 (mk_mac (getMessageKeys C (ckn C c (S (n + k))))) ratchet
                (ck_index (ckn C c (S (n + k)))) 0
                (cipher_of C (getMessageKeys C (ckn C c (S (n + k)))) pt) me peer in
              match pend with
              | None => Ok (wm_ser wm, CIPHERTEXT)
              | Some p => Ok (pk_ser (newPreKeyWhisperMessage 3 reg (pp_pkid p) (pp_spkid p mod 2 ^ 32)
                            (tl (pp_base p)) me wm), PREKEY_BUNDLE)
              end)).
    { intros w1 ->. change (S (n + k)) with (S n + k)%nat.
      refine (IH (S n) _ s' prevs reg _ A' _ _ k pt Hpt); auto.
      cbn [apply_effs fold_left apply_eff]. apply sess_set. }
    destruct pend as [p|]; cbn [nth_error]; apply G; reflexivity.
Qed.
End P.


Lemma gomk_keeps C s r c i : exists lst, snd (getOrCreateMessageKeys C s r c i) = with_recv s lst.
Proof.
  assert (E : s = with_recv s (s_recv s)) by (destruct s; reflexivity).
  unfold getOrCreateMessageKeys. destruct (ck_index c >? i).
  - destruct (find_chain r (s_recv s)) as [rc|]; [|exists (s_recv s); exact E].
    destruct (take_mk i (ch_mks rc)) as [[k rest]|]; [|exists (s_recv s); exact E].
    eexists. reflexivity.
  - destruct (too_far 64 i (ck_index c)); [exists (s_recv s); exact E|].
    destruct (find_chain r (s_recv s)) as [rc|]; [|exists (s_recv s); exact E].
    destruct (skip_keys _ _ _ _) as [c' mks]. eexists. reflexivity.
Qed.

(* ---- C189 ---- *)
(* key pairs are drawn as Curve25519 asks: the drawn number with its lowest three bits cleared and the top
   two bits set to 01 *)
Lemma le_dec_snoc a x : le_dec (a ++ [x]) = le_dec a + 256 ^ zlen a * x.
Proof.
  induction a as [|y a IH].
  - cbn [app le_dec]. change (256 ^ zlen (@nil Z)) with 1. lia.
  - cbn [app le_dec]. rewrite IH, zlen_cons, Z.pow_add_r by (pose proof (zlen_nonneg a); lia). lia.
Qed.

Lemma land_248 b : isbyte b -> Z.land b 248 = 8 * (b / 8).
Proof.
  intros H. change 248 with (Z.shiftl 31 3).
  assert (E : Z.land b (Z.shiftl 31 3) = Z.shiftl (Z.land (Z.shiftr b 3) 31) 3).
  { apply Z.bits_inj'. intros n Hn. rewrite Z.land_spec, !Z.shiftl_spec by lia.
    destruct (Z.leb_spec 3 n).
    - rewrite Z.land_spec, Z.shiftr_spec by lia. replace (n - 3 + 3) with n by lia. reflexivity.
    - rewrite !(Z.testbit_neg_r _ (n - 3)) by lia. apply andb_false_r. }
  rewrite E, Z.shiftl_mul_pow2, Z.shiftr_div_pow2 by lia. change (2 ^ 3) with 8.
  change 31 with (Z.ones 5). rewrite Z.land_ones by lia. rewrite Z.mod_small; [lia|].
  unfold isbyte in H. change (2 ^ 5) with 32. split; [apply Z.div_pos; lia|apply Z.div_lt_upper_bound; lia].
Qed.

Lemma lor_63_64 b : isbyte b -> Z.lor (Z.land b 63) 64 = b mod 64 + 64.
Proof.
  intros H. change 63 with (Z.ones 6). rewrite Z.land_ones by lia. change (2 ^ 6) with 64.
  assert (Hm : 0 <= b mod 64 < 64) by (apply Z.mod_pos_bound; lia).
  rewrite Z.add_nocarry_lxor, Z.lxor_lor; auto.
  - apply Z.bits_inj'. intros n Hn. rewrite Z.land_spec, Z.bits_0.
    destruct (Z.eq_dec n 6) as [->|N].
    + rewrite <- (Z.mod_small (b mod 64) (2 ^ 6)) by exact Hm.
      rewrite Z.mod_pow2_bits_high by lia. reflexivity.
    + change 64 with (2 ^ 6). rewrite Z.pow2_bits_false by lia. apply andb_false_r.
  - apply Z.bits_inj'. intros n Hn. rewrite Z.land_spec, Z.bits_0.
    destruct (Z.eq_dec n 6) as [->|N].
    + rewrite <- (Z.mod_small (b mod 64) (2 ^ 6)) by exact Hm.
      rewrite Z.mod_pow2_bits_high by lia. reflexivity.
    + change 64 with (2 ^ 6). rewrite Z.pow2_bits_false by lia. apply andb_false_r.
Qed.

Theorem C189_clamped : forall r, length r = 32%nat -> wfb r ->
  le_dec (clamp r) = 2 ^ 254 + 8 * (le_dec r / 8 mod 2 ^ 251) /\ length (clamp r) = 32%nat.
Proof.
  intros r Hl Hw. split; [|apply clamp_length; exact Hl].
  destruct r as [|b0 t]; [discriminate|]. cbn [length] in Hl.
  assert (Ht : length t = 31%nat) by lia.
  assert (Hw0 : isbyte b0 /\ wfb t) by (split; [exact (Forall_inv Hw)|exact (Forall_inv_tail Hw)]).
  destruct Hw0 as [Hb0 Hwt].
  set (a := firstn 30 t). set (x := nth 30 t 0).
  assert (Et : t = a ++ [x]).
  { unfold a, x. rewrite <- (firstn_skipn 30 t) at 1. f_equal.
    destruct (skipn 30 t) as [|y [|z u]] eqn:E.
    - pose proof (skipn_length 30 t) as L. rewrite E, Ht in L. discriminate L.
    - f_equal. rewrite <- (firstn_skipn 30 t), E.
      rewrite app_nth2; rewrite firstn_length, Ht; [reflexivity|]. cbn. lia.
    - pose proof (skipn_length 30 t) as L. rewrite E, Ht in L. discriminate L. }
  assert (La : zlen a = 30) by (unfold zlen, a; rewrite firstn_length; lia).
  assert (Hx : isbyte x).
  { rewrite Et in Hwt. apply wfb_app in Hwt. destruct Hwt as [_ Hx]. exact (Forall_inv Hx). }
  assert (Ra : 0 <= le_dec a < 256 ^ 30).
  { rewrite <- La. apply le_dec_range. unfold a. apply wfb_firstn. exact Hwt. }
  change (clamp (b0 :: t)) with (Z.land b0 248 :: a ++ [Z.lor (Z.land x 63) 64]).
  cbn [le_dec]. rewrite le_dec_snoc, La, land_248, lor_63_64 by auto.
  rewrite Et, le_dec_snoc, La.
  set (M := le_dec a) in *. clearbody M. clear Et La Hw Hwt Hl Ht. clearbody x. clear a t.
  assert (E1 : (b0 + 256 * (M + 256 ^ 30 * x)) / 8 = b0 / 8 + 32 * M + 2 ^ 245 * x).
  { replace (b0 + 256 * (M + 256 ^ 30 * x)) with (b0 + (32 * M + 2 ^ 245 * x) * 8).
    - rewrite Z.div_add by lia. lia.
    - replace (2 ^ 245) with (32 * 256 ^ 30) by reflexivity. lia. }
  rewrite E1. pose proof (Z.div_mod x 64 ltac:(lia)) as Dx.
  assert (Hm : 0 <= x mod 64 < 64) by (apply Z.mod_pos_bound; lia).
  assert (Hb : 0 <= b0 / 8 < 32) by (unfold isbyte in Hb0; split; [apply Z.div_pos; lia|apply Z.div_lt_upper_bound; lia]).
  replace (b0 / 8 + 32 * M + 2 ^ 245 * x)
    with (b0 / 8 + 32 * M + 2 ^ 245 * (x mod 64) + (x / 64) * 2 ^ 251).
  - rewrite Z.mod_add by (intro Q; discriminate Q).
    rewrite (Z.mod_small (b0 / 8 + 32 * M + 2 ^ 245 * (x mod 64))).
    + replace (2 ^ 254) with (64 * (256 * 256 ^ 30)) by reflexivity.
      replace (2 ^ 245) with (32 * 256 ^ 30) by reflexivity.
      generalize (256 ^ 30) (x mod 64) (b0 / 8). intros. ring.
    + replace (2 ^ 251) with (64 * (32 * 256 ^ 30)) by reflexivity.
      replace (2 ^ 245) with (32 * 256 ^ 30) by reflexivity. nia.
  - replace (2 ^ 251) with (64 * 2 ^ 245) by reflexivity.
    set (q := x / 64) in *. set (y := x mod 64) in *. clearbody q y. rewrite Dx. lia.
Qed.

(* The full claim has match b_pk b with Some _ => Some (b_pkid b) | None => None end for the id in the message;
   without a one-time prekey it is false, see C189_without_one_time_refuted. *)
Theorem C189_first_messages_partial : forall C, crypto_ok C ->
  forall w rid dev b spk rbase rratchet l pts,
  BuildSenderSession C w rid dev b rbase rratchet = (Ok tt, l) -> b_spk b = Some spk -> b_pk b <> None ->
  length (snd (w_ident w)) = 32%nat -> length (b_ident b) = 32%nat ->
  0 <= w_reg w < 2 ^ 32 -> 0 <= b_pkid b < 2 ^ 32 -> 0 <= b_spkid b < 2 ^ 31 ->
  Z.of_nat (length pts) <= 2 ^ 32 -> Forall (fun pt => zlen pt < 2 ^ 60) pts ->
  let me := snd (w_ident w) in
  let root := firstn 32 (x3dh C (fst (w_ident w)) (clamp rbase) (b_ident b) spk (b_pk b)) in
  let ck := skipn 32 (kdf_rk C root (dh C (clamp rratchet) spk)) in
  forall n pt, nth_error pts n = Some pt ->
  exists inner m, nth_error (send_all C (apply_effs w l) rid dev pts) n = Some (Ok (m, PREKEY_BUNDLE)) /\
    ratchet_message C me (b_ident b) (basepub C (clamp rratchet)) ck n pt inner /\
    initial_message (Some (b_pkid b)) (w_reg w) (b_spkid b) (basepub C (clamp rbase)) me inner m.
Proof.
  intros C OK w rid dev b spk rbase rratchet l pts HB Hspk _ Hme Hpe Hreg Hpk Hsk Hn Hpts.
  cbv zeta. intros n pt Hpt.
  assert (Hnl : (n < length pts)%nat) by (apply nth_error_Some; rewrite Hpt; discriminate).
  assert (Hz : zlen pt < 2 ^ 60).
  { rewrite Forall_forall in Hpts. apply Hpts. eapply nth_error_In; eauto. }
  unfold BuildSenderSession in HB. rewrite Hspk in HB.
  destruct (negb (IsTrustedIdentity w rid (b_ident b))); [discriminate|].
  destruct (negb (sigok C (b_ident b) (key_ser spk) (b_sig b))); [discriminate|].
  assert (E0 : r_cur (if r_fresh (LoadSession w rid dev) then LoadSession w rid dev
                      else archiveCurrentState (LoadSession w rid dev)) = empty_ss).
  { unfold LoadSession. destruct (w_sess w rid dev) as [[c p]|]; reflexivity. }
  cbv zeta in HB. rewrite E0 in HB. clear E0.
  set (prevs := r_prevs _) in HB. clearbody prevs.
  set (s3 := with_regs _ _ _ _) in HB.
  assert (El : l = [EStoreSession rid dev s3 prevs; ESaveIdentity rid (b_ident b)]) by congruence.
  clear HB. subst l.
  set (root := firstn 32 (x3dh C (fst (w_ident w)) (clamp rbase) (b_ident b) spk (b_pk b))).
  set (ck := mkCk 0 (skipn 32 (kdf_rk C root (dh C (clamp rratchet) spk)))).
  assert (Hck : length (ck_key ck) = 32%nat).
  { unfold ck. cbn [ck_key]. unfold kdf_rk. rewrite skipn_length, (hkdf_length C OK). reflexivity. }
  assert (A : at_chain C s3 (snd (w_ident w)) (b_ident b) (basepub C (clamp rratchet)) ck 0).
  { constructor; try reflexivity. eexists _, _. reflexivity. }
  pose proof (send_all_chain C OK
    (Some (mkPending (b_pkid b) (b_spkid b) (key_ser (basepub C (clamp rbase))))) rid dev
    (snd (w_ident w)) (b_ident b) (basepub C (clamp rratchet)) ck pts eq_refl Hck
    (basepub_length C OK _) Hme Hpe) as X.
  assert (Xp : forall p, Some (mkPending (b_pkid b) (b_spkid b) (key_ser (basepub C (clamp rbase)))) = Some p ->
    exists base, pp_base p = key_ser base /\ length base = 32%nat).
  { intros p Ep. exists (basepub C (clamp rbase)). split; [|apply (basepub_length C OK)].
    assert (p = mkPending (b_pkid b) (b_spkid b) (key_ser (basepub C (clamp rbase)))) as -> by congruence.
    reflexivity. }
  specialize (X Xp 0%nat (apply_effs w [EStoreSession rid dev s3 prevs; ESaveIdentity rid (b_ident b)]) s3 prevs
    (w_reg w)).
  specialize (X ltac:(cbn [apply_effs fold_left apply_eff set_id w_sess]; apply sess_set) A eq_refl eq_refl
    n pt Hpt).
  cbv zeta in X. change (0 + n)%nat with n in X. cbn [pp_pkid pp_spkid pp_base key_ser tl] in X.
  rewrite (Z.mod_small (b_spkid b)) in X by lia.
  eexists _, _. split; [exact X|]. split.
  - change (skipn 32 (kdf_rk C root (dh C (clamp rratchet) spk))) with (ck_key ck).
    apply (whisper_bytes C OK); auto; try lia. apply (basepub_length C OK).
  - apply initial_bytes; auto; try lia; [|apply (basepub_length C OK)].
    eapply Z.le_lt_trans; [apply (zlen_wm C OK); apply (basepub_length C OK)|].
    pose proof (zlen_cipher C OK (ckn C ck n) pt). lia.
Qed.

Theorem C189_replies : forall C, crypto_ok C ->
  forall w rid dev msg m rnd got l spriv spub opk pts,
  w_sess w rid dev = None ->
  LoadPreKeyWhisperMessage msg = Ok m -> receive C w rid dev PREKEY_BUNDLE msg rnd = (Ok got, l) ->
  w_spk w (pk_spkid m) = Some (spriv, spub) ->
  (if pk_pkid m =? 0 then opk = None
   else exists ppriv ppub, w_pre w (pk_pkid m) = Some (ppriv, ppub) /\ opk = Some ppriv) ->
  length (snd (w_ident w)) = 32%nat ->
  Z.of_nat (length pts) <= 2 ^ 32 -> Forall (fun pt => zlen pt < 2 ^ 60) pts ->
  let me := snd (w_ident w) in
  let peer := pk_ident m in
  let ra := wm_rkey (pk_msg m) in
  let root0 := firstn 32 (hkdf C (repeat 255 32 ++ dh C spriv peer ++ dh C (fst (w_ident w)) (pk_base m) ++
                 dh C spriv (pk_base m) ++ match opk with Some k => dh C k (pk_base m) | None => [] end)
                 [] (text "WhisperText") 64) in
  let root1 := firstn 32 (kdf_rk C root0 (dh C spriv ra)) in
  let ck := skipn 32 (kdf_rk C root1 (dh C (clamp (rnd 0%nat)) ra)) in
  forall n pt, nth_error pts n = Some pt ->
  exists r, nth_error (send_all C (apply_effs w l) rid dev pts) n = Some (Ok (r, CIPHERTEXT)) /\
    ratchet_message C me peer (basepub C (clamp (rnd 0%nat))) ck n pt r.
Proof.
  intros C OK w rid dev msg m rnd got l spriv spub opk pts HS HL HR Hspk Hopk Hme Hn Hpts.
  cbv zeta. intros n pt Hpt.
  assert (Hnl : (n < length pts)%nat) by (apply nth_error_Some; rewrite Hpt; discriminate).
  assert (Hz : zlen pt < 2 ^ 60).
  { rewrite Forall_forall in Hpts. apply Hpts. eapply nth_error_In; eauto. }
  unfold receive in HR. rewrite HL in HR. unfold SessionDecryptPreKeyWhisperMessage, LoadSession in HR.
  rewrite HS in HR. unfold BuildReceiverSession in HR.
  destruct (negb (pk_version m =? currentVersion)) eqn:Ever; [discriminate|].
  destruct (negb (IsTrustedIdentity w rid (pk_ident m))); [discriminate|].
  assert (Eh : hasSessionState NewSessionRecord (pk_version m) (key_ser (pk_base m)) = false).
  { apply negb_false_iff, Z.eqb_eq in Ever. rewrite Ever. reflexivity. }
  rewrite Eh in HR. clear Eh. rewrite Hspk in HR. cbn [of_option bind] in HR.
  unfold load_kp at 1 in HR. cbn [fst snd] in HR.
  destruct (key32 spriv) as [s1| |] eqn:K1; try discriminate. cbn [bind] in HR.
  destruct (key32 spub) as [s2| |] eqn:K2; try discriminate. cbn [bind] in HR.
  apply key32_inv in K1. destruct K1 as [-> K1]. apply key32_inv in K2. destruct K2 as [-> K2].
  assert (Eo : (if pk_pkid m =? 0 then Ok None
                else let* kp := of_option EPreKeyNotFound (w_pre w (pk_pkid m)) in
                     let* kp := load_kp kp in Ok (Some (fst kp))) = Ok opk \/
               (forall v, (if pk_pkid m =? 0 then Ok None
                else let* kp := of_option EPreKeyNotFound (w_pre w (pk_pkid m)) in
                     let* kp := load_kp kp in Ok (Some (fst kp))) <> Ok v)).
  { destruct (pk_pkid m =? 0). - left. rewrite Hopk. reflexivity.
    - destruct Hopk as (pp & pq & Ep & ->). rewrite Ep. cbn [of_option bind]. unfold load_kp. cbn [fst snd].
      destruct (key32 pp) as [x| |] eqn:Kx; cbn [bind]; [|right; discriminate..].
      destruct (key32 pq) as [y| |] eqn:Ky; cbn [bind]; [|right; discriminate..].
      left. apply key32_inv in Kx. destruct Kx as [-> _]. reflexivity. }
  destruct Eo as [Eo|Eo].
  2:{ match type of HR with context [bind ?x _] => destruct x as [v| |] eqn:Ev end;
      [exfalso; exact (Eo v eq_refl)|discriminate..]. }
  rewrite Eo in HR. cbn [bind] in HR. cbn [fst snd] in HR. clear Eo Hopk.
  change (r_fresh NewSessionRecord) with true in HR. cbv iota in HR.
  change (r_cur NewSessionRecord) with empty_ss in HR. change (r_prevs NewSessionRecord) with (@nil sstate) in HR.
  set (s0 := with_regs _ _ _ _) in HR.
  set (root0 := firstn 32 (hkdf C _ [] (text "WhisperText") 64)).
  set (ra := wm_rkey (pk_msg m)).
  set (root1 := firstn 32 (kdf_rk C root0 (dh C spriv ra))).
  set (nk := clamp (rnd 0%nat)).
  set (ck := mkCk 0 (skipn 32 (kdf_rk C root1 (dh C nk ra)))).
  assert (Hck : length (ck_key ck) = 32%nat).
  { unfold ck. cbn [ck_key]. unfold kdf_rk. rewrite skipn_length, (hkdf_length C OK). reflexivity. }
  assert (S0 : s_sender s0 = Some (mkChain spub spriv (Some (snd (calculateDerivedKeys C
      (diversifier ++ dh C spriv (pk_ident m) ++ dh C (fst (w_ident w)) (pk_base m)
              ++ dh C spriv (pk_base m)
              ++ match opk with Some k => dh C k (pk_base m) | None => [] end)))) [])) by reflexivity.
  assert (R0 : s_root s0 = root0) by reflexivity.
  assert (Hroot0 : length root0 = 32%nat).
  { unfold root0. rewrite firstn_length, (hkdf_length C OK). reflexivity. }
  assert (Hpeer : length (pk_ident m) = 32%nat).
  { clear - HL. unfold LoadPreKeyWhisperMessage in HL. destruct msg as [|b0 body]; [discriminate|].
    cbv zeta in HL. destruct (negb _); [discriminate|]. destruct (parse body) as [fs|]; [|discriminate].
    destruct (get_len 2 fs), (get_len 3 fs), (get_len 4 fs); try discriminate.
    destruct (_ =? 0); [discriminate|].
    destruct (LoadWhisperMessage _); cbn [bind] in HL; try discriminate.
    destruct (key_unser b) eqn:Kb; cbn [bind] in HL; try discriminate.
    destruct (key_unser b1) eqn:Ki; cbn [bind] in HL; try discriminate.
    apply key_unser_inv in Ki. destruct Ki as (tt0 & _ & Ki). inversion HL. exact Ki. }
  assert (D : exists s', ss_decrypt C s0 (pk_msg m) (rnd 0%nat) = (Ok got, s') /\
    l = [ESaveIdentity rid (pk_ident m)] ++ (if pk_pkid m =? 16777215 then [] else [ERemovePreKey (pk_pkid m)])
        ++ [EStoreSession rid dev s' []]).
  { unfold sc_decrypt in HR. cbn [r_cur r_prevs r_fresh] in HR.
    destruct (ss_decrypt C s0 (pk_msg m) (rnd 0%nat)) as [[g|e|] s'].
    - exists s'. cbn [StoreSession r_cur r_prevs] in HR. unfold StoreSession in HR. cbn [r_cur r_prevs] in HR.
      split; congruence.
    - cbn [try_prevs] in HR. discriminate.
    - discriminate. }
  destruct D as (s' & D & ->).
  assert (A : at_chain C s' (snd (w_ident w)) (pk_ident m) (basepub C nk) ck 0 /\ s_pending s' = None).
  { unfold ss_decrypt in D. rewrite S0 in D.
    destruct (wm_version (pk_msg m) =? _); cbn [negb] in D; [|discriminate].
    unfold getOrCreateChainKey in D. change (s_recv s0) with (@nil chain) in D. cbn [find_chain] in D.
    rewrite R0, key32_ok in D by exact Hroot0. cbn [bind] in D. rewrite S0 in D.
    cbn [ch_rpriv ch_rpub ch_ck] in D. rewrite !key32_ok in D by assumption. cbn [bind] in D.
    destruct (createChain C root0 (wm_rkey (pk_msg m)) spriv) as [ro1 rck] eqn:C1.
    destruct (createChain C ro1 (wm_rkey (pk_msg m)) (clamp (rnd 0%nat))) as [ro2 sck] eqn:C2.
    assert (E1 : ro1 = root1 /\ ck_index rck = 0).
    { unfold createChain in C1. cbv zeta in C1. fold ra in C1. split.
      { unfold root1, kdf_rk. change (text "WhisperRatchet") with str_ratchet. congruence. }
      assert (rck = mkCk 0 (skipn 32 (hkdf C (dh C spriv ra) root0 str_ratchet 64))) as -> by congruence.
      reflexivity. }
    destruct E1 as [-> Irck].
    assert (E2 : sck = ck).
    { unfold createChain in C2. cbv zeta in C2. fold ra nk in C2. unfold ck, kdf_rk.
      change (text "WhisperRatchet") with str_ratchet. congruence. }
    subst sck. clear C1 C2.
    rewrite load_ck_ok in D.
    2:{ unfold calculateDerivedKeys. cbn [snd ck_key]. rewrite skipn_length, (hkdf_length C OK). reflexivity. }
    cbn [bind] in D. unfold calculateDerivedKeys in D. cbn [snd ck_index] in D.
    change (0 >? 0) with false in D. cbv iota in D.
    match type of D with context [getOrCreateMessageKeys C ?s ?r ?c ?i] =>
      pose proof (gomk_keeps C s r c i) as Y; destruct (getOrCreateMessageKeys C s r c i) as [[mk|e|] s2] end;
      try discriminate.
    cbn [snd] in Y. destruct Y as (lst & ->).
    destruct (key32 _); try discriminate. destruct (key32 _); try discriminate.
    destruct (verifyMAC C (pk_msg m) _ _ _); cbn [negb] in D; [|discriminate].
    destruct (Decrypt _ _ _); try discriminate.
    match type of D with (_, ?x) = _ => assert (Es : s' = x) by congruence end. rewrite Es.
    split; [|reflexivity]. constructor; try reflexivity. eexists _, _. reflexivity. }
  destruct A as [A Apend].
  pose proof (send_all_chain C OK None rid dev (snd (w_ident w)) (pk_ident m) (basepub C nk) ck pts eq_refl Hck
    (basepub_length C OK _) Hme Hpeer) as X.
  specialize (X ltac:(intros; discriminate) 0%nat
    (apply_effs w ([ESaveIdentity rid (pk_ident m)] ++ (if pk_pkid m =? 16777215 then [] else
        [ERemovePreKey (pk_pkid m)]) ++ [EStoreSession rid dev s' []])) s' [] (s_lreg s')).
  specialize (X ltac:(unfold apply_effs; rewrite !fold_left_app; cbn [fold_left apply_eff]; apply sess_set)
    A Apend eq_refl n pt Hpt).
  cbv zeta in X. change (0 + n)%nat with n in X. eexists. split; [exact X|].
  change (skipn 32 (kdf_rk C root1 (dh C nk ra))) with (ck_key ck).
  apply (whisper_bytes C OK); auto; try lia. apply (basepub_length C OK).
Qed.

(* ---- a session between the two example parties ---- *)
Definition ex_bundle : bundle :=
  mkBundle 1002 1 5 (Some (basepub toy (ex_priv 55))) 1 (Some (basepub toy (ex_priv 33)))
    (ex_sign (snd (ex_kp 22)) (key_ser (basepub toy (ex_priv 33)))) (snd (ex_kp 22)).
Definition ex_bundle_without : bundle :=
  mkBundle 1002 1 0 None 1 (Some (basepub toy (ex_priv 33)))
    (ex_sign (snd (ex_kp 22)) (key_ser (basepub toy (ex_priv 33)))) (snd (ex_kp 22)).
Definition ex_pts : list bytes := [[104; 105]; []; repeat 7 16].
Definition ex_built : world :=
  apply_effs ex_worldA (snd (BuildSenderSession toy ex_worldA nb 1 ex_bundle (rb 77) (rb 88))).
Definition ex_sent : list bytes :=
  map (fun r => match r with Ok (m, _) => m | _ => [] end) (send_all toy ex_built nb 1 ex_pts).

Example C189_example :
  (exists l, BuildSenderSession toy ex_worldA nb 1 ex_bundle (rb 77) (rb 88) = (Ok tt, l)) /\
  b_pk ex_bundle <> None /\
  map (fun r => match r with Ok (_, PREKEY_BUNDLE) => true | _ => false end) (send_all toy ex_built nb 1 ex_pts)
    = [true; true; true] /\
  (* B receives the third message first and answers *)
  (exists m, LoadPreKeyWhisperMessage (nth 2 ex_sent []) = Ok m /\
     w_spk ex_worldB (pk_spkid m) = Some (ex_kp 33) /\ w_pre ex_worldB (pk_pkid m) = Some (ex_kp 55)) /\
  fst (receive toy ex_worldB na 1 PREKEY_BUNDLE (nth 2 ex_sent []) (fun _ => rb 99)) = Ok (repeat 7 16).
Proof.
  split; [eexists; vm_compute; reflexivity|]. split; [intro Q; discriminate Q|]. split; [vm_compute; reflexivity|].
  split; [|vm_compute; reflexivity].
  eexists. split; [vm_compute; reflexivity|]. split; vm_compute; reflexivity.
Qed.

(* Without a one-time prekey the published message carries no prekey id. This client sends the id 0. *)
Theorem C189_without_one_time_refuted : exists w rid dev b spk rbase rratchet l m,
  b_spk b = Some spk /\ b_pk b = None /\
  BuildSenderSession toy w rid dev b rbase rratchet = (Ok tt, l) /\
  fst (SessionEncryptMessage toy (apply_effs w l) rid dev [104; 105]) = Ok (m, PREKEY_BUNDLE) /\
  firstn 3 m = [51; 8; 0] /\
  ~ exists reg spkid base ident inner, initial_message None reg spkid base ident inner m.
Proof.
  exists ex_worldA, nb, 1, ex_bundle_without, (basepub toy (ex_priv 33)), (rb 77), (rb 88),
    (snd (BuildSenderSession toy ex_worldA nb 1 ex_bundle_without (rb 77) (rb 88))).
  eexists. split; [reflexivity|]. split; [reflexivity|]. split; [vm_compute; reflexivity|].
  split; [vm_compute; reflexivity|]. split; [reflexivity|].
  intros (reg & spkid & base & ident & inner & pb & lb & rb' & sb & -> & _ & _ & _ & E).
  apply (f_equal (fun l => nth 1 l 0)) in E. cbn [nth app] in E. discriminate E.
Qed.

Print Assumptions C189_clamped.
Print Assumptions C189_first_messages_partial.
Print Assumptions C189_replies.
Print Assumptions C189_without_one_time_refuted.
