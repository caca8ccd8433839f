(* Lemmas about the session state model. *)
From Coq Require Import ZArith List Lia Bool.
From Verif Require Import Bytes Res Wire WireProofs Crypto Cbc CbcProofs Messages MessagesProofs Session.
Import ListNotations.
Open Scope Z_scope.

Lemma clamp_length r : length r = 32%nat -> length (clamp r) = 32%nat.
Proof.
  destruct r as [|b t]; [discriminate|]. simpl length. intros H. injection H as H.
  unfold clamp. cbv zeta. change (S (length (firstn 30 t ++ [Z.lor (Z.land (nth 30 t 0) 63) 64])) = 32%nat).
  rewrite app_length, firstn_length. simpl length. lia.
Qed.

(* ---- chains ---- *)
Lemma find_chain_rpub rk l c : find_chain rk l = Some c -> ch_rpub c = rk.
Proof.
  induction l as [|d l IH]; simpl; [discriminate|].
  destruct (beq rk (ch_rpub d)) eqn:E; auto.
  intros H. injection H as <-. symmetry. now apply beq_eq.
Qed.

Lemma find_chain_none rk l : find_chain rk l = None <-> ~ In rk (map ch_rpub l).
Proof.
  induction l as [|d l IH]; simpl; [tauto|].
  destruct (beq rk (ch_rpub d)) eqn:E.
  - apply beq_eq in E. split; [discriminate|intros H; exfalso; auto].
  - apply beq_neq in E. rewrite IH. split; intros H; [intros [F|F]; auto|auto].
Qed.

Lemma find_chain_app rk a b :
  find_chain rk (a ++ b) = match find_chain rk a with Some c => Some c | None => find_chain rk b end.
Proof. induction a as [|d a IH]; simpl; auto. destruct (beq rk (ch_rpub d)); auto. Qed.

Lemma upd_chain_length rk f l : length (upd_chain rk f l) = length l.
Proof. induction l as [|d l IH]; simpl; auto. destruct (beq rk (ch_rpub d)); simpl; auto. Qed.

Lemma upd_chain_rpub rk f l :
  (forall c, ch_rpub (f c) = ch_rpub c) -> map ch_rpub (upd_chain rk f l) = map ch_rpub l.
Proof.
  intros Hf. induction l as [|d l IH]; simpl; auto.
  destruct (beq rk (ch_rpub d)); simpl; rewrite ?Hf, ?IH; auto.
Qed.

Lemma find_upd_chain rk f l c :
  (forall c, ch_rpub (f c) = ch_rpub c) ->
  find_chain rk l = Some c -> find_chain rk (upd_chain rk f l) = Some (f c).
Proof.
  intros Hf. induction l as [|d l IH]; simpl; [discriminate|].
  destruct (beq rk (ch_rpub d)) eqn:E; simpl.
  - rewrite Hf, E. intros H. now injection H as <-.
  - rewrite E. auto.
Qed.

Lemma find_upd_chain_other rk rk' f l :
  rk <> rk' -> (forall c, ch_rpub (f c) = ch_rpub c) ->
  find_chain rk' (upd_chain rk f l) = find_chain rk' l.
Proof.
  intros Hn Hf. induction l as [|d l IH]; simpl; auto.
  destruct (beq rk (ch_rpub d)) eqn:E; simpl.
  - rewrite Hf. destruct (beq rk' (ch_rpub d)) eqn:E'; auto.
    apply beq_eq in E, E'. congruence.
  - now rewrite IH.
Qed.

Section P.
Variable C : crypto.
Hypothesis OK : crypto_ok C.

(* the n-th chain key after c *)
Definition ckn (c : ckey) (n : nat) : ckey := Nat.iter n (getNextChainKey C) c.

Lemma ckn_S c n : ckn c (S n) = getNextChainKey C (ckn c n).
Proof. reflexivity. Qed.

Lemma ckn_S' c n : ckn c (S n) = ckn (getNextChainKey C c) n.
Proof. induction n; [reflexivity|]. rewrite ckn_S, IHn. reflexivity. Qed.

Lemma ckn_add c a b : ckn (ckn c a) b = ckn c (a + b).
Proof. induction b; [now rewrite Nat.add_0_r|]. rewrite Nat.add_succ_r, !ckn_S, IHb. reflexivity. Qed.

Lemma ckn_index c n :
  ck_index c = 0 -> Z.of_nat n < 2 ^ 32 -> ck_index (ckn c n) = Z.of_nat n.
Proof.
  intros H0. induction n; intros H; [exact H0|].
  rewrite ckn_S. unfold getNextChainKey. cbn [ck_index]. rewrite IHn by lia.
  rewrite Z.mod_small by lia. lia.
Qed.

Lemma ckn_key_length c n : length (ck_key c) = 32%nat -> length (ck_key (ckn c n)) = 32%nat.
Proof. intros H. destruct n; [exact H|]. rewrite ckn_S. apply (hmac_length C OK). Qed.

Lemma load_ck_ok c : length (ck_key c) = 32%nat -> load_ck (Some c) = Ok c.
Proof. intros H. unfold load_ck. rewrite key32_ok by auto. destruct c; reflexivity. Qed.

Lemma createChain_ok root their priv root' c :
  createChain C root their priv = (root', c) ->
  length root' = 32%nat /\ length (ck_key c) = 32%nat /\ ck_index c = 0.
Proof.
  unfold createChain. cbv zeta. intros H.
  pose proof (f_equal fst H) as H1. pose proof (f_equal snd H) as H2. cbn [fst snd] in H1, H2.
  rewrite <- H1, <- H2. cbn [ck_key ck_index].
  rewrite firstn_length, skipn_length, (hkdf_length C OK). auto.
Qed.

Lemma calculateDerivedKeys_ok km root c :
  calculateDerivedKeys C km = (root, c) ->
  length root = 32%nat /\ length (ck_key c) = 32%nat /\ ck_index c = 0.
Proof.
  unfold calculateDerivedKeys. cbv zeta. intros H.
  pose proof (f_equal fst H) as H1. pose proof (f_equal snd H) as H2. cbn [fst snd] in H1, H2.
  rewrite <- H1, <- H2. cbn [ck_key ck_index].
  rewrite firstn_length, skipn_length, (hkdf_length C OK). auto.
Qed.

Lemma getMessageKeys_ok c :
  length (mk_cipher (getMessageKeys C c)) = 32%nat /\ length (mk_mac (getMessageKeys C c)) = 32%nat /\
  length (mk_iv (getMessageKeys C c)) = 16%nat /\ wfb (mk_iv (getMessageKeys C c)).
Proof.
  unfold getMessageKeys. cbn [mk_cipher mk_mac mk_iv].
  rewrite !firstn_length, !skipn_length, (hkdf_length C OK). repeat split; try reflexivity.
  apply wfb_skipn. apply (hkdf_wf C OK).
Qed.

Lemma skip_keys_spec n c acc :
  skip_keys C n c acc = (ckn c n, acc ++ map (fun i => getMessageKeys C (ckn c i)) (seq 0 n)).
Proof.
  revert c acc; induction n as [|n IH]; intros c acc.
  - simpl. now rewrite app_nil_r.
  - cbn [skip_keys]. rewrite IH. rewrite ckn_S'. f_equal.
    rewrite <- app_assoc. f_equal. cbn [seq map app]. f_equal.
    rewrite <- seq_shift, map_map. apply map_ext. intros i. now rewrite ckn_S'.
Qed.

Lemma too_far_spec counter index :
  0 <= counter < 2 ^ 32 -> 0 <= index < 2 ^ 32 -> too_far 64 counter index = (counter - index >? 2000).
Proof.
  intros Hc Hi. unfold too_far.
  assert (G : forall x, - 2 ^ 63 <= x < 2 ^ 63 -> go_int 64 x = x).
  { intros x Hx. unfold go_int. change (2 ^ (64 - 1)) with (2 ^ 63).
    destruct (Z_lt_ge_dec x 0).
    - replace (x mod 2 ^ 64) with (x + 2 ^ 64).
      + destruct (Z.ltb_spec (x + 2 ^ 64) (2 ^ 63)); lia.
      + symmetry. rewrite <- (Z.mod_add x 1 (2 ^ 64)) by lia. rewrite Z.mod_small; lia.
    - rewrite Z.mod_small by lia. destruct (Z.ltb_spec x (2 ^ 63)); lia. }
  rewrite (G counter), (G index) by lia. rewrite G by lia. reflexivity.
Qed.

(* ---- the last part of decryption: MAC and CBC under the right keys ---- *)
Definition cipher_of (mk : mkey) (pt : bytes) : bytes :=
  match Encrypt C (mk_cipher mk) (mk_iv mk) pt with Ok c => c | _ => [] end.

Lemma cipher_of_ok c pt :
  Encrypt C (mk_cipher (getMessageKeys C c)) (mk_iv (getMessageKeys C c)) pt
  = Ok (cipher_of (getMessageKeys C c) pt).
Proof.
  destruct (getMessageKeys_ok c) as (Hc & _ & Hi & _). unfold cipher_of.
  rewrite (Encrypt_ok C) ; auto. unfold aes_key_ok. now rewrite Hc.
Qed.

Lemma Decrypt_cipher_of c pt : wfb pt ->
  Decrypt C (mk_cipher (getMessageKeys C c))
            (mk_iv (getMessageKeys C c) ++ cipher_of (getMessageKeys C c) pt) = Ok pt.
Proof.
  intros Hw. eapply Decrypt_Encrypt; eauto using cipher_of_ok.
  apply getMessageKeys_ok.
Qed.

(* the message at position i of the chain starting with chain key c and ratchet key rk *)
Definition chain_msg (rk : bytes) (c : ckey) (i : nat) (prev : Z) (pt snd rcv : bytes) : wmsg :=
  let mk := getMessageKeys C (ckn c i) in
  newWhisperMessage C 3 (mk_mac mk) rk (Z.of_nat i) prev (cipher_of mk pt) snd rcv.

(* what decrypting a genuine message comes to once its message key has been found *)
Lemma ss_decrypt_genuine s rk c i prev pt rnd c0 s1 s2 sc :
  s_sender s = Some sc -> getSessionVersion s = 3 -> wfb pt ->
  getOrCreateChainKey C s rk rnd = Ok (c0, s1) ->
  getOrCreateMessageKeys C s1 rk c0 (Z.of_nat i) = (Ok (getMessageKeys C (ckn c i)), s2) ->
  length (s_remote s2) = 32%nat -> length (s_local s2) = 32%nat ->
  ss_decrypt C s (chain_msg rk c i prev pt (s_remote s2) (s_local s2)) rnd
  = (Ok pt, with_pending s2 None).
Proof.
  intros Hs Hv Hw H1 H2 Hr Hl. unfold ss_decrypt. rewrite Hs.
  unfold chain_msg. cbn zeta.
  set (m := newWhisperMessage _ _ _ _ _ _ _ _ _).
  change (wm_version m) with 3. rewrite Hv. cbn [Z.eqb Pos.eqb negb].
  change (wm_rkey m) with rk. rewrite H1.
  change (wm_counter m) with (Z.of_nat i). rewrite H2.
  rewrite !key32_ok by auto. unfold m at 1.
  rewrite (verifyMAC_new C OK). cbn [negb].
  change (wm_ct m) with (cipher_of (getMessageKeys C (ckn c i)) pt).
  now rewrite Decrypt_cipher_of.
Qed.

(* ---- sending ---- *)
Lemma ss_encrypt_ok s sc c pt :
  s_sender s = Some sc -> ch_ck sc = Some c -> length (ck_key c) = 32%nat ->
  length (ch_rpub sc) = 32%nat -> s_version s = 3 ->
  length (s_local s) = 32%nat -> length (s_remote s) = 32%nat ->
  let mk := getMessageKeys C c in
  let wm := newWhisperMessage C 3 (mk_mac mk) (ch_rpub sc) (ck_index c) (s_prev s) (cipher_of mk pt)
              (s_local s) (s_remote s) in
  let s' := with_sender s (Some (mkChain (ch_rpub sc) (ch_rpriv sc) (Some (getNextChainKey C c)) (ch_mks sc))) in
  match s_pending s with
  | None => ss_encrypt C s pt = Ok (wm_ser wm, CIPHERTEXT, s')
  | Some p =>
      forall base, pp_base p = key_ser base -> length base = 32%nat ->
      ss_encrypt C s pt =
        Ok (pk_ser (newPreKeyWhisperMessage 3 (s_lreg s) (pp_pkid p) (pp_spkid p mod 2 ^ 32) base
                      (s_local s) wm), PREKEY_BUNDLE, s')
  end.
Proof.
  intros Hs Hc Hk Hp Hv Hl Hr mk wm s'.
  assert (E : ss_encrypt C s pt =
    match s_pending s with
    | None => Ok (wm_ser wm, CIPHERTEXT, s')
    | Some p => let* base := key_unser (pp_base p) in
       Ok (pk_ser (newPreKeyWhisperMessage 3 (s_lreg s) (pp_pkid p) (pp_spkid p mod 2 ^ 32) base
                      (s_local s) wm), PREKEY_BUNDLE, s')
    end).
  { unfold ss_encrypt. rewrite Hs, Hc, load_ck_ok by auto. cbn [bind].
    rewrite !key32_ok by auto. cbn [bind]. rewrite cipher_of_ok. cbn [bind].
    unfold getSessionVersion. rewrite Hv. reflexivity. }
  rewrite E. destruct (s_pending s) as [p|]; auto.
  intros base Hb Hlb. rewrite Hb, key_unser_ser by auto. reflexivity.
Qed.

(* ---- receiving: the three ways a message key is found ---- *)
Lemma gocck_known s rk rnd rc c :
  find_chain rk (s_recv s) = Some rc -> ch_ck rc = Some c -> length (ck_key c) = 32%nat ->
  getOrCreateChainKey C s rk rnd = Ok (c, s).
Proof.
  intros Hf Hc Hl. unfold getOrCreateChainKey. rewrite Hf, Hc, load_ck_ok by auto. reflexivity.
Qed.

Lemma gocck_new s rk rnd sc c :
  find_chain rk (s_recv s) = None -> length (s_root s) = 32%nat ->
  s_sender s = Some sc -> length (ch_rpriv sc) = 32%nat -> length (ch_rpub sc) = 32%nat ->
  ch_ck sc = Some c -> length (ck_key c) = 32%nat ->
  let (root1, rck) := createChain C (s_root s) rk (ch_rpriv sc) in
  let (root2, sck) := createChain C root1 rk (clamp rnd) in
  getOrCreateChainKey C s rk rnd =
    Ok (rck, mkSs (s_version s) (s_local s) (s_remote s) root2
               (if ck_index c >? 0 then ck_index c - 1 else ck_index c)
               (Some (mkChain (basepub C (clamp rnd)) (clamp rnd) (Some sck) []))
               (addReceiverChain (s_recv s) rk rck)
               (s_pending s) (s_rreg s) (s_lreg s) (s_refresh s) (s_base s)).
Proof.
  intros Hf Hr Hs Hp1 Hp2 Hc Hl.
  destruct (createChain C (s_root s) rk (ch_rpriv sc)) as [root1 rck] eqn:E1.
  destruct (createChain C root1 rk (clamp rnd)) as [root2 sck] eqn:E2.
  unfold getOrCreateChainKey. rewrite Hf, key32_ok by auto. cbn [bind].
  rewrite Hs, !key32_ok by auto. cbn [bind]. rewrite E1, E2, Hc, load_ck_ok by auto. reflexivity.
Qed.

(* counter at or beyond the chain index *)
Lemma gocmk_ahead s rk rc c (j i : nat) :
  find_chain rk (s_recv s) = Some rc -> ck_index c = 0 ->
  (j <= i)%nat -> (i <= j + 2000)%nat -> Z.of_nat i < 2 ^ 32 ->
  getOrCreateMessageKeys C s rk (ckn c j) (Z.of_nat i) =
   (Ok (getMessageKeys C (ckn c i)),
    with_recv s (upd_chain rk (fun r => mkChain (ch_rpub r) (ch_rpriv r) (Some (ckn c (S i)))
       (ch_mks rc ++ map (fun x => getMessageKeys C (ckn c x)) (seq j (i - j)))) (s_recv s))).
Proof.
  intros Hf H0 Hji Hw Hi. unfold getOrCreateMessageKeys.
  rewrite ckn_index by (auto; lia).
  destruct (Z.gtb_spec (Z.of_nat j) (Z.of_nat i)); [lia|].
  rewrite too_far_spec by lia.
  destruct (Z.gtb_spec (Z.of_nat i - Z.of_nat j) 2000); [lia|].
  rewrite Hf. rewrite skip_keys_spec.
  replace (Z.to_nat (Z.of_nat i - Z.of_nat j)) with (i - j)%nat by lia.
  rewrite ckn_add. replace (j + (i - j))%nat with i by lia.
  rewrite <- ckn_S.
  replace (map (fun i0 => getMessageKeys C (ckn (ckn c j) i0)) (seq 0 (i - j)))
    with (map (fun x => getMessageKeys C (ckn c x)) (seq j (i - j))); [reflexivity|].
  replace (seq j (i - j)) with (map (fun x => (j + x)%nat) (seq 0 (i - j))).
  - rewrite map_map. apply map_ext. intros a. now rewrite ckn_add.
  - clear. generalize (i - j)%nat as n. intros n. induction j; simpl.
    + rewrite map_id. reflexivity.
    + rewrite <- seq_shift, <- IHj, map_map. reflexivity.
Qed.

Lemma gocmk_behind s rk rc c (j i : nat) k rest :
  find_chain rk (s_recv s) = Some rc -> ck_index c = 0 -> Z.of_nat j < 2 ^ 32 ->
  (i < j)%nat -> take_mk (Z.of_nat i) (ch_mks rc) = Some (k, rest) ->
  getOrCreateMessageKeys C s rk (ckn c j) (Z.of_nat i) =
   (Ok k, with_recv s (upd_chain rk (fun r => mkChain (ch_rpub r) (ch_rpriv r) (ch_ck r) rest) (s_recv s))).
Proof.
  intros Hf H0 Hj Hij Ht. unfold getOrCreateMessageKeys. rewrite ckn_index by auto.
  destruct (Z.gtb_spec (Z.of_nat j) (Z.of_nat i)); [|lia]. rewrite Hf, Ht. reflexivity.
Qed.

Lemma gocmk_dup s rk rc c (j i : nat) :
  find_chain rk (s_recv s) = Some rc -> ck_index c = 0 -> Z.of_nat j < 2 ^ 32 ->
  (i < j)%nat -> take_mk (Z.of_nat i) (ch_mks rc) = None ->
  getOrCreateMessageKeys C s rk (ckn c j) (Z.of_nat i) = (Err EDuplicate, s).
Proof.
  intros Hf H0 Hj Hij Ht. unfold getOrCreateMessageKeys. rewrite ckn_index by auto.
  destruct (Z.gtb_spec (Z.of_nat j) (Z.of_nat i)); [|lia]. now rewrite Hf, Ht.
Qed.

(* stored message keys as the image of a list of indices *)
Definition mks_of (c : ckey) (l : list nat) : list mkey := map (fun x => getMessageKeys C (ckn c x)) l.

Lemma mk_index_ckn c x : ck_index c = 0 -> Z.of_nat x < 2 ^ 32 ->
  mk_index (getMessageKeys C (ckn c x)) = Z.of_nat x.
Proof. intros. unfold getMessageKeys. cbn [mk_index]. now apply ckn_index. Qed.

Lemma take_mk_none c l i :
  ck_index c = 0 -> (forall x, In x l -> Z.of_nat x < 2 ^ 32) -> ~ In i l ->
  take_mk (Z.of_nat i) (mks_of c l) = None.
Proof.
  intros H0 Hb. induction l as [|x l IH]; intros Hn; [reflexivity|].
  cbn [mks_of map take_mk]. rewrite mk_index_ckn by (auto; apply Hb; now left).
  destruct (Z.eqb_spec (Z.of_nat i) (Z.of_nat x)) as [E|E].
  - exfalso. apply Hn. left. lia.
  - fold (mks_of c l). rewrite IH; auto.
    + intros y Hy. apply Hb. now right.
    + intros Hi. apply Hn. now right.
Qed.

Lemma take_mk_some c l i :
  ck_index c = 0 -> (forall x, In x l -> Z.of_nat x < 2 ^ 32) -> In i l ->
  exists l1 l2, l = l1 ++ i :: l2 /\
    take_mk (Z.of_nat i) (mks_of c l) = Some (getMessageKeys C (ckn c i), mks_of c (l1 ++ l2)).
Proof.
  intros H0 Hb. induction l as [|x l IH]; intros Hi; [destruct Hi|].
  cbn [mks_of map take_mk]. rewrite mk_index_ckn by (auto; apply Hb; now left).
  destruct (Z.eqb_spec (Z.of_nat i) (Z.of_nat x)) as [E|E].
  - assert (i = x) by lia. subst x. exists [], l. auto.
  - destruct Hi as [->|Hi]; [lia|].
    destruct IH as (l1 & l2 & -> & Ht); auto.
    + intros y Hy. apply Hb. now right.
    + exists (x :: l1), l2. split; [reflexivity|].
      fold (mks_of c (l1 ++ i :: l2)). rewrite Ht. reflexivity.
Qed.
End P.
