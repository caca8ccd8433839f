(* Facts about sending: padding, the exchange with the server, and what requests contain. *)
From Coq Require Import ZArith List Lia Bool.
From Verif Require Import Bytes Res Wire WireProofs Crypto Cbc CbcProofs Messages MessagesProofs Session Builder SessionProofs
  SessionFacts HistoryProofs Conversation ConversationProofs RecordCodec RecordCodecProofs Content ContentProofs Encodings Sending.
Import ListNotations.
Open Scope Z_scope.
Ltac Zify.zify_post_hook ::= Z.to_euclidean_division_equations.

(* ---- padding ---- *)
Lemma setnth_app {A} (a : list A) v x b : setnth (length a) v (a ++ x :: b) = a ++ v :: b.
Proof. induction a as [|y a IH]; [reflexivity|]. cbn [length app setnth]. now rewrite IH. Qed.

Lemma padMessage_eq m : padMessage m = m ++ 128 :: zeros (159 - length m mod 160).
Proof.
  unfold padMessage. cbv zeta. pose proof (Nat.div_mod (length m) 160 ltac:(lia)) as D.
  pose proof (Nat.mod_upper_bound (length m) 160 ltac:(lia)) as U.
  assert (E : ((length m + 160) mod 160 = length m mod 160)%nat).
  { replace (length m + 160)%nat with (length m + 1 * 160)%nat by lia. apply Nat.mod_add. lia. }
  rewrite E. replace (length m + 160 - length m mod 160 - length m)%nat with (S (159 - length m mod 160)) by lia.
  change (zeros (S (159 - length m mod 160))) with (0 :: zeros (159 - length m mod 160)). apply setnth_app.
Qed.

Lemma cut_rev_zeros k r : cut_rev (zeros k ++ 128 :: r) = Some (rev r).
Proof. induction k as [|k IH]; [reflexivity|]. change (zeros (S k)) with (0 :: zeros k). cbn [app cut_rev]. exact IH. Qed.
Lemma rev_zeros k : rev (zeros k) = zeros k.
Proof.
  induction k as [|k IH]; [reflexivity|]. change (zeros (S k)) with (0 :: zeros k). cbn [rev]. rewrite IH.
  clear IH. induction k as [|k IH]; [reflexivity|]. change (zeros (S k)) with (0 :: zeros k). cbn [app]. now rewrite IH.
Qed.
Lemma strip_pad m : stripPadding (padMessage m) = m.
Proof.
  unfold stripPadding. rewrite padMessage_eq, rev_app_distr. cbn [rev]. rewrite rev_zeros, <- app_assoc. cbn [app].
  rewrite cut_rev_zeros. apply rev_involutive.
Qed.
Lemma pad_wf m : wfb m -> wfb (padMessage m).
Proof.
  intros W. rewrite padMessage_eq. apply wfb_app. split; [exact W|]. constructor; [unfold isbyte; lia|apply wfb_zeros].
Qed.
Lemma pad_length m : zlen (padMessage m) = 160 * (zlen m / 160 + 1).
Proof.
  rewrite padMessage_eq. unfold zlen, zeros. rewrite app_length. cbn [length]. rewrite repeat_length.
  pose proof (Nat.mod_upper_bound (length m) 160 ltac:(lia)).
  pose proof (Nat.div_mod (length m) 160 ltac:(lia)) as D.
  assert (Q : Z.of_nat (length m) / 160 = Z.of_nat (length m / 160)) by (rewrite Nat2Z.inj_div; reflexivity).
  rewrite Q. lia.
Qed.

(* ---- serialisations consist of bytes ---- *)
Lemma enc_varint_wf n v : 0 <= v -> wfb (enc_varint n v).
Proof.
  revert v. induction n as [|n IH]; intros v H; cbn [enc_varint]; [constructor|].
  destruct (Z.ltb_spec v 128).
  - constructor; [unfold isbyte; lia|constructor].
  - constructor; [unfold isbyte; lia|]. apply IH. lia.
Qed.
Definition wf_val (v : wval) : Prop := match v with WLen b => wfb b | WVarint n => 0 <= n | _ => True end.
Lemma encode_wf fs : Forall (fun f => 0 <= fst f /\ wf_val (snd f)) fs -> wfb (encode fs).
Proof.
  intros H. induction H as [|[n v] fs [Hn Hv] H IH]; [constructor|]. cbn [fst snd] in *.
  change (encode ((n, v) :: fs)) with (enc_field (n, v) ++ encode fs). apply wfb_app. split; [|exact IH].
  unfold enc_field. cbn [fst snd]. apply wfb_app. split.
  - apply enc_varint_wf. destruct v; cbn [wtype]; lia.
  - destruct v; cbn [enc_val wf_val] in *.
    + now apply enc_varint_wf.
    + apply le_enc_wf.
    + apply wfb_app. split; [apply enc_varint_wf; unfold zlen; lia|exact Hv].
    + apply le_enc_wf.
Qed.
Lemma marshal_wf s : Forall (fun p => 0 <= fst p /\ Forall wf_val (snd p)) s -> wfb (marshal s).
Proof.
  intros H. unfold marshal. apply encode_wf. apply Forall_forall. intros [n v] I. unfold flat in I.
  apply in_flat_map in I. destruct I as ((m, vs) & I & J). cbn [fst snd] in *. apply in_map_iff in J.
  destruct J as (v' & J & K). injection J as -> ->. rewrite Forall_forall in H. specialize (H _ I). cbn [fst snd] in *.
  destruct H as [H1 H2]. rewrite Forall_forall in H2. split; [exact H1|exact (H2 _ K)].
Qed.

(* ---- what an encryption under a fresh session consists of ---- *)
Section S.
Variable C : crypto.
Hypothesis OK : crypto_ok C.

Lemma Encrypt_wf key iv pt ct : Encrypt C key iv pt = Ok ct -> wfb iv -> wfb pt -> wfb ct.
Proof.
  unfold Encrypt. destruct (aes_key_ok key) eqn:K; cbn [negb]; [|discriminate].
  destruct (Nat.eqb_spec (length iv) 16) as [L|]; cbn [negb]; [|discriminate].
  intros [= <-] Wi Wp. assert (B : Forall block (blocks (pkcs_pad pt))) by apply (padded_blocks pt Wp).
  assert (Bi : block iv) by (split; assumption).
  clear L Wi Wp. revert iv Bi. induction B as [|b bl Hb Hbl IH]; intros iv Bi; [constructor|].
  cbn [cbc_enc concat]. destruct Hb as [L1 W1]. destruct Bi as [L2 W2].
  assert (X : block (bxor b iv)) by (split; [rewrite bxor_length; lia|now apply bxor_wf]). destruct X as [X1 X2].
  assert (E : block (aesE C key (bxor b iv))) by (split; [apply (aes_length C OK)|apply (aes_wf C OK)]; assumption).
  apply wfb_app. split; [apply E|]. apply IH, E.
Qed.

Lemma whisper_wf mac rk i prev ct a b : wfb rk -> 0 <= i -> 0 <= prev -> wfb ct ->
  wfb (wm_ser (newWhisperMessage C 3 mac rk i prev ct a b)).
Proof.
  intros Wr Wi Wp Wc. unfold newWhisperMessage. cbv zeta. cbn [wm_ser].
  assert (W : wfb (makeVersionByte 3 currentVersion :: encode (whisper_fields rk i prev ct))).
  { constructor; [vm_compute; split; congruence|]. apply encode_wf. unfold whisper_fields.
    repeat (apply Forall_cons; [split; [cbn; lia|cbn [snd wf_val]]|]); [..|apply Forall_nil]; auto.
    reflexivity. }
  apply wfb_app. split; [exact W|]. unfold getMac, ComputeTruncatedMAC. apply wfb_firstn, (hmac_wf C OK).
Qed.

Lemma built_message_wf w rid dev b rb rr l1 pt m ty l2 :
  BuildSenderSession C w rid dev b rb rr = (Ok tt, l1) ->
  SessionEncryptMessage C (apply_effs w l1) rid dev pt = (Ok (m, ty), l2) ->
  wfb (snd (w_ident w)) -> 0 <= w_reg w -> 0 <= b_pkid b -> wfb pt ->
  wfb m /\ ty = PREKEY_BUNDLE.
Proof.
  intros B E Wi Wr Wk Wp. unfold BuildSenderSession in B.
  destruct (IsTrustedIdentity w rid (b_ident b)); cbn [negb] in B; [|discriminate].
  destruct (b_spk b) as [spk|]; [|discriminate].
  destruct (sigok C (b_ident b) (key_ser spk) (b_sig b)); cbn [negb] in B; [|discriminate].
  set (r := LoadSession w rid dev) in *. set (r1 := if r_fresh r then r else archiveCurrentState r) in *.
  assert (Hcur : r_cur r1 = empty_ss).
  { unfold r1, r, LoadSession. destruct (w_sess w rid dev) as [[c p]|]; reflexivity. }
  rewrite Hcur in B. unfold initializeSenderSession in B.
  match type of B with context [calculateDerivedKeys C ?k] => destruct (calculateDerivedKeys C k) as [root0 ck0] end.
  destruct (createChain C root0 spk (clamp rr)) as [root1 sck] eqn:ECC.
  pose proof (createChain_ok C OK _ _ _ _ _ ECC) as (HR1 & HS1 & HI1).
  set (s := with_regs _ _ _ _) in B. assert (l1 = [EStoreSession rid dev s (r_prevs r1); ESaveIdentity rid (b_ident b)]) as -> by congruence.
  clear B. unfold SessionEncryptMessage in E.
  assert (L : LoadSession (apply_effs w [EStoreSession rid dev s (r_prevs r1); ESaveIdentity rid (b_ident b)]) rid dev = mkSr s (r_prevs r1) false).
  { unfold LoadSession. cbn [apply_effs fold_left apply_eff set_id w_sess]. now rewrite set_sess_same. }
  rewrite L in E. cbn [r_cur r_prevs] in E. destruct (ss_encrypt C s pt) as [[[m' ty'] s']|e|] eqn:SE; try discriminate.
  assert (m' = m) as -> by congruence. assert (ty' = ty) as -> by congruence. clear E.
  unfold ss_encrypt in SE. change (s_sender s) with (Some (mkChain (basepub C (clamp rr)) (clamp rr) (Some sck) [])) in SE.
  change (s_pending s) with (Some (mkPending (b_pkid b) (b_spkid b) (key_ser (basepub C (clamp rb))))) in SE.
  change (s_local s) with (snd (w_ident w)) in SE. change (s_remote s) with (b_ident b) in SE. change (s_prev s) with 0 in SE.
  change (s_lreg s) with (w_reg w) in SE. change (getSessionVersion s mod 256) with 3 in SE. cbn [ch_ck ch_rpub] in SE.
  apply bind_ok in SE. destruct SE as (c & H1 & H). apply load_ck_inv in H1. destruct H1 as [H1 _]. injection H1 as <-.
  apply bind_ok in H. destruct H as (rk & H2 & H). apply key32_inv in H2. destruct H2 as [-> H2].
  apply bind_ok in H. destruct H as (ct & H3 & H).
  apply bind_ok in H. destruct H as (loc & H4 & H). apply key32_inv in H4. destruct H4 as [-> H4].
  apply bind_ok in H. destruct H as (rem & H5 & H). apply key32_inv in H5. destruct H5 as [-> H5].
  cbv beta iota zeta in H. cbn [pp_base pp_pkid pp_spkid] in H.
  apply bind_ok in H. destruct H as (base & H6 & H).
  assert (base = basepub C (clamp rb)) as -> by (apply key_unser_inv in H6; destruct H6 as (t & H6 & _); unfold key_ser in H6; congruence).
  match type of H with Ok (?x, _, _) = _ => assert (m = x) as -> by congruence; assert (ty = PREKEY_BUNDLE) as -> by congruence end.
  clear H. split; [|reflexivity].
  unfold newPreKeyWhisperMessage. cbn [pk_ser]. constructor; [vm_compute; split; congruence|].
  apply encode_wf. unfold prekey_fields.
  assert (Wct : wfb ct).
  { apply (Encrypt_wf _ _ _ _ H3); [|exact Wp]. apply (getMessageKeys_ok C OK sck). }
  assert (K : forall k, wfb k -> wfb (key_ser k)) by (intros k Hk; constructor; [unfold isbyte; lia|exact Hk]).
  constructor; [split; [cbn; lia|exact Wk]|].
  constructor; [split; [cbn; lia|apply K, (basepub_wf C OK)]|].
  constructor; [split; [cbn; lia|apply K, Wi]|].
  constructor; [split; [cbn; lia|apply whisper_wf; [apply (basepub_wf C OK)|rewrite HI1; lia|lia|exact Wct]]|].
  constructor; [split; [cbn; lia|exact Wr]|].
  constructor; [split; [cbn; lia|cbn [snd wf_val]; lia]|constructor].
Qed.
End S.

(* ---- the exchange with the server ---- *)
Definition fetch_of (uuid : bytes) (e : event) : Prop := match e with EvFetch u _ _ => u = uuid | EvPut _ _ => False end.
(* a reply for device d was received *)
Definition fetched (l : list event) (d : Z) : Prop :=
  exists u dev ident pk, In (EvFetch u dev (PkResp ident [pk])) l /\ pd_dev pk = d.
Lemma fetched_app l l' d : fetched l d -> fetched (l ++ l') d.
Proof. intros (u & dev & i & pk & H & E). exists u, dev, i, pk. split; [apply in_or_app; left; exact H|exact E]. Qed.

Section X.
Variable C : crypto.
Variable V : server.
Variable rnd : nat -> bytes.

(* everything needed to encrypt is there *)
Record usable (s : sstate) : Prop := {
  us_chain : exists sc ck, s_sender s = Some sc /\ ch_ck sc = Some ck /\ length (ck_key ck) = 32%nat /\ length (ch_rpub sc) = 32%nat;
  us_local : length (s_local s) = 32%nat;
  us_remote : length (s_remote s) = 32%nat;
  us_base : forall q, s_pending s = Some q -> exists k, key_unser (pp_base q) = Ok k }.

Lemma build_sender_inv w rid dev b x y r l : BuildSenderSession C w rid dev b x y = (r, l) ->
  (l = [] /\ r <> Ok tt /\ (b_spk b <> None -> r <> Panic)) \/
  (exists s p, r = Ok tt /\ l = [EStoreSession rid dev s p; ESaveIdentity rid (b_ident b)] /\ s_pending s <> None /\
     (crypto_ok C -> length (snd (w_ident w)) = 32%nat -> length (b_ident b) = 32%nat -> usable s)).
Proof.
  unfold BuildSenderSession. destruct (IsTrustedIdentity w rid (b_ident b)); cbn [negb].
  2:{ intros [= <- <-]. left. repeat split; discriminate. }
  destruct (b_spk b) as [spk|].
  2:{ intros [= <- <-]. left. repeat split; [discriminate|]. intros E. contradiction. }
  destruct (sigok C (b_ident b) (key_ser spk) (b_sig b)); cbn [negb].
  2:{ intros [= <- <-]. left. repeat split; discriminate. }
  unfold initializeSenderSession.
  match goal with |- context [calculateDerivedKeys C ?k] => destruct (calculateDerivedKeys C k) as [root0 ck0] end.
  destruct (createChain C root0 spk (clamp y)) as [root1 sck] eqn:ECC.
  intros H. match type of H with (_, [EStoreSession _ _ ?s ?p; _]) = _ => exists s, p || (right; exists s, p) end.
  split; [congruence|]. split; [congruence|]. split; [discriminate|].
  intros OK L1 L2. pose proof (createChain_ok C OK _ _ _ _ _ ECC) as (_ & HS1 & _).
  constructor; [eexists _, _; split; [reflexivity|]; split; [reflexivity|]; split; [exact HS1|apply (basepub_length C OK)]|exact L1|exact L2|].
  intros q [= <-]. exists (basepub C (clamp x)). unfold key_unser, key_ser, key32. cbn [pp_base]. now rewrite (basepub_length C OK).
Qed.

Lemma encrypt_inv w rid dev pt r l : SessionEncryptMessage C w rid dev pt = (r, l) ->
  (l = [] /\ forall v, r <> Ok v) \/
  (exists m ty c p s', r = Ok (m, ty) /\ w_sess w rid dev = Some (c, p) /\ l = [EStoreSession rid dev s' p] /\
     s_pending s' = s_pending c /\ (crypto_ok C -> usable s') /\ ty = match s_pending c with None => CIPHERTEXT | Some _ => PREKEY_BUNDLE end).
Proof.
  unfold SessionEncryptMessage, LoadSession. destruct (w_sess w rid dev) as [[c p]|].
  - cbn [r_cur r_prevs]. destruct (ss_encrypt C c pt) as [[[m ty] s']|e|] eqn:E.
    + intros [= <- <-]. right. apply ss_encrypt_inv in E.
      destruct E as (sc & ck & ct & H1 & H2 & H3 & H4 & H5 & H6 & -> & H8). cbv zeta in H8.
      eexists m, ty, c, p, _. split; [reflexivity|]. split; [reflexivity|]. split; [reflexivity|]. split; [reflexivity|].
      split; [|]. 
      { intros OK. constructor; [eexists _, _; split; [reflexivity|]; split; [reflexivity|]; split; [|exact H3]|exact H4|exact H5|].
        - unfold getNextChainKey. cbn [ck_key]. apply (hmac_length C OK).
        - intros q E. change (s_pending c = Some q) in E. rewrite E in H8. destruct H8 as (b' & N & L & _).
          exists b'. exact N. }
      destruct (s_pending c) as [q|]; [destruct H8 as (base & _ & _ & -> & _)|destruct H8 as [_ ->]]; reflexivity.
    + intros [= <- <-]. left. split; [reflexivity|discriminate].
    + intros [= <- <-]. left. split; [reflexivity|discriminate].
  - cbn. intros [= <- <-]. left. split; [reflexivity|discriminate].
Qed.

Lemma encrypt_usable (OK : crypto_ok C) w rid dev pt c p : w_sess w rid dev = Some (c, p) -> usable c ->
  exists m ty l, SessionEncryptMessage C w rid dev pt = (Ok (m, ty), l).
Proof.
  intros W [(sc & ck & H1 & H2 & H3 & H4) H5 H6 H7]. unfold SessionEncryptMessage, LoadSession. rewrite W. cbn [r_cur r_prevs].
  assert (N : exists v, ss_encrypt C c pt = Ok v).
  { unfold ss_encrypt. rewrite H1, H2. unfold load_ck, key32. rewrite H3, H4, H5, H6. cbn [Nat.eqb bind].
    set (mk := getMessageKeys C _). destruct (getMessageKeys_ok C OK (mkCk (ck_index ck) (ck_key ck))) as (K & _ & L & _). fold mk in K, L.
    unfold Encrypt. rewrite L. unfold aes_key_ok. rewrite K. cbn [Nat.eqb orb negb bind].
    cbv zeta. destruct (s_pending c) as [q|]; [|eexists; reflexivity].
    destruct (H7 q eq_refl) as (k & ->). cbn [bind]. eexists. reflexivity. }
  destruct N as [[[m ty] s'] ->]. eexists _, _, _. reflexivity.
Qed.

(* ---- one device ---- *)
Lemma ensure_inv st uuid recid d r st' : ensure_session C V rnd st uuid recid d = (r, st') ->
  cs_devs V st' = cs_devs V st /\
  ((exists c p, w_sess (cs_w V st) recid d = Some (c, p)) /\ r = Ok tt /\ st' = st \/
   w_sess (cs_w V st) recid d = None /\
   exists reply, reply = fst (sv_prekeys V (cs_srv V st) uuid d) /\ cs_srv V st' = snd (sv_prekeys V (cs_srv V st) uuid d) /\
     cs_log V st' = cs_log V st ++ [EvFetch uuid d reply] /\
     (cs_w V st' = cs_w V st /\ r <> Ok tt /\ (bundle_of reply <> Panic -> r <> Panic) \/
      exists ident pk b s p, reply = PkResp ident [pk] /\ bundle_of reply = Ok b /\ b_dev b = pd_dev pk /\ r = Ok tt /\
        cs_w V st' = apply_effs (cs_w V st) [EStoreSession recid (b_dev b) s p; ESaveIdentity recid (b_ident b)] /\
        s_pending s <> None /\
        (crypto_ok C -> length (snd (w_ident (cs_w V st))) = 32%nat -> length (b_ident b) = 32%nat -> usable s))).
Proof.
  unfold ensure_session. destruct (w_sess (cs_w V st) recid d) as [[c p]|] eqn:W.
  { intros [= <- <-]. split; [reflexivity|]. left. split; [eauto|]. split; reflexivity. }
  unfold makePreKeyBundle. destruct (sv_prekeys V (cs_srv V st) uuid d) as [reply s'] eqn:EP.
  destruct (bundle_of reply) as [b|e|] eqn:B.
  2:{ intros [= <- <-]. split; [reflexivity|]. right. split; [reflexivity|]. exists reply. split; [reflexivity|]. split; [reflexivity|].
      split; [reflexivity|]. left. split; [reflexivity|]. split; [discriminate|]. intros _. discriminate. }
  2:{ intros [= <- <-]. split; [reflexivity|]. right. split; [reflexivity|]. exists reply. split; [reflexivity|]. split; [reflexivity|].
      split; [reflexivity|]. left. split; [reflexivity|]. split; [discriminate|]. rewrite B. intros H. contradiction. }
  cbn [cs_w cs_rnd cs_devs cs_srv cs_log].
  destruct (BuildSenderSession C (cs_w V st) recid (b_dev b) b (rnd (cs_rnd V st)) (rnd (S (cs_rnd V st)))) as [r0 l] eqn:EB.
  intros [= <- <-]. cbn [cs_w cs_rnd cs_devs cs_srv cs_log]. split; [reflexivity|]. right. split; [reflexivity|].
  exists reply. split; [reflexivity|]. split; [reflexivity|]. split; [reflexivity|].
  assert (P : exists ident pk, reply = PkResp ident [pk] /\ b_dev b = pd_dev pk /\ b_spk b <> None).
  { clear - B. unfold bundle_of in B. destruct reply as [e|ident [|pk [|x t]]]; try discriminate.
    apply bind_ok in B. destruct B as (k & _ & B). destruct (pd_spk pk) as [[[sid stext] sigtext]|]; [|discriminate].
    apply bind_ok in B. destruct B as (k1 & _ & B). apply bind_ok in B. destruct B as (k2 & _ & B).
    apply bind_ok in B. destruct B as (k3 & _ & B). exists ident, pk. split; [reflexivity|].
    match type of B with Ok ?x = _ => assert (b = x) as -> by congruence end. split; [reflexivity|discriminate]. }
  destruct P as (ident & pk & -> & ED & ES). apply build_sender_inv in EB.
  destruct EB as [(-> & N & Q)|(s & p & -> & -> & H1 & H2)].
  - left. split; [reflexivity|]. split; [exact N|]. intros _. exact (Q ES).
  - right. exists ident, pk, b, s, p. split; [reflexivity|]. split; [exact B|]. split; [exact ED|]. split; [reflexivity|]. split; [reflexivity|].
    split; [exact H1|exact H2].
Qed.

Lemma device_inv st recid padded d r st' : device_message C V st recid padded d = (r, st') ->
  cs_devs V st' = cs_devs V st /\ cs_log V st' = cs_log V st /\ cs_srv V st' = cs_srv V st /\
  (cs_w V st' = cs_w V st /\ (forall j, r <> Ok j) \/
   exists j c p s', r = Ok j /\ j_dev j = d /\ w_sess (cs_w V st) recid d = Some (c, p) /\
     cs_w V st' = apply_effs (cs_w V st) [EStoreSession recid d s' p] /\ s_pending s' = s_pending c /\
     (crypto_ok C -> usable s') /\
     j_type j = match s_pending c with None => CIPHERTEXT | Some _ => PREKEY_BUNDLE end /\
     exists m l, SessionEncryptMessage C (cs_w V st) recid d padded = (Ok (m, j_type j), l) /\ j_content j = enc64 m).
Proof.
  unfold device_message. destruct (SessionEncryptMessage C (cs_w V st) recid d padded) as [r0 l] eqn:E.
  pose proof (encrypt_inv _ _ _ _ _ _ E) as [(-> & N)|(m & ty & c & p & s' & -> & W & -> & P & U & ->)].
  - destruct r0 as [[m ty]|e|]; [exfalso; exact (N _ eq_refl)| |]; intros [= <- <-];
      (split; [reflexivity|]; split; [reflexivity|]; split; [reflexivity|]; left; split; [reflexivity|discriminate]).
  - intros H. injection H as <- <-. split; [reflexivity|]. split; [reflexivity|]. split; [reflexivity|]. right.
    eexists _, c, p, s'. split; [reflexivity|]. split; [reflexivity|]. split; [exact W|]. split; [reflexivity|]. split; [exact P|].
    split; [exact U|]. split; [reflexivity|]. exists m, [EStoreSession recid d s' p]. split; reflexivity.
Qed.

(* ---- all devices ---- *)
Definition carries (recid padded : bytes) (j : jmsg) : Prop :=
  exists w m l, SessionEncryptMessage C w recid (j_dev j) padded = (Ok (m, j_type j), l) /\ j_content j = enc64 m.

Lemma build_log uuid recid padded devs st r st' : build_devices C V rnd uuid recid padded devs st = (r, st') ->
  cs_devs V st' = cs_devs V st /\ (exists f, cs_log V st' = cs_log V st ++ f /\ Forall (fetch_of uuid) f) /\
  forall js, r = Ok js -> map j_dev js = devs /\ Forall (carries recid padded) js.
Proof.
  revert st r st'. induction devs as [|d devs IH]; intros st r st'; cbn [build_devices].
  { intros [= <- <-]. split; [reflexivity|]. split; [exists []; rewrite app_nil_r; split; [reflexivity|constructor]|].
    intros js [= <-]. split; [reflexivity|constructor]. }
  destruct (ensure_session C V rnd st uuid recid d) as [r1 st1] eqn:E1.
  apply ensure_inv in E1. destruct E1 as (D1 & E1).
  assert (L1 : exists f, cs_log V st1 = cs_log V st ++ f /\ Forall (fetch_of uuid) f).
  { destruct E1 as [(_ & _ & ->)|(_ & reply & _ & _ & -> & _)].
    - exists []. rewrite app_nil_r. split; [reflexivity|constructor].
    - exists [EvFetch uuid d reply]. split; [reflexivity|]. constructor; [reflexivity|constructor]. }
  clear E1. destruct L1 as (f1 & L1 & F1).
  destruct r1 as [u|e|].
  2,3: intros [= <- <-]; split; [exact D1|]; split; [exists f1; split; assumption|discriminate].
  destruct (device_message C V st1 recid padded d) as [r2 st2] eqn:E2.
  apply device_inv in E2. destruct E2 as (D2 & L2 & _ & E2).
  destruct r2 as [j|e|].
  2,3: intros [= <- <-]; split; [congruence|]; split; [exists f1; split; [congruence|assumption]|discriminate].
  destruct (build_devices C V rnd uuid recid padded devs st2) as [r3 st3] eqn:E3.
  specialize (IH _ _ _ E3). destruct IH as (D3 & (f3 & L3 & F3) & J3).
  assert (K : cs_devs V st3 = cs_devs V st /\ (exists f, cs_log V st3 = cs_log V st ++ f /\ Forall (fetch_of uuid) f)).
  { split; [congruence|]. exists (f1 ++ f3). split; [rewrite L3, L2, L1; now rewrite app_assoc|]. apply Forall_app. split; assumption. }
  destruct K as [K1 K2].
  destruct r3 as [js|e|]; intros [= <- <-]; (split; [exact K1|]; split; [exact K2|]); [|discriminate..].
  intros js' [= <-]. destruct (J3 js eq_refl) as [J4 J5].
  destruct E2 as [[_ N]|(j' & c & p & s' & Ej & Ed & _ & _ & _ & _ & _ & m & l & Em & Ec)]; [exfalso; exact (N _ eq_refl)|].
  injection Ej as <-. split; [cbn [map]; congruence|]. constructor; [|exact J5]. rewrite <- Ed in Em. exists (cs_w V st1), m, l. split; assumption.
Qed.

(* sessions that were deleted: if there is one again it is new *)
Definition renewed (recid : bytes) (S : list Z) (L0 : list event) (st : cstate V) : Prop :=
  exists l, cs_log V st = L0 ++ l /\ forall d c p, In d S -> w_sess (cs_w V st) recid d = Some (c, p) ->
    s_pending c <> None /\ fetched l d.

Lemma build_renewed uuid recid padded S L0 devs st js st' : renewed recid S L0 st ->
  build_devices C V rnd uuid recid padded devs st = (Ok js, st') ->
  exists l, cs_log V st' = L0 ++ l /\ forall j, In j js -> In (j_dev j) S -> j_type j = PREKEY_BUNDLE /\ fetched l (j_dev j).
Proof.
  revert st js st'. induction devs as [|d devs IH]; intros st js st' R; cbn [build_devices].
  { intros [= <- <-]. destruct R as (l & E & _). exists l. split; [exact E|]. intros j []. }
  destruct (ensure_session C V rnd st uuid recid d) as [r1 st1] eqn:E1.
  destruct r1 as [u|e|]; try discriminate.
  assert (R1 : renewed recid S L0 st1).
  { apply ensure_inv in E1. destruct E1 as (_ & [(_ & _ & ->)|(_ & reply & _ & _ & EL & [(_ & N & _)|E1])]); [exact R|destruct u; congruence|].
    destruct E1 as (ident & pk & b & s & p & -> & _ & Ed & _ & Ew & Hp & _). destruct R as (l & El & R).
    exists (l ++ [EvFetch uuid d (PkResp ident [pk])]). split; [rewrite EL, El; now rewrite app_assoc|].
    intros d' c p' I W. rewrite Ew in W. cbn [apply_effs fold_left apply_eff set_id set_sess w_sess] in W. rewrite beq_refl in W. cbn [andb] in W.
    destruct (Z.eqb_spec d' (b_dev b)) as [->|].
    - injection W as <- <-. split; [exact Hp|]. exists uuid, d, ident, pk. split; [apply in_or_app; right; left; reflexivity|congruence].
    - destruct (R d' c p' I W) as [A B]. split; [exact A|]. now apply fetched_app. }
  destruct (device_message C V st1 recid padded d) as [r2 st2] eqn:E2.
  destruct r2 as [j|e|]; try discriminate.
  apply device_inv in E2. destruct E2 as (_ & L2 & _ & [[_ N]|(j' & c & p & s' & Ej & Ed & W & Ew & Ep & _ & Et & _)]); [exfalso; exact (N _ eq_refl)|].
  injection Ej as <-. destruct R1 as (l & El & R1).
  assert (R2 : renewed recid S L0 st2).
  { exists l. split; [congruence|]. intros d' c' p' I W'. rewrite Ew in W'.
    cbn [apply_effs fold_left apply_eff set_sess w_sess] in W'. rewrite beq_refl in W'. cbn [andb] in W'.
    destruct (Z.eqb_spec d' d) as [->|]; [|exact (R1 d' c' p' I W')]. injection W' as <- <-. rewrite Ep. exact (R1 d c p I W). }
  destruct (build_devices C V rnd uuid recid padded devs st2) as [r3 st3] eqn:E3.
  destruct r3 as [js3|e|]; try discriminate. intros [= <- <-].
  destruct (IH _ _ _ R2 E3) as (l' & El' & H). exists l'. split; [exact El'|]. intros j' [<-|I] IS; [|exact (H j' I IS)].
  rewrite Ed in IS. destruct (R1 d c p IS W) as [A B]. split.
  - rewrite Et. destruct (s_pending c); [reflexivity|contradiction].
  - (* the log only grew *)
    apply build_log in E3. destruct E3 as (_ & (f & Ef & _) & _). rewrite L2, El, <- app_assoc in Ef. rewrite El' in Ef.
    apply app_inv_head in Ef. rewrite Ef, Ed. apply fetched_app, B.
Qed.
End X.
