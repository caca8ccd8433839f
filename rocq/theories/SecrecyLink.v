(* The messages sent and the values stored in a conversation (Conversation.v) are the values of the
   terms of Secrecy.v. *)
From Coq Require Import ZArith List Lia Bool PeanoNat.
From Verif Require Import Bytes Res Wire WireProofs Crypto Cbc CbcProofs Messages MessagesProofs Session SessionProofs
  Builder Conversation ConversationProofs PropErasure Secrecy SecrecyProofs.
Import ListNotations.
Open Scope Z_scope.
Ltac Zify.zify_post_hook ::= Z.to_euclidean_division_equations.

(* ------------------------------------------------------------------------------------------ *)
(* The ratchet keys made during a schedule: a delivery makes one when a party's key number rises *)
Definition top (sp : spec) : nat := Nat.max (sp_epoch sp SA) (sp_epoch sp SB).
Definition newkey (sp : spec) (a : action) : list bytes :=
  match a with
  | Deliver _ rnd => if Nat.eqb (top (spec_step sp a)) (top sp) then [] else [clamp (rnd 0%nat)]
  | _ => []
  end.
Fixpoint draws (sp : spec) (acts : list action) : list bytes :=
  match acts with
  | [] => []
  | a :: t => newkey sp a ++ draws (spec_step sp a) t
  end.

(* all byte strings in a stored session *)
Definition chain_fields (c : chain) : list bytes :=
  ch_rpub c :: ch_rpriv c :: match ch_ck c with Some k => [ck_key k] | None => [] end
  ++ flat_map (fun k => [mk_cipher k; mk_mac k; mk_iv k]) (ch_mks c).
Definition state_fields (s : sstate) : list bytes :=
  [s_local s; s_remote s; s_root s; s_base s]
  ++ match s_pending s with Some p => [pp_base p] | None => [] end
  ++ match s_sender s with Some c => chain_fields c | None => [] end
  ++ flat_map chain_fields (s_recv s).

Section Setup.
Variable st : setup.
Definition with_otk : bool := match st_otk st with Some _ => true | None => false end.
Definition last_resort : bool := st_pkid st =? 16777215.
Definition privs (acts : list action) : list bytes := st_spk st :: clamp (st_rratchet st) :: draws spec0 acts.
Definition the_env (ks : list bytes) (sent : list smsg) : env :=
  mkEnv (fun p => match p with
                  | NIdent x => idpriv st x
                  | NSigned => st_spk st
                  | NOneTime => match st_otk st with Some k => k | None => [] end
                  | NBase => clamp (st_rbase st)
                  | NRatchet n => nth n ks []
                  | NOther _ => []
                  end)
        (fun j => match nth_error sent j with Some m => sm_pt m | None => [] end).

(* what x has stored that has to do with this conversation: the identity key, the session with all
   that was archived, and B's two prekeys. Keys x keeps for other conversations are not looked at. *)
Definition held (w : world) (x : side) (b : bytes) : Prop :=
  b = fst (w_ident w) \/
  (exists s p s', w_sess w (fst (st_peer st x)) (snd (st_peer st x)) = Some (s, p) /\
     In s' (s :: p) /\ In b (state_fields s')) \/
  (x = SB /\ exists q, w_spk w (st_spkid st) = Some (b, q)) \/
  (x = SB /\ st_otk st <> None /\ exists q, w_pre w (st_pkid st) = Some (b, q)).
End Setup.

(* terms without secrets *)
Inductive open : term -> Prop :=
| o_const b : open (TConst b)
| o_pub p : open (TPub p)
| o_cat a b : open a -> open b -> open (TCat a b).

Section P.
Variable C : crypto.
Hypothesis OK : crypto_ok C.
Variable st : setup.
Hypothesis SO : setup_ok C st.

(* ------------------------------------------------------------------------------------------ *)
(* Values of the keys *)
Section Values.
Variable eps : list ep.
Hypothesis W : wf_eps C st eps.
Hypothesis L1 : (1 < length eps)%nat.
Variable sent : list smsg.
Notation env := (the_env st (map e_priv eps) sent).
Notation ev := (eval C env).
Notation otk := (with_otk st).

Lemma ev_rkn n : (n < length eps)%nat -> v_priv env (rkn n) = e_priv (E eps n).
Proof.
  intros H. destruct n; cbn [rkn v_priv the_env].
  - now rewrite (we_0 _ _ _ W).
  - unfold E. change (@nil Z) with (e_priv ep_d). apply map_nth.
Qed.
Lemma ev_tdh p q : ev (tdh p q) = dh C (v_priv env p) (basepub C (v_priv env q)).
Proof. unfold tdh. destruct (Nat.leb _ _); cbn [eval]; [reflexivity | apply (dh_comm C OK)]. Qed.

Lemma skip_all n m (l : bytes) : (length l <= n + m)%nat -> firstn m (skipn n l) = skipn n l.
Proof. intros H. apply firstn_all2. rewrite skipn_length. lia. Qed.

Lemma ev_km : ev (t_km otk) = km C st.
Proof.
  unfold t_km, km, base_pub. cbn [eval]. rewrite !ev_tdh. cbn [v_priv the_env].
  destruct (so_ident _ _ SO SA) as [-> _]. unfold with_otk.
  destruct (st_otk st) as [k|] eqn:EO; [|reflexivity]. rewrite ev_tdh. cbn [v_priv the_env]. rewrite EO. reflexivity.
Qed.
Lemma ev_root n : (n < length eps)%nat -> ev (t_root otk n) = e_root (E eps n).
Proof.
  induction n as [|n IH]; intros H.
  - cbn [t_root eval]. rewrite ev_km, (we_0 _ _ _ W). reflexivity.
  - cbn [t_root eval]. rewrite ev_tdh, IH, !ev_rkn by lia.
    pose proof (we_next _ _ _ W n H) as N. unfold createChain, pubn in N. injection N as N1 N2.
    rewrite <- N1. rewrite (dh_comm C OK). reflexivity.
Qed.
Lemma ev_ck k i : (1 <= k < length eps)%nat -> ev (t_ck otk k i) = ck_key (ckn C (e_ck (E eps k)) i).
Proof.
  intros H. induction i as [|i IH].
  - cbn [t_ck eval]. destruct k as [|n]; [lia|]. rewrite Nat.sub_succ, Nat.sub_0_r.
    rewrite ev_tdh, ev_root, !ev_rkn by lia.
    pose proof (we_next _ _ _ W n ltac:(lia)) as N. unfold createChain, pubn in N. injection N as N1 N2.
    rewrite skip_all by (rewrite (hkdf_length C OK); lia).
    change (ckn C (e_ck (E eps (S n))) 0) with (e_ck (E eps (S n))). rewrite <- N2. cbn [ck_key].
    rewrite (dh_comm C OK). reflexivity.
  - cbn [t_ck eval]. rewrite IH, ckn_S. reflexivity.
Qed.
Lemma ev_mk k i : (1 <= k < length eps)%nat -> let mk := getMessageKeys C (ckn C (e_ck (E eps k)) i) in
  ev (t_cipher otk k i) = mk_cipher mk /\ ev (t_mac otk k i) = mk_mac mk /\ ev (t_iv otk k i) = mk_iv mk.
Proof.
  intros H. unfold t_cipher, t_mac, t_iv, t_mk. cbv zeta. cbn [eval]. rewrite ev_ck by exact H.
  unfold getMessageKeys. cbn [mk_cipher mk_mac mk_iv]. split; [reflexivity|]. split; [reflexivity|].
  apply skip_all. rewrite (hkdf_length C OK). lia.
Qed.

(* ------------------------------------------------------------------------------------------ *)
(* Messages *)
Lemma cipher_len c pt : wfb pt -> zlen (cipher_of C (getMessageKeys C c) pt) = padded (length pt).
Proof.
  intros Hw. destruct (getMessageKeys_ok C OK c) as (Hc & _ & Hi & Hiw).
  set (mk := getMessageKeys C c) in *.
  assert (Hk : aes_key_ok (mk_cipher mk) = true) by (unfold aes_key_ok; now rewrite Hc).
  unfold cipher_of. rewrite (Encrypt_ok C) by auto.
  destruct (padded_blocks pt Hw) as [Hb Hcat].
  pose proof (cbc_enc_blocks C OK (mk_cipher mk) (mk_iv mk) _ Hk (conj Hi Hiw) Hb) as Hcb.
  unfold zlen. rewrite (concat_length16 _ Hcb).
  assert (L : forall key iv bl, length (cbc_enc C key iv bl) = length bl).
  { clear. intros key iv bl; revert iv; induction bl; intros; simpl; auto. }
  rewrite L. rewrite <- (concat_length16 _ Hb), Hcat.
  pose proof (pkcs_pad_facts pt) as (Hp & _ & _ & Hl & _). cbv zeta in *. unfold padded.
  pose proof (Nat.div_mod (length pt) 16 ltac:(lia)). pose proof (Nat.mod_upper_bound (length pt) 16 ltac:(lia)).
  assert (Z.of_nat (length pt) / 16 = Z.of_nat (length pt / 16)) by (now rewrite Nat2Z.inj_div).
  rewrite Hl. lia.
Qed.

Lemma zlen_key_ser k : length k = 32%nat -> zlen (key_ser k) = 33.
Proof. intros H. unfold zlen, key_ser. cbn [length]. now rewrite H. Qed.

Lemma ev_body I j m : nth_error sent j = Some m -> (1 <= sm_epoch m < length eps)%nat -> wfb (sm_pt m) ->
  ev (t_body otk I j m) = 51 :: encode (whisper_fields (pubn C eps (sm_epoch m)) (Z.of_nat (sm_idx m)) (in_prev I j)
     (cipher_of C (getMessageKeys C (ckn C (e_ck (E eps (sm_epoch m))) (sm_idx m))) (sm_pt m))).
Proof.
  intros Hj Hk Hw. unfold t_body. cbn [eval]. fold (t_cipher otk (sm_epoch m) (sm_idx m)).
  destruct (ev_mk (sm_epoch m) (sm_idx m) Hk) as (-> & _ & ->). rewrite ev_rkn by lia.
  cbn [v_text the_env]. rewrite Hj. fold (pubn C eps (sm_epoch m)).
  set (c := ckn C _ _). fold (cipher_of C (getMessageKeys C c) (sm_pt m)).
  unfold whisper_fields, encode. cbn [flat_map].
  change (enc_field (1, WLen (key_ser (pubn C eps (sm_epoch m)))))
    with (varint 10 ++ varint (zlen (key_ser (pubn C eps (sm_epoch m)))) ++ 5 :: pubn C eps (sm_epoch m)).
  rewrite zlen_key_ser by apply (pubn_length C OK).
  change (enc_field (4, WLen (cipher_of C (getMessageKeys C c) (sm_pt m))))
    with (varint 34 ++ varint (zlen (cipher_of C (getMessageKeys C c) (sm_pt m))) ++ cipher_of C (getMessageKeys C c) (sm_pt m)).
  rewrite cipher_len by exact Hw. rewrite app_nil_r.
  generalize (varint 10) (varint 33) (varint 34) (varint (padded (length (sm_pt m)))). intros a b d e.
  generalize (enc_field (2, WVarint (Z.of_nat (sm_idx m)))) (enc_field (3, WVarint (in_prev I j))). intros f g.
  cbn [app]. rewrite <- !app_assoc. cbn [app]. reflexivity.
Qed.

Lemma ev_whisper I j m : nth_error sent j = Some m -> (1 <= sm_epoch m < length eps)%nat -> wfb (sm_pt m) ->
  ev (t_whisper otk I j m)
  = wm_ser (gen_msg C st eps (sm_epoch m) (sm_idx m) (in_prev I j) (sm_pt m) (other (sm_from m))).
Proof.
  intros Hj Hk Hw. unfold t_whisper, t_tag, t_tagged. cbn [eval]. rewrite (ev_body I j m Hj Hk Hw).
  destruct (ev_mk (sm_epoch m) (sm_idx m) Hk) as (_ & -> & _).
  unfold gen_msg, chain_msg, newWhisperMessage. cbn [wm_ser]. rewrite other_other.
  set (data := 51 :: _). change (makeVersionByte 3 currentVersion) with 51. fold data. f_equal.
  unfold getMac, ComputeTruncatedMAC. change (3 >=? 3) with true. cbv iota. unfold macLength, key_ser.
  cbn [v_priv the_env]. rewrite <- !(proj1 (so_ident _ _ SO _)).
  rewrite <- !app_assoc. reflexivity.
Qed.

Lemma whisper_zlen I j m : nth_error sent j = Some m -> (1 <= sm_epoch m < length eps)%nat -> wfb (sm_pt m) ->
  zlen (ev (t_whisper otk I j m)) = whisper_len I j m.
Proof.
  intros Hj Hk Hw. unfold t_whisper. cbn [eval]. rewrite (ev_body I j m Hj Hk Hw).
  rewrite zlen_app, zlen_cons.
  assert (HT : forall k mm, zlen (firstn 8 (hmac C k mm)) = 8).
  { intros k mm. unfold zlen. rewrite firstn_length, (hmac_length C OK). reflexivity. }
  unfold t_tag. cbn [eval]. rewrite HT. unfold whisper_fields, encode. cbn [flat_map].
  unfold enc_field at 1 4. cbn [fst snd wtype enc_val].
  rewrite !zlen_app. rewrite zlen_key_ser by apply (pubn_length C OK). rewrite cipher_len by exact Hw.
  unfold whisper_len. change (zlen (varint (1 * 8 + 2))) with 1. change (zlen (varint (4 * 8 + 2))) with 1.
  change (zlen (varint 33)) with 1. change (zlen (@nil Z)) with 0.
  lia.
Qed.

Lemma ev_wire I j m : nth_error sent j = Some m -> (1 <= sm_epoch m < length eps)%nat -> wfb (sm_pt m) ->
  in_reg I = w_reg (st_w st SA) -> in_pkid I = st_pkid st -> in_spkid I = st_spkid st ->
  forall f ty b, f = sm_from m ->
   (let wm := gen_msg C st eps (sm_epoch m) (sm_idx m) (in_prev I j) (sm_pt m) (other f) in
      match ty with
      | CIPHERTEXT => (f = SA -> sm_epoch m <> 1%nat) /\ b = wm_ser wm
      | PREKEY_BUNDLE => f = SA /\ sm_epoch m = 1%nat /\ b = pk_ser (pre_msg C st wm)
      end) ->
   b = ev (t_wire otk I j m).
Proof.
  intros Hj Hk Hw I1 I2 I3 f ty b -> Hm. cbv zeta in Hm. rewrite <- (ev_whisper I j m Hj Hk Hw) in Hm || idtac.
  unfold t_wire. destruct ty.
  - destruct Hm as [Hn ->]. replace (side_eqb (sm_from m) SA && Nat.eqb (sm_epoch m) 1) with false.
    + now rewrite (ev_whisper I j m Hj Hk Hw).
    + symmetry. destruct (sm_from m); [|reflexivity]. cbn [side_eqb andb]. apply Nat.eqb_neq. now apply Hn.
  - destruct Hm as (Hf & H1 & ->). pose proof (ev_whisper I j m Hj Hk Hw) as HE.
    pose proof (whisper_zlen I j m Hj Hk Hw) as HZ. rewrite HE in HZ.
    rewrite Hf at 2. rewrite H1 at 2. cbn [side_eqb Nat.eqb andb]. cbn [eval]. rewrite HE.
    set (wm := gen_msg _ _ _ _ _ _ _ _) in *. unfold pre_msg, newPreKeyWhisperMessage. cbn [pk_ser].
    change (makeVersionByte 3 currentVersion) with 51. unfold prekey_fields, encode. cbn [flat_map].
    rewrite I1, I2, I3.
    change (enc_field (2, WLen (key_ser (base_pub C st))))
      with (varint 18 ++ varint (zlen (key_ser (base_pub C st))) ++ 5 :: base_pub C st).
    change (enc_field (3, WLen (key_ser (idpub st SA))))
      with (varint 26 ++ varint (zlen (key_ser (idpub st SA))) ++ 5 :: idpub st SA).
    change (enc_field (4, WLen (wm_ser wm))) with (varint 34 ++ varint (zlen (wm_ser wm)) ++ wm_ser wm).
    rewrite !zlen_key_ser by (apply (basepub_length C OK) || apply (idpub_len C OK st SO)).
    rewrite HZ. cbn [v_priv the_env]. rewrite <- (proj1 (so_ident _ _ SO SA)). fold (base_pub C st).
    generalize (varint 18) (varint 33) (varint 34) (varint 26) (varint (whisper_len I j m)). intros a1 a2 a3 a4 a5.
    generalize (enc_field (1, WVarint (st_pkid st))) (enc_field (5, WVarint (w_reg (st_w st SA))))
      (enc_field (6, WVarint (st_spkid st))). intros b1 b2 b3.
    cbn [app]. rewrite <- !app_assoc. cbn [app]. rewrite app_nil_r. reflexivity.
Qed.
End Values.

(* ------------------------------------------------------------------------------------------ *)
(* The one-time prekey *)
Lemma effs_pre_none l : forall w id, w_pre w id = None -> w_pre (apply_effs w l) id = None.
Proof.
  induction l as [|e l IH]; intros w id H; [exact H|]. apply IH. destruct e; cbn; auto.
  destruct (id =? id0); auto.
Qed.
Lemma effs_pre_removed l : forall w id, In (ERemovePreKey id) l -> w_pre (apply_effs w l) id = None.
Proof.
  induction l as [|e l IH]; intros w id H; [destruct H|]. destruct H as [->|H].
  - change (w_pre (apply_effs (set_pre w id None) l) id = None). apply effs_pre_none.
    cbn [set_pre w_pre]. now rewrite Z.eqb_refl.
  - now apply IH.
Qed.
Lemma effs_pre_kept l : forall w id, ~ In (ERemovePreKey id) l -> w_pre (apply_effs w l) id = w_pre w id.
Proof.
  induction l as [|e l IH]; intros w id H; [reflexivity|]. cbn [apply_effs fold_left].
  change (w_pre (apply_effs (apply_eff w e) l) id = w_pre w id).
  rewrite IH by (intros X; apply H; now right). destruct e; cbn; auto.
  destruct (Z.eqb_spec id id0) as [->|]; auto. exfalso. apply H. now left.
Qed.

Lemma build_no_remove w rid r m v id : ~ In (ERemovePreKey id) (snd (BuildReceiverSession C w rid r m)) \/ v = 0.
Proof.
  left. unfold BuildReceiverSession. destruct (negb _); [intros []|]. destruct (negb _); [intros []|].
  destruct (hasSessionState _ _ _); [intros []|].
  match goal with |- context [match ?e with _ => _ end] => destruct e end; cbn [snd]; intros H; try destruct H;
    try discriminate; auto.
Qed.
Lemma receive_keeps_last w rid dev ty b rnd :
  ~ In (ERemovePreKey 16777215) (snd (receive C w rid dev ty b rnd)).
Proof.
  unfold receive. destruct ty.
  - destruct (LoadWhisperMessage b); cbn [snd]; try (intros []). unfold SessionDecryptWhisperMessage.
    intros H. repeat match type of H with context [match ?e with _ => _ end] => destruct e end; cbn [snd] in H;
      repeat (destruct H as [H|H]; [discriminate H|]); destruct H.
  - destruct (LoadPreKeyWhisperMessage b) as [m| |]; cbn [snd]; try (intros []).
    unfold SessionDecryptPreKeyWhisperMessage.
    destruct (build_no_remove w rid (LoadSession w rid dev) m 1 16777215) as [HB|HB]; [|discriminate HB].
    destruct (BuildReceiverSession C w rid (LoadSession w rid dev) m) as [[[pkid r1]| |] l]; cbn [snd] in *; auto.
    destruct (sc_decrypt _ _ _ _) as [[] ?]; cbn [snd]; auto.
    rewrite !in_app_iff. intros [H|[H|[H|[]]]]; [auto| |discriminate H].
    destruct (Z.eqb_spec pkid 16777215) as [->|Hn]; [destruct H|]. destruct H as [H|[]]. injection H as ->. congruence.
Qed.
Lemma perform_keeps_last y a x r l : perform C (st_peer st) y a = (x, r, l) -> ~ In (ERemovePreKey 16777215) l.
Proof.
  destruct a as [x0 pt|j rnd|x0 ty b rnd]; cbn [perform].
  - unfold SessionEncryptMessage. cbv zeta. intros H.
    destruct (ss_encrypt C _ pt) as [[[msg ty] s']| |] in H; injection H as _ _ <-; intros X;
      repeat (destruct X as [X|X]; [discriminate X|]); destruct X.
  - destruct (nth_error (y_net y) j) as [[[f ty] b]|]; [|intros H; injection H as _ _ <-; intros []].
    pose proof (receive_keeps_last (y_w y (other f)) (fst (st_peer st (other f))) (snd (st_peer st (other f))) ty b rnd) as HR.
    destruct (receive _ _ _ _ _ _ _) as [r0 l0]. intros H. injection H as _ _ <-. exact HR.
  - pose proof (receive_keeps_last (y_w y x0) (fst (st_peer st x0)) (snd (st_peer st x0)) ty b rnd) as HR.
    destruct (receive _ _ _ _ _ _ _) as [r0 l0]. intros H. injection H as _ _ <-. exact HR.
Qed.

(* the first reception removes the one-time prekey *)
Lemma receive_removes w rid dev b rnd m pt l : LoadPreKeyWhisperMessage b = Ok m ->
  hasSessionState (LoadSession w rid dev) (pk_version m) (key_ser (pk_base m)) = false ->
  receive C w rid dev PREKEY_BUNDLE b rnd = (Ok pt, l) -> pk_pkid m <> 16777215 -> In (ERemovePreKey (pk_pkid m)) l.
Proof.
  intros HL HH HR Hn. unfold receive in HR. rewrite HL in HR. unfold SessionDecryptPreKeyWhisperMessage in HR.
  unfold BuildReceiverSession in HR. destruct (negb _) in HR; [discriminate HR|].
  destruct (negb _) in HR; [discriminate HR|]. rewrite HH in HR.
  match type of HR with context [match ?g with Ok v => (Ok v, _) | Err e => _ | Panic => _ end] =>
    destruct g as [[pkid r1]| |] eqn:EB; try discriminate HR end.
  assert (pkid = pk_pkid m) as ->.
  { repeat match type of EB with
    | bind ?e _ = _ => destruct e; cbn [bind] in EB; try discriminate EB
    end. injection EB as <- _. reflexivity. }
  destruct (sc_decrypt _ _ _ _) as [[] ?]; try discriminate HR. injection HR as _ <-.
  destruct (Z.eqb_spec (pk_pkid m) 16777215); [congruence|]. cbn [app In]. auto.
Qed.

Definition pre_inv (y : sys) (sp : spec) : Prop :=
  (st_pkid st <> 16777215 -> sp_epoch sp SB <> 0%nat -> w_pre (y_w y SB) (st_pkid st) = None) /\
  (st_pkid st = 16777215 -> w_pre (y_w y SB) (st_pkid st) = w_pre (st_w st SB) (st_pkid st)).

Lemma start_pre : pre_inv (start C st) spec0.
Proof.
  split; [intros _ H; now cbn in H|]. intros _. unfold start. destruct (BuildSenderSession _ _ _ _ _ _ _). reflexivity.
Qed.

Lemma pre_step eps y sp a acts : Inv C st eps y sp (a :: acts) -> assumed C st y sp a -> pre_inv y sp ->
  pre_inv (step C (st_peer st) y a) (spec_step sp a).
Proof.
  intros IV HA [P1 P2]. unfold pre_inv, step.
  destruct (perform C (st_peer st) y a) as [[x r] l] eqn:HP. cbn [y_w].
  pose proof (perform_keeps_last _ _ _ _ _ HP) as HK.
  assert (HW : upd_side (y_w y) x (apply_effs (y_w y x) l) SB
             = match x with SB => apply_effs (y_w y SB) l | SA => y_w y SB end) by (destruct x; reflexivity).
  split.
  - intros Hn He. rewrite HW. destruct (Nat.eq_dec (sp_epoch sp SB) 0) as [E0|E0].
    + (* first reception *)
      pose proof (iv_spec _ _ _ _ _ _ IV) as K.
      destruct a as [x0 pt|j rnd|x0 ty b rnd]; [cbn in He; congruence| |cbn in He; congruence].
      destruct (deliverable sp j) eqn:Ed; [|cbn [spec_step] in He; rewrite Ed in He; congruence].
      destruct HA as [Hrnd _].
      destruct (deliver_step_grows C OK st SO _ _ _ _ _ _ IV Hrnd Ed) as (m & l' & eps' & Hm & HP' & _).
      rewrite HP in HP'. injection HP' as -> -> <-.
      destruct (sk_sent _ K _ _ Hm) as (A1 & A2 & A3 & A4 & A5 & A6).
      assert (HE1 : sp_epoch sp SA = 1%nat) by (destruct (sk_adj _ K); lia).
      assert (Hf : sm_from m = SA).
      { destruct (sm_from m) eqn:Ef; auto. lia. }
      assert (Hk : sm_epoch m = 1%nat) by (rewrite Hf in A2; lia).
      destruct (Forall2_nth _ _ _ _ _ (iv_net _ _ _ _ _ _ IV) Hm) as ([[f ty] b] & Hnet & Hmsg).
      cbn [perform] in HP. rewrite Hnet in HP. destruct Hmsg as (Hff & prev & Hp & Hmm). cbv zeta in Hmm.
      rewrite Hf in Hff. subst f. cbn [other] in *. rewrite Hf. cbn [other].
      destruct ty; [destruct Hmm as [Hx _]; exfalso; now apply Hx|]. destruct Hmm as (_ & _ & ->).
      destruct (receive C (y_w y SB) _ _ _ _ _) as [r0 l0] eqn:HR. injection HP as _ -> <-.
      pose proof (iv_size _ _ _ _ _ _ IV) as KS.
      pose proof (pre_msg_load C OK st SO eps (sm_epoch m) (sm_idx m) prev (sm_pt m) SB A5 A6 ltac:(lia) Hp) as HL.
      apply effs_pre_removed.
      refine (receive_removes _ _ _ _ _ _ _ _ HL _ HR Hn). cbn [pk_version pk_base pre_loaded].
      pose proof (iv_sess _ _ _ _ _ _ IV SB) as HS. unfold sess_ok in HS. rewrite E0 in HS. destruct HS as [HS _].
      unfold rid, dev in HS. unfold LoadSession. rewrite HS. exact (so_new _ _ SO).
    + destruct x; [now apply P1|]. apply effs_pre_none. now apply P1.
  - intros Hn. rewrite HW. destruct x; [now apply P2|]. rewrite Hn in *. rewrite effs_pre_kept by exact HK. now apply P2.
Qed.

(* ------------------------------------------------------------------------------------------ *)
(* The whole run, with the keys as drawn *)
Lemma run_keys acts : forall post y sp eps, Inv C st eps y sp (acts ++ post) -> pre_inv y sp ->
  admissible C st y sp acts ->
  exists more, Inv C st (eps ++ more) (run C st y acts) (spec_run sp acts) post /\
    pre_inv (run C st y acts) (spec_run sp acts) /\ map e_priv more = draws sp acts.
Proof.
  induction acts as [|a acts IH]; intros post y sp eps IV PI HA.
  - exists []. rewrite app_nil_r. split; [exact IV|]. split; [exact PI|reflexivity].
  - destruct HA as [H1 H2]. cbn [app] in IV.
    destruct (any_step_grows C OK st SO _ _ _ _ _ IV H1) as [_ (eps' & IV' & HG)].
    pose proof (pre_step _ _ _ _ _ IV H1 PI) as PI'.
    pose proof (iv_len _ _ _ _ _ _ IV) as N1. pose proof (iv_len _ _ _ _ _ _ IV') as N2.
    destruct (IH _ _ _ _ IV' PI' H2) as (more & IV2 & PI2 & HD). cbn [run spec_run fold_left draws].
    assert (HN : exists new, eps' = eps ++ new /\ map e_priv new = newkey sp a).
    { destruct HG as [->|HG].
      - exists []. split; [now rewrite app_nil_r|]. destruct a; try reflexivity. cbn [newkey map]. unfold top.
        rewrite N1 in N2. apply Nat.succ_inj in N2. rewrite <- N2, Nat.eqb_refl. reflexivity.
      - destruct a; try contradiction. destruct HG as (e & -> & He). exists [e]. split; [reflexivity|].
        cbn [map newkey]. rewrite He. unfold top. rewrite app_length, N1 in N2. cbn [length] in N2.
        destruct (Nat.eqb_spec (Nat.max (sp_epoch (spec_step sp (Deliver j rnd)) SA) (sp_epoch (spec_step sp (Deliver j rnd)) SB))
                   (Nat.max (sp_epoch sp SA) (sp_epoch sp SB))); [lia|reflexivity]. }
    destruct HN as (new & -> & Hnew). exists (new ++ more). rewrite app_assoc. split; [exact IV2|].
    split; [exact PI2|]. now rewrite map_app, Hnew, HD.
Qed.

Lemma st_ok_more more : forall eps n cnt nxt got x s, (n < length eps)%nat -> (1 < length eps)%nat ->
  st_ok C st eps n cnt nxt got x s -> st_ok C st (eps ++ more) n cnt nxt got x s.
Proof.
  induction more as [|e more IH]; intros eps n cnt nxt got x s H1 H2 H; [now rewrite app_nil_r|].
  replace (eps ++ e :: more) with ((eps ++ [e]) ++ more) by (now rewrite <- app_assoc).
  apply IH; try (rewrite app_length; cbn [length]; lia). now apply st_ok_ext.
Qed.

(* ------------------------------------------------------------------------------------------ *)
(* What is stored *)
Section Store.
Variable eps : list ep.
Hypothesis W : wf_eps C st eps.
Hypothesis L1 : (1 < length eps)%nat.
Variable sent : list smsg.
Notation env := (the_env st (map e_priv eps) sent).
Notation ev := (eval C env).
Notation otk := (with_otk st).
Notation lastr := (last_resort st).
Variable sp : spec.
Hypothesis K : spec_ok sp.
Variable x : side.
Variable s : sstate.
Hypothesis Hn0 : sp_epoch sp x <> 0%nat.
Hypothesis Hn : (sp_epoch sp x < length eps)%nat.
Hypothesis S : st_ok C st eps (sp_epoch sp x) (sp_count sp x) (sp_next sp) (gotk sp) x s.

Lemma win_at k : In k (win (sp_epoch sp x)) <-> at_epoch sp x k.
Proof.
  unfold at_epoch, kept. rewrite in_win, Nat.leb_le. pose proof (sk_own _ K x) as HO. split.
  - intros (d & Hd & HE). split; [lia|]. split; [|lia].
    assert (Hw : In k (win (sp_epoch sp x))) by (apply in_win; exists d; auto).
    apply win_owner in Hw. rewrite HO in Hw. unfold owner in Hw.
    destruct (Nat.odd k), x; cbn [other] in Hw; try discriminate Hw; reflexivity.
  - intros (H1 & H2 & H3). destruct (owner_diff (sp_epoch sp x) k) as (d & HE); [|exact H1|].
    + rewrite HO. unfold owner. rewrite H2. destruct x; reflexivity.
    + exists d. split; [lia|exact HE].
Qed.

Definition explained (b : bytes) : Prop :=
  exists t, (Secrecy.stored otk lastr sp x t \/ open t) /\ ev t = b.

Lemma ex_pub p : explained (basepub C (v_priv env p)).
Proof. exists (TPub p). split; [right; constructor|reflexivity]. Qed.
Lemma ex_ser p : explained (key_ser (basepub C (v_priv env p))).
Proof. exists (TCat (TConst [5]) (TPub p)). split; [right; repeat constructor|reflexivity]. Qed.
Lemma ex_stored t b : Secrecy.stored otk lastr sp x t -> ev t = b -> explained b.
Proof. intros H E. exists t. auto. Qed.
Lemma ex_nil : explained [].
Proof. exists (TConst []). split; [right; constructor|reflexivity]. Qed.

Lemma chain_explained k c b : In k (win (sp_epoch sp x)) -> chain_ok C eps (sp_next sp) (gotk sp) k c ->
  In b (chain_fields c) -> explained b.
Proof.
  intros Hk (H1 & H2 & H3 & H4) Hb. pose proof (win_lt _ _ Hk) as Hlt. pose proof Hk as Hat. apply win_at in Hat.
  destruct Hb as [Hb|[Hb|Hb]].
  - subst b. rewrite H1. unfold pubn. rewrite <- (ev_rkn eps W sent) by lia. apply ex_pub.
  - subst b. rewrite H3. apply ex_nil.
  - destruct (Nat.eq_dec k 0) as [->|Hk0].
    + destruct (H4 eq_refl) as [HC HM]. rewrite HC, HM in Hb. cbn [flat_map app] in Hb. destruct Hb as [Hb|[]].
      assert (HX : x = SA).
      { destruct Hat as (_ & Ho & _). destruct x; [reflexivity|discriminate Ho]. }
      apply (ex_stored (t_ck otk 1 0)); [apply st_first; assumption|].
      rewrite (ev_ck eps W L1 sent) by lia. exact Hb.
    + destruct (H2 Hk0) as (HC & sk & HM & HD & HI). rewrite HC in Hb. apply in_app_iff in Hb. destruct Hb as [[Hb|[]]|Hb].
      * apply (ex_stored (t_ck otk k (sp_next sp k))); [now constructor|].
        rewrite (ev_ck eps W L1 sent) by lia. exact Hb.
      * rewrite HM in Hb. unfold mks_of in Hb. apply in_flat_map in Hb. destruct Hb as (mk & Hmk & Hb).
        apply in_map_iff in Hmk. destruct Hmk as (i & <- & Hi). apply HI in Hi. destruct Hi as [Hi Hg].
        destruct (ev_mk eps W L1 sent k i ltac:(lia)) as (V1 & V2 & V3).
        destruct Hb as [Hb|[Hb|[Hb|[]]]].
        -- apply (ex_stored (t_cipher otk k i)); [|congruence]. apply st_skip; auto. now left.
        -- apply (ex_stored (t_mac otk k i)); [|congruence]. apply st_skip; auto. right; now left.
        -- apply (ex_stored (t_iv otk k i)); [|congruence]. apply st_skip; auto. right; right; now left.
Qed.

Lemma state_explained b : In b (state_fields s) -> explained b.
Proof.
  intros Hb. pose proof S as [S1 S2 S3 S4 S5 S6 S7 S8 S9 S10]. unfold state_fields in Hb.
  rewrite !in_app_iff in Hb. destruct Hb as [Hb|[Hb|[Hb|Hb]]].
  - destruct Hb as [Hb|[Hb|[Hb|[Hb|[]]]]].
    + subst b. rewrite S2. rewrite (proj1 (so_ident _ _ SO x)). apply (ex_pub (NIdent x)).
    + subst b. rewrite S3. rewrite (proj1 (so_ident _ _ SO (other x))). apply (ex_pub (NIdent (other x))).
    + subst b. apply (ex_stored (t_root otk (sp_epoch sp x))); [now constructor|].
      rewrite (ev_root eps W L1 sent) by lia. now rewrite S4.
    + subst b. rewrite S10. apply (ex_ser NBase).
  - rewrite S8 in Hb. destruct x; [|destruct Hb]. destruct (Nat.eqb _ 1); [|destruct Hb].
    destruct Hb as [Hb|[]]. subst b. apply (ex_ser NBase).
  - rewrite S5 in Hb. unfold chain_fields in Hb. cbn [ch_rpub ch_rpriv ch_ck ch_mks flat_map app] in Hb.
    destruct Hb as [Hb|[Hb|[Hb|[]]]].
    + subst b. unfold pubn. rewrite <- (ev_rkn eps W sent) by lia. apply ex_pub.
    + apply (ex_stored (TPriv (rkn (sp_epoch sp x)))); [now constructor|]. cbn [eval].
      rewrite (ev_rkn eps W sent) by lia. exact Hb.
    + apply (ex_stored (t_ck otk (sp_epoch sp x) (sp_count sp x))); [now constructor|].
      rewrite (ev_ck eps W L1 sent) by lia. exact Hb.
  - apply in_flat_map in Hb. destruct Hb as (c & Hc & Hb).
    assert (HF : exists k, In k (win (sp_epoch sp x)) /\ chain_ok C eps (sp_next sp) (gotk sp) k c).
    { clear - S6 Hc. induction S6 as [|k c' ks cs HR F IH]; [destruct Hc|]. destruct Hc as [->|Hc].
      - exists k. split; [now left|exact HR].
      - destruct (IH Hc) as (k' & H1 & H2). exists k'. split; [now right|exact H2]. }
    destruct HF as (k & Hk & HO). eapply chain_explained; eauto.
Qed.

Lemma chain_of k : In k (win (sp_epoch sp x)) -> exists c, In c (s_recv s) /\ chain_ok C eps (sp_next sp) (gotk sp) k c.
Proof.
  intros Hk. pose proof (so_recv _ _ _ _ _ _ _ _ _ S) as F. revert Hk.
  induction F as [|k' c ks cs HR F IH]; [intros []|]. intros [->|H].
  - exists c. split; [now left|exact HR].
  - destruct (IH H) as (c' & H1 & H2). exists c'. split; [now right|exact H2].
Qed.
Lemma recv_field c b : In c (s_recv s) -> In b (chain_fields c) -> In b (state_fields s).
Proof. intros H1 H2. unfold state_fields. rewrite !in_app_iff. right. right. right. apply in_flat_map. eauto. Qed.

Lemma stored_field t : Secrecy.stored otk lastr sp x t -> In (ev t) (state_fields s) \/ exists p, t = TPriv p.
Proof.
  intros H. pose proof S as [S1 S2 S3 S4 S5 S6 S7 S8 S9 S10]. destruct H; eauto.
  - left. rewrite (ev_root eps W L1 sent) by lia. unfold state_fields. rewrite <- S4. cbn [app In]. auto.
  - left. rewrite (ev_ck eps W L1 sent) by lia. unfold state_fields. rewrite !in_app_iff. right. right. left.
    rewrite S5. cbn. auto.
  - left. pose proof H0 as Hw. apply win_at in Hw. pose proof (win_lt _ _ Hw). destruct (chain_of k Hw) as (c & Hc & HO).
    eapply recv_field; [exact Hc|]. destruct HO as (_ & H2 & _). destruct (H2 H) as (HC & _).
    unfold chain_fields. rewrite HC. rewrite (ev_ck eps W L1 sent) by lia. right. right. now left.
  - left. pose proof H0 as Hw. apply win_at in Hw. pose proof (win_lt _ _ Hw). destruct (chain_of k Hw) as (c & Hc & HO).
    eapply recv_field; [exact Hc|]. destruct HO as (_ & HH & _). destruct (HH H) as (_ & sk & HM & _ & HI).
    unfold chain_fields. right. right. apply in_app_iff. right. apply in_flat_map.
    exists (getMessageKeys C (ckn C (e_ck (E eps k)) i)). split.
    + rewrite HM. unfold mks_of. apply in_map_iff. exists i. split; [reflexivity|]. apply HI. auto.
    + destruct (ev_mk eps W L1 sent k i ltac:(lia)) as (V1 & V2 & V3).
      destruct H3 as [E1|[E1|[E1|[]]]]; injection E1 as <- <-.
      * left. now rewrite <- V1.
      * right. left. now rewrite <- V2.
      * right. right. left. now rewrite <- V3.
  - left. pose proof H0 as Hw. apply win_at in Hw. pose proof (win_lt _ _ Hw). destruct (chain_of 0 Hw) as (c & Hc & HO).
    eapply recv_field; [exact Hc|]. destruct HO as (_ & _ & _ & HH). destruct (HH eq_refl) as (HC & _).
    unfold chain_fields. rewrite HC. rewrite (ev_ck eps W L1 sent) by lia. right. right. now left.
Qed.
Lemma rpriv_field : In (ev (TPriv (rkn (sp_epoch sp x)))) (state_fields s).
Proof.
  pose proof S as [S1 S2 S3 S4 S5 S6 S7 S8 S9 S10]. cbn [eval]. rewrite (ev_rkn eps W sent) by lia.
  unfold state_fields. rewrite !in_app_iff. right. right. left. rewrite S5. cbn. auto.
Qed.
End Store.
End P.

Section Runs.
Variable C : crypto.
Hypothesis OK : crypto_ok C.
Variable st : setup.
Hypothesis SO : setup_ok C st.

Lemma draws_app a b : forall sp, draws sp (a ++ b) = draws sp a ++ draws (spec_run sp a) b.
Proof.
  induction a as [|x a IH]; intros sp; [reflexivity|]. cbn [app draws]. rewrite IH, app_assoc. reflexivity.
Qed.

(* the state after pre, with the keys of the whole schedule *)
Lemma run_at pre post : good_schedule C st (pre ++ post) -> admissible C st (start C st) spec0 (pre ++ post) ->
  exists eps more, let y := run C st (start C st) pre in let sp := spec_run spec0 pre in
    Inv C st eps y sp post /\ pre_inv st y sp /\
    wf_eps C st (eps ++ more) /\ map e_priv (eps ++ more) = privs st (pre ++ post) /\
    Forall2 (msg_ok C st (eps ++ more)) (sp_sent (spec_run spec0 (pre ++ post))) (y_net (run C st (start C st) (pre ++ post))) /\
    spec_ok (spec_run spec0 (pre ++ post)) /\
    (forall x, (sp_epoch (spec_run spec0 (pre ++ post)) x < length (eps ++ more))%nat).
Proof.
  intros HG HA. destruct (start_inv_keys C OK st SO _ HG) as (eps0 & IV & HE).
  apply admissible_app in HA. destruct HA as [HA1 HA2].
  destruct (run_keys C OK st SO _ _ _ _ _ IV (start_pre C st) HA1) as (m1 & IV1 & P1 & D1).
  pose proof IV1 as IV1'. rewrite <- (app_nil_r post) in IV1'.
  destruct (run_keys C OK st SO _ _ _ _ _ IV1' P1 HA2) as (m2 & IV2 & P2 & D2).
  exists (eps0 ++ m1), m2. cbv zeta. split; [exact IV1|]. split; [exact P1|].
  split; [exact (iv_eps _ _ _ _ _ _ IV2)|]. split.
  - rewrite !map_app, HE, D1, D2. unfold privs. rewrite draws_app. reflexivity.
  - unfold run, spec_run. rewrite !fold_left_app. fold (run C st (start C st) pre). fold (spec_run spec0 pre).
    split; [exact (iv_net _ _ _ _ _ _ IV2)|]. split; [exact (iv_spec _ _ _ _ _ _ IV2)|].
    intros x. exact (epoch_lt _ _ _ _ _ _ x IV2).
Qed.

Lemma length_more (eps more : list ep) n : (n < length eps)%nat -> (n < length (eps ++ more))%nat.
Proof. rewrite app_length. lia. Qed.

Lemma stores_explained pre post : no_history st ->
  good_schedule C st (pre ++ post) -> admissible C st (start C st) spec0 (pre ++ post) ->
  forall sent x b, held st (y_w (run C st (start C st) pre) x) x b ->
  exists t, (Secrecy.stored (with_otk st) (last_resort st) (spec_run spec0 pre) x t \/ open t) /\
    eval C (the_env st (privs st (pre ++ post)) sent) t = b.
Proof.
  intros NH HG HA sent x b HH. destruct (run_at pre post HG HA) as (eps & more & IV & [P1 P2] & W & HP & _).
  set (y := run C st (start C st) pre) in *. set (sp := spec_run spec0 pre) in *.
  rewrite <- HP. pose proof (iv_world _ _ _ _ _ _ IV x) as WO. pose proof (iv_spec _ _ _ _ _ _ IV) as K.
  pose proof (iv_sess _ _ _ _ _ _ IV x) as HS. pose proof (epoch_lt _ _ _ _ _ _ x IV) as Hlt.
  pose proof (iv_len _ _ _ _ _ _ IV) as HLen.
  assert (L1 : (1 < length eps)%nat) by (rewrite HLen; destruct (sk_adj _ K); lia).
  destruct HH as [HH|[(s & p & s' & H1 & H2 & H3)|[(Hx & q & H1)|(Hx & Ho & q & H1)]]].
  - exists (TPriv (NIdent x)). split; [left; constructor|]. subst b. rewrite (wo_ident _ _ _ WO). reflexivity.
  - unfold sess_ok in HS. destruct (sp_epoch sp x) as [|n] eqn:En.
    + destruct HS as [HS _]. unfold rid, dev in HS. rewrite HS, (NH x) in H1. discriminate H1.
    + destruct HS as (s0 & p0 & HS & Hp0 & Hst). unfold rid, dev in HS. rewrite HS in H1. injection H1 as -> ->.
      rewrite (Hp0 NH) in H2. destruct H2 as [<-|[]]. rewrite <- En in Hst.
      apply (st_ok_more C st more) in Hst; [|lia|exact L1].
      refine (state_explained C OK st SO _ W _ sent sp K x s _ _ Hst b H3); try (apply length_more; lia). congruence.
  - subst x. exists (TPriv NSigned). split; [left; now constructor|].
    rewrite (wo_spk _ _ _ WO), (so_spk _ _ SO) in H1. injection H1 as <- _. reflexivity.
  - subst x. exists (TPriv NOneTime). pose proof (so_otk _ _ SO) as HO. cbn [eval v_priv the_env].
    unfold with_otk, last_resort. destruct (st_otk st) as [k|] eqn:EO; [|congruence].
    destruct HO as (HO1 & HO2 & HO3).
    destruct (Z.eq_dec (st_pkid st) 16777215) as [El|El].
    + rewrite (P2 El), HO3 in H1. injection H1 as <- _. split; [|reflexivity]. left.
      apply st_onetime; auto. right. now apply Z.eqb_eq.
    + destruct (Nat.eq_dec (sp_epoch sp SB) 0) as [E0|E0].
      * unfold sess_ok in HS. rewrite E0 in HS. destruct HS as [_ HS]. rewrite HS, HO3 in H1 by lia.
        injection H1 as <- _. split; [|reflexivity]. left. apply st_onetime; auto.
      * rewrite (P1 El E0) in H1. discriminate H1.
Qed.

Lemma stored_held pre post : good_schedule C st (pre ++ post) -> admissible C st (start C st) spec0 (pre ++ post) ->
  forall sent x t, Secrecy.stored (with_otk st) (last_resort st) (spec_run spec0 pre) x t ->
  held st (y_w (run C st (start C st) pre) x) x (eval C (the_env st (privs st (pre ++ post)) sent) t).
Proof.
  intros HG HA sent x t Ht. destruct (run_at pre post HG HA) as (eps & more & IV & [P1 P2] & W & HP & _).
  set (y := run C st (start C st) pre) in *. set (sp := spec_run spec0 pre) in *.
  rewrite <- HP. pose proof (iv_world _ _ _ _ _ _ IV x) as WO. pose proof (iv_spec _ _ _ _ _ _ IV) as K.
  pose proof (iv_sess _ _ _ _ _ _ IV x) as HS. pose proof (epoch_lt _ _ _ _ _ _ x IV) as Hlt.
  pose proof (iv_len _ _ _ _ _ _ IV) as HLen.
  assert (L1 : (1 < length eps)%nat) by (rewrite HLen; destruct (sk_adj _ K); lia).
  assert (HSess : sp_epoch sp x <> 0%nat ->
     exists s, (exists p, w_sess (y_w y x) (fst (st_peer st x)) (snd (st_peer st x)) = Some (s, p)) /\
       (forall t, Secrecy.stored (with_otk st) (last_resort st) sp x t ->
          In (eval C (the_env st (map e_priv (eps ++ more)) sent) t) (state_fields s) \/ exists p, t = TPriv p) /\
       In (eval C (the_env st (map e_priv (eps ++ more)) sent) (TPriv (rkn (sp_epoch sp x)))) (state_fields s)).
  { intros H0. unfold sess_ok in HS. destruct (sp_epoch sp x) as [|n] eqn:En; [congruence|].
    destruct HS as (s & p & HS & _ & Hst). exists s. split; [exists p; exact HS|]. rewrite <- En in Hst.
    apply (st_ok_more C st more) in Hst; [|lia|exact L1].
    assert (HN0 : sp_epoch sp x <> 0%nat) by congruence.
    assert (HN : (sp_epoch sp x < length (eps ++ more))%nat) by (apply length_more; lia).
    split.
    - intros t' Ht'. exact (stored_field C OK st SO _ W (length_more _ _ _ L1) sent sp K x s HN0 HN Hst t' Ht').
    - rewrite <- En. refine (rpriv_field C st _ W _ sent sp x s HN0 HN Hst); apply length_more; exact L1. }
  assert (HField : forall t, sp_epoch sp x <> 0%nat -> Secrecy.stored (with_otk st) (last_resort st) sp x t ->
     (forall p, t <> TPriv p) -> held st (y_w y x) x (eval C (the_env st (map e_priv (eps ++ more)) sent) t)).
  { intros t' H0 Ht' Hp. destruct (HSess H0) as (s & (p & Hs) & HF & _). destruct (HF t' Ht') as [Hin|(q & ->)]; [|now destruct (Hp q)].
    right. left. exists s, p, s. split; [exact Hs|]. split; [now left|exact Hin]. }
  destruct Ht.
  - left. cbn [eval v_priv the_env]. now rewrite (wo_ident _ _ _ WO).
  - right. right. left. split; [exact H|]. exists (basepub C (st_spk st)). subst x.
    rewrite (wo_spk _ _ _ WO). exact (so_spk _ _ SO).
  - right. right. right. split; [exact H|]. unfold with_otk in H0. pose proof (so_otk _ _ SO) as HO.
    cbn [eval v_priv the_env].
    destruct (st_otk st) as [k|]; [|discriminate H0]. split; [discriminate|]. exists (basepub C k).
    destruct HO as (HO1 & HO2 & HO3). subst x. destruct H1 as [H1|H1].
    + unfold sess_ok in HS. rewrite H1 in HS. destruct HS as [_ HS]. rewrite HS by lia. exact HO3.
    + unfold last_resort in H1. apply Z.eqb_eq in H1. rewrite (P2 H1). exact HO3.
  - apply HField; [exact H|now constructor|]. destruct (sp_epoch sp x); intros p Hp; discriminate Hp.
  - destruct (HSess H) as (s & (p & Hs) & _ & Hin). right. left. exists s, p, s. split; [exact Hs|]. split; [now left|exact Hin].
  - apply HField; [exact H|now constructor|]. destruct (sp_count sp x); intros p Hp; discriminate Hp.
  - apply HField; [destruct H0; lia|now constructor|]. destruct (sp_next sp k); intros p Hp; discriminate Hp.
  - apply HField; [destruct H0; lia|now constructor|]. intros p Hp; discriminate Hp.
  - apply HField; [destruct H0; lia|now constructor|]. intros p Hp; discriminate Hp.
Qed.

Lemma Forall2_pick {A B} (R : A -> B -> Z -> Prop) l l' : Forall2 (fun a b => exists z, R a b z) l l' ->
  exists f : nat -> Z, forall j a, nth_error l j = Some a -> exists b, nth_error l' j = Some b /\ R a b (f j).
Proof.
  induction 1 as [|a b l l' (z & Hz) F (f & IH)].
  - exists (fun _ => 0). intros [] a H; discriminate H.
  - exists (fun j => match j with O => z | S i => f i end). intros [|j] a0 H; cbn in H |- *.
    + injection H as <-. eauto.
    + now apply IH.
Qed.

Lemma network_explained acts : good_schedule C st acts -> admissible C st (start C st) spec0 acts ->
  exists I, in_reg I = w_reg (st_w st SA) /\ in_pkid I = st_pkid st /\ in_spkid I = st_spkid st /\
  let sent := sp_sent (spec_run spec0 acts) in
  length (y_net (run C st (start C st) acts)) = length sent /\
  forall j m, nth_error sent j = Some m -> exists ty,
    nth_error (y_net (run C st (start C st) acts)) j
    = Some (sm_from m, ty, eval C (the_env st (privs st acts) sent) (t_wire (with_otk st) I j m)).
Proof.
  intros HG HA. destruct (run_at [] acts HG HA) as (eps & more & IV & _ & W & HP & F & K & HE).
  cbn [app] in *. rewrite <- HP. set (sent := sp_sent (spec_run spec0 acts)) in *.
  set (E := eps ++ more) in *.
  assert (L1 : (1 < length E)%nat).
  { pose proof (HE SA). pose proof (HE SB). destruct (sk_adj _ K); [|lia].
    destruct (Nat.eq_dec (sp_epoch (spec_run spec0 acts) SB) 0); lia. }
  assert (F2 : Forall2 (fun m n => exists prev, fst (fst n) = sm_from m /\
     let wm := gen_msg C st E (sm_epoch m) (sm_idx m) prev (sm_pt m) (other (fst (fst n))) in
      match snd (fst n) with
      | CIPHERTEXT => (fst (fst n) = SA -> sm_epoch m <> 1%nat) /\ snd n = wm_ser wm
      | PREKEY_BUNDLE => fst (fst n) = SA /\ sm_epoch m = 1%nat /\ snd n = pk_ser (pre_msg C st wm)
      end) sent (y_net (run C st (start C st) acts))).
  { eapply Forall2_mono_in; [|exact F]. intros m [[f ty] b] _ (H1 & prev & H2 & H3). exists prev. split; auto. }
  apply Forall2_pick in F2. destruct F2 as (f & F2).
  exists (mkInfo f (w_reg (st_w st SA)) (st_pkid st) (st_spkid st)). do 3 (split; [reflexivity|]).
  split; [symmetry; exact (Forall2_len _ _ _ F)|]. intros j m Hj.
  destruct (F2 j m Hj) as ([[g ty] b] & Hn & Hg & Hm). cbn [fst snd] in *.
  destruct (sk_sent _ K _ _ Hj) as (A1 & A2 & A3 & A4 & A5 & A6). pose proof (HE (sm_from m)).
  exists ty. rewrite Hn. rewrite <- Hg.
  rewrite <- (ev_wire C OK st SO E W L1 sent (mkInfo f (w_reg (st_w st SA)) (st_pkid st) (st_spkid st)) j m Hj ltac:(lia) A5
    eq_refl eq_refl eq_refl g ty b Hg Hm). reflexivity.
Qed.
End Runs.
