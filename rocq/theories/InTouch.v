(* The next messages of a party are understood by the other: a consequence of the conversation theorem
   in the form that sending needs it. *)
From Coq Require Import ZArith List Lia Bool.
From Verif Require Import Bytes Res Wire WireProofs Crypto Cbc CbcProofs Messages MessagesProofs Session Builder SessionProofs
  Conversation ConversationProofs Content ContentProofs Encodings Sending SendingProofs.
Import ListNotations.
Open Scope Z_scope.

(* the client with the store w has a session with (rid, dev) such that the next n messages with the text
   pt are taken by the client with the store v, which knows the sender as (src, sdev); the earlier of
   them may be lost *)
Fixpoint understood (C : crypto) (n : nat) (w : world) (rid : bytes) (dev : Z) (pt : bytes)
    (v : world) (src : bytes) (sdev : Z) (rnd : nat -> bytes) : Prop :=
  match n with
  | O => True
  | S m => exists b ty l, SessionEncryptMessage C w rid dev pt = (Ok (b, ty), l) /\ wfb b /\
      (exists l', receive C v src sdev ty b rnd = (Ok pt, l')) /\
      understood C m (apply_effs w l) rid dev pt v src sdev rnd
  end.

Section U.
Variable C : crypto.

Lemma encrypt_local w w' rid dev pt : w_sess w rid dev = w_sess w' rid dev ->
  SessionEncryptMessage C w rid dev pt = SessionEncryptMessage C w' rid dev pt.
Proof. intros H. unfold SessionEncryptMessage, LoadSession. now rewrite H. Qed.

Lemma understood_local n : forall w w' rid dev pt v src sdev rnd, w_sess w rid dev = w_sess w' rid dev ->
  understood C n w rid dev pt v src sdev rnd -> understood C n w' rid dev pt v src sdev rnd.
Proof.
  induction n as [|n IH]; intros w w' rid dev pt v src sdev rnd H; cbn [understood]; [auto|].
  intros (b & ty & l & E & W & R & U). exists b, ty, l. rewrite <- (encrypt_local w w' rid dev pt H).
  split; [exact E|]. split; [exact W|]. split; [exact R|]. apply (IH (apply_effs w l)); [|exact U].
  apply encrypt_inv in E. destruct E as [(_ & N)|(m & ty' & c & p & s' & _ & _ & -> & _)]; [exfalso; exact (N _ eq_refl)|].
  cbn [apply_effs fold_left apply_eff]. now rewrite !set_sess_same.
Qed.

Lemma understood_fewer n m : forall w rid dev pt v src sdev rnd, (m <= n)%nat ->
  understood C n w rid dev pt v src sdev rnd -> understood C m w rid dev pt v src sdev rnd.
Proof.
  revert m. induction n as [|n IH]; intros m w rid dev pt v src sdev rnd H U.
  { assert (m = 0)%nat as -> by lia. exact Logic.I. }
  destruct m as [|m]; [exact Logic.I|]. cbn [understood] in *. destruct U as (b & ty & l & E & W & R & U).
  exists b, ty, l. split; [exact E|]. split; [exact W|]. split; [exact R|]. apply (IH m); [lia|exact U].
Qed.

Hypothesis OK : crypto_ok C.
Variable st : setup.
Hypothesis SO : setup_ok C st.

Lemma msg_wf eps m f ty b : msg_ok C st eps m (f, ty, b) -> wfb (sm_pt m) -> wfb b.
Proof.
  intros (-> & prev & P & H) W. cbv zeta in H.
  set (wm := gen_msg C st eps _ _ _ _ _) in H.
  assert (Q : wfb (wm_ser wm)).
  { unfold wm, gen_msg, chain_msg. cbv zeta. apply (whisper_wf C OK); [apply (basepub_wf C OK)|lia|lia|].
    eapply (Encrypt_wf C OK); [apply (cipher_of_ok C OK)|apply (getMessageKeys_ok C OK)|exact W]. }
  destruct ty; destruct H as (H1 & H2).
  - subst b. exact Q.
  - destruct H2 as (_ & ->). unfold pre_msg, newPreKeyWhisperMessage. cbn [pk_ser].
    constructor; [vm_compute; split; congruence|]. apply encode_wf. unfold prekey_fields.
    assert (K : forall k, wfb k -> wfb (key_ser k)) by (intros k Hk; constructor; [unfold isbyte; lia|exact Hk]).
    pose proof (pkid_range C st SO). pose proof (so_reg _ _ SO SA). pose proof (so_spkid _ _ SO).
    constructor; [split; [cbn; lia|cbn [snd wf_val]; lia]|].
    constructor; [split; [cbn; lia|apply K, (basepub_wf C OK)]|].
    constructor; [split; [cbn; lia|apply K; destruct (so_ident _ _ SO SA) as [-> _]; apply (basepub_wf C OK)]|].
    constructor; [split; [cbn; lia|exact Q]|].
    constructor; [split; [cbn; lia|cbn [snd wf_val]; lia]|].
    constructor; [split; [cbn; lia|cbn [snd wf_val]; lia]|constructor].
Qed.

Lemma inv_acts eps y sp acts acts' : Inv C st eps y sp acts ->
  flat_map (fresh_pub C) acts' = flat_map (fresh_pub C) acts -> (length acts' <= length acts)%nat ->
  Inv C st eps y sp acts'.
Proof.
  intros [H1 H2 H3 H4 H5 H6 H7 H8] F L. constructor; auto; [now rewrite F|lia].
Qed.

Lemma fresh_sends x pt n j rnd :
  flat_map (fresh_pub C) (repeat (Send x pt) n ++ [Deliver j rnd]) = [basepub C (clamp (rnd 0%nat))].
Proof. induction n as [|n IH]; [reflexivity|]. cbn [repeat app flat_map fresh_pub]. exact IH. Qed.

Lemma in_touch n : forall eps y sp x pt rnd j,
  Inv C st eps y sp (repeat (Send x pt) n ++ [Deliver j rnd]) ->
  sp_epoch sp x <> 0%nat -> wfb pt -> zlen pt < 2 ^ 60 -> length (rnd 0%nat) = 32%nat ->
  (sp_count sp x + n <= sp_next sp (sp_epoch sp x) + 2001)%nat ->
  understood C n (y_w y x) (fst (st_peer st x)) (snd (st_peer st x)) pt
    (y_w y (other x)) (fst (st_peer st (other x))) (snd (st_peer st (other x))) rnd.
Proof.
  induction n as [|n IH]; intros eps y sp x pt rnd j IV E0 W Z L Q; cbn [understood]; [exact Logic.I|].
  cbn [repeat app] in IV.
  destruct (send_step C OK st SO _ _ _ _ _ _ IV E0 W Z) as (b & l & P & IV1).
  pose proof P as P'. unfold perform in P'.
  destruct (SessionEncryptMessage C (y_w y x) (fst (st_peer st x)) (snd (st_peer st x)) pt) as [r l0] eqn:SE.
  destruct r as [[b' ty]|e|]; cbn [bind fst] in P'; [|congruence|congruence].
  assert (l0 = l) as -> by congruence. assert (b' = b) as -> by congruence. clear P'.
  set (y1 := step C (st_peer st) y (Send x pt)) in *.
  set (sp1 := spec_step sp (Send x pt)) in *.
  assert (Y1 : y1 = mkSys (upd_side (y_w y) x (apply_effs (y_w y x) l)) (y_net y ++ [(x, ty, b)])).
  { unfold y1, step. rewrite P. unfold sent_type. rewrite SE. reflexivity. }
  assert (SN : sp_sent sp1 = sp_sent sp ++ [mkSmsg x (sp_epoch sp x) (sp_count sp x) pt]) by reflexivity.
  assert (WX : y_w y1 x = apply_effs (y_w y x) l) by (rewrite Y1; cbn [y_w]; unfold upd_side; now rewrite side_eqb_refl).
  assert (WO : y_w y1 (other x) = y_w y (other x)) by (rewrite Y1; destruct x; reflexivity).
  pose proof (iv_net _ _ _ _ _ _ IV1) as NT.
  pose proof (Forall2_len _ _ _ (iv_net _ _ _ _ _ _ IV)) as NL.
  set (k := length (sp_sent sp)).
  assert (NK : nth_error (sp_sent sp1) k = Some (mkSmsg x (sp_epoch sp x) (sp_count sp x) pt)).
  { rewrite SN, nth_error_app2 by (unfold k; lia). unfold k. now rewrite Nat.sub_diag. }
  assert (YK : nth_error (y_net y1) k = Some (x, ty, b)).
  { rewrite Y1. cbn [y_net]. rewrite nth_error_app2 by (unfold k; lia). unfold k. rewrite NL, Nat.sub_diag. reflexivity. }
  assert (IVD : Inv C st eps y1 sp1 [Deliver k rnd]).
  { eapply inv_acts; [exact IV1| |].
    - rewrite fresh_sends. reflexivity.
    - rewrite app_length. cbn [length]. lia. }
  assert (DL : deliverable sp1 k = true).
  { unfold deliverable. rewrite NK. cbn [sm_from sm_epoch sm_idx]. rewrite !andb_true_iff. split; [split|].
    - rewrite negb_true_iff, <- not_true_iff_false, existsb_in. intros G.
      destruct (sk_got _ (iv_spec _ _ _ _ _ _ IV) _ G) as (m & Hm & _).
      assert (k < length (sp_sent sp))%nat by (apply nth_error_Some; congruence). unfold k in *; lia.
    - unfold kept. change (sp_epoch sp1) with (sp_epoch sp). apply Nat.leb_le.
      destruct (sk_adj _ (iv_spec _ _ _ _ _ _ IV)), x; cbn [other]; lia.
    - apply Nat.leb_le. change (sp_next sp1) with (sp_next sp). lia. }
  destruct (deliver_step C OK st SO _ _ _ _ _ _ IVD L DL) as (m & l2 & eps' & Hm & HP & _).
  rewrite NK in Hm. injection Hm as <-. cbn [sm_from sm_pt] in HP.
  exists b, ty, l. split; [reflexivity|]. split.
  - destruct (Forall2_nth _ _ _ _ _ NT NK) as (e & He & Me). rewrite YK in He. injection He as <-.
    apply (msg_wf _ _ _ _ _ Me). exact W.
  - split.
    + exists l2. unfold perform in HP. rewrite YK, WO in HP.
      destruct (receive C (y_w y (other x)) (fst (st_peer st (other x))) (snd (st_peer st (other x))) ty b rnd) as [r2 l3].
      congruence.
    + rewrite <- WX, <- WO. apply (IH eps y1 sp1 x pt rnd j IV1); auto.
      change (sp_epoch sp1) with (sp_epoch sp). change (sp_next sp1) with (sp_next sp).
      unfold sp1. cbn [spec_step sp_count]. unfold upd_side. rewrite side_eqb_refl. lia.
Qed.

(* the messages of a session that has just been built *)
Lemma new_in_touch n pt rnd : wfb pt -> zlen pt < 2 ^ 60 -> length (rnd 0%nat) = 32%nat -> (n <= 2001)%nat ->
  NoDup [basepub C (st_spk st); basepub C (clamp (st_rratchet st)); basepub C (clamp (rnd 0%nat))] ->
  exists l, BuildSenderSession C (st_w st SA) (fst (st_peer st SA)) (snd (st_peer st SA)) (the_bundle C st)
      (st_rbase st) (st_rratchet st) = (Ok tt, l) /\
    understood C n (apply_effs (st_w st SA) l) (fst (st_peer st SA)) (snd (st_peer st SA)) pt
      (st_w st SB) (fst (st_peer st SB)) (snd (st_peer st SB)) rnd.
Proof.
  intros W Z L N ND.
  assert (G : good_schedule C st (repeat (Send SA pt) n ++ [Deliver 0 rnd])).
  { split; [rewrite app_length, repeat_length; cbn [length]; lia|]. rewrite fresh_sends. exact ND. }
  destruct (start_inv C OK st SO _ G) as (eps & IV).
  assert (B : exists l, BuildSenderSession C (st_w st SA) (fst (st_peer st SA)) (snd (st_peer st SA)) (the_bundle C st)
      (st_rbase st) (st_rratchet st) = (Ok tt, l)).
  { unfold BuildSenderSession. cbn [b_ident b_spk b_sig b_pk b_pkid b_spkid b_reg the_bundle].
    pose proof (so_trust _ _ SO SA) as T. cbn [other] in T. rewrite T. cbn [negb].
    rewrite (so_sig _ _ SO). cbn [negb]. eexists. reflexivity. }
  destruct B as (l & B). exists l. split; [exact B|].
  assert (S0 : start C st = mkSys (upd_side (st_w st) SA (apply_effs (st_w st SA) l)) []).
  { unfold start. rewrite B. reflexivity. }
  pose proof (in_touch n eps (start C st) spec0 SA pt rnd 0%nat IV) as T. rewrite S0 in T.
  apply T; auto. cbn. lia.
Qed.
End U.
