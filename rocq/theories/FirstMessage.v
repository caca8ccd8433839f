(* The first message of a session, without any assumption on the freshness of keys. *)
From Coq Require Import ZArith List Lia Bool.
From Verif Require Import Bytes Res Wire WireProofs Crypto Cbc CbcProofs Messages MessagesProofs
  Session SessionProofs Builder Conversation ConversationProofs.
Import ListNotations.
Open Scope Z_scope.

Section F.
Variable C : crypto.
Hypothesis OK : crypto_ok C.
Variable st : setup.
Hypothesis SO : setup_ok C st.

Lemma first_message pt rnd :
  wfb pt -> zlen pt < 2 ^ 60 -> length (rnd 0%nat) = 32%nat ->
  exists l1 l2 l3 b ty,
    BuildSenderSession C (st_w st SA) (fst (st_peer st SA)) (snd (st_peer st SA)) (the_bundle C st)
      (st_rbase st) (st_rratchet st) = (Ok tt, l1) /\
    SessionEncryptMessage C (apply_effs (st_w st SA) l1) (fst (st_peer st SA)) (snd (st_peer st SA)) pt
      = (Ok (b, ty), l2) /\
    receive C (st_w st SB) (fst (st_peer st SB)) (snd (st_peer st SB)) ty b rnd = (Ok pt, l3).
Proof.
  intros Hw Hz Hrnd. fold (rid st SA) (dev st SA) (rid st SB) (dev st SB).
  set (rr := clamp (st_rratchet st)).
  destruct (createChain C (root0 C st) (basepub C (st_spk st)) rr) as [root1 sck] eqn:ECC.
  pose proof (createChain_ok C OK _ _ _ _ _ ECC) as (HR1 & HS1 & HI1).
  destruct (calculateDerivedKeys_ok C OK (km C st) _ _ (surjective_pairing _)) as (HK1 & HK2 & HK3).
  fold (root0 C st) (ck0 C st) in HK1, HK2, HK3.
  set (eps := [mkEp (st_spk st) (root0 C st) (ck0 C st); mkEp rr root1 sck]).
  (* A *)
  set (r := LoadSession (st_w st SA) (rid st SA) (dev st SA)).
  set (r1 := if r_fresh r then r else archiveCurrentState r).
  assert (Hcur : r_cur r1 = empty_ss).
  { unfold r1, r, LoadSession. destruct (w_sess (st_w st SA) (rid st SA) (dev st SA)) as [[c p]|]; reflexivity. }
  assert (HKM : diversifier ++ dh C (fst (w_ident (st_w st SA))) (basepub C (st_spk st)) ++ dh C (clamp (st_rbase st)) (idpub st SB)
            ++ dh C (clamp (st_rbase st)) (basepub C (st_spk st))
            ++ match option_map (basepub C) (st_otk st) with Some k => dh C (clamp (st_rbase st)) k | None => [] end = km C st).
  { unfold km, base_pub. destruct (so_ident _ _ SO SA) as [-> _]. destruct (so_ident _ _ SO SB) as [-> _].
    unfold idpriv. rewrite (dh_comm C OK (st_spk st)). rewrite (dh_comm C OK (fst (w_ident (st_w st SB)))).
    rewrite (dh_comm C OK (st_spk st)).
    destruct (st_otk st) as [k|]; cbn [option_map]; auto. now rewrite (dh_comm C OK k). }
  assert (HB : exists s, BuildSenderSession C (st_w st SA) (rid st SA) (dev st SA) (the_bundle C st) (st_rbase st) (st_rratchet st)
       = (Ok tt, [EStoreSession (rid st SA) (dev st SA) s (r_prevs r1); ESaveIdentity (rid st SA) (idpub st SB)]) /\
       s_version s = 3 /\ s_local s = idpub st SA /\ s_remote s = idpub st SB /\ s_prev s = 0 /\
       s_sender s = Some (mkChain (basepub C rr) rr (Some sck) []) /\
       s_pending s = Some (the_pending C st) /\ s_lreg s = w_reg (st_w st SA)).
  { unfold BuildSenderSession. cbn [b_ident b_spk b_sig b_pk b_pkid b_spkid b_reg the_bundle].
    pose proof (so_trust _ _ SO SA) as T. cbn [other] in T. fold (rid st SA) in T. rewrite T. cbn [negb].
    rewrite (so_sig _ _ SO). cbn [negb]. fold r. fold r1. rewrite Hcur.
    unfold initializeSenderSession. rewrite HKM. rewrite (surjective_pairing (calculateDerivedKeys C (km C st))).
    fold (root0 C st). fold rr. rewrite ECC.
    eexists. split; [reflexivity|]. cbn. repeat split; reflexivity. }
  destruct HB as (s & HB & V1 & V2 & V3 & V4 & V5 & V6 & V7).
  set (l1 := [EStoreSession (rid st SA) (dev st SA) s (r_prevs r1); ESaveIdentity (rid st SA) (idpub st SB)]) in *.
  assert (HL : LoadSession (apply_effs (st_w st SA) l1) (rid st SA) (dev st SA) = mkSr s (r_prevs r1) false).
  { unfold LoadSession. cbn [l1 apply_effs fold_left apply_eff set_id w_sess]. now rewrite set_sess_same. }
  pose proof (ss_encrypt_ok C OK s _ sck pt V5 eq_refl HS1 (basepub_length C OK _) V1) as HE.
  rewrite V2, V3 in HE. specialize (HE (idpub_len C OK st SO SA) (idpub_len C OK st SO SB)).
  rewrite V6 in HE. specialize (HE (base_pub C st) eq_refl (basepub_length C OK _)).
  cbn [ch_rpub ch_rpriv ch_mks the_pending pp_pkid pp_spkid] in HE.
  rewrite V4, V7, HI1, Z.mod_small in HE by (pose proof (so_spkid _ _ SO); lia).
  change (newWhisperMessage C 3 (mk_mac (getMessageKeys C sck)) (basepub C rr) 0 0
             (cipher_of C (getMessageKeys C sck) pt) (idpub st SA) (idpub st SB))
    with (gen_msg C st eps 1 0 0 pt SB) in HE.
  fold (pre_msg C st (gen_msg C st eps 1 0 0 pt SB)) in HE.
  set (s' := with_sender s _) in HE.
  assert (HSE : SessionEncryptMessage C (apply_effs (st_w st SA) l1) (rid st SA) (dev st SA) pt
     = (Ok (pk_ser (pre_msg C st (gen_msg C st eps 1 0 0 pt SB)), PREKEY_BUNDLE),
        [EStoreSession (rid st SA) (dev st SA) s' (r_prevs r1)])).
  { unfold SessionEncryptMessage. rewrite HL. cbn [r_cur r_prevs]. now rewrite HE. }
  (* B *)
  destruct (recv_first C OK st SO (st_w st SB) eps (mkSmsg SA 1 0 pt)
              (pk_ser (pre_msg C st (gen_msg C st eps 1 0 0 pt SB))) rnd (fun _ => True)) as (s1 & _ & HR).
  { constructor; auto. apply (so_trust _ _ SO). }
  { reflexivity. }
  { reflexivity. }
  { split; [reflexivity|]. exists 0. cbn. repeat split; lia. }
  { exact Hw. }
  { exact Hz. }
  { cbn. lia. }
  { intros prev _. cbn [sm_epoch sm_idx sm_pt].
    set (bs := bob_state C st empty_ss).
    assert (Hbs : s_sender bs = Some (mkChain (basepub C (st_spk st)) (st_spk st) (Some (ck0 C st)) []) /\
       s_version bs = 3 /\ s_root bs = root0 C st /\ s_recv bs = [] /\ s_local bs = idpub st SB /\ s_remote bs = idpub st SA).
    { unfold bs, bob_state, initializeReceiverSession. fold (km C st).
      rewrite (surjective_pairing (calculateDerivedKeys C (km C st))). cbn. repeat split. }
    destruct Hbs as (B1 & B2 & B3 & B4 & B5 & B6).
    pose proof (gocck_new C bs (basepub C rr) (rnd 0%nat) (mkChain (basepub C (st_spk st)) (st_spk st) (Some (ck0 C st)) []) (ck0 C st)) as G. rewrite B3, B4 in G.
    specialize (G eq_refl HK1 B1 (so_spklen _ _ SO) (basepub_length C OK _) eq_refl HK2). cbn [ch_rpriv] in G.
    rewrite (createChain_sym C OK), ECC in G.
    destruct (createChain C root1 (basepub C rr) (clamp (rnd 0%nat))) as [root2 sck2].
    set (s1 := mkSs _ _ _ _ _ _ _ _ _ _ _ _) in G.
    assert (HF : find_chain (basepub C rr) (s_recv s1) = Some (mkChain (basepub C rr) [] (Some sck) [])).
    { cbn. now rewrite beq_refl. }
    pose proof (gocmk_ahead C s1 (basepub C rr) _ sck 0 0 HF HI1 ltac:(lia) ltac:(lia) ltac:(lia)) as G2.
    set (s2 := with_recv s1 _) in G2.
    exists (with_pending s2 None). split; auto.
    change (gen_msg C st eps 1 0 prev pt SB)
      with (chain_msg C (basepub C rr) sck 0 prev pt (idpub st SA) (idpub st SB)).
    replace (idpub st SA) with (s_remote s2) by apply B6.
    replace (idpub st SB) with (s_local s2) by apply B5.
    eapply (ss_decrypt_genuine C OK) with (c0 := sck) (s1 := s1);
      [exact B1| |exact Hw|exact G|exact G2| |].
    - unfold getSessionVersion. now rewrite B2.
    - change (s_remote s2) with (s_remote bs). rewrite B6. apply (idpub_len C OK st SO).
    - change (s_local s2) with (s_local bs). rewrite B5. apply (idpub_len C OK st SO). }
  cbn [sm_pt] in HR. eexists l1, _, _, _, _. split; [exact HB|]. split; [exact HSE|]. exact HR.
Qed.
End F.
