(* C231: a message that ends the process, and the next start. The server hands over again what was not acknowledged
   (/repo/websocket.go 182-225: the acknowledgement comes after the handling, C37), and the stores are as they were left. *)
From Coq Require Import ZArith List Lia Bool.
From Verif Require Import Bytes Res Wire Crypto Cbc Messages Session Builder Conversation Content Encodings MessagesProofs SessionProofs SessionFacts History HistoryProofs Replay CrashReceive Sending
  Examples PropSending Receiving PropReceiving Attachments Fetch PropFetch.
From Verif Require PropHistory.
Import ListNotations.
Open Scope Z_scope.

(* The envelope is handed over at one start after the other; a start has its own network and random numbers. *)
Definition start : Type := outside * (nat -> bytes) * (nat -> bytes).
Fixpoint starts (C : crypto) (e : envelope) (l : list start) (st : rstate) : list (res unit) :=
  match l with
  | [] => []
  | (ou, r, r2) :: t => let (o, acts) := handleReceivedMessage C ou st r r2 (Some e) in o :: starts C e t (apply_acts st acts)
  end.

Section P.
Variable C : crypto.
Variables (rid : bytes) (dev : Z) (pm : pkmsg).
(* the message does not belong to a session that is there; there may be others *)
Definition fits (w : world) : Prop :=
  match w_sess w rid dev with None => True | Some (c, p) => hasSessionState (mkSr c p false) (pk_version pm) (key_ser (pk_base pm)) = false end.
(* it opens to pt where there is no session *)
Definition opens_fresh (w : world) (pt : bytes) : Prop := exists rnd, fst (SessionDecryptPreKeyWhisperMessage C (set_sess w rid dev None) rid dev pm rnd) = Ok pt.
(* as far as this message is concerned, the stores are those of w0 *)
Definition inv (w0 w : world) : Prop :=
  w_ident w = w_ident w0 /\ w_reg w = w_reg w0 /\ w_spk w (pk_spkid pm) = w_spk w0 (pk_spkid pm) /\
  (pk_pkid pm <> 0 -> w_pre w (pk_pkid pm) = w_pre w0 (pk_pkid pm)) /\ IsTrustedIdentity w rid (pk_ident pm) = true /\ fits w.
Lemma build_same w0 w : IsTrustedIdentity w0 rid (pk_ident pm) = true -> inv w0 w ->
  BuildReceiverSession C w rid NewSessionRecord pm = BuildReceiverSession C w0 rid NewSessionRecord pm.
Proof.
  intros T0 (E1 & E2 & E3 & E4 & T & _). unfold BuildReceiverSession. rewrite T, T0, E1, E2, E3. destruct (Z.eqb_spec (pk_pkid pm) 0) as [Z0|Z0]; [reflexivity|].
  rewrite (E4 Z0). reflexivity.
Qed.
Lemma build_shape w v l : BuildReceiverSession C w rid NewSessionRecord pm = (Ok v, l) ->
  IsTrustedIdentity w rid (pk_ident pm) = true /\ fst v = pk_pkid pm /\ r_prevs (snd v) = [] /\ l = [ESaveIdentity rid (pk_ident pm)].
Proof.
  unfold BuildReceiverSession. destruct (negb (_ =? _)); [discriminate|]. destruct (IsTrustedIdentity w rid (pk_ident pm)) eqn:T; [|discriminate].
  cbn [negb]. assert (H : hasSessionState NewSessionRecord (pk_version pm) (key_ser (pk_base pm)) = false).
  { unfold hasSessionState, NewSessionRecord. cbn [existsb r_cur r_prevs]. unfold empty_ss. cbn [s_base].
    replace (beq (key_ser (pk_base pm)) []) with false by reflexivity. rewrite andb_false_r. reflexivity. }
  rewrite H. destruct (of_option ENotFound (w_spk w (pk_spkid pm))) as [k|e|]; cbn [bind]; try discriminate.
  destruct (load_kp k) as [k'|e|]; cbn [bind]; try discriminate.
  destruct (if pk_pkid pm =? 0 then _ else _) as [o|e|]; cbn [bind]; try discriminate.
  intros [= <- <-]. split; [reflexivity|]. split; [reflexivity|]. split; reflexivity.
Qed.
(* a session that is there is put aside *)
Lemma build_over w c p v l : hasSessionState (mkSr c p false) (pk_version pm) (key_ser (pk_base pm)) = false ->
  BuildReceiverSession C w rid NewSessionRecord pm = (Ok v, l) ->
  exists p', BuildReceiverSession C w rid (mkSr c p false) pm = (Ok (fst v, mkSr (r_cur (snd v)) p' false), l).
Proof.
  intros H. unfold BuildReceiverSession. rewrite H. destruct (negb (_ =? _)); [discriminate|]. destruct (negb _); [discriminate|].
  assert (HN : hasSessionState NewSessionRecord (pk_version pm) (key_ser (pk_base pm)) = false).
  { unfold hasSessionState, NewSessionRecord. cbn [existsb r_cur r_prevs]. unfold empty_ss. cbn [s_base].
    replace (beq (key_ser (pk_base pm)) []) with false by reflexivity. rewrite andb_false_r. reflexivity. }
  rewrite HN. destruct (of_option ENotFound (w_spk w (pk_spkid pm))) as [k|e|]; cbn [bind]; try discriminate.
  destruct (load_kp k) as [k'|e|]; cbn [bind]; try discriminate.
  destruct (if pk_pkid pm =? 0 then _ else _) as [o|e|]; cbn [bind]; try discriminate.
  intros [= <- <-]. cbn [r_fresh NewSessionRecord fst snd r_cur]. unfold archiveCurrentState, promoteState. cbn [r_cur r_prevs r_fresh]. eexists. reflexivity.
Qed.
Lemma fresh_trusted w pt : opens_fresh w pt -> IsTrustedIdentity w rid (pk_ident pm) = true.
Proof.
  intros (rnd & D). unfold SessionDecryptPreKeyWhisperMessage, LoadSession in D. cbn [set_sess w_sess] in D. rewrite beq_refl, Z.eqb_refl in D. cbn [andb] in D.
  destruct (BuildReceiverSession C (set_sess w rid dev None) rid NewSessionRecord pm) as [[v|x|] l] eqn:B; [|discriminate D|discriminate D].
  apply build_shape in B. apply B.
Qed.
Lemma opens_again w0 w pt : opens_fresh w0 pt -> inv w0 w ->
  forall rnd, exists r, SessionDecryptPreKeyWhisperMessage C w rid dev pm rnd =
    (Ok pt, ESaveIdentity rid (pk_ident pm) :: (if pk_pkid pm =? 16777215 then [] else [ERemovePreKey (pk_pkid pm)]) ++ [StoreSession rid dev r]).
Proof.
  intros D0 I rnd. pose proof (fresh_trusted _ _ D0) as T. destruct D0 as (rnd0 & D). unfold SessionDecryptPreKeyWhisperMessage in *. unfold LoadSession at 1 in D.
  cbn [set_sess w_sess] in D. rewrite beq_refl, Z.eqb_refl in D. cbn [andb] in D.
  change (BuildReceiverSession C (set_sess w0 rid dev None) rid NewSessionRecord pm) with (BuildReceiverSession C w0 rid NewSessionRecord pm) in D.
  destruct (BuildReceiverSession C w0 rid NewSessionRecord pm) as [[[k r1]|e|] l] eqn:B; cbn [fst] in D; try discriminate D.
  destruct (build_shape _ _ _ B) as (_ & K & P & ->). cbn [fst snd] in K, P. subst k.
  assert (D1 : fst (ss_decrypt C (r_cur r1) (pk_msg pm) (rnd 0%nat)) = Ok pt).
  { rewrite (ss_decrypt_rnd C (r_cur r1) (pk_msg pm) (rnd 0%nat) (rnd0 0%nat)). unfold sc_decrypt in D. rewrite P in D.
    destruct (ss_decrypt C (r_cur r1) (pk_msg pm) (rnd0 0%nat)) as [[a|a|] s1]; cbn [try_prevs fst] in *; try discriminate D. exact D. }
  assert (G : exists p f, BuildReceiverSession C w rid (LoadSession w rid dev) pm = (Ok (pk_pkid pm, mkSr (r_cur r1) p f), [ESaveIdentity rid (pk_ident pm)])).
  { rewrite <- (build_same _ _ T I) in B. assert (Fw : fits w) by apply I. unfold fits in Fw. unfold LoadSession. destruct (w_sess w rid dev) as [[c p]|].
    - destruct (build_over _ _ _ _ _ Fw B) as (p' & E). eauto.
    - destruct r1 as [c p f]. eauto. }
  destruct G as (p & f & ->). unfold sc_decrypt. cbn [r_cur r_prevs r_fresh].
  destruct (ss_decrypt C (r_cur r1) (pk_msg pm) (rnd 0%nat)) as [[a|a|] s1]; cbn [fst] in D1; try discriminate D1. injection D1 as ->.
  eexists. reflexivity.
Qed.
Lemma inv_after w0 st r clean : pk_pkid pm = 0 \/ pk_pkid pm = 16777215 -> inv w0 (rs_w st) ->
  inv w0 (rs_w (apply_acts st (map AStore (ESaveIdentity rid (pk_ident pm) :: (if pk_pkid pm =? 16777215 then [] else [ERemovePreKey (pk_pkid pm)])
     ++ [StoreSession rid dev r]) ++ [ADelete clean; ADelete rid]))).
Proof.
  intros K (E1 & E2 & E3 & E4 & T & N). unfold apply_acts. destruct (Z.eqb_spec (pk_pkid pm) 16777215) as [L|L].
  - cbn [app map fold_left apply_act apply_eff StoreSession]. unfold inv, fits, IsTrustedIdentity.
    cbn [rs_w delete_all set_sess set_id set_pre w_ident w_reg w_trust_all w_spk w_pre w_ids w_sess]. rewrite !beq_refl.
    repeat (split; [assumption|]). split; [apply orb_true_r|exact Logic.I].
  - destruct K as [K|K]; [|contradiction]. cbn [app map fold_left apply_act apply_eff StoreSession]. unfold inv, fits, IsTrustedIdentity.
    cbn [rs_w delete_all set_sess set_id set_pre w_ident w_reg w_trust_all w_spk w_pre w_ids w_sess]. rewrite !beq_refl.
    split; [assumption|]. split; [assumption|]. split; [assumption|]. split; [intros X; contradiction|]. split; [apply orb_true_r|exact Logic.I].
Qed.
End P.

(* FALSE of the code: a first message that uses no one-time prekey, ends the session and has an attachment that ends the
   process does so at every start, for ever. The peer decides all of this. *)
Theorem C231_for_ever : forall C e pm pt c d st,
  e_type e = Some 3 -> LoadPreKeyWhisperMessage (g_bytes (e_content e)) = Ok pm -> pk_pkid pm = 0 \/ pk_pkid pm = 16777215 ->
  fits (source e) (device e) pm (rs_w st) -> source e <> [] -> opens_fresh C (source e) (device e) pm (rs_w st) pt ->
  unmarshal_content (stripPadding pt) = Some c -> c_data c = Some d -> d_flags d = Some 1 ->
  forall l, Forall (fun x : start => handleAttachments C (fst (fst x)) (d_atts d) = Panic) l -> Forall (fun o => o = Panic) (starts C e l st).
Proof.
  intros C e pm pt c d st Te L K N NE D U Cd Fl.
  assert (T0 : inv (source e) (device e) pm (rs_w st) (rs_w st)).
  { unfold inv. split; [reflexivity|]. split; [reflexivity|]. split; [reflexivity|]. split; [reflexivity|]. split; [|exact N].
    exact (fresh_trusted _ _ _ _ _ _ D). }
  set (w0 := rs_w st) in *. assert (G : forall l st, inv (source e) (device e) pm w0 (rs_w st) ->
    Forall (fun x : start => handleAttachments C (fst (fst x)) (d_atts d) = Panic) l -> Forall (fun o => o = Panic) (starts C e l st));
    [|intros l; exact (G l st T0)].
  clear T0; clearbody w0; clear st. induction l as [|((ou, r), r2) l IH]; intros st I Q; [constructor|].
  inversion Q as [|x y Q1 Q2]; subst x y. cbn [fst] in Q1. cbn [starts]. unfold handleReceivedMessage. rewrite Te.
  change (3 =? 5) with false. change (3 =? 1) with false. change (3 =? 3) with true. cbn iota. unfold handle_prekey. rewrite L.
  destruct (opens_again C _ _ pm w0 (rs_w st) pt D I r) as (r' & O). unfold source, device in O. unfold stored. rewrite O. cbn [fst snd].
  unfold deliver, handleMessage. rewrite U, Cd. unfold handleDataMessage, handleFlags. rewrite Fl. cbn [g_num]. change (1 =? 1) with true. cbn iota.
  fold (source e). assert (RI : exists clean, recID (source e) = Ok clean).
  { unfold recID. destruct (source e) as [|a s]; [contradiction|]. destruct (a =? 43); eexists; reflexivity. }
  destruct RI as (clean & ->). unfold andthen, pure. rewrite Q1. cbn [app]. constructor; [reflexivity|]. apply IH; [|exact Q2].
  apply (inv_after (source e) (device e) pm w0 st r' clean K I).
Qed.
Print Assumptions C231_for_ever.

(* Such a message: A knows no one-time prekey of B. *)
Definition setup0 : setup := mkSetup (st_peer ex_setup) (st_w ex_setup) (st_spk ex_setup) (st_spkid ex_setup) None 0 (st_sig ex_setup) (st_rbase ex_setup) (st_rratchet ex_setup).
Definition wire0 (pt : bytes) : bytes :=
  match nth_error (y_net (run toy setup0 (Conversation.start toy setup0) [Send SA (padMessage pt)])) 0 with Some (_, _, b) => b | None => [] end.
Definition c_loop := Eval vm_compute in marshal_data (text_msg (Some 77) 1 [by_key [37] (Some (repeat 5 64)) (Some 2)]).
Definition w_loop := Eval vm_compute in wire0 c_loop.
Definition w_once := Eval vm_compute in ex_wire c_loop.
Definition e_loop : envelope := ex_env w_loop.
(* whatever the network does and however often B is started *)
Theorem C231_one_end_refuted : exists C e st, crypto_ok C /\
  forall l, Forall (fun x : start => exists ou net, fst (fst x) = with_net ou net) l -> Forall (fun o => o = Panic) (starts C e l st).
Proof.
  exists toy, e_loop, ex_B. split; [exact toy_ok|]. intros l H.
  destruct (LoadPreKeyWhisperMessage (g_bytes (e_content e_loop))) as [pm|x|] eqn:L; [|vm_compute in L; discriminate L|vm_compute in L; discriminate L].
  eapply C231_for_ever with (pm := pm) (d := text_msg (Some 77) 1 [by_key [37] (Some (repeat 5 64)) (Some 2)]).
  - reflexivity.
  - exact L.
  - left. vm_compute in L. injection L as <-. reflexivity.
  - exact Logic.I.
  - intros X. discriminate X.
  - exists ex_r. vm_compute in L. injection L as <-. vm_compute. reflexivity.
  - vm_compute. reflexivity.
  - reflexivity.
  - reflexivity.
  - eapply Forall_impl; [|exact H]. intros ((o, r), r2) (ou & net & E). cbn [fst] in E |- *. subst o.
    cbn [text_msg d_atts handleAttachments]. rewrite C230_bad_names; [reflexivity|]. right. exists [], []. split; [reflexivity|].
    split; [constructor|]. intros h1 h2 t X. discriminate X.
Qed.
Print Assumptions C231_one_end_refuted.

(* What holds: without an end of the session it happens once. The message is then refused as a repetition, acknowledged, and
   never shown. *)
Section Once.
Variable C : crypto.
Hypothesis OK : crypto_ok C.
Lemma gocck_len s rk r c s1 : getOrCreateChainKey C s rk r = Ok (c, s1) -> length (ck_key c) = 32%nat.
Proof.
  intros H. pose proof H as G. unfold getOrCreateChainKey in H. destruct (gocck_inv _ _ _ _ _ _ G) as [(rc & F & K & _)|(sc & old & F & _ & _ & _ & -> & _)].
  - rewrite F, K in H. cbn [load_ck] in H. destruct (key32 (ck_key c)) as [k|e|] eqn:Q; cbn [bind] in H; try discriminate H.
    apply key32_inv in Q. apply Q.
  - unfold createChain. cbn [snd ck_key]. rewrite skipn_length, (hkdf_length C OK). reflexivity.
Qed.
Lemma after_len s m r pt s' : ss_decrypt C s m r = (Ok pt, s') ->
  exists c ck, find_chain (wm_rkey m) (s_recv s') = Some c /\ ch_ck c = Some ck /\ length (ck_key ck) = 32%nat.
Proof.
  intros D. destruct (ss_decrypt_cases _ _ _ _ _ _ D) as [(_ & X & _)|(c & s1 & rc & G1 & F & Hc & _ & H1)]; [exfalso; now apply (X pt)|].
  destruct H1 as [(e & _ & H1 & _)|(mk & s2 & G2 & [(X & _)|(p & H1 & -> & _)])]; [discriminate|exfalso; now apply (X pt)|].
  cbn [with_pending s_recv]. unfold getOrCreateMessageKeys in G2. rewrite F in G2. destruct (ck_index c >? wm_counter m).
  - destruct (take_mk (wm_counter m) (ch_mks rc)) as [[k rest]|]; [|discriminate G2]. injection G2 as _ <-. cbn [with_recv s_recv].
    eexists _, c. split; [apply find_upd_chain; [reflexivity|exact F]|]. cbn [ch_ck]. split; [exact Hc|]. exact (gocck_len _ _ _ _ _ G1).
  - destruct (too_far 64 (wm_counter m) (ck_index c)); [discriminate G2|]. destruct (skip_keys C _ c (ch_mks rc)) as [c' mks]. injection G2 as _ <-.
    cbn [with_recv s_recv]. eexists _, (getNextChainKey C c'). split; [apply find_upd_chain; [reflexivity|exact F]|]. cbn [ch_ck]. split; [reflexivity|].
    unfold getNextChainKey. cbn [ck_key]. apply (hmac_length C OK).
Qed.
Lemma again s m r pt s' : 0 <= wm_counter m < 2 ^ 32 -> uniq_state s -> nowrap_state s -> ss_decrypt C s m r = (Ok pt, s') ->
  forall r', exists x s2, ss_decrypt C s' m r' = (Err x, s2).
Proof.
  intros HC U W D r'. destruct (ss_decrypt_uniq C OK _ _ _ _ _ HC U W D) as (_ & (c & ck & F & K & Hi & T) & _).
  destruct (after_len _ _ _ _ _ D) as (c1 & ck1 & F1 & K1 & L). rewrite F in F1. injection F1 as <-. rewrite K in K1. injection K1 as <-.
  unfold ss_decrypt. destruct (s_sender s'); [|eauto]. destruct (negb _); [eauto|]. unfold getOrCreateChainKey. rewrite F, K. cbn [load_ck].
  rewrite (key32_ok _ L). cbn [bind]. unfold getOrCreateMessageKeys. cbn [ck_index]. rewrite F, T. rewrite (proj2 (Z.gtb_lt (ck_index ck) (wm_counter m))) by lia. eauto.
Qed.
Lemma received_again rid dev w0 h1 ty b rnd pt l : w_sess w0 rid dev = None ->
  let w1 := fst (history C w0 h1) in receive C w1 rid dev ty b rnd = (Ok pt, l) ->
  along C (single rid dev) w0 (h1 ++ [Done (CRecv rid dev ty b rnd)]) ->
  forall r, exists x, receive C (apply_effs w1 l) rid dev ty b r = (Err x, []) /\ (ty = CIPHERTEXT -> x = EInvalidMessage).
Proof.
  intros H0 w1 R A r.
  assert (U0 : uinv rid dev w0) by (intros s p X; congruence).
  apply along_app in A. destruct A as [A1 A2]. pose proof (hist_uinv C OK rid dev h1 w0 U0 A1) as U1.
  fold w1 in A2, U1. cbn [along] in A2. destruct A2 as [A2 A3].
  assert (EST : fst (estep C w1 (Done (CRecv rid dev ty b rnd))) = apply_effs w1 l) by (cbn [estep perform_call]; rewrite R; reflexivity).
  destruct A3 as [A4 _]. rewrite EST in A4.
  destruct (load_uniq rid dev w1 U1 A2) as [UL WL].
  assert (G : forall m r1 r', HistoryProofs.opened C w1 rid dev ty b m r1 -> sc_decrypt C r1 m rnd = (Ok pt, r') -> w_sess (apply_effs w1 l) rid dev = Some (r_cur r', r_prevs r') ->
    w_sess (apply_effs w1 l) rid dev = Some (r_cur r', []) /\ r_prevs r1 = [] /\ s_base (r_cur r') = s_base (r_cur r1) /\ s_version (r_cur r') = s_version (r_cur r1) /\
    forall r2, fst (sc_decrypt C (mkSr (r_cur r') [] false) m r2) = Err EInvalidMessage).
  { intros m r1 r' O SD HS. destruct (A4 _ _ HS) as [Ep _]. rewrite Ep in HS. split; [exact HS|]. destruct (sc_direct _ _ _ _ _ _ SD Ep) as [D1 D2].
    split; [exact D2|]. pose proof (opened_counter _ _ _ _ _ _ _ _ O) as HC.
    assert (G : uniq_state (r_cur r1) /\ nowrap_state (r_cur r1)).
    { destruct (opened_cur _ _ _ _ _ _ _ _ O D2) as [-> |[_ E]]; auto using nil_state_uniq. }
    destruct G as [G1 G2]. destruct (ss_decrypt_uniq C OK _ _ _ _ _ HC G1 G2 D1) as (_ & _ & _ & EB & EV). split; [exact EB|]. split; [exact EV|].
    intros r2. destruct (again _ _ _ _ _ HC G1 G2 D1 (r2 0%nat)) as (x & s2 & X). unfold sc_decrypt. cbn [r_cur r_prevs]. rewrite X. reflexivity. }
  destruct ty; cbn [receive] in R |- *.
  - destruct (LoadWhisperMessage b) as [m|e|] eqn:L; try discriminate. unfold SessionDecryptWhisperMessage in *.
    destruct (sc_decrypt C (LoadSession w1 rid dev) m rnd) as [[q|e|] r'] eqn:D; try discriminate. injection R as -> <-.
    destruct (G m (LoadSession w1 rid dev) r' (conj L eq_refl) D) as (HS & _ & _ & _ & RF).
    { cbn [apply_effs fold_left apply_eff StoreSession set_sess w_sess]. now rewrite beq_refl, Z.eqb_refl. }
    unfold LoadSession at 1. rewrite HS. specialize (RF r). destruct (sc_decrypt C (mkSr (r_cur r') [] false) m r) as [[q|e|] r'']; cbn [fst] in RF; try discriminate RF.
    injection RF as ->. eexists. split; reflexivity.
  - destruct (LoadPreKeyWhisperMessage b) as [pm|e|] eqn:L; try discriminate. unfold SessionDecryptPreKeyWhisperMessage in *.
    destruct (BuildReceiverSession C w1 rid (LoadSession w1 rid dev) pm) as [[[pkid r1]|e|] l1] eqn:BB; try discriminate.
    destruct (sc_decrypt C r1 (pk_msg pm) rnd) as [[q|e|] r'] eqn:D; try discriminate. injection R as -> <-.
    destruct (G (pk_msg pm) r1 r') as (HS & D2 & EB & EV & RF).
    { exists pm, pkid, l1. auto. }
    { exact D. }
    { rewrite app_assoc. unfold apply_effs. rewrite fold_left_app. cbn [fold_left apply_eff StoreSession set_sess w_sess]. now rewrite beq_refl, Z.eqb_refl. }
    assert (HH : hasSessionState (mkSr (r_cur r') [] false) (pk_version pm) (key_ser (pk_base pm)) = true).
    { assert (V3 : pk_version pm = 3).
      { unfold BuildReceiverSession in BB. destruct (Z.eqb_spec (pk_version pm) currentVersion) as [E|E]; [exact E|discriminate]. }
      apply build_recv_inv in BB. destruct BB as [(E & _ & HH)|(spk & otk & r2 & _ & E2 & E)].
      - injection E as _ ->. unfold hasSessionState, getSessionVersion in *. rewrite D2 in HH. cbn [existsb r_cur r_prevs] in *. now rewrite EB, EV.
      - injection E as _ ->. cbn [r_cur] in EB, EV. unfold hasSessionState, getSessionVersion. cbn [existsb r_cur r_prevs].
        rewrite EB, EV, V3. unfold initializeReceiverSession. cbv zeta. destruct (calculateDerivedKeys C _).
        cbn [with_regs with_root with_sender with_ids s_base s_version]. rewrite beq_refl. reflexivity. }
    set (w2 := apply_effs w1 _) in *. unfold LoadSession at 1. rewrite HS. unfold BuildReceiverSession. rewrite HH.
    destruct (negb _); [eexists; split; [reflexivity|discriminate]|]. destruct (negb _); [eexists; split; [reflexivity|discriminate]|].
    specialize (RF r). destruct (sc_decrypt C (mkSr (r_cur r') [] false) (pk_msg pm) r) as [[q|e|] r'']; cbn [fst] in RF; try discriminate RF.
    eexists. split; [reflexivity|discriminate].
Qed.
End Once.

(* nothing but the end of a session changes the stores of the session layer while a content is handled *)
Definition no_store (a : act) : Prop := match a with AStore _ => False | _ => True end.
Lemma content_stores C ou src uuid ts b : Forall no_store (snd (handleMessage C ou src uuid ts b)).
Proof.
  assert (T : forall A B (x : res A * list act) (k : A -> res B * list act), Forall no_store (snd x) -> (forall a, Forall no_store (snd (k a))) -> Forall no_store (snd (andthen x k))).
  { intros A B [[a|e|] l] k H K; cbn [andthen snd] in *; [|exact H|exact H]. specialize (K a). destruct (k a) as [r l']. cbn [snd] in *. apply Forall_app. auto. }
  assert (F : forall s d, Forall no_store (snd (handleFlags ou s d))).
  { intros s d. unfold handleFlags. destruct (_ =? 1); [destruct (recID s); cbn [snd]; repeat constructor|].
    destruct (_ =? 4); [|constructor]. destruct (ou_contacts ou); cbn [snd]; repeat constructor. }
  assert (U : forall (A : Type) (r : res A), Forall no_store (snd (pure r))) by (intros; constructor).
  unfold handleMessage. destruct (unmarshal_content b) as [c|]; [|constructor].
  destruct (c_data c) as [d|].
  { unfold handleDataMessage. apply T; [apply F|]. intros f. apply T; [apply U|]. intros a. destruct (d_ts d); [|constructor]. apply T; [apply U|].
    intros g. repeat constructor. }
  destruct (c_sync c) as [sm|].
  { unfold handleSyncMessage. destruct (sy_sent sm) as [sn|].
    { unfold handleSyncSent. destruct (sn_msg sn) as [d|]; [|constructor]. apply T; [apply F|]. intros f. apply T; [apply U|]. intros a.
      destruct (d_ts d); repeat constructor. }
    destruct (sy_contacts sm); [constructor|]. destruct (sy_groups sm); [constructor|]. destruct (sy_request sm) as [ty|].
    { unfold handleSyncRequest. destruct ((g_num ty =? 1) || (g_num ty =? 2)); repeat constructor. }
    destruct (sy_read sm) as [|x l].
    { destruct (sy_blocked sm); [constructor|]. destruct (sy_verified sm); repeat constructor. }
    match goal with |- Forall no_store (snd ?x) => let y := eval hnf in x in change x with y end. cbn [snd].
    apply Forall_forall. intros a Ha. repeat match goal with H : In a (_ :: _) |- _ => destruct H as [<-|H]; [exact Logic.I|] end.
    apply in_map_iff in Ha. destruct Ha as (z & <- & _). exact Logic.I. }
  destruct (c_call c); [repeat constructor|]. destruct (c_receipt c) as [rm|].
  { unfold handleReceiptMessage. destruct (rc_ts rm); [constructor|]. destruct (rc_type rm); repeat constructor. }
  destruct (c_typing c); repeat constructor.
Qed.
Lemma calm_acts l : forall st, Forall no_store l -> (forall x, ~ In (ADelete x) l) -> rs_w (apply_acts st l) = rs_w st.
Proof.
  induction l as [|a l IH]; intros st F N; [reflexivity|]. inversion F; subst. change (apply_acts st (a :: l)) with (apply_acts (apply_act st a) l).
  rewrite IH; [|assumption|intros x X; apply (N x); now right]. destruct a as [e|x|u k|h]; [contradiction|exfalso; apply (N x); now left|reflexivity|reflexivity].
Qed.
Lemma refused_again C e ty b st ou r r2 : e_type e = Some (match ty with CIPHERTEXT => 1 | PREKEY_BUNDLE => 3 end) -> e_content e = Some b -> recID (source e) = Ok (source e) ->
  (forall r, exists x, receive C (rs_w st) (source e) (device e) ty b r = (Err x, []) /\ (ty = CIPHERTEXT -> x = EInvalidMessage)) ->
  exists o, o <> Panic /\ handleReceivedMessage C ou st r r2 (Some e) = (o, []).
Proof.
  intros T B RI R. unfold handleReceivedMessage. rewrite T. destruct ty; cbn [Z.eqb Pos.eqb].
  - unfold handle_cipher. rewrite B. destruct (R r) as (x & X & E), (R r2) as (y & Y & E2). rewrite (E eq_refl) in X. rewrite (E2 eq_refl) in Y. clear E E2.
    unfold receive, source, device in X, Y, RI. destruct (LoadWhisperMessage b) as [m|z|]; [|eexists; split; [|reflexivity]; discriminate|discriminate X].
    unfold stored. rewrite X. cbn [fst snd map apply_acts fold_left]. rewrite RI, Y. cbn [fst snd map app]. eexists. split; [|reflexivity]. discriminate.
  - unfold handle_prekey. rewrite B. cbn [g_bytes]. destruct (R r) as (x & X & _). unfold receive, source, device in X.
    destruct (LoadPreKeyWhisperMessage b) as [m|z|]; [|eexists; split; [|reflexivity]; discriminate|discriminate X].
    unfold stored. rewrite X. cbn [fst snd map]. destruct x; eexists; (split; [|reflexivity]); discriminate.
Qed.
Section Later.
Variable C : crypto.
Hypothesis OK : crypto_ok C.
Variables (ou : outside) (st : rstate) (rnd rnd2 : nat -> bytes) (e : envelope) (w0 : world) (h1 : list History.event) (ty : mtype) (b pt : bytes) (l : list eff) (acts : list act).
(* the envelope has message b, which opens to pt in the stores left by the history h1, of which a session record has at most one state *)
Definition opens_now : Prop :=
  e_type e = Some (match ty with CIPHERTEXT => 1 | PREKEY_BUNDLE => 3 end) /\ e_content e = Some b /\ recID (source e) = Ok (source e) /\
  w_sess w0 (source e) (device e) = None /\ rs_w st = fst (history C w0 h1) /\
  along C (single (source e) (device e)) w0 (h1 ++ [Done (CRecv (source e) (device e) ty b rnd)]) /\
  receive C (rs_w st) (source e) (device e) ty b rnd = (Ok pt, l).
Lemma later r : opens_now -> handleReceivedMessage C ou st rnd rnd2 (Some e) = (r, acts) -> (forall x, ~ In (ADelete x) acts) ->
  forall ou' r1 r2, exists o, o <> Panic /\ handleReceivedMessage C ou' (apply_acts st acts) r1 r2 (Some e) = (o, []).
Proof.
  intros (T & B & RI & N & W & A & R) H D.
  assert (DE : decrypts C st e rnd pt l).
  { exists (match ty with CIPHERTEXT => 1 | PREKEY_BUNDLE => 3 end), ty, b. split; [exact T|]. split; [destruct ty; reflexivity|]. split; [exact B|exact R]. }
  rewrite (handle_decrypted C ou st rnd rnd2 e pt l DE) in H. injection H as _ <-.
  set (st1 := apply_acts st _). assert (W1 : rs_w st1 = apply_effs (fst (history C w0 h1)) l).
  { unfold st1, apply_acts. rewrite fold_left_app. fold (apply_acts st (map AStore l)). rewrite acts_stores, W.
    apply (calm_acts (snd (deliver C ou e pt))); [apply content_stores|]. intros x X. apply (D x). apply in_or_app. now right. }
  rewrite W in R. pose proof (received_again C OK _ _ w0 h1 ty b rnd pt l N R A) as AG. rewrite <- W1 in AG. clearbody st1.
  intros ou' r1 r2. exact (refused_again C e ty b st1 ou' r1 r2 T B RI AG).
Qed.
End Later.
Theorem C231_once_partial : forall C, crypto_ok C -> forall ou st rnd rnd2 e w0 h1 ty b pt l acts,
  opens_now C st rnd e w0 h1 ty b pt l ->
  handleReceivedMessage C ou st rnd rnd2 (Some e) = (Panic, acts) -> (forall x, ~ In (ADelete x) acts) ->
  forall s, exists t, starts C e ((ou, rnd, rnd2) :: s) st = Panic :: t /\ length t = length s /\ Forall (fun o => o <> Panic) t.
Proof.
  intros C OK ou st rnd rnd2 e w0 h1 ty b pt l acts O H D s.
  exists (starts C e s (apply_acts st acts)). split; [cbn [starts]; rewrite H; reflexivity|].
  pose proof (later C OK _ _ _ _ _ _ _ _ _ _ _ _ _ O H D) as G.
  induction s as [|((ou', r), r2) s IH]; [split; [reflexivity|constructor]|]. cbn [starts]. destruct (G ou' r r2) as (o & NP & ->).
  destruct IH as [I1 I2]. split; [cbn [length]; f_equal; exact I1|]. constructor; [exact NP|exact I2].
Qed.
(* The price: nothing of the message is shown later. It is also so when handling it ended with an error, such as that of the
   network when an attachment is fetched: at the next start nothing is done about the message, though it could be fetched now. *)
Theorem C231_lost : forall C, crypto_ok C -> forall ou st rnd rnd2 e w0 h1 ty b pt l r acts,
  opens_now C st rnd e w0 h1 ty b pt l ->
  handleReceivedMessage C ou st rnd rnd2 (Some e) = (r, acts) -> (forall x, ~ In (ADelete x) acts) ->
  forall ou' r1 r2, fst (handleReceivedMessage C ou' (apply_acts st acts) r1 r2 (Some e)) <> Panic /\
    snd (handleReceivedMessage C ou' (apply_acts st acts) r1 r2 (Some e)) = [].
Proof.
  intros C OK ou st rnd rnd2 e w0 h1 ty b pt l r acts O H D ou' r1 r2.
  destruct (later C OK _ _ _ _ _ _ _ _ _ _ _ _ _ O H D ou' r1 r2) as (o & NP & ->). split; [exact NP|reflexivity].
Qed.
Print Assumptions C231_lost.
Print Assumptions C231_once_partial.

(* three starts: the message above; the same with a one-time prekey, which is gone the second time; and without the end of the session *)
Definition w_plain := Eval vm_compute in ex_wire (marshal_data (text_msg (Some 77) 0 [by_key [37] (Some (repeat 5 64)) (Some 2)])).
Definition ends (l : list (res unit)) : list bool := map (fun o => match o with Panic => true | _ => false end) l.
Example C231_example :
  let s := (with_net (ex_outside no_fetch) (fun _ => NoAnswer EOther), ex_r, ex_r) in
  ends (starts toy e_loop [s; s; s] ex_B) = [true; true; true] /\
  ends (starts toy (ex_env w_once) [s; s; s] ex_B) = [true; false; false] /\
  ends (starts toy (ex_env w_plain) [s; s; s] ex_B) = [true; false; false].
Proof. vm_compute. auto. Qed.
(* the third of these is such a message, B having no session with the peer before *)
Example C231_opens_example : exists pt l, opens_now toy ex_B ex_r (ex_env w_plain) (rs_w ex_B) [] PREKEY_BUNDLE w_plain pt l.
Proof.
  destruct (receive toy (rs_w ex_B) na 1 PREKEY_BUNDLE w_plain ex_r) as [[pt|x|] l] eqn:R; [|vm_compute in R; discriminate R|vm_compute in R; discriminate R].
  exists pt, l. unfold opens_now. split; [reflexivity|]. split; [reflexivity|]. split; [reflexivity|]. split; [reflexivity|]. split; [reflexivity|]. split; [|exact R].
  cbn [app along]. change (source (ex_env w_plain)) with na. change (device (ex_env w_plain)) with 1.
  split; [apply PropHistory.singleb_ok; vm_compute; reflexivity|]. split; [apply PropHistory.singleb_ok; vm_compute; reflexivity|exact Logic.I].
Qed.
