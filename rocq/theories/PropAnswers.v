(* C208-C210: what a received message makes the client send. *)
From Coq Require Import String Ascii ZArith List Lia Bool.
From Verif Require Import Bytes Res Wire WireProofs Crypto Cbc CbcProofs Gcm Messages MessagesProofs Session Builder SessionProofs
  SessionFacts HistoryProofs Conversation ConversationProofs RecordCodec RecordCodecProofs Content ContentProofs
  Encodings PropEncodings Sending SendingProofs Examples PropHistory PropSending Receiving PropReceiving Attachments PropAttachments
  Access PropAccess Answers.
Import ListNotations.
Open Scope Z_scope.

(* ------------------------------------------------------------------------------------------ *)
(* Whatever is exchanged for one sending is about the recipient and holds only the text *)
Definition about (C : crypto) (uuid padded : bytes) (ev : Sending.event) : Prop :=
  match ev with
  | EvFetch u _ _ => u = uuid
  | EvPut q _ => q_dest q = uuid /\ exists recid, recID uuid = Ok recid /\ Forall (carries C recid padded) (q_msgs q)
  end.
Lemma send_about C V rnd uuid padded ts : forall fuel st r st', buildAndSend C V rnd fuel uuid padded ts st = (r, st') ->
  exists lg, cs_log V st' = cs_log V st ++ lg /\ Forall (about C uuid padded) lg.
Proof.
  induction fuel as [|f IH]; intros st r st'; cbn [buildAndSend].
  { intros [= <- <-]. exists []. rewrite app_nil_r. split; [reflexivity|constructor]. }
  destruct (buildMessage C V rnd uuid padded (devs_of V st uuid) st) as [r1 st1] eqn:E1.
  assert (H1 : exists lg, cs_log V st1 = cs_log V st ++ lg /\ Forall (about C uuid padded) lg /\
    forall js, r1 = Ok js -> exists recid, recID uuid = Ok recid /\ Forall (carries C recid padded) js).
  { unfold buildMessage in E1. destruct (recID uuid) as [recid|e|] eqn:ER.
    - apply build_log in E1. destruct E1 as (_ & (f1 & L1 & F1) & J). exists f1. split; [exact L1|]. split.
      + eapply Forall_impl; [|exact F1]. intros [u d p|q p]; cbn [fetch_of about]; [auto|intros []].
      + intros js ->. exists recid. split; [reflexivity|]. apply (J js eq_refl).
    - injection E1 as <- <-. exists []. rewrite app_nil_r. split; [reflexivity|]. split; [constructor|]. intros js X. discriminate X.
    - injection E1 as <- <-. exists []. rewrite app_nil_r. split; [reflexivity|]. split; [constructor|]. intros js X. discriminate X. }
  destruct H1 as (lg & G1 & F1 & J1).
  destruct r1 as [js|e|]; [|intros [= <- <-]; exists lg; split; [exact G1|exact F1]..].
  specialize (J1 js eq_refl).
  destruct (sv_put V (cs_srv V st1) (mkReq uuid ts js)) as [reply s'].
  set (st2 := mkCs V (cs_w V st1) (cs_devs V st1) (cs_rnd V st1) s' (cs_log V st1 ++ [EvPut (mkReq uuid ts js) reply])).
  assert (G2 : cs_log V st2 = cs_log V st ++ lg ++ [EvPut (mkReq uuid ts js) reply]) by (cbn [st2 cs_log]; rewrite G1, <- app_assoc; reflexivity).
  assert (F2 : Forall (about C uuid padded) (lg ++ [EvPut (mkReq uuid ts js) reply])).
  { apply Forall_app. split; [exact F1|]. constructor; [|constructor]. cbn [about q_dest q_msgs]. split; [reflexivity|exact J1]. }
  assert (MORE : forall st3, cs_log V st3 = cs_log V st2 -> buildAndSend C V rnd f uuid padded ts st3 = (r, st') ->
    exists lg, cs_log V st' = cs_log V st ++ lg /\ Forall (about C uuid padded) lg).
  { intros st3 G3 H. destruct (IH _ _ _ H) as (lg4 & G4 & M4). exists ((lg ++ [EvPut (mkReq uuid ts js) reply]) ++ lg4).
    split; [rewrite G4, G3, G2, <- app_assoc; reflexivity|]. apply Forall_app. split; assumption. }
  assert (STOP : st' = st2 -> exists lg, cs_log V st' = cs_log V st ++ lg /\ Forall (about C uuid padded) lg).
  { intros ->. eauto. }
  destruct reply as [|status missing extra stale needsSync]; [intros H; apply STOP; congruence|].
  destruct (status =? 409).
  { apply (MORE (set_devs V st2 uuid (correct_devices (devs_of V st2 uuid) missing extra))). reflexivity. }
  destruct (status =? 410).
  { destruct stale as [|d t]; destruct (recID uuid) as [recid|e|]; intros H; try (apply STOP; congruence);
      first [apply (MORE st2); [reflexivity|exact H]|eapply (MORE (set_w V st2 _)); [|exact H]; reflexivity]. }
  destruct (isError status); intros H; apply STOP; congruence.
Qed.
Lemma default_log V st u : cs_log V (default_devs V st u) = cs_log V st.
Proof. unfold default_devs. destruct (cs_devs V st u); reflexivity. Qed.

(* the content that react takes is the one the envelope opens to *)
Lemma content_opened C ou w pkeys rnd1 e body : content_of C ou w rnd1 e = Some body ->
  exists sender, opened C ou (mkRs w pkeys) e rnd1 sender body.
Proof.
  unfold content_of. destruct (e_type e) as [t|] eqn:T; [|intros X; discriminate X].
  destruct (Z.eqb_spec t 1) as [->|N1].
  { destruct (LoadWhisperMessage (g_bytes (e_content e))) as [wm| |] eqn:L; try (intros X; discriminate X).
    destruct (e_content e) as [msg|] eqn:M; [|intros X; discriminate X]. cbn [g_bytes] in L.
    destruct (SessionDecryptWhisperMessage C w (g_bytes (e_source e)) (g_num (e_device e)) wm rnd1) as [[b| |] l] eqn:D;
      cbn [fst]; intros X; try discriminate X. injection X as <-.
    exists (source e). left. exists b, l. split; [|split; reflexivity]. exists 1, CIPHERTEXT, msg. split; [exact T|]. split; [reflexivity|].
    split; [exact M|]. cbn [rs_w]. unfold receive. rewrite L. exact D. }
  destruct (Z.eqb_spec t 3) as [->|N3].
  { destruct (LoadPreKeyWhisperMessage (g_bytes (e_content e))) as [pm| |] eqn:L; try (intros X; discriminate X).
    destruct (SessionDecryptPreKeyWhisperMessage C w (g_bytes (e_source e)) (g_num (e_device e)) pm rnd1) as [[b| |] l] eqn:D;
      cbn [fst]; intros X; try discriminate X. injection X as <-.
    destruct (e_content e) as [msg|] eqn:M; cbn [g_bytes] in L; [|exfalso; revert L; vm_compute; intros X; discriminate X].
    exists (source e). left. exists b, l. split; [|split; reflexivity]. exists 3, PREKEY_BUNDLE, msg. split; [exact T|]. split; [reflexivity|].
    split; [exact M|]. cbn [rs_w]. unfold receive. rewrite L. exact D. }
  destruct (Z.eqb_spec t 6) as [->|N6]; [|intros X; discriminate X].
  destruct (e_dest e) as [dest|] eqn:DE; [|intros X; discriminate X].
  destruct (ou_crayfish ou e) as [[[sender text] ts]| |] eqn:CR; try (intros X; discriminate X).
  destruct (dec64 text) as [[|c l]| |] eqn:D; intros X; try discriminate X. injection X as <-.
  exists sender. right. exists text, ts, dest. split; [exact T|]. split; [exact DE|]. split; [exact CR|]. split; [exact D|]. discriminate.
Qed.
Lemma opened_content C ou w pkeys rnd1 e sender body : opened C ou (mkRs w pkeys) e rnd1 sender body -> content_of C ou w rnd1 e = Some body.
Proof.
  intros [(pt & l & (t & ty & msg & T & S1 & M & R) & -> & ->)|(text & ts & dest & T & DE & CR & D & NE)]; unfold content_of; rewrite T.
  - unfold session_type in S1. cbn [rs_w] in R. destruct (Z.eqb_spec t 1) as [->|N1].
    + injection S1 as <-. rewrite M. cbn [g_bytes]. unfold receive in R.
      destruct (LoadWhisperMessage msg) as [wm| |]; try discriminate R. unfold source, device in R. rewrite R. reflexivity.
    + destruct (Z.eqb_spec t 3) as [->|N3]; [|discriminate S1]. injection S1 as <-. rewrite M. cbn [g_bytes]. unfold receive in R.
      destruct (LoadPreKeyWhisperMessage msg) as [pm| |]; try discriminate R. unfold source, device in R. rewrite R. reflexivity.
  - cbn [Z.eqb Pos.eqb]. rewrite DE, CR, D. destruct body; [contradiction|reflexivity].
Qed.

(* ------------------------------------------------------------------------------------------ *)
(* C208. The text of the null message: field 4 with one empty field 1, and the padding to 160 bytes. *)
Definition null_text : bytes := [34; 2; 10; 0; 128] ++ repeat 0 155.
Definition to_whom (ev : Sending.event) : bytes := match ev with EvFetch u _ _ => u | EvPut q _ => q_dest q end.
Lemma null_padded : padMessage (marshal_null []) = null_text.
Proof. vm_compute. reflexivity. Qed.

Lemma blob_about C sha256 V rnd fuel o kind b st r st' : sendBlob C sha256 V rnd fuel o kind b st = (r, st') ->
  exists lg, cs_log V st' = cs_log V st ++ lg /\ forall ev, In ev lg -> exists p x,
    uploadAttachmentV3 C sha256 (ow_up o) (ow_keys o) (ow_iv o) b octet_stream false = Ok (p, x) /\
    about C (ow_self o) (padMessage (marshal_blob kind p)) ev.
Proof.
  unfold sendBlob. destruct (uploadAttachmentV3 C sha256 (ow_up o) (ow_keys o) (ow_iv o) b octet_stream false) as [[p x]|e|].
  2,3: intros [= <- <-]; exists []; rewrite app_nil_r; split; [reflexivity|intros ev []].
  destruct (buildAndSend C V rnd fuel (ow_self o) (padMessage (marshal_blob kind p)) (ow_now o) (default_devs V st (ow_self o))) as [r1 st1] eqn:E.
  apply send_about in E. destruct E as (lg & L & F). rewrite default_log in L. intros H.
  assert (st' = st1) as -> by (destruct r1 as [[[y z]|e|]|]; congruence).
  exists lg. split; [exact L|]. intros ev HI. exists p, x. split; [reflexivity|]. rewrite Forall_forall in F. exact (F ev HI).
Qed.

(* Nothing is sent because of a message unless its content asks for contacts or groups, or reports a verified
   identity; the answer to the former goes to the own account only; for the latter only the empty null message is
   sent, to the one the message names. *)
Theorem C208_answers : forall C G sha256 V rnd fuel o ou rnd1 rnd2 pkeys e st r st',
  react C G sha256 V rnd fuel o ou rnd1 rnd2 pkeys e st = (r, st') ->
  exists lg, cs_log V st' = cs_log V st ++ lg /\
  forall ev, In ev lg -> exists sender body c sm,
    opened C ou (mkRs (cs_w V st) pkeys) e rnd1 sender body /\ unmarshal_content body = Some c /\ c_data c = None /\ c_sync c = Some sm /\
    ((exists t, sy_request sm = Some (Some t) /\ (t = 1 \/ t = 2) /\ to_whom ev = ow_self o) \/
     (exists dest recid, sy_verified sm = Some (Some dest) /\ recID dest = Ok recid /\ to_whom ev = dest /\
        forall q rep, ev = EvPut q rep -> Forall (carries C recid null_text) (q_msgs q))).
Proof.
  intros C G sha256 V rnd fuel o ou rnd1 rnd2 pkeys e st r st'. unfold react.
  set (st1 := set_w V st _). assert (L1 : cs_log V st1 = cs_log V st) by reflexivity. clearbody st1.
  assert (NONE : st' = st1 -> exists lg, cs_log V st' = cs_log V st ++ lg /\ forall ev : Sending.event, In ev lg -> False).
  { intros ->. exists []. rewrite app_nil_r. split; [exact L1|intros ev []]. }
  assert (NONE' : forall P : Sending.event -> Prop, st' = st1 -> exists lg, cs_log V st' = cs_log V st ++ lg /\ forall ev, In ev lg -> P ev).
  { intros P H. destruct (NONE H) as (lg & X & Y). exists lg. split; [exact X|]. intros ev HI. destruct (Y ev HI). }
  clear NONE.
  destruct (content_of C ou (cs_w V st) rnd1 e) as [body|] eqn:EC; [|intros [= _ <-]; apply NONE'; reflexivity].
  destruct (content_opened _ _ _ pkeys _ _ _ EC) as (sender & OP).
  unfold answerContent. destruct (unmarshal_content body) as [c|] eqn:UC; [|intros [= _ <-]; apply NONE'; reflexivity].
  destruct (c_data c) as [dm|] eqn:CD; [intros [= _ <-]; apply NONE'; reflexivity|].
  destruct (c_sync c) as [sm|] eqn:CS; [|intros [= _ <-]; apply NONE'; reflexivity].
  unfold answerSync.
  destruct (sy_sent sm); [intros [= _ <-]; apply NONE'; reflexivity|].
  destruct (sy_contacts sm); [intros [= _ <-]; apply NONE'; reflexivity|].
  destruct (sy_groups sm); [intros [= _ <-]; apply NONE'; reflexivity|].
  destruct (sy_request sm) as [ty|] eqn:RQ.
  { assert (B : forall t kind b, ty = Some t -> t = 1 \/ t = 2 -> sendBlob C sha256 V rnd fuel o kind b st1 = (r, st') ->
      exists lg, cs_log V st' = cs_log V st ++ lg /\
        forall ev, In ev lg -> exists sender body c sm,
        opened C ou (mkRs (cs_w V st) pkeys) e rnd1 sender body /\ unmarshal_content body = Some c /\ c_data c = None /\ c_sync c = Some sm /\
        ((exists t, sy_request sm = Some (Some t) /\ (t = 1 \/ t = 2) /\ to_whom ev = ow_self o) \/
         (exists dest recid, sy_verified sm = Some (Some dest) /\ recID dest = Ok recid /\ to_whom ev = dest /\
            forall q rep, ev = EvPut q rep -> Forall (carries C recid null_text) (q_msgs q)))).
    { intros t kind b Ht Ht' H. apply blob_about in H. destruct H as (lg & L & F). exists lg. split; [rewrite L, L1; reflexivity|].
      intros ev HI. destruct (F ev HI) as (p & x & _ & A). exists sender, body, c, sm. split; [exact OP|]. split; [exact UC|]. split; [exact CD|].
      split; [exact CS|]. left. exists t. rewrite RQ, Ht. split; [reflexivity|]. split; [exact Ht'|]. destruct ev; [exact A|exact (proj1 A)]. }
    unfold answerRequest. destruct ty as [t|]; cbn [g_num]; [|intros [= _ <-]; apply NONE'; reflexivity].
    destruct (Z.eqb_spec t 1) as [E1|E1].
    - unfold sendContactUpdate. destruct (ow_contacts o) as [cs| |]; [|intros [= _ <-]; apply NONE'; reflexivity..].
      destruct (contact_blob cs) as [b| |]; [|intros [= _ <-]; apply NONE'; reflexivity..]. apply (B t); [reflexivity|left; exact E1].
    - destruct (Z.eqb_spec t 2) as [E2|E2]; [|intros [= _ <-]; apply NONE'; reflexivity].
      unfold sendGroupUpdate. destruct (group_blob (ow_groups o)) as [b| |]; [|intros [= _ <-]; apply NONE'; reflexivity..].
      apply (B t); [reflexivity|right; exact E2]. }
  destruct (sy_read sm); [|intros [= _ <-]; apply NONE'; reflexivity].
  destruct (sy_blocked sm); [intros [= _ <-]; apply NONE'; reflexivity|].
  destruct (sy_verified sm) as [d|] eqn:VE; [|intros [= _ <-]; apply NONE'; reflexivity].
  unfold answerVerified. destruct (DeriveAccessKeyFrom G (ow_pkey o)); [|intros [= _ <-]; apply NONE'; reflexivity..].
  unfold sendVerifiedMessage, sendNullMessage. rewrite null_padded.
  destruct (buildAndSend C V rnd fuel (g_bytes d) null_text (ow_now o) (default_devs V st1 (g_bytes d))) as [r1 st2] eqn:E.
  intros H. assert (st' = st2) as -> by (destruct r1 as [[[y z]|x|]|]; congruence).
  destruct (recID (g_bytes d)) as [recid|x|] eqn:ER.
  2,3: exists []; rewrite app_nil_r; split; [|intros ev []];
    destruct fuel as [|f]; cbn [buildAndSend] in E; [|unfold buildMessage in E; rewrite ER in E];
    injection E as _ <-; rewrite default_log; exact L1.
  apply send_about in E. destruct E as (lg & L & F). rewrite default_log, L1 in L. exists lg. split; [exact L|].
  intros ev HI. rewrite Forall_forall in F. specialize (F ev HI). exists sender, body, c, sm.
  split; [exact OP|]. split; [exact UC|]. split; [exact CD|]. split; [exact CS|]. right.
  destruct d as [dest|]; cbn [g_bytes] in *; [|discriminate ER]. exists dest, recid. split; [exact VE|]. split; [exact ER|].
  destruct ev as [u dv p|q rep]; cbn [about to_whom] in *.
  - split; [exact F|]. intros q rep X. discriminate X.
  - destruct F as (F1 & recid' & F2 & F3). split; [exact F1|]. intros q' rep' [= <- _]. assert (recid' = recid) as -> by congruence. exact F3.
Qed.
Print Assumptions C208_answers.

(* The outcome of the reception in Receiving.v is that of the answer, and before an answer nothing else is done than
   what the decryption does. *)
Theorem answer_outcome : forall C G sha256 V rnd fuel o ou ts sm st r st',
  answerSync C G sha256 V rnd fuel o sm st = (Some r, st') -> sy_sent sm = None ->
  (forall t, sy_request sm = Some (Some t) -> ou_reply ou t = r) -> ou_verified ou = r ->
  fst (handleSyncMessage C ou ts sm) = r /\ forall x, apply_acts x (snd (handleSyncMessage C ou ts sm)) = x.
Proof.
  intros C G sha256 V rnd fuel o ou ts sm st r st'. unfold answerSync, handleSyncMessage. intros H S0 HR HV. rewrite S0 in *.
  assert (K : forall h x, apply_acts x [ACall h] = x) by reflexivity.
  destruct (sy_contacts sm); [injection H as <- _; split; reflexivity|].
  destruct (sy_groups sm); [injection H as <- _; split; reflexivity|].
  destruct (sy_request sm) as [[t|]|].
  - specialize (HR t eq_refl). unfold answerRequest in H. unfold handleSyncRequest. cbn [g_num] in *.
    destruct (t =? 1); cbn [orb]; [split; [exact HR|reflexivity]|].
    destruct (t =? 2); [split; [exact HR|reflexivity]|]. injection H as <- _. split; reflexivity.
  - injection H as <- _. split; reflexivity.
  - destruct (sy_read sm) as [|x l]; [|injection H as <- _; unfold handleSyncRead; cbn [fst snd]; split; [reflexivity|]; intros y;
      induction (x :: l) as [|z t IH]; [reflexivity|exact IH]].
    destruct (sy_blocked sm); [injection H as <- _; split; reflexivity|].
    destruct (sy_verified sm); [split; [exact HV|reflexivity]|injection H as <- _; split; reflexivity].
Qed.

(* a writes to B; c is a third person. The server has keys of somebody with identity 44 under every name. *)
Definition third_reply (d : Z) : pkreply :=
  PkResp (encodeKey (snd (ex_kp 44)))
    [mkPkdev d 1044 (Some (1, encodeKey (snd (ex_kp 45)), Base64EncWithoutPadding (ex_sign (snd (ex_kp 44)) (key_ser (snd (ex_kp 45))))))
       (Some (5, encodeKey (snd (ex_kp 46))))].
Definition third_server (answers : nat -> putreply) : server :=
  mkServer nat (fun s _ d => (third_reply d, s)) (fun s _ => (answers s, S s)).
Definition c_verified (dest : bytes) : bytes := marshal [(2, f_msg [(7, f_msg [(5, [WLen dest])])])].
Definition c_request (t : Z) : bytes := marshal [(2, f_msg [(4, f_msg [(1, [WVarint t])])])].
Definition w_verified := Eval vm_compute in ex_wire (c_verified nc).
Definition w_request := Eval vm_compute in ex_wire (c_request 1).
Definition ex_loc : bytes := [104; 58; 47; 47; 104; 47; 112].   (* h://h/p *)
Definition ex_up : upserver := mkUs (Ok (mkUp 2 [107] ex_loc)) (fun _ => Ok ex_loc) (fun _ _ => Ok tt).
Definition ex_contact : contact :=
  mkContact [43; 49] [49;49;49;49;49;49;49;49;45;49;49;49;49;45;52;49;49;49;45;56;49;49;49;45;49;49;49;49;49;49;49;49;49;49;49;49] [99] [] None false 0.
Definition ex_own : own := mkOwn nb (rb 7) (Ok [ex_contact]) [] ex_up (repeat 9 64) (repeat 8 16) 1000.
Definition ex_sha (b : bytes) : bytes := repeat (zlen b mod 256) 32.
Definition ex_recv (V : server) (s : sv_state V) : cstate V := mkCs V ex_worldB (fun _ => None) 0 s [].
Notation ex_react V s w :=
  (react toy frontgcm ex_sha V PropSending.ex_rnd 5 ex_own (ex_outside no_fetch) ex_r ex_r (fun _ => None) (ex_env w) (ex_recv V s)).
Definition tV := third_server (fun _ => ok200).
Definition tq : request := Eval vm_compute in
  match nth_error (cs_log tV (snd (ex_react tV O w_verified))) 1 with Some (EvPut q _) => q | _ => mkReq [] 0 [] end.

Lemma third_ok : fst (ex_react tV O w_verified) = Some (Ok tt).
Proof. vm_compute. reflexivity. Qed.
Lemma third_put : In (EvPut tq ok200) (cs_log tV (snd (ex_react tV O w_verified))).
Proof. vm_compute. right. left. reflexivity. Qed.
Lemma third_id : w_ids (cs_w tV (snd (ex_react tV O w_verified))) nc = Some (snd (ex_kp 44)).
Proof. vm_compute. reflexivity. Qed.
(* C208. FALSE of the code: a message from somebody who is not the own account makes the client fetch keys of and
   write to a third person of the writer's choice, whose identity key is then the one saved. *)
Theorem C208_only_own_devices_refuted : exists C G sha256 V rnd fuel o ou rnd1 rnd2 pkeys e st st' sender dest q rep key,
  crypto_ok C /\ gcm_ok G /\ react C G sha256 V rnd fuel o ou rnd1 rnd2 pkeys e st = (Some (Ok tt), st') /\
  sender = source e /\ sender <> ow_self o /\ dest <> ow_self o /\ dest <> sender /\
  cs_log V st = [] /\ In (EvPut q rep) (cs_log V st') /\ q_dest q = dest /\ q_msgs q <> [] /\
  w_ids (cs_w V st) dest = None /\ w_ids (cs_w V st') dest = Some key.
Proof.
  exists toy, frontgcm, ex_sha, tV, PropSending.ex_rnd, 5%nat, ex_own, (ex_outside no_fetch), ex_r, ex_r, (fun _ => None), (ex_env w_verified),
    (ex_recv tV O), (snd (ex_react tV O w_verified)), na, nc, tq, ok200, (snd (ex_kp 44)).
  split; [exact toy_ok|]. split; [exact frontgcm_ok|].
  split; [apply pair_eq, third_ok|]. split; [reflexivity|]. split; [discriminate|]. split; [discriminate|].
  split; [discriminate|]. split; [reflexivity|]. split; [exact third_put|]. split; [reflexivity|].
  split; [discriminate|]. split; [reflexivity|]. exact third_id.
Qed.
Print Assumptions C208_only_own_devices_refuted.
(* an ordinary text is not answered; the request for contacts goes to the own account *)
Example C208_example :
  (let (r, st) := ex_react (third_server (fun _ => ok200)) O w_text in (r, cs_log _ st)) = (Some (Ok tt), []) /\
  (let (r, st) := ex_react (third_server (fun _ => ok200)) O w_request in (r, map to_whom (cs_log _ st))) = (Some (Ok tt), [nb; nb]) /\
  (let (r, st) := ex_react (third_server (fun _ => ok200)) O w_verified in (r, map to_whom (cs_log _ st))) = (Some (Ok tt), [nc; nc]).
Proof. split; [vm_compute; reflexivity|]. split; vm_compute; reflexivity. Qed.

(* ------------------------------------------------------------------------------------------ *)
(* C209. What is answered when the answer cannot be sent. *)
Definition refused (p : putreply) : Prop :=
  match p with PutNet => True | PutStatus s _ _ _ _ => s <> 409 /\ s <> 410 /\ ~ (200 <= s < 300) end.
Lemma refused_fails C V rnd uuid padded ts f st : (forall s q, refused (fst (sv_put V s q))) ->
  exists r, fst (buildAndSend C V rnd (S f) uuid padded ts st) = Some r /\ forall x, r <> Ok x.
Proof.
  intros H. cbn [buildAndSend]. destruct (buildMessage C V rnd uuid padded (devs_of V st uuid) st) as [[js|e|] st1].
  2,3: eexists; split; [reflexivity|intros x X; discriminate X].
  specialize (H (cs_srv V st1) (mkReq uuid ts js)). destruct (sv_put V (cs_srv V st1) (mkReq uuid ts js)) as [reply s']. cbn [fst] in H.
  destruct reply as [|s m e x n]; [eexists; split; [reflexivity|intros y X; discriminate X]|].
  destruct H as (N1 & N2 & N3). destruct (Z.eqb_spec s 409); [contradiction|]. destruct (Z.eqb_spec s 410); [contradiction|].
  assert (isError s = true) as ->.
  { unfold isError. apply orb_true_iff. destruct (Z.ltb_spec s 200); [left; reflexivity|right]. apply Z.leb_le. lia. }
  eexists. split; [reflexivity|intros y X; discriminate X].
Qed.
(* FALSE of the code, whoever asks: if the server takes no messages, a request for contacts or groups that could be
   answered stops the client. *)
Theorem C209_refused_stops : forall C G sha256 V rnd fuel o ou rnd1 rnd2 pkeys e st sender body c sm t b p x,
  opened C ou (mkRs (cs_w V st) pkeys) e rnd1 sender body -> unmarshal_content body = Some c -> c_data c = None -> c_sync c = Some sm ->
  sy_sent sm = None -> sy_contacts sm = false -> sy_groups sm = false -> sy_request sm = Some (Some t) ->
  (t = 1 /\ (exists cs, ow_contacts o = Ok cs /\ contact_blob cs = Ok b)) \/ (t = 2 /\ group_blob (ow_groups o) = Ok b) ->
  uploadAttachmentV3 C sha256 (ow_up o) (ow_keys o) (ow_iv o) b octet_stream false = Ok (p, x) ->
  (forall s q, refused (fst (sv_put V s q))) ->
  fst (react C G sha256 V rnd (S fuel) o ou rnd1 rnd2 pkeys e st) = Some Panic.
Proof.
  intros C G sha256 V rnd fuel o ou rnd1 rnd2 pkeys e st sender body c sm t b p x OP UC CD CS S0 SC SG RQ HB UP RF.
  unfold react. rewrite (opened_content _ _ _ _ _ _ _ _ OP). unfold answerContent. rewrite UC, CD, CS. unfold answerSync. rewrite S0, SC, SG, RQ.
  assert (B : forall kind s, fst (sendBlob C sha256 V rnd (S fuel) o kind b s) = Some Panic).
  { intros kind s. unfold sendBlob. rewrite UP.
    destruct (refused_fails C V rnd (ow_self o) (padMessage (marshal_blob kind p)) (ow_now o) fuel (default_devs V s (ow_self o)) RF) as (r & E & N).
    destruct (buildAndSend C V rnd (S fuel) (ow_self o) (padMessage (marshal_blob kind p)) (ow_now o) (default_devs V s (ow_self o))) as [r1 s1].
    cbn [fst] in E. subst r1. destruct r as [y|y|]; [destruct (N y eq_refl)|reflexivity|reflexivity]. }
  unfold answerRequest. cbn [g_num]. destruct HB as [(-> & cs & E1 & E2)|(-> & E)].
  - cbn [Z.eqb Pos.eqb]. unfold sendContactUpdate. rewrite E1, E2. apply B.
  - cbn [Z.eqb Pos.eqb]. unfold sendGroupUpdate. rewrite E. apply B.
Qed.
Print Assumptions C209_refused_stops.
Theorem C209_answer_never_stops_refuted : exists C G sha256 V rnd fuel o ou rnd1 rnd2 pkeys e st,
  crypto_ok C /\ gcm_ok G /\ source e <> ow_self o /\ (forall s q, fst (sv_put V s q) = PutStatus 413 [] [] [] false) /\
  fst (react C G sha256 V rnd fuel o ou rnd1 rnd2 pkeys e st) = Some Panic.
Proof.
  set (V := third_server (fun _ => PutStatus 413 [] [] [] false)).
  exists toy, frontgcm, ex_sha, V, PropSending.ex_rnd, 5%nat, ex_own, (ex_outside no_fetch), ex_r, ex_r, (fun _ => None), (ex_env w_request), (ex_recv V O).
  split; [exact toy_ok|]. split; [exact frontgcm_ok|]. split; [discriminate|]. split; [reflexivity|]. vm_compute. reflexivity.
Qed.
Print Assumptions C209_answer_never_stops_refuted.
(* What holds: the report of a verified identity stops nothing, unless building the message does: the answer of
   the server is never the reason. *)
Theorem C209_verified_goes_on : forall C G sha256 V rnd fuel o sm st,
  sy_request sm = None -> 
  (forall d s, fst (buildAndSend C V rnd fuel d null_text (ow_now o) s) <> Some Panic) ->
  fst (answerSync C G sha256 V rnd fuel o sm st) <> Some Panic.
Proof.
  intros C G sha256 V rnd fuel o sm st RQ NP. unfold answerSync. rewrite RQ.
  destruct (sy_sent sm); [discriminate|]. destruct (sy_contacts sm); [discriminate|]. destruct (sy_groups sm); [discriminate|].
  destruct (sy_read sm); [|discriminate]. destruct (sy_blocked sm); [discriminate|]. destruct (sy_verified sm) as [d|]; [|discriminate].
  unfold answerVerified, DeriveAccessKeyFrom. destruct (negb (aes_key_ok (ow_pkey o))); [discriminate|].
  unfold sendVerifiedMessage, sendNullMessage. rewrite null_padded. specialize (NP (g_bytes d) (default_devs V st (g_bytes d))).
  destruct (buildAndSend C V rnd fuel (g_bytes d) null_text (ow_now o) (default_devs V st (g_bytes d))) as [r1 s1]. cbn [fst] in NP.
  destruct r1 as [[[y z]|y|]|]; try discriminate. destruct (NP eq_refl).
Qed.
Print Assumptions C209_verified_goes_on.
Example C209_example : exists sender body c sm b p x,
  opened toy (ex_outside no_fetch) (mkRs ex_worldB (fun _ => None)) (ex_env w_request) ex_r sender body /\ unmarshal_content body = Some c /\
  c_data c = None /\ c_sync c = Some sm /\ sy_sent sm = None /\ sy_request sm = Some (Some 1) /\
  contact_blob [ex_contact] = Ok b /\ uploadAttachmentV3 toy ex_sha ex_up (repeat 9 64) (repeat 8 16) b octet_stream false = Ok (p, x) /\
  fst (ex_react (third_server (fun _ => PutStatus 413 [] [] [] false)) O w_verified) = Some (Err (EServer 413)).
Proof.
  assert (CO : content_of toy (ex_outside no_fetch) ex_worldB ex_r (ex_env w_request) = Some (c_request 1)) by (vm_compute; reflexivity).
  destruct (content_opened _ _ _ (fun _ => None) _ _ _ CO) as (sender & OP).
  exists sender, (c_request 1). do 5 eexists. split; [exact OP|]. split; [vm_compute; reflexivity|]. do 4 (split; [reflexivity|]).
  split; [vm_compute; reflexivity|]. split; vm_compute; reflexivity.
Qed.

(* ------------------------------------------------------------------------------------------ *)
(* C210. What another device of the account reads in the answer: the attachment described by field 1 of field kind
   (contacts 2, groups 3) of the synchronisation message. *)
Definition blob_in (kind : Z) (body : bytes) : option attptr :=
  match parse body with
  | Some fs => match g_msg 2 (fun f => match g_msg kind (fun g => match g_msg 1 att_dec g with Some (Some a) => Some a | _ => None end) f with
                                       | Some (Some a) => Some a | _ => None end) fs with
               | Some (Some a) => Some a | _ => None end
  | None => None
  end.
Lemma blob_read kind p : kind = 2 \/ kind = 3 -> att_ok (blob_ptr p) -> zlen (marshal_blob kind p) < 2 ^ 63 ->
  blob_in kind (marshal_blob kind p) = Some (blob_ptr p).
Proof.
  intros HK OK S0. unfold blob_in, marshal_blob in *.
  set (s1 := att_slots (blob_ptr p)) in *. set (s2 := [(1, f_msg s1)]) in *. set (s3 := [(kind, f_msg s2)]) in *. set (s4 := [(2, f_msg s3)]) in *.
  assert (S4 : small s4) by exact S0.
  assert (S3 : small s3) by (apply (small_sub _ 2 (f_msg s3) s3 S4); left; reflexivity).
  assert (S2 : small s2) by (apply (small_sub _ kind (f_msg s2) s2 S3); left; reflexivity).
  assert (S1 : small s1) by (apply (small_sub _ 1 (f_msg s1) s1 S2); left; reflexivity).
  assert (D4 : distinct (map fst s4) = true) by reflexivity.
  assert (D3 : distinct (map fst s3) = true) by (destruct HK as [-> | ->]; reflexivity).
  assert (D2 : distinct (map fst s2) = true) by reflexivity.
  assert (O2 : slots_ok s2) by (unfold s2; slots_tac; apply val_f_msg).
  assert (O3 : slots_ok s3) by (unfold s3; destruct HK as [-> | ->]; slots_tac; apply val_f_msg).
  assert (O4 : slots_ok s4) by (unfold s4; slots_tac; apply val_f_msg).
  rewrite parse_marshal by assumption.
  rewrite (g_msg_some _ D4 2 _ s3 (blob_ptr p)); [reflexivity|reflexivity|apply parse_marshal; assumption|].
  rewrite (g_msg_some _ D3 kind _ s2 (blob_ptr p)); [reflexivity|destruct HK as [-> | ->]; reflexivity|apply parse_marshal; assumption|].
  rewrite (g_msg_some _ D2 1 _ s1 (blob_ptr p)); [reflexivity|reflexivity| |].
  - apply parse_marshal; [apply att_slots_ok, OK|exact S1].
  - apply att_dec_flat, OK.
Qed.
(* the attachment gives back what was uploaded *)
Lemma blob_back C (OK : crypto_ok C) sha256 sv keys iv b p loc m : length keys = 64%nat -> length iv = 16%nat -> wfb iv -> wfb b ->
  uploadAttachmentV3 C sha256 sv keys iv b octet_stream false = Ok (p, (loc, m)) ->
  forall ou, ou_fetch ou (blob_ptr p) = Ok m -> handleSingleAttachment C ou (blob_ptr p) = Ok b.
Proof.
  intros Hk Hi Wi Wb U ou F.
  set (o := mkOut [] [] None None (Some p) 0 0 None).
  destruct (C55_round_trip C OK _ _ _ _ _ _ _ _ _ _ Hk Hi Wi Wb U None 0 o eq_refl) as (a & HA & HB & _).
  set (ou' := mkOutside (fun _ => Ok m) (ou_group ou) (ou_known ou) (ou_crayfish ou) (ou_contacts ou) (ou_reply ou) (ou_verified ou)).
  specialize (HB ou' eq_refl). rewrite HA in HB. cbn [handleAttachments] in HB.
  assert (K : ap_key a = ap_key (blob_ptr p)).
  { cbn [createMessage o o_att d_atts] in HA. unfold createMessage in HA. cbn [o o_att d_atts] in HA. injection HA as <-. reflexivity. }
  assert (E : handleSingleAttachment C ou (blob_ptr p) = handleSingleAttachment C ou' a).
  { unfold handleSingleAttachment. rewrite F, K. reflexivity. }
  rewrite E. destruct (handleSingleAttachment C ou' a) as [x| |]; cbn [bind] in HB; try discriminate HB. congruence.
Qed.

Lemma stream_wf rs : Forall wfb rs -> forall s, stream rs = Ok s -> wfb s.
Proof.
  induction 1 as [|r t H _ IH]; intros s; cbn [stream]; [intros [= <-]; constructor|].
  unfold varint32. destruct (zlen r <? 2 ^ 35); cbn [bind]; [|intros X; discriminate X].
  destruct (stream t) as [u| |]; cbn [bind]; intros X; try discriminate X. injection X as <-.
  unfold wfb in *. rewrite !Forall_app. split; [apply enc_varint_wf; unfold zlen; lia|]. split; [exact H|apply IH; reflexivity].
Qed.
Definition contact_wf (c : contact) : Prop :=
  wfb (ct_tel c) /\ wfb (ct_uuid c) /\ wfb (ct_name c) /\ wfb (ct_color c) /\ opt wfb (ct_verified c).
Lemma contact_bytes c : contact_wf c -> contact_size_ok c -> wfb (marshal (contact_slots c)).
Proof.
  intros (H1 & H2 & H3 & H4 & H5) (H6 & _). apply marshal_wf. unfold contact_slots.
  repeat (apply Forall_cons; [split; [cbn [fst]; lia|cbn [snd]]|]); try apply Forall_nil;
    try (apply Forall_cons; [|apply Forall_nil]; cbn [wf_val]; first [assumption|lia|destruct (ct_blocked c); lia]).
  destruct (ct_verified c); [|constructor]. apply Forall_cons; [exact H5|constructor].
Qed.
(* the posted messages of an answer *)
Lemma contacts_about C sha256 V rnd fuel o st r st' cs b p x :
  ow_contacts o = Ok cs -> contact_blob cs = Ok b ->
  uploadAttachmentV3 C sha256 (ow_up o) (ow_keys o) (ow_iv o) b octet_stream false = Ok (p, x) ->
  sendContactUpdate C sha256 V rnd fuel o st = (r, st') ->
  exists lg, cs_log V st' = cs_log V st ++ lg /\ Forall (about C (ow_self o) (padMessage (marshal_blob 2 p))) lg.
Proof.
  intros E1 E2 U. unfold sendContactUpdate. rewrite E1, E2. intros H. apply blob_about in H. destruct H as (lg & L & F). exists lg. split; [exact L|].
  apply Forall_forall. intros ev HI. destruct (F ev HI) as (p' & x' & U' & A). assert (p' = p) as -> by congruence. exact A.
Qed.

Lemma contacts_arrive : forall C, crypto_ok C -> forall sha256 V rnd fuel o st r st' cs b p loc m,
  ow_contacts o = Ok cs -> Forall contact_wf cs -> Forall contact_size_ok cs -> contact_blob cs = Ok b ->
  length (ow_keys o) = 64%nat -> length (ow_iv o) = 16%nat -> wfb (ow_iv o) ->
  uploadAttachmentV3 C sha256 (ow_up o) (ow_keys o) (ow_iv o) b octet_stream false = Ok (p, (loc, m)) ->
  u32 (pt_cdn p) -> zlen (marshal_blob 2 p) < 2 ^ 63 ->
  sendContactUpdate C sha256 V rnd fuel o st = (r, st') ->
  exists lg, cs_log V st' = cs_log V st ++ lg /\
  forall q rep, In (EvPut q rep) lg -> q_dest q = ow_self o /\
  forall j, In j (q_msgs q) -> exists recid pt a, recID (ow_self o) = Ok recid /\ carries C recid pt j /\
    blob_in 2 (stripPadding pt) = Some a /\ ap_key a = Some (ow_keys o) /\ ap_digest a = Some (sha256 m) /\
    forall ou, ou_fetch ou a = Ok m -> exists s rs, handleSingleAttachment C ou a = Ok s /\ read_stream (length s) s = Some rs /\
      map contact_view rs = map (fun c => Some (Some (ct_tel c), Some (ct_uuid c), Some (ct_name c), Some (ct_color c),
          ct_verified c, Some (if ct_blocked c then 1 else 0), Some (ct_expire c)))
        (filter (fun c => isValidUUID (ct_uuid c)) cs).
Proof.
  intros C OK sha256 V rnd fuel o st r st' cs b p loc m E1 WC SC E2 Lk Li Wi U CD SM H.
  destruct (contacts_about _ _ _ _ _ _ _ _ _ _ _ _ _ E1 E2 U H) as (lg & L & F). exists lg. split; [exact L|].
  intros q rep HI. rewrite Forall_forall in F. specialize (F _ HI). cbn [about] in F. destruct F as (F1 & recid & F2 & F3).
  split; [exact F1|]. intros j Hj. rewrite Forall_forall in F3. exists recid, (padMessage (marshal_blob 2 p)), (blob_ptr p).
  split; [exact F2|]. split; [exact (F3 j Hj)|]. rewrite strip_pad.
  assert (PK : pt_keys p = ow_keys o /\ pt_digest p = sha256 m /\ pt_size p = zlen b mod 2 ^ 32).
  { unfold uploadAttachmentV3 in U. destruct (aesEncrypt C (firstn 32 (ow_keys o)) (ow_iv o) b) as [e| |]; cbn [bind] in U; try discriminate U.
    destruct (allocateAttachmentV3 (ow_up o)) as [[l a]| |]; cbn [bind] in U; try discriminate U.
    unfold putAttachmentV3 in U. destruct (us_put (ow_up o) l _); cbn [bind] in U; try discriminate U. injection U as <- _ <-. split; [|split]; reflexivity. }
  destruct PK as (P1 & P2 & P3).
  split. { apply blob_read; [left; reflexivity| |exact SM]. unfold att_ok, blob_ptr. cbn [ap_id ap_size ap_flags ap_cdn opt].
    split; [trivial|]. split; [rewrite P3; unfold u32; apply Z.mod_pos_bound; lia|]. split; [trivial|exact CD]. }
  split; [cbn [blob_ptr ap_key]; congruence|]. split; [cbn [blob_ptr ap_digest]; congruence|].
  intros ou FE. destruct (C53_contacts_round_trip cs SC) as (s & rs & X1 & X2 & X3). assert (s = b) as -> by congruence.
  exists b, rs. split; [|split; [exact X2|exact X3]].
  eapply (blob_back C OK); [exact Lk|exact Li|exact Wi| |exact U|exact FE].
  unfold contact_blob in E2. eapply stream_wf; [|exact E2]. apply Forall_forall. intros z Hz. apply in_map_iff in Hz. destruct Hz as (c & <- & Hc).
  apply filter_In in Hc. rewrite Forall_forall in WC, SC. apply contact_bytes; [apply WC|apply SC]; apply Hc.
Qed.

Lemma group_bytes g : wfb (vg_id g) -> wfb (vg_name g) -> Forall wfb (vg_members g) -> wfb (marshal (group_slots g)).
Proof.
  intros H1 H2 H3. apply marshal_wf. unfold group_slots. repeat (apply Forall_cons; [split; [cbn [fst]; lia|cbn [snd]]|]); try apply Forall_nil.
  - apply Forall_cons; [exact H1|constructor].
  - apply Forall_cons; [exact H2|constructor].
  - apply Forall_forall. intros v Hv. apply in_map_iff in Hv. destruct Hv as (x & <- & Hx). rewrite Forall_forall in H3. exact (H3 x Hx).
Qed.
Lemma groups_arrive : forall C, crypto_ok C -> forall sha256 V rnd fuel o st r st' b p loc m,
  Forall (fun g => wfb (vg_id g) /\ wfb (vg_name g) /\ Forall wfb (vg_members g) /\ zlen (marshal (group_slots g)) < 2 ^ 32) (ow_groups o) ->
  group_blob (ow_groups o) = Ok b ->
  length (ow_keys o) = 64%nat -> length (ow_iv o) = 16%nat -> wfb (ow_iv o) ->
  uploadAttachmentV3 C sha256 (ow_up o) (ow_keys o) (ow_iv o) b octet_stream false = Ok (p, (loc, m)) ->
  u32 (pt_cdn p) -> zlen (marshal_blob 3 p) < 2 ^ 63 ->
  sendGroupUpdate C sha256 V rnd fuel o st = (r, st') ->
  exists lg, cs_log V st' = cs_log V st ++ lg /\
  forall q rep, In (EvPut q rep) lg -> q_dest q = ow_self o /\
  forall j, In j (q_msgs q) -> exists recid pt a, recID (ow_self o) = Ok recid /\ carries C recid pt j /\
    blob_in 3 (stripPadding pt) = Some a /\
    forall ou, ou_fetch ou a = Ok m -> exists s rs, handleSingleAttachment C ou a = Ok s /\ read_stream (length s) s = Some rs /\
      map group_view rs = map (fun g => Some (Some (vg_id g), Some (vg_name g), vg_members g)) (ow_groups o).
Proof.
  intros C OK sha256 V rnd fuel o st r st' b p loc m WG E2 Lk Li Wi U CD SM H.
  unfold sendGroupUpdate in H. rewrite E2 in H. apply blob_about in H. destruct H as (lg & L & F). exists lg. split; [exact L|].
  intros q rep HI. destruct (F _ HI) as (p' & x' & U' & A). assert (p' = p) as -> by congruence. cbn [about] in A. destruct A as (F1 & recid & F2 & F3).
  split; [exact F1|]. intros j Hj. rewrite Forall_forall in F3. exists recid, (padMessage (marshal_blob 3 p)), (blob_ptr p).
  split; [exact F2|]. split; [exact (F3 j Hj)|]. rewrite strip_pad.
  assert (P3 : pt_size p = zlen b mod 2 ^ 32).
  { unfold uploadAttachmentV3 in U. destruct (aesEncrypt C (firstn 32 (ow_keys o)) (ow_iv o) b) as [e| |]; cbn [bind] in U; try discriminate U.
    destruct (allocateAttachmentV3 (ow_up o)) as [[l a]| |]; cbn [bind] in U; try discriminate U.
    unfold putAttachmentV3 in U. destruct (us_put (ow_up o) l _); cbn [bind] in U; try discriminate U. injection U as <- _ _. reflexivity. }
  split. { apply blob_read; [right; reflexivity| |exact SM]. unfold att_ok, blob_ptr. cbn [ap_id ap_size ap_flags ap_cdn opt].
    split; [trivial|]. split; [rewrite P3; unfold u32; apply Z.mod_pos_bound; lia|]. split; [trivial|exact CD]. }
  intros ou FE. destruct (C53_groups_round_trip (ow_groups o)) as (s & rs & X1 & X2 & X3).
  { eapply Forall_impl; [|exact WG]. intros g Hg. apply Hg. }
  assert (s = b) as -> by congruence.
  exists b, rs. split; [|split; [exact X2|exact X3]].
  eapply (blob_back C OK); [exact Lk|exact Li|exact Wi| |exact U|exact FE].
  unfold group_blob in E2. eapply stream_wf; [|exact E2]. apply Forall_forall. intros z Hz. apply in_map_iff in Hz. destruct Hz as (g & <- & Hg).
  rewrite Forall_forall in WG. destruct (WG g Hg) as (G1 & G2 & G3 & _). apply group_bytes; assumption.
Qed.


(* C210. Every message of the answer to a request for contacts is for the own account and holds a pointer to an
   attachment; whoever fetches what was uploaded there gets the registered contacts with valid identifiers, in order
   and with their numbers, names, colours, verification, blocking and timers. *)
Theorem C210_contacts_arrive : forall C, crypto_ok C -> forall G sha256 V rnd fuel o ou rnd1 rnd2 pkeys e st sender body c sm r st' cs b p loc m,
  opened C ou (mkRs (cs_w V st) pkeys) e rnd1 sender body -> unmarshal_content body = Some c -> c_data c = None -> c_sync c = Some sm ->
  sy_sent sm = None -> sy_contacts sm = false -> sy_groups sm = false -> sy_request sm = Some (Some 1) ->
  ow_contacts o = Ok cs -> Forall contact_wf cs -> Forall contact_size_ok cs -> contact_blob cs = Ok b ->
  length (ow_keys o) = 64%nat -> length (ow_iv o) = 16%nat -> wfb (ow_iv o) ->
  uploadAttachmentV3 C sha256 (ow_up o) (ow_keys o) (ow_iv o) b octet_stream false = Ok (p, (loc, m)) ->
  u32 (pt_cdn p) -> zlen (marshal_blob 2 p) < 2 ^ 63 ->
  react C G sha256 V rnd fuel o ou rnd1 rnd2 pkeys e st = (r, st') ->
  exists lg, cs_log V st' = cs_log V st ++ lg /\
  forall q rep, In (EvPut q rep) lg -> q_dest q = ow_self o /\
  forall j, In j (q_msgs q) -> exists recid pt a, recID (ow_self o) = Ok recid /\ carries C recid pt j /\
    blob_in 2 (stripPadding pt) = Some a /\ ap_key a = Some (ow_keys o) /\ ap_digest a = Some (sha256 m) /\
    forall ou', ou_fetch ou' a = Ok m -> exists s rs, handleSingleAttachment C ou' a = Ok s /\ read_stream (length s) s = Some rs /\
      map contact_view rs = map (fun c => Some (Some (ct_tel c), Some (ct_uuid c), Some (ct_name c), Some (ct_color c),
          ct_verified c, Some (if ct_blocked c then 1 else 0), Some (ct_expire c)))
        (filter (fun c => isValidUUID (ct_uuid c)) cs).
Proof.
  intros C OK G sha256 V rnd fuel o ou rnd1 rnd2 pkeys e st sender body c sm r st' cs b p loc m OP UC CD CS S0 SC SG RQ E1 WC SZ E2 Lk Li Wi U CDN SM H.
  unfold react in H. rewrite (opened_content _ _ _ _ _ _ _ _ OP) in H. unfold answerContent in H. rewrite UC, CD, CS in H.
  unfold answerSync in H. rewrite S0, SC, SG, RQ in H. unfold answerRequest in H. cbn [g_num Z.eqb Pos.eqb] in H.
  eapply (contacts_arrive C OK) in H; [exact H|eassumption..].
Qed.
Print Assumptions C210_contacts_arrive.
Theorem C210_groups_arrive : forall C, crypto_ok C -> forall G sha256 V rnd fuel o ou rnd1 rnd2 pkeys e st sender body c sm r st' b p loc m,
  opened C ou (mkRs (cs_w V st) pkeys) e rnd1 sender body -> unmarshal_content body = Some c -> c_data c = None -> c_sync c = Some sm ->
  sy_sent sm = None -> sy_contacts sm = false -> sy_groups sm = false -> sy_request sm = Some (Some 2) ->
  Forall (fun g => wfb (vg_id g) /\ wfb (vg_name g) /\ Forall wfb (vg_members g) /\ zlen (marshal (group_slots g)) < 2 ^ 32) (ow_groups o) ->
  group_blob (ow_groups o) = Ok b ->
  length (ow_keys o) = 64%nat -> length (ow_iv o) = 16%nat -> wfb (ow_iv o) ->
  uploadAttachmentV3 C sha256 (ow_up o) (ow_keys o) (ow_iv o) b octet_stream false = Ok (p, (loc, m)) ->
  u32 (pt_cdn p) -> zlen (marshal_blob 3 p) < 2 ^ 63 ->
  react C G sha256 V rnd fuel o ou rnd1 rnd2 pkeys e st = (r, st') ->
  exists lg, cs_log V st' = cs_log V st ++ lg /\
  forall q rep, In (EvPut q rep) lg -> q_dest q = ow_self o /\
  forall j, In j (q_msgs q) -> exists recid pt a, recID (ow_self o) = Ok recid /\ carries C recid pt j /\
    blob_in 3 (stripPadding pt) = Some a /\
    forall ou', ou_fetch ou' a = Ok m -> exists s rs, handleSingleAttachment C ou' a = Ok s /\ read_stream (length s) s = Some rs /\
      map group_view rs = map (fun g => Some (Some (vg_id g), Some (vg_name g), vg_members g)) (ow_groups o).
Proof.
  intros C OK G sha256 V rnd fuel o ou rnd1 rnd2 pkeys e st sender body c sm r st' b p loc m OP UC CD CS S0 SC SG RQ WG E2 Lk Li Wi U CDN SM H.
  unfold react in H. rewrite (opened_content _ _ _ _ _ _ _ _ OP) in H. unfold answerContent in H. rewrite UC, CD, CS in H.
  unfold answerSync in H. rewrite S0, SC, SG, RQ in H. unfold answerRequest in H. cbn [g_num Z.eqb Pos.eqb] in H.
  eapply (groups_arrive C OK) in H; [exact H|eassumption..].
Qed.
Print Assumptions C210_groups_arrive.

(* two contacts, one without a valid identifier: the answer holds the other one *)
Definition ex_contacts : list contact := [ex_contact; mkContact [43; 50] [120] [100] [] None true 5].
Definition ex_own2 : own := mkOwn nb (rb 7) (Ok ex_contacts) [] ex_up (repeat 9 64) (repeat 8 16) 1000.
Definition ex_blob : bytes := Eval vm_compute in match contact_blob ex_contacts with Ok b => b | _ => [] end.
Example C210_example : exists p loc m,
  contact_blob ex_contacts = Ok ex_blob /\ length ex_contacts = 2%nat /\ filter (fun c => isValidUUID (ct_uuid c)) ex_contacts = [ex_contact] /\
  uploadAttachmentV3 toy ex_sha ex_up (repeat 9 64) (repeat 8 16) ex_blob octet_stream false = Ok (p, (loc, m)) /\ pt_cdn p = 2 /\
  (let (r, st) := react toy frontgcm ex_sha tV PropSending.ex_rnd 5 ex_own2 (ex_outside no_fetch) ex_r ex_r (fun _ => None) (ex_env w_request) (ex_recv tV O) in
   (r, map to_whom (cs_log tV st))) = (Some (Ok tt), [nb; nb]).
Proof.
  do 3 eexists. split; [vm_compute; reflexivity|]. split; [reflexivity|]. split; [vm_compute; reflexivity|]. split; [vm_compute; reflexivity|].
  split; [reflexivity|]. vm_compute. reflexivity.
Qed.

Definition txt (s : string) : bytes := map (fun c => Z.of_N (N_of_ascii c)) (list_ascii_of_string s).
(* The copy of the contacts or groups that is uploaded is announced under the key that the server allocated, as application/octet-stream, with the
   keys it was sealed with and its length. *)
Theorem C208_announced : forall C sha256 sv keys iv b p x loc0 a, uploadAttachmentV3 C sha256 sv keys iv b octet_stream false = Ok (p, x) ->
  allocateAttachmentV3 sv = Ok (loc0, a) ->
  attachment_location (blob_ptr p) = (if ua_cdn a =? 2 then txt "https://cdn2.signal.org/attachments/" else txt "https://cdn.signal.org/attachments/") ++ Attachments.ua_key a /\
  ap_type (blob_ptr p) = Some (txt "application/octet-stream") /\ ap_key (blob_ptr p) = Some keys /\ ap_size (blob_ptr p) = Some (zlen b mod 2 ^ 32) /\
  ap_name (blob_ptr p) = None /\ ap_flags (blob_ptr p) = None.
Proof.
  intros C sha256 sv keys iv b p x loc0 a H EA. revert H. unfold uploadAttachmentV3. destruct (aesEncrypt C (firstn 32 keys) iv b) as [e|e|]; cbn [bind]; [|discriminate..].
  cbv zeta. rewrite EA. cbn [bind].
  match goal with |- context [putAttachmentV3 ?x1 ?x2 ?x3 ?x4] => destruct (putAttachmentV3 x1 x2 x3 x4) as [d|e''|] end; cbn [bind]; [|discriminate..].
  intros H. apply (f_equal (fun r => match r with Ok (q, _) => q | _ => p end)) in H. cbv beta iota in H. rewrite <- H.
  unfold attachment_location, getAttachmentLocation, blob_ptr. cbn [ap_id ap_type ap_key ap_size ap_cdn ap_name ap_flags pt_cdnkey pt_cdn pt_ct pt_keys pt_size].
  split. { change (0 =? 0) with true. cbn iota. rewrite app_assoc. f_equal. destruct (ua_cdn a =? 2); vm_compute; reflexivity. }
  split; [vm_compute; reflexivity|]. auto.
Qed.
Print Assumptions C208_announced.
