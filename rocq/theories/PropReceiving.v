(* C37-C41, C68-C74: reception of frames, envelopes and contents. *)
From Coq Require Import ZArith List Lia Bool.
From Verif Require Import Bytes Res Wire WireProofs Crypto Cbc CbcProofs Messages MessagesProofs Session Builder SessionProofs
  SessionFacts HistoryProofs Conversation ConversationProofs FirstMessage RecordCodec RecordCodecProofs Content ContentProofs
  Encodings PropEncodings Sending SendingProofs Examples PropHistory PropSending Receiving.
Import ListNotations.
Open Scope Z_scope.
Ltac Zify.zify_post_hook ::= Z.to_euclidean_division_equations.

(* ------------------------------------------------------------------------------------------ *)
(* C37. What the loop does is, for each handled frame in order, the actions of handling it followed by
   one acknowledgement of its id, then possibly the beginning of a frame whose handling panicked. *)
Definition frame_id (f : frame) : Z := match unmarshal_ws (fr_bytes f) with Some r => request_id r | None => 0 end.
Definition acks (tr : list trace) : list Z := flat_map (fun t => match t with TAck i => [i] | TAct _ => [] end) tr.
Fixpoint interleave (fs : list frame) (runs : list (list act)) : list trace :=
  match fs, runs with
  | f :: fs', l :: runs' => map TAct l ++ TAck (frame_id f) :: interleave fs' runs'
  | _, _ => []
  end.
Lemma apply_acts_app st a b : apply_acts st (a ++ b) = apply_acts (apply_acts st a) b.
Proof. apply fold_left_app. Qed.
Theorem C37_acknowledgements : forall C sk fs st tr st' e, listen C sk st fs = (tr, st', e) ->
  exists runs rest, (length runs <= length fs)%nat /\
    tr = interleave fs runs ++ map TAct rest /\
    st' = apply_acts st (concat runs ++ rest) /\
    (forall i f l, nth_error fs i = Some f -> nth_error runs i = Some l ->
       exists r o, unmarshal_ws (fr_bytes f) = Some r /\ o <> Panic /\
         handle_body C sk (apply_acts st (concat (firstn i runs))) f (request_body r) = (o, l)) /\
    match e with
    | Listening => length runs = length fs /\ rest = []
    | Stopped => rest = [] /\ exists f, nth_error fs (length runs) = Some f /\ unmarshal_ws (fr_bytes f) = None
    | Crashed => exists f r, nth_error fs (length runs) = Some f /\ unmarshal_ws (fr_bytes f) = Some r /\
        handle_body C sk (apply_acts st (concat runs)) f (request_body r) = (Panic, rest)
    end.
Proof.
  intros C sk fs. induction fs as [|f fs IH]; intros st tr st' e; cbn [listen].
  { intros [= <- <- <-]. exists [], []. split; [cbn; lia|]. split; [reflexivity|]. split; [reflexivity|].
    split; [intros [|i] ? ? H; discriminate H|split; reflexivity]. }
  destruct (unmarshal_ws (fr_bytes f)) as [r|] eqn:U.
  2:{ intros [= <- <- <-]. exists [], []. split; [cbn; lia|]. split; [reflexivity|]. split; [reflexivity|].
      split; [intros [|i] ? ? ? H; discriminate H|]. split; [reflexivity|]. exists f. split; [reflexivity|exact U]. }
  destruct (handle_body C sk st f (request_body r)) as [o l] eqn:H.
  assert (K : o <> Panic -> (let '(tr0, st0, e0) := listen C sk (apply_acts st l) fs in
     (map TAct l ++ TAck (request_id r) :: tr0, st0, e0)) = (tr, st', e) ->
     exists runs rest, (length runs <= length (f :: fs))%nat /\
    tr = interleave (f :: fs) runs ++ map TAct rest /\
    st' = apply_acts st (concat runs ++ rest) /\
    (forall i f0 l0, nth_error (f :: fs) i = Some f0 -> nth_error runs i = Some l0 ->
       exists r o, unmarshal_ws (fr_bytes f0) = Some r /\ o <> Panic /\
         handle_body C sk (apply_acts st (concat (firstn i runs))) f0 (request_body r) = (o, l0)) /\
    match e with
    | Listening => length runs = length (f :: fs) /\ rest = []
    | Stopped => rest = [] /\ exists f0, nth_error (f :: fs) (length runs) = Some f0 /\ unmarshal_ws (fr_bytes f0) = None
    | Crashed => exists f0 r, nth_error (f :: fs) (length runs) = Some f0 /\ unmarshal_ws (fr_bytes f0) = Some r /\
        handle_body C sk (apply_acts st (concat runs)) f0 (request_body r) = (Panic, rest)
    end).
  { intros NP. destruct (listen C sk (apply_acts st l) fs) as [[tr0 st0] e0] eqn:L. intros [= <- <- <-].
    destruct (IH _ _ _ _ L) as (runs & rest & A & B & D & E & F).
    exists (l :: runs), rest. split; [cbn [length]; lia|].
    split; [cbn [interleave]; unfold frame_id; rewrite U, B, <- app_assoc; reflexivity|].
    split; [cbn [concat]; rewrite <- app_assoc, apply_acts_app; exact D|].
    split.
    - intros [|i] f0 l0 F0 R0.
      + cbn [nth_error] in F0, R0. injection F0 as <-. injection R0 as <-. exists r, o. cbn [firstn concat]. auto.
      + cbn [nth_error firstn concat] in *. rewrite apply_acts_app. exact (E i f0 l0 F0 R0).
    - cbn [length nth_error concat]. destruct e0.
      + destruct F. split; [lia|assumption].
      + exact F.
      + destruct F as (f0 & r0 & F1 & F2 & F3). exists f0, r0. rewrite apply_acts_app. auto. }
  destruct o as [u|x|]; [apply K; discriminate|apply K; discriminate|].
  intros [= <- <- <-]. exists [], l. split; [cbn; lia|]. split; [reflexivity|]. split; [reflexivity|].
  split; [intros [|i] ? ? ? Hn; discriminate Hn|]. exists f, r. split; [reflexivity|]. split; [exact U|exact H].
Qed.
Print Assumptions C37_acknowledgements.
Lemma acks_app a b : acks (a ++ b) = acks a ++ acks b.
Proof. apply flat_map_app. Qed.
Lemma acks_acts l : acks (map TAct l) = [].
Proof. induction l; [reflexivity|exact IHl]. Qed.
(* The acknowledgements are the ids of the handled frames, in order; while the loop runs, of all frames. *)
Theorem C37_ids : forall C sk fs st tr st' e, listen C sk st fs = (tr, st', e) ->
  exists n, acks tr = map frame_id (firstn n fs) /\ (e = Listening -> n = length fs).
Proof.
  intros C sk fs st tr st' e H. destruct (C37_acknowledgements _ _ _ _ _ _ _ H) as (runs & rest & L & -> & _ & _ & F).
  exists (length runs). split; [|intros ->; apply F].
  rewrite acks_app, acks_acts, app_nil_r. clear - L. revert runs L.
  induction fs as [|f fs IH]; intros [|l runs] L; cbn [length] in *; try reflexivity.
  cbn [interleave length firstn map]. rewrite acks_app, acks_acts. cbn [app]. change (acks (TAck (frame_id f) :: interleave fs runs)) with (frame_id f :: acks (interleave fs runs)).
  f_equal. apply IH. lia.
Qed.
Print Assumptions C37_ids.

(* ------------------------------------------------------------------------------------------ *)
(* C38. FALSE of the code (see the refutation with the examples below): a body whose MAC does not verify
   is taken for an unsealed envelope. *)
Theorem C38_unauthenticated_is_processed : forall C sk m, 10 <= zlen m -> 32 <= zlen sk ->
  let n := Z.to_nat (zlen m - 10) in
  firstn 10 (hmac C (skipn 32 sk) (firstn n m)) <> skipn n m ->
  decryptReceivedMessage C sk m = Ok m.
Proof.
  intros C sk m L1 L2 n N. unfold decryptReceivedMessage, ComputeTruncatedMAC. fold n.
  destruct (Z.ltb_spec (zlen m - 10) 0); [lia|]. destruct (Z.ltb_spec (zlen sk) 32); [lia|]. cbn [orb].
  rewrite (neq_beq _ _ N). reflexivity.
Qed.
Print Assumptions C38_unauthenticated_is_processed.
(* sealed bodies as the server makes them are opened *)
Theorem C38_sealed_round_trip : forall C, crypto_ok C -> forall sk v iv pt c,
  length sk = 52%nat -> length iv = 16%nat -> wfb iv -> wfb pt ->
  Encrypt C (firstn 32 sk) iv pt = Ok c ->
  let body := v :: iv ++ c in
  decryptReceivedMessage C sk (body ++ firstn 10 (hmac C (skipn 32 sk) body)) = Ok pt.
Proof.
  intros C OK sk v iv pt c Ls Li Wi Wp E body.
  assert (Lm : length (firstn 10 (hmac C (skipn 32 sk) body)) = 10%nat) by (rewrite firstn_length, (hmac_length C OK); reflexivity).
  assert (LB : zlen (body ++ firstn 10 (hmac C (skipn 32 sk) body)) - 10 = zlen body).
  { rewrite zlen_app. unfold zlen at 2. rewrite Lm. lia. }
  unfold decryptReceivedMessage. rewrite LB, zlen_to_nat.
  assert (P : 1 <= zlen body) by (unfold body; rewrite zlen_cons; pose proof (zlen_nonneg (iv ++ c)); lia).
  destruct (Z.ltb_spec (zlen body) 0); [lia|]. destruct (Z.ltb_spec (zlen sk) 32) as [X|_]; [unfold zlen in X; lia|]. cbn [orb].
  rewrite firstn_app_exact, skipn_app_exact by reflexivity. unfold ComputeTruncatedMAC. rewrite beq_refl. cbn [negb].
  destruct (Z.ltb_spec (zlen body) 1); [lia|]. unfold body. cbn [skipn].
  apply (Decrypt_Encrypt C OK _ iv pt c); auto.
Qed.
Print Assumptions C38_sealed_round_trip.

(* ------------------------------------------------------------------------------------------ *)
(* C39. FALSE of the code: *)
Theorem C39_short_bodies_crash : forall C sk st f m, m <> [] -> zlen m < 10 -> handle_body C sk st f m = (Panic, []).
Proof.
  intros C sk st f [|x m] N L; [contradiction|]. unfold handle_body, decryptReceivedMessage.
  destruct (Z.ltb_spec (zlen (x :: m) - 10) 0); [reflexivity|lia].
Qed.
Theorem C39_unparsable_bodies_crash : forall C sk st f m p, m <> [] -> decryptReceivedMessage C sk m = Ok p -> parse p = None ->
  handle_body C sk st f m = (Panic, []).
Proof.
  intros C sk st f [|x m] p N D P; [contradiction|]. unfold handle_body, createEnvelope. rewrite D, P. reflexivity.
Qed.
Print Assumptions C39_short_bodies_crash.
Print Assumptions C39_unparsable_bodies_crash.

(* ------------------------------------------------------------------------------------------ *)
(* Facts about the handlers *)
Definition calls (l : list act) : list hcall := flat_map (fun a => match a with ACall h => [h] | _ => [] end) l.
Lemma calls_app a b : calls (a ++ b) = calls a ++ calls b.
Proof. apply flat_map_app. Qed.
Lemma calls_stores l : calls (map AStore l) = [].
Proof. induction l; [reflexivity|exact IHl]. Qed.
Lemma flags_calls ou src dm : calls (snd (handleFlags ou src dm)) = [].
Proof.
  unfold handleFlags. destruct (g_num (d_flags dm) =? 1); [destruct (recID src); reflexivity|].
  destruct (g_num (d_flags dm) =? 4); [destruct (ou_contacts ou); reflexivity|reflexivity].
Qed.
Lemma data_calls C ou src uuid dm r l : handleDataMessage C ou src uuid dm = (r, l) ->
  match r with
  | Ok _ => exists m atts gr f ts, calls l = [HMessage m] /\ handleFlags ou uuid dm = (Ok f, firstn (length l - 1) l) /\
       handleAttachments C ou (d_atts dm) = Ok atts /\ d_ts dm = Some ts /\
       match d_gv2 dm with None => gr = None | Some g => ou_group ou g = Ok gr end /\
       m = mkMsg src uuid (g_bytes (d_body dm)) atts gr f (g_num (d_expire dm)) (d_pkey dm) ts (d_quote dm) (d_contact dm)
             (d_sticker dm) (d_reaction dm)
  | _ => calls l = []
  end.
Proof.
  unfold handleDataMessage, andthen, pure.
  pose proof (flags_calls ou uuid dm) as FC. destruct (handleFlags ou uuid dm) as [[f|e|] lf]; cbn [snd] in FC;
    [|intros [= <- <-]; exact FC..].
  destruct (handleAttachments C ou (d_atts dm)) as [atts|e|]; [|intros [= <- <-]; rewrite app_nil_r; exact FC..].
  destruct (d_ts dm) as [ts|] eqn:T; [|intros [= <- <-]; rewrite app_nil_r; exact FC].
  destruct (d_gv2 dm) as [g|] eqn:G.
  - destruct (ou_group ou g) as [gr|e|] eqn:O; [|intros [= <- <-]; rewrite app_nil_r; exact FC..].
    intros [= <- <-]. do 5 eexists. rewrite calls_app, FC. split; [reflexivity|]. split; [|split; [reflexivity|]; split; [reflexivity|]; split; [first [exact O|reflexivity]|reflexivity]].
    rewrite app_length. cbn [length]. replace (length lf + 1 - 1)%nat with (length lf) by lia.
    rewrite firstn_app_exact by reflexivity. reflexivity.
  - intros [= <- <-]. do 5 eexists. rewrite calls_app, FC. split; [reflexivity|]. split; [|split; [reflexivity|]; split; [reflexivity|]; split; [reflexivity|reflexivity]].
    rewrite app_length. cbn [length]. replace (length lf + 1 - 1)%nat with (length lf) by lia.
    rewrite firstn_app_exact by reflexivity. reflexivity.
Qed.

(* C40. The part of the content that counts, and the callbacks belonging to it. *)
Inductive part := PData | PSync | PCall | PReceipt | PTyping | PNone.
Definition first_part (c : content) : part :=
  match filter fst [(if c_data c then true else false, PData); (if c_sync c then true else false, PSync);
     (if c_call c then true else false, PCall); (if c_receipt c then true else false, PReceipt); (c_typing c, PTyping)] with
  | (_, p) :: _ => p
  | [] => PNone
  end.
Definition belongs (p : part) (h : hcall) : Prop :=
  match p, h with
  | PData, HMessage _ | PCall, HMessage _ | PReceipt, HReceiptMessage _ | PTyping, HTyping _
  | PSync, HSyncSent _ _ | PSync, HSyncRead _ _ | PSync, HSyncReply _ | PSync, HVerifiedReply => True
  | _, _ => False
  end.
Lemma sync_calls C ou ts sm r l : handleSyncMessage C ou ts sm = (r, l) -> Forall (belongs PSync) (calls l).
Proof.
  unfold handleSyncMessage, handleSyncSent, handleSyncRequest, handleSyncRead.
  destruct (sy_sent sm) as [s|].
  { destruct (sn_msg s) as [dm|]; [|intros [= <- <-]; constructor].
    unfold andthen, pure.
    pose proof (flags_calls ou (g_bytes (sn_e164 s)) dm) as FC. destruct (handleFlags ou (g_bytes (sn_e164 s)) dm) as [[f|e|] lf]; cbn [snd] in FC;
      [|intros [= <- <-]; rewrite FC; constructor..].
    destruct (handleAttachments C ou (d_atts dm)) as [atts|e|]; [|intros [= <- <-]; rewrite app_nil_r, FC; constructor..].
    destruct (d_ts dm) as [dts|]; [|intros [= <- <-]; rewrite app_nil_r, FC; constructor].
    intros [= <- <-]. rewrite calls_app, FC. repeat constructor. }
  destruct (sy_contacts sm); [intros [= <- <-]; constructor|]. destruct (sy_groups sm); [intros [= <- <-]; constructor|].
  destruct (sy_request sm) as [ty|].
  { destruct ((g_num ty =? 1) || (g_num ty =? 2)); intros [= <- <-]; repeat constructor. }
  destruct (sy_read sm) as [|x rs].
  { destruct (sy_blocked sm); [intros [= <- <-]; constructor|]. destruct (sy_verified sm); intros [= <- <-]; repeat constructor. }
  intros [= <- <-]. apply Forall_cons; [exact I|]. induction rs as [|y ys IH]; [constructor|]. apply Forall_cons; [exact I|exact IH].
Qed.
Theorem C40_one_handler : forall C ou src uuid ts b c r l,
  unmarshal_content b = Some c -> handleMessage C ou src uuid ts b = (r, l) ->
  Forall (belongs (first_part c)) (calls l) /\
  (first_part c <> PSync -> first_part c <> PNone ->
     (r = Ok tt -> length (calls l) = 1%nat) /\ (r <> Ok tt -> calls l = [])) /\
  (first_part c = PNone -> r = Ok tt /\ l = []).
Proof.
  intros C ou src uuid ts b c r l U. unfold handleMessage. rewrite U. unfold first_part.
  destruct c as [[dm|] [sm|] [cm|] nl [rm|] [|]]; cbn [c_data c_sync c_call c_receipt c_typing filter fst]; intros H;
  try (
    (* data *)
    apply data_calls in H; destruct r as [[]|e|];
    [ destruct H as (m & ? & ? & ? & ? & -> & _); split; [repeat constructor|]; split; [intros _ _; split; [reflexivity|contradiction]|discriminate]
    | rewrite H; split; [constructor|]; split; [intros _ _; split; [discriminate|reflexivity]|discriminate]
    | rewrite H; split; [constructor|]; split; [intros _ _; split; [discriminate|reflexivity]|discriminate] ]; fail);
  try (
    (* sync *)
    split; [apply (sync_calls _ _ _ _ _ _ H)|]; split; [contradiction|discriminate]);
  try (
    (* call *)
    unfold handleCallMessage in H; injection H as <- <-;
    split; [repeat constructor|]; split; [intros _ _; split; [reflexivity|contradiction]|discriminate]; fail);
  try (
    (* receipt *)
    unfold handleReceiptMessage in H; destruct (rc_ts rm), (rc_type rm); injection H as <- <-;
    (split; [repeat constructor|]); (split; [intros _ _; split; [try discriminate; reflexivity|try contradiction; reflexivity]|discriminate]); fail);
  try (
    (* typing *)
    unfold handleTypingMessage in H; injection H as <- <-;
    split; [repeat constructor|]; split; [intros _ _; split; [reflexivity|contradiction]|discriminate]; fail).
  (* nothing *)
  injection H as <- <-. split; [constructor|]. split; [intros _ N; contradiction|split; reflexivity].
Qed.
Print Assumptions C40_one_handler.

(* ------------------------------------------------------------------------------------------ *)
(* An envelope decrypts, in the session of its source, to pt *)
Definition source (e : envelope) : bytes := g_bytes (e_source e).
Definition device (e : envelope) : Z := g_num (e_device e).
Definition session_type (t : Z) : option mtype := if t =? 1 then Some CIPHERTEXT else if t =? 3 then Some PREKEY_BUNDLE else None.
Definition decrypts (C : crypto) (st : rstate) (e : envelope) (rnd : nat -> bytes) (pt : bytes) (l : list eff) : Prop :=
  exists t ty msg, e_type e = Some t /\ session_type t = Some ty /\ e_content e = Some msg /\
    receive C (rs_w st) (source e) (device e) ty msg rnd = (Ok pt, l).
Lemma handle_decrypted C ou st rnd rnd2 e pt l : decrypts C st e rnd pt l ->
  handleReceivedMessage C ou st rnd rnd2 (Some e)
  = (fst (deliver C ou e pt), map AStore l ++ snd (deliver C ou e pt)).
Proof.
  intros (t & ty & msg & T & S & M & R). unfold handleReceivedMessage. rewrite T.
  unfold session_type in S. destruct (Z.eqb_spec t 1) as [->|N1].
  - injection S as <-. cbn [Z.eqb Pos.eqb]. unfold handle_cipher, receive in *. rewrite M.
    destruct (LoadWhisperMessage msg) as [m|x|]; try discriminate R.
    unfold source, device in R. unfold stored. rewrite R. cbn [fst snd]. destruct (deliver C ou e pt). reflexivity.
  - destruct (Z.eqb_spec t 3) as [->|N3]; [|discriminate S]. injection S as <-. cbn [Z.eqb Pos.eqb].
    unfold handle_prekey, receive in *. rewrite M. cbn [g_bytes].
    destruct (LoadPreKeyWhisperMessage msg) as [m|x|]; try discriminate R.
    unfold source, device in R. unfold stored. rewrite R. cbn [fst snd]. destruct (deliver C ou e pt). reflexivity.
Qed.
(* reception writes about the one peer only *)
Definition about (rid : bytes) (e : eff) : Prop :=
  match e with EStoreSession r _ _ _ => r = rid | ESaveIdentity r _ => r = rid | ERemovePreKey _ => True end.
Lemma receive_about C w rid dev ty msg rnd r l : receive C w rid dev ty msg rnd = (r, l) -> Forall (about rid) l.
Proof.
  unfold receive, SessionDecryptWhisperMessage, SessionDecryptPreKeyWhisperMessage. destruct ty.
  - destruct (LoadWhisperMessage msg); [|intros [= <- <-]; constructor..].
    destruct (sc_decrypt C (LoadSession w rid dev) a rnd) as [[pt|x|] r']; intros [= <- <-]; [|constructor..].
    apply Forall_cons; [reflexivity|constructor].
  - destruct (LoadPreKeyWhisperMessage msg) as [m|x|]; [|intros [= <- <-]; constructor..].
    destruct (BuildReceiverSession C w rid (LoadSession w rid dev) m) as [rb lb] eqn:B.
    assert (F : Forall (about rid) lb).
    { revert B. unfold BuildReceiverSession.
      destruct (negb (pk_version m =? currentVersion)); [intros [= <- <-]; constructor|].
      destruct (negb (IsTrustedIdentity w rid (pk_ident m))); [intros [= <- <-]; constructor|].
      destruct (hasSessionState _ _ _); [intros [= <- <-]; constructor|].
      match goal with |- context [match ?x with Ok _ => _ | Err _ => _ | Panic => _ end] => destruct x end;
        intros [= <- <-]; [|constructor..].
      apply Forall_cons; [reflexivity|constructor]. }
    destruct rb as [[pkid r1]|x|]; [|intros [= <- <-]; exact F..].
    destruct (sc_decrypt C r1 (pk_msg m) rnd) as [[pt|x|] r']; intros [= <- <-]; [|exact F..].
    apply Forall_app. split; [exact F|]. apply Forall_app. split.
    + destruct (pkid =? 16777215); [constructor|]. apply Forall_cons; [exact I|constructor].
    + apply Forall_cons; [reflexivity|constructor].
Qed.
Lemma acts_stores l : forall st, apply_acts st (map AStore l) = mkRs (apply_effs (rs_w st) l) (rs_pkeys st).
Proof.
  induction l as [|e l IH]; intros st; [destruct st; reflexivity|].
  change (apply_acts st (map AStore (e :: l))) with (apply_acts (apply_act st (AStore e)) (map AStore l)). rewrite IH. reflexivity.
Qed.
Lemma about_sess rid l : Forall (about rid) l -> forall w r d, r <> rid -> w_sess (apply_effs w l) r d = w_sess w r d.
Proof.
  induction 1 as [|e l H F IH]; intros w r d N; [reflexivity|].
  change (apply_effs w (e :: l)) with (apply_effs (apply_eff w e) l). rewrite IH by exact N.
  destruct e; cbn [apply_eff set_sess set_pre set_id w_sess]; try reflexivity. cbn in H. subst. now rewrite (neq_beq _ _ N).
Qed.
Lemma calls_keep l : Forall (fun a => match a with ACall _ => True | _ => False end) l -> forall st, apply_acts st l = st.
Proof. induction 1 as [|a l H F IH]; intros st; [reflexivity|]. destruct a; try contradiction. exact (IH st). Qed.
(* after the flags, a data message only calls *)
Lemma data_acts C ou src uuid dm f lf : handleFlags ou uuid dm = (Ok f, lf) ->
  exists lc, snd (handleDataMessage C ou src uuid dm) = lf ++ lc /\
    Forall (fun a => match a with ACall _ => True | _ => False end) lc.
Proof.
  intros H. unfold handleDataMessage, andthen, pure. rewrite H.
  destruct (handleAttachments C ou (d_atts dm)); [|exists []; split; [reflexivity|constructor]..].
  destruct (d_ts dm); [|exists []; split; [reflexivity|constructor]].
  destruct (d_gv2 dm) as [g|].
  - destruct (ou_group ou g); eexists; (split; [reflexivity|]); repeat constructor.
  - eexists; (split; [reflexivity|]); repeat constructor.
Qed.

(* C41. [sender]: who the message is from, by whichever way it arrived *)
Definition opened (C : crypto) (ou : outside) (st : rstate) (e : envelope) (rnd : nat -> bytes) (sender body : bytes) : Prop :=
  (exists pt l, decrypts C st e rnd pt l /\ sender = source e /\ body = stripPadding pt) \/
  (exists text ts dest, e_type e = Some 6 /\ e_dest e = Some dest /\ ou_crayfish ou e = Ok (sender, text, ts) /\
     dec64 text = Ok body /\ body <> []).
Theorem C41_end_session : forall C ou st rnd rnd2 e sender body c dm r l,
  opened C ou st e rnd sender body ->
  unmarshal_content body = Some c -> c_data c = Some dm -> d_flags dm = Some 1 ->
  sender <> [] -> hd 0 sender <> 43 ->
  handleReceivedMessage C ou st rnd rnd2 (Some e) = (r, l) ->
  (forall dev, w_sess (rs_w (apply_acts st l)) sender dev = None) /\
  (forall peer dev, peer <> sender -> w_sess (rs_w (apply_acts st l)) peer dev = w_sess (rs_w st) peer dev).
Proof.
  intros C ou st rnd rnd2 e sender body c dm r l O U D F NE NP H.
  assert (HF : handleFlags ou sender dm = (Ok 1, [ADelete sender; ADelete sender])).
  { unfold handleFlags. rewrite F. cbn [g_num Z.eqb Pos.eqb]. unfold recID. destruct sender as [|x t]; [contradiction|].
    cbn [hd] in NP. destruct (Z.eqb_spec x 43); [contradiction|reflexivity]. }
  assert (G : forall src ts, exists lc, snd (handleMessage C ou src sender ts body) = [ADelete sender; ADelete sender] ++ lc /\
      Forall (fun a => match a with ACall _ => True | _ => False end) lc).
  { intros src ts. unfold handleMessage. rewrite U, D. apply (data_acts C ou src sender dm 1 _ HF). }
  assert (K : forall lst lc, Forall (about sender) lst ->
      Forall (fun a => match a with ACall _ => True | _ => False end) lc ->
      l = map AStore lst ++ [ADelete sender; ADelete sender] ++ lc ->
      (forall dev, w_sess (rs_w (apply_acts st l)) sender dev = None) /\
      (forall peer dev, peer <> sender -> w_sess (rs_w (apply_acts st l)) peer dev = w_sess (rs_w st) peer dev)).
  { intros lst lc A B ->. rewrite !apply_acts_app, acts_stores, (calls_keep lc B).
    cbn [apply_acts fold_left apply_act rs_w delete_all w_sess]. split.
    - intros dev. now rewrite beq_refl.
    - intros peer dev N. rewrite (neq_beq _ _ N). now apply about_sess with (rid := sender). }
  destruct O as [(pt & lst & DE & -> & ->)|(text & ts & dest & T & DD & CR & B64 & NB)].
  - rewrite (handle_decrypted C ou st rnd rnd2 e pt lst DE) in H. unfold deliver in H. fold (source e) in H.
    destruct (G (source e) (g_num (e_sts e))) as (lc & E1 & E2). rewrite E1 in H.
    injection H as _ <-. destruct DE as (t & ty & msg & _ & _ & _ & R). apply (K lst lc); [|exact E2|reflexivity].
    apply (receive_about _ _ _ _ _ _ _ _ _ R).
  - destruct (G [] (ts mod 2 ^ 64)) as (lc & E1 & E2).
    unfold handleReceivedMessage in H. rewrite T in H. cbn [Z.eqb Pos.eqb] in H.
    unfold handle_unidentified in H. rewrite DD, CR in H. unfold pure, andthen at 1 in H. cbn [app] in H.
    rewrite B64 in H. unfold andthen in H. cbn [app] in H. destruct body as [|x body]; [contradiction|].
    destruct (handleMessage C ou [] sender (ts mod 2 ^ 64) (x :: body)) as [r' l'] eqn:HM. cbn [snd] in E1.
    injection H as _ <-. apply (K [] lc); [constructor|exact E2|exact E1].
Qed.
Print Assumptions C41_end_session.

(* C74. A message handed to the message callback while handling an identified envelope was decrypted in
   the session of the envelope's source and is presented as coming from there. *)
Theorem C74_attribution : forall C ou st rnd rnd2 e r l m,
  e_type e <> Some 6 ->
  handleReceivedMessage C ou st rnd rnd2 (Some e) = (r, l) -> In (HMessage m) (calls l) ->
  m_uuid m = source e /\ m_source m = source e /\ exists pt ls, decrypts C st e rnd pt ls.
Proof.
  intros C ou st rnd rnd2 e r l m N6 H I.
  assert (A : forall pt ls, In (HMessage m) (calls (map AStore ls ++ snd (deliver C ou e pt))) -> m_uuid m = source e /\ m_source m = source e).
  { intros pt ls J. rewrite calls_app, calls_stores in J. cbn [app] in J. revert J. unfold deliver, handleMessage.
    destruct (unmarshal_content (stripPadding pt)) as [c|]; [|intros []].
    destruct (c_data c) as [dm|].
    { destruct (handleDataMessage C ou (g_bytes (e_source e)) (g_bytes (e_source e)) dm) as [r0 l0] eqn:HD. cbn [snd].
      apply data_calls in HD. destruct r0; [|rewrite HD; intros []..].
      destruct HD as (m' & ? & ? & ? & ? & -> & _ & _ & _ & _ & ->). intros [[= <-]|[]]. split; reflexivity. }
    destruct (c_sync c) as [sm|].
    { destruct (handleSyncMessage C ou (g_num (e_sts e)) sm) as [r0 l0] eqn:HS. apply sync_calls in HS. cbn [snd]. intros J.
      rewrite Forall_forall in HS. destruct (HS _ J). }
    destruct (c_call c) as [cm|].
    { cbn [handleCallMessage snd calls flat_map app]. intros [[= <-]|[]]. split; reflexivity. }
    destruct (c_receipt c) as [rm|].
    { unfold handleReceiptMessage. destruct (rc_ts rm), (rc_type rm); cbn [snd calls flat_map app]; try (intros []; fail); intros [[=]|[]]. }
    destruct (c_typing c); [|intros []]. cbn [handleTypingMessage snd calls flat_map app]. intros [[=]|[]]. }
  assert (B : (exists pt ls, decrypts C st e rnd pt ls) \/ In (HMessage m) (calls l) -> exists pt ls, decrypts C st e rnd pt ls).
  { intros [D|_]; [exact D|].
    unfold handleReceivedMessage in H. destruct (e_type e) as [t|] eqn:T; [|injection H as <- <-; destruct I].
    destruct (Z.eqb_spec t 5) as [->|]. { injection H as <- <-. destruct I as [[=]|[]]. }
    destruct (Z.eqb_spec t 1) as [->|].
    { unfold handle_cipher in H. destruct (e_content e) as [msg|] eqn:M; [|injection H as <- <-; destruct I].
      destruct (LoadWhisperMessage msg) as [wm|x|] eqn:LW; [|injection H as <- <-; destruct I..].
      destruct (stored (SessionDecryptWhisperMessage C (rs_w st) (g_bytes (e_source e)) (g_num (e_device e)) wm rnd)) as [[b|x|] l1] eqn:SD.
      - unfold stored in SD. destruct (SessionDecryptWhisperMessage C (rs_w st) (g_bytes (e_source e)) (g_num (e_device e)) wm rnd) as [rr ll] eqn:S1.
        cbn [fst snd] in SD. injection SD as -> <-. exists b, ll, 1, CIPHERTEXT, msg. repeat split; auto.
        unfold receive. rewrite LW. exact S1.
      - assert (Q : calls l1 = []).
        { unfold stored in SD. injection SD as _ <-. apply calls_stores. }
        exfalso. destruct x;
          try (injection H as <- <-; rewrite Q in I; exact I);
          destruct (stored (SessionDecryptWhisperMessage C (rs_w (apply_acts st l1)) _ (g_num (e_device e)) wm rnd2)) as [r2 l2] eqn:S2;
          (assert (Q2 : calls l2 = []) by (unfold stored in S2; injection S2 as _ <-; apply calls_stores));
          (assert (l = l1 ++ l2) as -> by (destruct r2 as [|[]|]; congruence));
          rewrite calls_app, Q, Q2 in I; exact I.
      - exfalso. unfold stored in SD. injection SD as _ <-. injection H as <- <-. rewrite calls_stores in I. exact I. }
    destruct (Z.eqb_spec t 3) as [->|].
    { unfold handle_prekey in H. destruct (LoadPreKeyWhisperMessage (g_bytes (e_content e))) as [pm|x|] eqn:LP; [|injection H as <- <-; destruct I..].
      destruct (stored (SessionDecryptPreKeyWhisperMessage C (rs_w st) (g_bytes (e_source e)) (g_num (e_device e)) pm rnd)) as [[b|x|] l1] eqn:SD.
      - unfold stored in SD. destruct (SessionDecryptPreKeyWhisperMessage C (rs_w st) (g_bytes (e_source e)) (g_num (e_device e)) pm rnd) as [rr ll] eqn:S1.
        cbn [fst snd] in SD. injection SD as -> <-.
        destruct (e_content e) as [msg|] eqn:M; [|discriminate LP].
        exists b, ll, 3, PREKEY_BUNDLE, msg. repeat split; auto.
        unfold receive. cbn [g_bytes] in LP. rewrite LP. exact S1.
      - exfalso. unfold stored in SD. injection SD as _ <-. destruct x; injection H as <- <-; rewrite calls_stores in I; exact I.
      - exfalso. unfold stored in SD. injection SD as _ <-. injection H as <- <-. rewrite calls_stores in I. exact I. }
    destruct (Z.eqb_spec t 6) as [->|]; [contradiction|]. injection H as <- <-. destruct I. }
  destruct (B (or_intror I)) as (pt & ls & D).
  rewrite (handle_decrypted C ou st rnd rnd2 e pt ls D) in H. injection H as _ <-.
  destruct (A pt ls I) as [A1 A2]. split; [exact A1|]. split; [exact A2|]. eauto.
Qed.
Print Assumptions C74_attribution.

(* the calling side of C41: after EndSession the own sessions with the peer are gone, and those with
   third parties are as before *)
Theorem C41_end_session_api : forall C V rnd fuel self pk now uuid text st t st' recid selfid,
  recID uuid = Ok recid -> recID self = Ok selfid ->
  EndSession C V rnd fuel self pk now uuid text st = (Some (Ok t), st') ->
  (forall dev, w_sess (cs_w V st') recid dev = None) /\
  (forall peer dev, peer <> recid -> peer <> selfid -> w_sess (cs_w V st') peer dev = w_sess (cs_w V st) peer dev).
Proof.
  intros C V rnd fuel self pk now uuid text st t st' recid selfid R RS. unfold EndSession.
  destruct (sendMessage C V rnd fuel self pk now (mkOut uuid text None None None 1 0 None) st) as [[[t1|e|]|] st1] eqn:SM;
    try discriminate. rewrite R. intros [= -> <-]. cbn [set_w cs_w w_sess]. split; [intros; now rewrite beq_refl|].
  intros peer dev N NS. rewrite (neq_beq _ _ N).
  assert (DD : forall s u, w_sess (cs_w V (default_devs V s u)) peer dev = w_sess (cs_w V s) peer dev).
  { intros s u. unfold default_devs. destruct (cs_devs V s u); reflexivity. }
  unfold sendMessage in SM. cbn [o_dest o_time] in SM.
  match type of SM with match ?b with _ => _ end = _ => destruct b as [[[[ns t2]|e|]|] st2] eqn:B end; try discriminate SM.
  apply (C67_sending_leaves_others_alone _ _ _ _ _ _ _ _ _ _ _ R) in B. destruct B as (_ & _ & _ & _ & _ & B & _).
  specialize (B peer dev N). rewrite DD in B. destruct ns; [|injection SM as _ <-; exact B].
  unfold sendSyncMessage in SM.
  match type of SM with match (match ?b with _ => _ end) with _ => _ end = _ => destruct b as [[[[ns3 t3]|e|]|] st3] eqn:B3 end; try discriminate SM.
  injection SM as _ <-. apply (C67_sending_leaves_others_alone _ _ _ _ _ _ _ _ _ _ _ RS) in B3. destruct B3 as (_ & _ & _ & _ & _ & B3 & _).
  specialize (B3 peer dev NS). rewrite DD in B3. congruence.
Qed.
Print Assumptions C41_end_session_api.
(* and nothing but the sessions goes: the own keys, the offered prekeys and what is recorded of third parties stay *)
Theorem C41_end_session_keeps : forall C V rnd fuel self pk now uuid text st t st' recid selfid,
  recID uuid = Ok recid -> recID self = Ok selfid ->
  EndSession C V rnd fuel self pk now uuid text st = (Some (Ok t), st') ->
  let w := cs_w V st in let w' := cs_w V st' in
  w_ident w' = w_ident w /\ w_reg w' = w_reg w /\ w_trust_all w' = w_trust_all w /\ w_pre w' = w_pre w /\ w_spk w' = w_spk w /\
  (forall peer, peer <> recid -> peer <> selfid -> w_ids w' peer = w_ids w peer).
Proof.
  intros C V rnd fuel self pk now uuid text st t st' recid selfid R RS. unfold EndSession.
  destruct (sendMessage C V rnd fuel self pk now (mkOut uuid text None None None 1 0 None) st) as [[[t1|e|]|] st1] eqn:SM;
    try discriminate. rewrite R. intros [= -> <-]. cbn [set_w cs_w w_ident w_reg w_trust_all w_pre w_spk w_ids].
  assert (DD : forall s u, cs_w V (default_devs V s u) = cs_w V s).
  { intros s u. unfold default_devs. destruct (cs_devs V s u); reflexivity. }
  unfold sendMessage in SM. cbn [o_dest o_time] in SM.
  match type of SM with match ?b with _ => _ end = _ => destruct b as [[[[ns t2]|e|]|] st2] eqn:B end; try discriminate SM.
  apply (C67_sending_leaves_others_alone _ _ _ _ _ _ _ _ _ _ _ R) in B. destruct B as (B1 & B2 & B3 & B4 & B5 & _ & B7 & _).
  rewrite DD in B1, B2, B3, B4, B5. destruct ns.
  2:{ injection SM as _ <-. rewrite B1, B2, B3, B4, B5. do 5 (split; [reflexivity|]). intros peer N NS. rewrite (B7 peer N), DD. reflexivity. }
  unfold sendSyncMessage in SM.
  match type of SM with match (match ?b with _ => _ end) with _ => _ end = _ => destruct b as [[[[ns3 t3]|e|]|] st3] eqn:E3 end; try discriminate SM.
  injection SM as _ <-. apply (C67_sending_leaves_others_alone _ _ _ _ _ _ _ _ _ _ _ RS) in E3. destruct E3 as (D1 & D2 & D3 & D4 & D5 & _ & D7 & _).
  rewrite DD in D1, D2, D3, D4, D5. rewrite D1, D2, D3, D4, D5, B1, B2, B3, B4, B5. do 5 (split; [reflexivity|]).
  intros peer N NS. rewrite (D7 peer NS), DD, (B7 peer N), DD. reflexivity.
Qed.
Print Assumptions C41_end_session_keeps.

(* ------------------------------------------------------------------------------------------ *)
(* C68. FALSE of the code: a synchronisation message is obeyed whoever sent it. *)
Theorem C68_any_sender_ends_sessions : forall C ou st rnd rnd2 e sender body c sm s dm dest r l,
  opened C ou st e rnd sender body ->
  unmarshal_content body = Some c -> c_data c = None -> c_sync c = Some sm -> sy_sent sm = Some s ->
  sn_e164 s = Some dest -> sn_msg s = Some dm -> d_flags dm = Some 1 -> dest <> [] -> hd 0 dest <> 43 ->
  handleReceivedMessage C ou st rnd rnd2 (Some e) = (r, l) ->
  forall dev, w_sess (rs_w (apply_acts st l)) dest dev = None.
Proof.
  intros C ou st rnd rnd2 e sender body c sm s dm dest r l O U D SY SE DE SM F NE NP H dev.
  assert (HF : handleFlags ou dest dm = (Ok 1, [ADelete dest; ADelete dest])).
  { unfold handleFlags. rewrite F. cbn [g_num Z.eqb Pos.eqb]. unfold recID. destruct dest as [|x t]; [contradiction|].
    cbn [hd] in NP. destruct (Z.eqb_spec x 43); [contradiction|reflexivity]. }
  assert (G : forall src uuid ts, exists lc, snd (handleMessage C ou src uuid ts body) = [ADelete dest; ADelete dest] ++ lc /\
      Forall (fun a => match a with ACall _ => True | _ => False end) lc).
  { intros src uuid ts. unfold handleMessage. rewrite U, D, SY. unfold handleSyncMessage. rewrite SE. unfold handleSyncSent. rewrite SM, DE.
    cbn [g_bytes]. rewrite HF. unfold andthen, pure.
    destruct (handleAttachments C ou (d_atts dm)); [|exists []; split; [reflexivity|constructor]..].
    destruct (d_ts dm); [|exists []; split; [reflexivity|constructor]].
    eexists. split; [reflexivity|]. repeat constructor. }
  assert (K : forall pre lc, Forall (fun a => match a with ACall _ => True | _ => False end) lc ->
      l = pre ++ [ADelete dest; ADelete dest] ++ lc -> w_sess (rs_w (apply_acts st l)) dest dev = None).
  { intros pre lc B ->. rewrite !apply_acts_app, (calls_keep lc B).
    cbn [apply_acts fold_left apply_act rs_w delete_all w_sess]. now rewrite beq_refl. }
  destruct O as [(pt & lst & DEC & -> & ->)|(text & ts & d0 & T & DD & CR & B64 & NB)].
  - rewrite (handle_decrypted C ou st rnd rnd2 e pt lst DEC) in H. unfold deliver in H. fold (source e) in H.
    destruct (G (source e) (source e) (g_num (e_sts e))) as (lc & E1 & E2). rewrite E1 in H.
    injection H as _ <-. apply (K (map AStore lst) lc); [exact E2|reflexivity].
  - destruct (G [] sender (ts mod 2 ^ 64)) as (lc & E1 & E2).
    unfold handleReceivedMessage in H. rewrite T in H. cbn [Z.eqb Pos.eqb] in H.
    unfold handle_unidentified in H. rewrite DD, CR in H. unfold pure, andthen at 1 in H. cbn [app] in H.
    rewrite B64 in H. unfold andthen in H. cbn [app] in H. destruct body as [|x body]; [contradiction|].
    destruct (handleMessage C ou [] sender (ts mod 2 ^ 64) (x :: body)) as [r' l'] eqn:HM. cbn [snd] in E1.
    injection H as _ <-. apply (K [] lc); [exact E2|exact E1].
Qed.
Print Assumptions C68_any_sender_ends_sessions.

(* C72. FALSE of the code: no content ever reaches the callback for calls. *)
Theorem C72_call_callback_never_called : forall C ou src uuid ts b r l m,
  handleMessage C ou src uuid ts b = (r, l) -> ~ In (HCallMessage m) (calls l).
Proof.
  intros C ou src uuid ts b r l m H I. destruct (unmarshal_content b) as [c|] eqn:U.
  - destruct (C40_one_handler _ _ _ _ _ _ _ _ _ U H) as [F _]. rewrite Forall_forall in F. specialize (F _ I).
    destruct (first_part c); exact F.
  - unfold handleMessage in H. rewrite U in H. injection H as <- <-. exact I.
Qed.
Print Assumptions C72_call_callback_never_called.

(* C69, what holds: contents with the timestamps the handlers read, without attachments and groups, do
   not panic (given that the replies they cause do not, see C66). *)
Definition tame_data (dm : datamsg) : Prop := d_ts dm <> None /\ d_atts dm = [] /\ d_gv2 dm = None.
Theorem C69_other_contents_are_safe : forall C ou src uuid ts b r l,
  handleMessage C ou src uuid ts b = (r, l) ->
  ou_contacts ou <> Panic -> (forall t, ou_reply ou t <> Panic) -> ou_verified ou <> Panic ->
  (forall c, unmarshal_content b = Some c ->
     (forall dm, c_data c = Some dm -> tame_data dm) /\
     (forall sm s dm, c_sync c = Some sm -> sy_sent sm = Some s -> sn_msg s = Some dm -> tame_data dm) /\
     (forall rm, c_receipt c = Some rm -> rc_ts rm <> [] /\ rc_type rm <> None)) ->
  r <> Panic.
Proof.
  intros C ou src uuid ts b r l H O1 O2 O3 T.
  assert (HF : forall s dm, fst (handleFlags ou s dm) <> Panic).
  { intros s dm. unfold handleFlags. destruct (_ =? 1).
    - unfold recID. destruct s as [|x t]; [discriminate|]. destruct (x =? 43); discriminate.
    - destruct (_ =? 4); [|discriminate]. destruct (ou_contacts ou); [discriminate|discriminate|contradiction]. }
  unfold handleMessage in H. destruct (unmarshal_content b) as [c|]; [|injection H as <- <-; discriminate].
  destruct (T c eq_refl) as (TD & TS & TR). destruct (c_data c) as [dm|].
  { destruct (TD dm eq_refl) as (T1 & T2 & T3). unfold handleDataMessage, andthen, pure in H. rewrite T2, T3 in H.
    specialize (HF uuid dm). destruct (handleFlags ou uuid dm) as [[f|x|] lf]; cbn [fst] in HF; try contradiction.
    - cbn [handleAttachments] in H. destruct (d_ts dm); [|contradiction]. injection H as <- <-. discriminate.
    - injection H as <- <-. discriminate. }
  destruct (c_sync c) as [sm|].
  { unfold handleSyncMessage in H. destruct (sy_sent sm) as [s|] eqn:SE.
    { unfold handleSyncSent in H. destruct (sn_msg s) as [dm|] eqn:SM; [|injection H as <- <-; discriminate].
      destruct (TS sm s dm eq_refl SE SM) as (T1 & T2 & T3). unfold andthen, pure in H. rewrite T2, T3 in H.
      specialize (HF (g_bytes (sn_e164 s)) dm). destruct (handleFlags ou (g_bytes (sn_e164 s)) dm) as [[f|x|] lf]; cbn [fst] in HF; try contradiction.
      - cbn [handleAttachments] in H. destruct (d_ts dm); [|contradiction]. injection H as <- <-. discriminate.
      - injection H as <- <-. discriminate. }
    destruct (sy_contacts sm); [injection H as <- <-; discriminate|]. destruct (sy_groups sm); [injection H as <- <-; discriminate|].
    destruct (sy_request sm) as [ty|].
    { unfold handleSyncRequest in H. destruct ((g_num ty =? 1) || (g_num ty =? 2)); injection H as <- <-; [apply O2|discriminate]. }
    destruct (sy_read sm); [|injection H as <- <-; discriminate].
    destruct (sy_blocked sm); [injection H as <- <-; discriminate|]. destruct (sy_verified sm); injection H as <- <-; [exact O3|discriminate]. }
  destruct (c_call c); [injection H as <- <-; discriminate|].
  destruct (c_receipt c) as [rm|].
  { destruct (TR rm eq_refl). unfold handleReceiptMessage in H. destruct (rc_ts rm); [contradiction|]. destruct (rc_type rm); [|contradiction].
    injection H as <- <-. discriminate. }
  destruct (c_typing c); injection H as <- <-; discriminate.
Qed.
Print Assumptions C69_other_contents_are_safe.

(* ------------------------------------------------------------------------------------------ *)
(* C35, to the end: a text given to SendMessage reaches the message callback of the receiver, with its
   text, expiry timer and timestamp, as coming from the sender. *)
Theorem C35_text_reaches_callback : forall C, crypto_ok C -> forall st, setup_ok C st ->
  wfb (st_sig st) -> length (st_sig st) = 64%nat -> snd (st_peer st SA) = 1 ->
  w_sess (st_w st SA) (fst (st_peer st SA)) 1 = None ->
  forall V rnd cs self pk now uuid text timer fuel,
  recID uuid = Ok (fst (st_peer st SA)) ->
  cs_w V cs = st_w st SA -> cs_devs V cs uuid = None ->
  rnd (cs_rnd V cs) = st_rbase st -> rnd (S (cs_rnd V cs)) = st_rratchet st ->
  fst (sv_prekeys V (cs_srv V cs) uuid 1) = published C st ->
  (forall s q, exists m e x, fst (sv_put V s q) = PutStatus 200 m e x false) ->
  wfb text -> u32 timer -> u64 now -> opt wfb pk ->
  zlen (marshal_data (createMessage pk now (mkOut uuid text None None None 0 timer None))) < 2 ^ 59 ->
  forall ou pkeys rnd' rnd2 ets sts, length (rnd' 0%nat) = 32%nat ->
  exists cs' q r j b l,
    SendMessage C V rnd (S fuel) self pk now uuid text timer cs = (Some (Ok now), cs') /\
    cs_log V cs' = cs_log V cs ++ [EvFetch uuid 1 (published C st); EvPut q r] /\
    q_dest q = uuid /\ q_msgs q = [j] /\ j_dev j = 1 /\ dec64 (j_content j) = Ok b /\
    handleReceivedMessage C ou (mkRs (st_w st SB) pkeys) rnd' rnd2
      (Some (mkEnv (Some (match j_type j with CIPHERTEXT => 1 | PREKEY_BUNDLE => 3 end)) (Some (fst (st_peer st SB)))
         (Some (snd (st_peer st SB))) None ets (Some b) sts)) = (Ok tt, l) /\
    exists m, calls l = [HMessage m] /\ m_uuid m = fst (st_peer st SB) /\ m_text m = text /\ m_ts m = now /\
      m_expire m = timer /\ m_pkey m = pk /\ m_flags m = 0 /\ m_atts m = [] /\ m_group m = None.
Proof.
  intros C OK st SO Wsig Lsig Dev None1 V rnd cs self pk now uuid text timer fuel R CW CD R1 R2 HP HQ Wt Ut Un Wp Sz ou pkeys rnd' rnd2 ets sts Lr.
  set (o := mkOut uuid text None None None 0 timer None) in *.
  assert (OO : out_ok pk now o).
  { constructor; cbn [o o_text o_att o_flags o_expire o_time o_gv2]; auto; try discriminate. unfold u32; lia. }
  destruct (C35_end_to_end C OK st SO Wsig Lsig Dev None1 V rnd cs self pk now o fuel R CW CD R1 R2 HP HQ OO Sz rnd' Lr)
    as (cs' & q & r & j & S1 & S2 & S3 & S4 & S5 & S6 & b & pt & l & d & B64 & RC & UM & RA).
  destruct RA as (RA1 & RA2 & RA3 & RA4 & RA5 & RA6 & RA7). cbn [o o_text o_time o_expire o_flags o_gv2 o_att] in *.
  set (e := mkEnv (Some (match j_type j with CIPHERTEXT => 1 | PREKEY_BUNDLE => 3 end)) (Some (fst (st_peer st SB)))
         (Some (snd (st_peer st SB))) None ets (Some b) sts).
  assert (DE : decrypts C (mkRs (st_w st SB) pkeys) e rnd' pt l).
  { exists (match j_type j with CIPHERTEXT => 1 | PREKEY_BUNDLE => 3 end), (j_type j), b.
    split; [reflexivity|]. split; [destruct (j_type j); reflexivity|]. split; [reflexivity|exact RC]. }
  pose proof (handle_decrypted C ou (mkRs (st_w st SB) pkeys) rnd' rnd2 e pt l DE) as H.
  assert (TB : g_bytes (d_body d) = text) by (rewrite RA1; destruct text; reflexivity).
  assert (HD : deliver C ou e pt = (Ok tt, [ACall (HMessage (mkMsg (source e) (source e) text [] None 0 timer pk now
      (d_quote d) (d_contact d) (d_sticker d) (d_reaction d)))])).
  { unfold deliver, handleMessage. rewrite UM. cbn [c_data]. unfold handleDataMessage, handleFlags, andthen, pure.
    rewrite RA4. cbn [g_num Z.eqb]. rewrite RA7, RA2, RA6, TB, RA3, RA5. reflexivity. }
  rewrite HD in H. cbn [fst snd] in H.
  eexists cs', q, r, j, b, _. split; [exact S1|]. split; [exact S2|]. split; [exact S3|]. split; [exact S5|]. split; [exact S6|].
  split; [exact B64|]. split; [exact H|]. eexists. rewrite calls_app, calls_stores. split; [reflexivity|].
  cbn [m_uuid m_text m_ts m_expire m_pkey m_flags m_atts m_group]. repeat split; reflexivity.
Qed.
Print Assumptions C35_text_reaches_callback.

(* ------------------------------------------------------------------------------------------ *)
(* Examples. A's first message to B with a given content, as B's server delivers it. *)
Definition ex_wire (pt : bytes) : bytes :=
  match nth_error (y_net (run toy ex_setup (start toy ex_setup) [Send SA (padMessage pt)])) 0 with
  | Some (_, _, b) => b | None => [] end.
Definition ex_env (b : bytes) : envelope := mkEnv (Some 3) (Some na) (Some 1) None (Some 5) (Some b) (Some 7).
(* B also has a session with c *)
Definition nc : bytes := [99].
Definition ex_B : rstate :=
  mkRs (set_sess ex_worldB nc 1 (Some (empty_ss, []))) (fun _ => None).
Definition ex_outside (fetch : attptr -> res bytes) : outside :=
  mkOutside fetch (fun _ => Ok None) (fun _ => None) (fun _ => Err EOther) (Ok tt) (fun _ => Ok tt) (Ok tt).
Definition no_fetch (a : attptr) : res bytes := Err EOther.
Definition ex_r (_ : nat) : bytes := rb 9.
Definition ex_sk : bytes := repeat 1 52.
Definition text_msg (ts : option Z) (flags : Z) (atts : list attptr) : datamsg :=
  mkData (Some [104; 105]) atts (Some flags) (Some 0) None ts None None [] None None.

(* contents *)
Definition c_text := Eval vm_compute in marshal_data (text_msg (Some 77) 0 []).
Definition c_end := Eval vm_compute in marshal_data (text_msg (Some 77) 1 []).
Definition c_nots := Eval vm_compute in marshal_data (text_msg None 0 []).
Definition bad_att : attptr := mkAtt (Some (inl 5)) None (Some [1; 2; 3]) None None None None None.
Definition c_att := Eval vm_compute in marshal_data (text_msg (Some 77) 0 [bad_att]).
Definition c_sync_end := Eval vm_compute in
  marshal_sync (mkSync (Some (mkSent (Some nc) None (Some 77) (Some (text_msg (Some 77) 1 [])))) false false None [] false None).
Definition c_receipt_empty := Eval vm_compute in marshal [(5, f_msg [(1, [WVarint 0])])].
Definition c_hangup := Eval vm_compute in marshal [(3, f_msg [(7, f_msg [(1, [WVarint 3])])])].
Definition w_text := Eval vm_compute in ex_wire c_text.
Definition w_end := Eval vm_compute in ex_wire c_end.
Definition w_nots := Eval vm_compute in ex_wire c_nots.
Definition w_att := Eval vm_compute in ex_wire c_att.
Definition w_sync_end := Eval vm_compute in ex_wire c_sync_end.
Definition w_receipt := Eval vm_compute in ex_wire c_receipt_empty.
Definition w_hangup := Eval vm_compute in ex_wire c_hangup.

(* frames of the message socket with an unsealed envelope *)
Definition ws_frame (id : Z) (body : bytes) : bytes :=
  marshal [(1, [WVarint 1]); (2, f_msg [(1, [WLen [80]]); (2, [WLen [47]]); (3, [WLen body]); (4, [WVarint id])])].
Definition ex_frame (bs : bytes) : frame := mkFrame bs (ex_outside no_fetch) ex_r ex_r.
Definition env_bytes (e : envelope) : bytes := marshal (envelope_slots e).
Definition fb_text := Eval vm_compute in ws_frame 41 (env_bytes (ex_env w_text)).
Definition fb_att := Eval vm_compute in ws_frame 42 (env_bytes (ex_env w_att)).
Definition fb_receipt := Eval vm_compute in ws_frame 43 (env_bytes (mkEnv (Some 5) (Some na) (Some 1) None (Some 5) None (Some 7))).
Definition fb_short := Eval vm_compute in ws_frame 44 [1; 2; 3].
Definition fb_garbage := Eval vm_compute in ws_frame 45 (repeat 255 12).
(* a response frame: no request part *)
Definition fb_response := Eval vm_compute in marshal [(1, [WVarint 2]); (3, f_msg [(1, [WVarint 9]); (2, [WVarint 200])])].

Definition shape (t : trace) : Z := match t with TAck i => i | TAct (ACall _) => -1 | TAct _ => -2 end.
Definition ex_listen (fs : list bytes) := listen toy ex_sk ex_B (map ex_frame fs).

(* a text (three writes, one call), a receipt, the text again (now a duplicate), an empty request *)
Example C37_example :
  let '(tr, st, e) := ex_listen [fb_text; fb_receipt; fb_text; ws_frame 50 []] in
  map shape tr = [-2; -2; -2; -1; 41; -1; 43; 41; 50] /\ e = Listening.
Proof. vm_compute. split; reflexivity. Qed.

(* what the server reads of an acknowledgement: a response, no request, this id, status 200, "OK" *)
Theorem C37_wire : forall id, 0 <= id < 2 ^ 64 -> exists fs, parse (ack_bytes id) = Some fs /\ q_u64 1 fs = Some 2 /\ get_len 2 fs = None /\
  g_msg 3 (fun r => Some (q_u64 1 r, q_u32 2 r, get_len 3 r)) fs = Some (Some (Some id, Some 200, Some [79; 75])).
Proof.
  intros id R. set (r := [(1, [WVarint id]); (2, [WVarint 200]); (3, [WLen [79; 75]])]).
  assert (Sr : zlen (marshal r) <= 100).
  { unfold r, marshal, flat, encode. cbn [flat_map map fst snd app]. unfold enc_field. cbn [fst snd wtype enc_val].
    rewrite ?zlen_app, ?app_nil_r, ?zlen_app. pose proof (varint_le id).
    repeat match goal with |- context [zlen (varint ?v)] => first [is_var v; fail 1|let n := eval vm_compute in (zlen (varint v)) in change (zlen (varint v)) with n] end.
    generalize dependent (zlen (varint id)). intros. cbn [zlen length]. unfold zlen. cbn [length]. lia. }
  assert (S : small [(1, [WVarint 2]); (3, f_msg r)]).
  { unfold small, marshal at 1, flat at 1, encode. cbn [flat_map map fst snd app f_msg]. unfold enc_field. cbn [fst snd wtype enc_val].
    rewrite ?zlen_app, ?app_nil_r, ?zlen_app.
    change (zlen []) with 0. pose proof (varint_le (1 * 8 + 0)). pose proof (varint_le 2). pose proof (varint_le (3 * 8 + 2)).
    pose proof (varint_le (zlen (marshal r))). lia. }
  assert (D : distinct (map fst [(1, [WVarint 2]); (3, f_msg r)]) = true) by reflexivity.
  assert (Dr : distinct (map fst r) = true) by reflexivity.
  eexists. split; [apply parse_marshal; [|exact S]|].
  { apply Forall_cons; [split; [cbn [fst]; unfold max_field; lia|]|apply Forall_cons; [split; [cbn [fst]; unfold max_field; lia|apply val_f_msg]|apply Forall_nil]].
    apply Forall_cons; [cbn [val_ok]; lia|apply Forall_nil]. }
  split; [apply (q_u64_flat _ 1 (Some 2) D); reflexivity|]. split; [apply (q_len_flat _ 2 None D); reflexivity|].
  apply (g_msg_some _ D 3 _ r).
  - reflexivity.
  - apply parse_marshal; [|unfold small; lia].
    do 3 (apply Forall_cons; [split; [cbn [fst]; unfold max_field; lia|apply Forall_cons; [cbn [val_ok]; trivial; lia|apply Forall_nil]]|]).
    apply Forall_nil.
  - rewrite (q_u64_flat r 1 (Some id) Dr), (q_u32_flat r 2 (Some 200) Dr), (q_len_flat r 3 (Some [79; 75]) Dr); try reflexivity.
    unfold opt, u32. lia.
Qed.
Print Assumptions C37_wire.
Example C37_wire_example : zlen (ack_bytes (2 ^ 64 - 1)) = 22 /\
  match parse (ack_bytes 41) with Some fs => get_sub 3 fs | None => None end <> None.
Proof. split; [vm_compute; reflexivity|vm_compute; discriminate]. Qed.

(* C37, the part that is FALSE: a frame that is not a request is acknowledged too, with id 0 *)
Theorem C37_response_acknowledged_refuted : exists C sk st f,
  unmarshal_ws (fr_bytes f) = Some None /\ fst (fst (listen C sk st [f])) = [TAck 0].
Proof. exists toy, ex_sk, ex_B, (ex_frame fb_response). vm_compute. split; reflexivity. Qed.
Print Assumptions C37_response_acknowledged_refuted.

(* C38: an envelope without a valid MAC is processed *)
Definition body_of (fb : bytes) : bytes := match unmarshal_ws fb with Some r => request_body r | None => [] end.
Theorem C38_unauthenticated_envelope_refuted : exists C sk st f m l,
  crypto_ok C /\ length sk = 52%nat /\ 10 <= zlen m /\
  (let n := Z.to_nat (zlen m - 10) in firstn 10 (hmac C (skipn 32 sk) (firstn n m)) <> skipn n m) /\
  handle_body C sk st f m = (Ok tt, l) /\ calls l = [HReceipt na 1 5].
Proof.
  exists toy, ex_sk, ex_B, (ex_frame fb_receipt), (body_of fb_receipt). eexists. split; [exact toy_ok|]. split; [reflexivity|].
  split; [vm_compute; congruence|]. split; [cbv zeta; apply beq_neq; vm_compute; reflexivity|].
  split; [vm_compute; reflexivity|]. reflexivity.
Qed.
Print Assumptions C38_unauthenticated_envelope_refuted.
Definition ex_sealed := Eval vm_compute in
  match Encrypt toy (firstn 32 ex_sk) (repeat 3 16) (env_bytes (mkEnv (Some 5) (Some na) (Some 1) None (Some 5) None (Some 7))) with
  | Ok c => let body := 1 :: repeat 3 16 ++ c in body ++ firstn 10 (hmac toy (skipn 32 ex_sk) body)
  | _ => []
  end.
Example C38_example : fst (handle_body toy ex_sk ex_B (ex_frame []) ex_sealed) = Ok tt /\
  calls (snd (handle_body toy ex_sk ex_B (ex_frame []) ex_sealed)) = [HReceipt na 1 5].
Proof. vm_compute. split; reflexivity. Qed.

(* C39 *)
Theorem C39_listener_crashes_refuted : exists C sk st fs1 fs2,
  crypto_ok C /\ length sk = 52%nat /\ snd (listen C sk st fs1) = Crashed /\ snd (listen C sk st fs2) = Crashed.
Proof.
  exists toy, ex_sk, ex_B, [ex_frame fb_receipt; ex_frame fb_short; ex_frame fb_text], [ex_frame fb_receipt; ex_frame fb_garbage].
  split; [exact toy_ok|]. split; [reflexivity|]. vm_compute. split; reflexivity.
Qed.
Print Assumptions C39_listener_crashes_refuted.
Example C39_example : decryptReceivedMessage toy ex_sk (repeat 255 12) = Ok (repeat 255 12) /\ parse (repeat 255 12) = None.
Proof. vm_compute. split; reflexivity. Qed.

(* C40: a content with a sync and a call part *)
Definition c_both := Eval vm_compute in c_sync_end ++ c_hangup.
Example C40_example : exists c r l, unmarshal_content c_both = Some c /\ first_part c = PSync /\ c_call c <> None /\
  handleMessage toy (ex_outside no_fetch) [] na 7 c_both = (r, l) /\ length (calls l) = 1%nat.
Proof.
  do 3 eexists. split; [vm_compute; reflexivity|]. split; [reflexivity|]. split; [discriminate|].
  split; [vm_compute; reflexivity|]. reflexivity.
Qed.

Lemma ex_decrypts (w : bytes) (p : res bytes * list eff) : receive toy (rs_w ex_B) na 1 PREKEY_BUNDLE w ex_r = p ->
  forall pt, fst p = Ok pt -> decrypts toy ex_B (ex_env w) ex_r pt (snd p).
Proof.
  intros E pt F. exists 3, PREKEY_BUNDLE, w. split; [reflexivity|]. split; [reflexivity|]. split; [reflexivity|].
  change (source (ex_env w)) with na. change (device (ex_env w)) with 1. rewrite E. destruct p. cbn in F. subst. reflexivity.
Qed.
Example C41_example : exists c dm r l,
  opened toy (ex_outside no_fetch) ex_B (ex_env w_end) ex_r na c_end /\
  unmarshal_content c_end = Some c /\ c_data c = Some dm /\ d_flags dm = Some 1 /\
  handleReceivedMessage toy (ex_outside no_fetch) ex_B ex_r ex_r (Some (ex_env w_end)) = (r, l) /\
  r = Ok tt /\ w_sess (rs_w (apply_acts ex_B l)) nc 1 <> None.
Proof.
  do 4 eexists. split.
  { left. exists (padMessage c_end). eexists. split; [eapply ex_decrypts; [reflexivity|vm_compute; reflexivity]|]. split; [reflexivity|vm_compute; reflexivity]. }
  split; [vm_compute; reflexivity|]. split; [reflexivity|]. split; [reflexivity|]. split; [apply pair_eq; vm_compute; reflexivity|].
  split; [reflexivity|]. vm_compute. discriminate.
Qed.

(* C68: a, who is not the own account, ends B's session with c *)
Theorem C68_foreign_sync_obeyed_refuted : exists C ou st rnd rnd2 e dest dev r l,
  crypto_ok C /\ handleReceivedMessage C ou st rnd rnd2 (Some e) = (r, l) /\ r = Ok tt /\
  source e = na /\ dest <> source e /\ w_sess (rs_w st) dest dev <> None /\ w_sess (rs_w (apply_acts st l)) dest dev = None.
Proof.
  exists toy, (ex_outside no_fetch), ex_B, ex_r, ex_r, (ex_env w_sync_end), nc, 1. do 2 eexists. split; [exact toy_ok|].
  split; [apply pair_eq; vm_compute; reflexivity|]. split; [reflexivity|]. split; [reflexivity|]. split; [discriminate|].
  split; [vm_compute; discriminate|]. vm_compute. reflexivity.
Qed.
Print Assumptions C68_foreign_sync_obeyed_refuted.
Example C68_example : exists c sm s dm,
  opened toy (ex_outside no_fetch) ex_B (ex_env w_sync_end) ex_r na c_sync_end /\
  unmarshal_content c_sync_end = Some c /\ c_data c = None /\ c_sync c = Some sm /\ sy_sent sm = Some s /\
  sn_e164 s = Some nc /\ sn_msg s = Some dm /\ d_flags dm = Some 1.
Proof.
  do 4 eexists. split.
  { left. exists (padMessage c_sync_end). eexists. split; [eapply ex_decrypts; [reflexivity|vm_compute; reflexivity]|]. split; [reflexivity|vm_compute; reflexivity]. }
  split; [vm_compute; reflexivity|]. do 5 (split; [reflexivity|]). reflexivity.
Qed.

(* C69. FALSE of the code: three messages of an authenticated peer, each of which stops the client *)
Theorem C69_peer_can_crash_client_refuted : exists C ou st rnd rnd2 e1 e2 e3,
  crypto_ok C /\ ou_fetch ou bad_att = Ok (repeat 0 64) /\
  fst (handleReceivedMessage C ou st rnd rnd2 (Some e1)) = Panic /\   (* receipt without timestamps *)
  fst (handleReceivedMessage C ou st rnd rnd2 (Some e2)) = Panic /\   (* data message without timestamp *)
  fst (handleReceivedMessage C ou st rnd rnd2 (Some e3)) = Panic.     (* attachment with a short key *)
Proof.
  exists toy, (ex_outside (fun _ => Ok (repeat 0 64))), ex_B, ex_r, ex_r, (ex_env w_receipt), (ex_env w_nots), (ex_env w_att).
  split; [exact toy_ok|]. split; [reflexivity|]. split; [vm_compute; reflexivity|]. split; vm_compute; reflexivity.
Qed.
Print Assumptions C69_peer_can_crash_client_refuted.
Example C69_example : exists c dm, unmarshal_content c_text = Some c /\ c_data c = Some dm /\ tame_data dm /\ c_sync c = None /\ c_receipt c = None.
Proof.
  do 2 eexists. split; [vm_compute; reflexivity|]. split; [reflexivity|]. split; [repeat split; discriminate|]. split; reflexivity.
Qed.

(* C70. FALSE of the code: the client stops after storing the session and before calling the callback; the
   server delivers the message again, and it is then ignored as a duplicate. *)
Theorem C70_message_lost_in_crash_refuted : exists C ou st rnd rnd2 e k l m l',
  crypto_ok C /\ handleReceivedMessage C ou st rnd rnd2 (Some e) = (Ok tt, l) /\ calls l = [HMessage m] /\ m_text m = [104; 105] /\
  (k < length l)%nat /\ calls (firstn k l) = [] /\
  handleReceivedMessage C ou (apply_acts st (firstn k l)) rnd rnd2 (Some e) = (Ok tt, l') /\ calls l' = [].
Proof.
  exists toy, (ex_outside no_fetch), ex_B, ex_r, ex_r, (ex_env w_text), 3%nat. do 3 eexists. split; [exact toy_ok|].
  split; [apply pair_eq; vm_compute; reflexivity|]. split; [vm_compute; reflexivity|]. split; [reflexivity|].
  split; [vm_compute; repeat constructor|]. split; [vm_compute; reflexivity|].
  split; [apply pair_eq; vm_compute; reflexivity|]. vm_compute. reflexivity.
Qed.
Print Assumptions C70_message_lost_in_crash_refuted.

(* C71. FALSE of the code: a message whose attachment cannot be fetched is acknowledged and never reaches
   the callback, also if the server delivers it again when the attachment can be fetched. *)
Definition good_key : bytes := repeat 5 64.
Definition good_att : attptr := mkAtt (Some (inl 5)) None (Some good_key) None None None None None.
Definition good_blob : bytes := Eval vm_compute in
  match aesEncrypt toy (firstn 32 good_key) (repeat 3 16) [1; 2; 3] with Ok c => appendMAC toy (skipn 32 good_key) c | _ => [] end.
Definition c_good := Eval vm_compute in marshal_data (text_msg (Some 77) 0 [good_att]).
Definition w_good := Eval vm_compute in ex_wire c_good.
Definition fb_good := Eval vm_compute in ws_frame 46 (env_bytes (ex_env w_good)).
Definition ok_fetch (a : attptr) : res bytes := Ok good_blob.
Definition frame_with (fetch : attptr -> res bytes) (bs : bytes) : frame := mkFrame bs (ex_outside fetch) ex_r ex_r.
Definition called (tr : list trace) : list hcall := flat_map (fun t => match t with TAct (ACall h) => [h] | _ => [] end) tr.
Theorem C71_acknowledged_but_lost_refuted : exists C sk st f f' m,
  crypto_ok C /\ fr_bytes f = fr_bytes f' /\
  called (fst (fst (listen C sk st [f]))) = [HMessage m] /\ m_text m = [104; 105] /\ m_atts m = [[1; 2; 3]] /\
  (let '(tr, _, e) := listen C sk st [f'; f] in acks tr = [46; 46] /\ called tr = [] /\ e = Listening).
Proof.
  exists toy, ex_sk, ex_B, (frame_with ok_fetch fb_good), (frame_with no_fetch fb_good). eexists. split; [exact toy_ok|].
  split; [reflexivity|]. split; [vm_compute; reflexivity|]. split; [reflexivity|]. split; [reflexivity|]. vm_compute. repeat split; reflexivity.
Qed.
Print Assumptions C71_acknowledged_but_lost_refuted.

(* C72 *)
Theorem C72_call_message_refuted : exists C ou st rnd rnd2 e m l,
  crypto_ok C /\ handleReceivedMessage C ou st rnd rnd2 (Some e) = (Ok tt, l) /\
  calls l = [HMessage m] /\ m_text m = t_call ++ t_hangup.
Proof.
  exists toy, (ex_outside no_fetch), ex_B, ex_r, ex_r, (ex_env w_hangup). do 2 eexists. split; [exact toy_ok|].
  split; [apply pair_eq; vm_compute; reflexivity|]. split; [vm_compute; reflexivity|]. reflexivity.
Qed.
Print Assumptions C72_call_message_refuted.

(* C73. FALSE of the code: a message in a session kept under the number without its plus sign decrypts on
   the second attempt and uses up its key, but is dropped; delivered again it is dropped again. *)
Definition ex_talk := [Send SA [1]; Deliver 0 ex_r; Send SB [2]; Deliver 1 ex_r; Send SA (padMessage c_text)].
Definition ex_third := Eval vm_compute in
  match nth_error (y_net (run toy ex_setup (start toy ex_setup) ex_talk)) 2 with Some (_, t, b) => (t, b) | None => (PREKEY_BUNDLE, []) end.
Definition ex_B3 : rstate := mkRs (y_w (run toy ex_setup (start toy ex_setup) ex_talk) SB) (fun _ => None).
Definition env3 (src : bytes) : envelope := mkEnv (Some 1) (Some src) (Some 1) None (Some 5) (Some (snd ex_third)) (Some 7).
Theorem C73_legacy_message_lost_refuted : exists C ou st rnd rnd2 e e' m l,
  crypto_ok C /\ e_content e = e_content e' /\ source e = 43 :: source e' /\
  (* from the same session, the message would be delivered *)
  (exists l0, handleReceivedMessage C ou st rnd rnd2 (Some e') = (Ok tt, l0) /\ calls l0 = [HMessage m]) /\
  handleReceivedMessage C ou st rnd rnd2 (Some e) = (Err EInvalidMessage, l) /\ calls l = [] /\ length l = 1%nat /\
  handleReceivedMessage C ou (apply_acts st l) rnd rnd2 (Some e) = (Err EInvalidMessage, []).
Proof.
  exists toy, (ex_outside no_fetch), ex_B3, ex_r, ex_r, (env3 (43 :: na)), (env3 na). do 2 eexists. split; [exact toy_ok|].
  split; [reflexivity|]. split; [reflexivity|].
  split; [eexists; split; [apply pair_eq; vm_compute; reflexivity|vm_compute; reflexivity]|].
  split; [apply pair_eq; vm_compute; reflexivity|]. split; [vm_compute; reflexivity|]. split; [vm_compute; reflexivity|].
  vm_compute. reflexivity.
Qed.
Print Assumptions C73_legacy_message_lost_refuted.

(* C76. FALSE of the code: an ordinary message presented again is never recognised as a duplicate (the error
   of the session layer is replaced by InvalidMessageError), so it is reported as a failure. *)
Theorem C76_duplicate_never_reported : forall C w rid dev m rnd,
  fst (SessionDecryptWhisperMessage C w rid dev m rnd) <> Err EDuplicate.
Proof.
  intros C w rid dev m rnd. unfold SessionDecryptWhisperMessage, sc_decrypt.
  assert (T : forall l i, forall e, fst (try_prevs C l m rnd i) <> Err e).
  { induction l as [|s l IH]; intros i e; cbn [try_prevs fst]; [discriminate|].
    destruct (ss_decrypt C s m (rnd i)) as [[pt|x|] s']; cbn [fst]; try discriminate.
    specialize (IH (S i) e). destruct (try_prevs C l m rnd (S i)). exact IH. }
  destruct (ss_decrypt C (r_cur (LoadSession w rid dev)) m (rnd 0%nat)) as [[pt|x|] s']; cbn [fst]; try discriminate.
  specialize (T (r_prevs (LoadSession w rid dev)) 1%nat).
  destruct (try_prevs C (r_prevs (LoadSession w rid dev)) m rnd 1) as [[[[pt s2]|]|e|] l]; cbn [fst] in *; try discriminate.
  exfalso. now apply (T e).
Qed.
Print Assumptions C76_duplicate_never_reported.
Theorem C76_duplicate_is_an_error_refuted : exists C ou st rnd rnd2 e l,
  crypto_ok C /\ handleReceivedMessage C ou st rnd rnd2 (Some e) = (Ok tt, l) /\ length (calls l) = 1%nat /\
  handleReceivedMessage C ou (apply_acts st l) rnd rnd2 (Some e) = (Err EInvalidMessage, []).
Proof.
  exists toy, (ex_outside no_fetch), ex_B3, ex_r, ex_r, (env3 na). eexists. split; [exact toy_ok|].
  split; [apply pair_eq; vm_compute; reflexivity|]. split; [vm_compute; reflexivity|]. vm_compute. reflexivity.
Qed.
Print Assumptions C76_duplicate_is_an_error_refuted.

Example C74_example : exists r l m, handleReceivedMessage toy (ex_outside no_fetch) ex_B3 ex_r ex_r (Some (env3 na)) = (r, l) /\
  In (HMessage m) (calls l) /\ m_uuid m = na.
Proof.
  do 3 eexists. split; [apply pair_eq; vm_compute; reflexivity|]. split; [vm_compute; left; reflexivity|]. reflexivity.
Qed.

(* C75. The copy of a sent message for the own devices. A text arrives at the callback for sent messages
   with its destination; a session reset addressed to a UUID is refused there: its sessions stay. *)
Definition copy_of (pk : option bytes) (now : Z) (uuid text : bytes) (flags : Z) : syncmsg :=
  sync_of (mkSent None (Some uuid) (Some now) (Some (createMessage pk now (mkOut uuid text None None None flags 0 None)))).
Lemma copy_parsed pk now uuid text flags : wfb text -> u32 flags -> u64 now -> opt wfb pk ->
  zlen (marshal_sync (copy_of pk now uuid text flags)) < 2 ^ 63 ->
  unmarshal_content (stripPadding (padMessage (marshal_sync (copy_of pk now uuid text flags))))
  = Some (mkContent None (Some (copy_of pk now uuid text flags)) None false None false).
Proof.
  intros Wt Uf Un Wp S. rewrite strip_pad. apply unmarshal_marshal_sync; [|exact S].
  split; [exact Un|]. apply create_ok. constructor; cbn [o_text o_att o_flags o_expire o_time o_gv2]; auto; try discriminate. unfold u32; lia.
Qed.
Theorem C75_text_copy_arrives : forall C ou src me sts pk now uuid text, wfb text -> u64 now -> opt wfb pk ->
  zlen (marshal_sync (copy_of pk now uuid text 0)) < 2 ^ 63 ->
  exists m, handleMessage C ou src me sts (stripPadding (padMessage (marshal_sync (copy_of pk now uuid text 0))))
            = (Ok tt, [ACall (HSyncSent m sts)]) /\
    m_uuid m = uuid /\ m_text m = text /\ m_ts m = now /\ m_flags m = 0.
Proof.
  intros C ou src me sts pk now uuid text Wt Un Wp S. eexists. split.
  - unfold handleMessage. rewrite copy_parsed by (auto; unfold u32; lia). reflexivity.
  - cbn [m_uuid m_text m_ts m_flags]. repeat split; try reflexivity. destruct text; reflexivity.
Qed.
Theorem C75_end_session_copy_refused_refuted : forall C ou src me sts pk now uuid text, wfb text -> u64 now -> opt wfb pk ->
  zlen (marshal_sync (copy_of pk now uuid text 1)) < 2 ^ 63 ->
  handleMessage C ou src me sts (stripPadding (padMessage (marshal_sync (copy_of pk now uuid text 1)))) = (Err EBadFormat, []).
Proof.
  intros C ou src me sts pk now uuid text Wt Un Wp S. unfold handleMessage. rewrite copy_parsed by (auto; unfold u32; lia). reflexivity.
Qed.
Print Assumptions C75_text_copy_arrives.
Print Assumptions C75_end_session_copy_refused_refuted.
Example C75_example : zlen (marshal_sync (copy_of None 1600000000000 nb [104; 105] 1)) < 2 ^ 63 /\ u64 1600000000000 /\
  handleMessage toy (ex_outside no_fetch) na na 7 (marshal_sync (copy_of None 1600000000000 nb [104; 105] 1)) = (Err EBadFormat, []) /\
  length (snd (handleMessage toy (ex_outside no_fetch) na na 7 (marshal_sync (copy_of None 1600000000000 nb [104; 105] 0)))) = 1%nat.
Proof. split; [vm_compute; reflexivity|]. split; [unfold u64; lia|]. split; vm_compute; reflexivity. Qed.

Example C35_text_example : let V := ex_server ex_pub_of (fun _ => ok200) in let cs := ex_cs V O in
  recID nb = Ok (fst (st_peer ex_setup SA)) /\ cs_devs V cs nb = None /\
  zlen (marshal_data (createMessage None 1600000000000 (mkOut nb [104; 105] None None None 0 60 None))) < 2 ^ 59.
Proof. cbv zeta. split; [reflexivity|]. split; [reflexivity|]. vm_compute. reflexivity. Qed.
