(* C217: the contacts that a client asks its other devices for. *)
From Coq Require Import ZArith List Lia Bool.
From Verif Require Import Bytes Res Wire WireProofs Crypto Cbc Gcm Messages Session SessionProofs SessionFacts Conversation RecordCodec RecordCodecProofs
  Content ContentProofs Encodings Sending SendingProofs Examples PropHistory PropSending Receiving PropReceiving Attachments Access PropAccess
  Answers PropAnswers SyncContacts.
Import ListNotations.
Open Scope Z_scope.

(* C217. SyncContacts sends nothing to anybody but the own account; every text it posts is a request for the contacts
   and nothing else. *)
Theorem C217_asks : forall C V rnd fuel self now st r st', SyncContacts C V rnd fuel self now st = (r, st') ->
  exists lg, cs_log V st' = cs_log V st ++ lg /\
  forall ev, In ev lg -> to_whom ev = self /\
  forall q rep, ev = EvPut q rep -> forall j, In j (q_msgs q) -> exists recid pt, recID self = Ok recid /\ carries C recid pt j /\
    unmarshal_content (stripPadding pt) = Some (mkContent None (Some (mkSync None false false (Some (Some 1)) [] false None)) None false None false).
Proof.
  intros C V rnd fuel self now st r st'. unfold SyncContacts.
  destruct (buildAndSend C V rnd fuel self (padMessage (marshal_request 1)) now (default_devs V st self)) as [r1 st1] eqn:E.
  apply send_about in E. destruct E as (lg & L & F). rewrite default_log in L. intros H.
  assert (st' = st1) as -> by (destruct r1 as [[x|e|]|]; congruence).
  exists lg. split; [exact L|]. intros ev HI. rewrite Forall_forall in F. specialize (F ev HI). split.
  - destruct ev as [u d p|q rep]; cbn [about to_whom] in *; [exact F|exact (proj1 F)].
  - intros q rep ->. cbn [about] in F. destruct F as (_ & recid & R & FC). intros j Hj. rewrite Forall_forall in FC.
    exists recid, (padMessage (marshal_request 1)). split; [exact R|]. split; [exact (FC j Hj)|]. vm_compute. reflexivity.
Qed.
Print Assumptions C217_asks.

(* C217. If it returns without an error a post to the own account was accepted. *)
Theorem C217_asked : forall C V rnd fuel self now st st', SyncContacts C V rnd fuel self now st = (Some (Ok tt), st') ->
  exists lg, cs_log V st' = cs_log V st ++ lg /\ exists q s m e x n, In (EvPut q (PutStatus s m e x n)) lg /\ q_dest q = self /\ 200 <= s < 300.
Proof.
  intros C V rnd fuel self now st st'. unfold SyncContacts.
  destruct (buildAndSend C V rnd fuel self (padMessage (marshal_request 1)) now (default_devs V st self)) as [r1 st1] eqn:E.
  intros H. assert (exists y, r1 = Some (Ok y) /\ st' = st1) as (y & -> & ->).
  { destruct r1 as [[y|e|]|]; inversion H; subst. exists y. split; reflexivity. }
  clear H. revert E. rewrite <- (default_log V st self). generalize (default_devs V st self). clear st. revert y st1.
  induction fuel as [|f IH]; intros y st1 st; cbn [buildAndSend]; [intros X; discriminate X|].
  destruct (buildMessage C V rnd self (padMessage (marshal_request 1)) (devs_of V st self) st) as [[js|e|] st2] eqn:EB.
  2,3: intros X; discriminate X.
  assert (G : exists l0, cs_log V st2 = cs_log V st ++ l0).
  { unfold buildMessage in EB. destruct (recID self) as [recid|e|]; try discriminate EB. apply build_log in EB.
    destruct EB as (_ & (f1 & L1 & _) & _). exists f1. exact L1. }
  destruct G as (l0 & G).
  destruct (sv_put V (cs_srv V st2) (mkReq self now js)) as [reply s'].
  destruct reply as [|s m e x n]; [intros X; discriminate X|].
  assert (MORE : forall st3, cs_log V st3 = cs_log V st2 ++ [EvPut (mkReq self now js) (PutStatus s m e x n)] ->
    buildAndSend C V rnd f self (padMessage (marshal_request 1)) now st3 = (Some (Ok y), st1) ->
    exists lg, cs_log V st1 = cs_log V st ++ lg /\ exists q s m e x n, In (EvPut q (PutStatus s m e x n)) lg /\ q_dest q = self /\ 200 <= s < 300).
  { intros st3 G3 H. destruct (IH _ _ _ H) as (lg & L & q & s0 & m0 & e0 & x0 & n0 & HI & HQ).
    exists (l0 ++ [EvPut (mkReq self now js) (PutStatus s m e x n)] ++ lg). split; [rewrite L, G3, G, <- !app_assoc; reflexivity|].
    exists q, s0, m0, e0, x0, n0. split; [apply in_or_app; right; apply in_or_app; right; exact HI|exact HQ]. }
  destruct (s =? 409).
  { apply MORE. reflexivity. }
  destruct (s =? 410).
  { destruct x as [|d t]; destruct (recID self) as [recid|e1|]; intros H; try discriminate H;
      (eapply MORE; [|exact H]; reflexivity). }
  destruct (isError s) eqn:ES; intros H; [discriminate H|].
  apply (f_equal snd) in H. cbn [snd] in H. subst st1. exists (l0 ++ [EvPut (mkReq self now js) (PutStatus s m e x n)]).
  split; [cbn [cs_log]; rewrite G, <- app_assoc; reflexivity|]. exists (mkReq self now js), s, m, e, x, n.
  split; [apply in_or_app; right; left; reflexivity|]. split; [reflexivity|].
  unfold isError in ES. apply orb_false_iff in ES. destruct ES as (E1 & E2). apply Z.ltb_ge in E1. apply Z.leb_gt in E2. lia.
Qed.
Print Assumptions C217_asked.

(* C217. FALSE of the code: if the message is refused the client stops instead of getting the error. *)
Theorem C217_refused_stops : forall C V rnd fuel self now st, (forall s q, refused (fst (sv_put V s q))) ->
  fst (SyncContacts C V rnd (S fuel) self now st) = Some Panic.
Proof.
  intros C V rnd fuel self now st RF. unfold SyncContacts.
  destruct (refused_fails C V rnd self (padMessage (marshal_request 1)) now fuel (default_devs V st self) RF) as (r & E & N).
  destruct (buildAndSend C V rnd (S fuel) self (padMessage (marshal_request 1)) now (default_devs V st self)) as [r1 s1].
  cbn [fst] in E. subst r1. destruct r as [y|y|]; [destruct (N y eq_refl)|reflexivity|reflexivity].
Qed.
Print Assumptions C217_refused_stops.

(* ---- the answer ---- *)
(* an act that only saves what the session has become *)
Definition saves (a : act) : Prop := exists e, a = AStore e.
Lemma saves_map l : Forall saves (map AStore l).
Proof. apply Forall_forall. intros a H. apply in_map_iff in H. destruct H as (e & <- & _). exists e. reflexivity. Qed.

(* C217. FALSE of the code: whoever it is from and whatever it holds, a list of contacts or of groups is not even fetched:
   nothing is handed to the application, nothing is sent, and only the session with the sender is written. *)
Theorem C217_ignored : forall C ou st rnd rnd2 e sender body c sm r l,
  opened C ou st e rnd sender body -> unmarshal_content body = Some c -> c_data c = None -> c_sync c = Some sm -> sy_sent sm = None ->
  sy_contacts sm = true \/ sy_groups sm = true -> handleReceivedMessage C ou st rnd rnd2 (Some e) = (r, l) ->
  r = Ok tt /\ Forall saves l.
Proof.
  intros C ou st rnd rnd2 e sender body c sm r l O U CD CS S0 HS H.
  assert (G : forall src uuid ts, handleMessage C ou src uuid ts body = (Ok tt, [])).
  { intros src uuid ts. unfold handleMessage. rewrite U, CD, CS. unfold handleSyncMessage. rewrite S0.
    destruct (sy_contacts sm); [reflexivity|]. destruct HS as [X|X]; [discriminate X|]. rewrite X. reflexivity. }
  destruct O as [(pt & lst & DE & -> & ->)|(text & ts & dest & T & DD & CR & B64 & NB)].
  - rewrite (handle_decrypted C ou st rnd rnd2 e pt lst DE) in H. unfold deliver in H. rewrite G in H. cbn [fst snd] in H.
    rewrite app_nil_r in H. injection H as <- <-. split; [reflexivity|apply saves_map].
  - unfold handleReceivedMessage in H. rewrite T in H. cbn [Z.eqb Pos.eqb] in H.
    unfold handle_unidentified in H. rewrite DD, CR in H. unfold pure, andthen at 1 in H. cbn [app] in H.
    rewrite B64 in H. unfold andthen in H. cbn [app] in H. destruct body as [|x body]; [contradiction|].
    rewrite G in H. injection H as <- <-. split; [reflexivity|constructor].
Qed.
Print Assumptions C217_ignored.

Lemma blob_content kind p : kind = 2 \/ kind = 3 -> att_ok (blob_ptr p) -> zlen (marshal_blob kind p) < 2 ^ 63 ->
  unmarshal_content (marshal_blob kind p) = Some (mkContent None (Some (mkSync None (kind =? 2) (kind =? 3) None [] false None)) None false None false).
Proof.
  intros HK OK S0. unfold unmarshal_content, marshal_blob in *.
  set (s1 := att_slots (blob_ptr p)) in *. set (s2 := [(1, f_msg s1)]) in *. set (s3 := [(kind, f_msg s2)]) in *. set (s4 := [(2, f_msg s3)]) in *.
  assert (S4 : small s4) by exact S0.
  assert (S3 : small s3) by (apply (small_sub _ 2 (f_msg s3) s3 S4); left; reflexivity).
  assert (S2 : small s2) by (apply (small_sub _ kind (f_msg s2) s2 S3); left; reflexivity).
  assert (D4 : distinct (map fst s4) = true) by reflexivity.
  assert (D3 : distinct (map fst s3) = true) by (destruct HK as [-> | ->]; reflexivity).
  assert (O2 : slots_ok s2) by (unfold s2; slots_tac; apply val_f_msg).
  assert (O3 : slots_ok s3) by (unfold s3; destruct HK as [-> | ->]; slots_tac; apply val_f_msg).
  assert (O4 : slots_ok s4) by (unfold s4; slots_tac; apply val_f_msg).
  rewrite parse_marshal by assumption. unfold content_dec, present.
  rewrite !(g_msg_none s4 D4) by reflexivity.
  rewrite (g_msg_some s4 D4 2 _ s3 (mkSync None (kind =? 2) (kind =? 3) None [] false None)); [reflexivity|reflexivity|apply parse_marshal; assumption|].
  unfold sync_dec, present.
  assert (P2 : parse (marshal s2) = Some (flat s2)) by (apply parse_marshal; assumption).
  destruct HK as [-> | ->].
  - rewrite (g_msg_some s3 D3 2 _ s2 (flat s2)); [|reflexivity|exact P2|reflexivity].
    rewrite !(g_msg_none s3 D3) by reflexivity. unfold g_rep. rewrite ?(get_all_flat s3 D3). reflexivity.
  - rewrite (g_msg_some s3 D3 3 _ s2 (flat s2)); [|reflexivity|exact P2|reflexivity].
    rewrite !(g_msg_none s3 D3) by reflexivity. unfold g_rep. rewrite ?(get_all_flat s3 D3). reflexivity.
Qed.

(* C217. FALSE of the code: what one client answers another client drops. Every message of the answer to a request for the
   contacts is such a list: the client that asked and opens it is left with what it had. *)
Theorem C217_answer_dropped : forall C G sha256 V rnd fuel o ou rnd1 rnd2 pkeys e st sender body c sm r st' cs b p x,
  opened C ou (mkRs (cs_w V st) pkeys) e rnd1 sender body -> unmarshal_content body = Some c -> c_data c = None -> c_sync c = Some sm ->
  sy_sent sm = None -> sy_contacts sm = false -> sy_groups sm = false -> sy_request sm = Some (Some 1) ->
  ow_contacts o = Ok cs -> contact_blob cs = Ok b ->
  uploadAttachmentV3 C sha256 (ow_up o) (ow_keys o) (ow_iv o) b octet_stream false = Ok (p, x) ->
  u32 (pt_cdn p) -> zlen (marshal_blob 2 p) < 2 ^ 63 ->
  react C G sha256 V rnd fuel o ou rnd1 rnd2 pkeys e st = (r, st') ->
  exists lg, cs_log V st' = cs_log V st ++ lg /\
  forall q rep, In (EvPut q rep) lg -> forall j, In j (q_msgs q) -> exists recid pt, recID (ow_self o) = Ok recid /\ carries C recid pt j /\
    forall ou2 rs rnd3 rnd4 e2 sender2 r2 l, opened C ou2 rs e2 rnd3 sender2 (stripPadding pt) ->
    handleReceivedMessage C ou2 rs rnd3 rnd4 (Some e2) = (r2, l) -> r2 = Ok tt /\ Forall saves l.
Proof.
  intros C G sha256 V rnd fuel o ou rnd1 rnd2 pkeys e st sender body c sm r st' cs b p x OP UC CD CS S0 SC SG RQ E1 E2 U CDN SM H.
  unfold react in H. rewrite (opened_content _ _ _ _ _ _ _ _ OP) in H. unfold answerContent in H. rewrite UC, CD, CS in H.
  unfold answerSync in H. rewrite S0, SC, SG, RQ in H. unfold answerRequest in H. cbn [g_num Z.eqb Pos.eqb] in H.
  destruct (contacts_about _ _ _ _ _ _ _ _ _ _ _ _ _ E1 E2 U H) as (lg & L & F). exists lg. split; [exact L|].
  intros q rep HI. rewrite Forall_forall in F. specialize (F _ HI). cbn [about] in F. destruct F as (_ & recid & R & FC). intros j Hj.
  rewrite Forall_forall in FC. exists recid, (padMessage (marshal_blob 2 p)). split; [exact R|]. split; [exact (FC j Hj)|].
  assert (PK : att_ok (blob_ptr p)).
  { assert (P3 : pt_size p = zlen b mod 2 ^ 32).
    { clear -U. unfold uploadAttachmentV3 in U. destruct (aesEncrypt C (firstn 32 (ow_keys o)) (ow_iv o) b) as [e0| |]; cbn [bind] in U; try discriminate U.
      destruct (allocateAttachmentV3 (ow_up o)) as [[l a]| |]; cbn [bind] in U; try discriminate U.
      unfold putAttachmentV3 in U. destruct (us_put (ow_up o) l _); cbn [bind] in U; try discriminate U. injection U as <- _. reflexivity. }
    unfold att_ok, blob_ptr. cbn [ap_id ap_size ap_flags ap_cdn opt].
    split; [trivial|]. split; [rewrite P3; unfold u32; apply Z.mod_pos_bound; lia|]. split; [trivial|exact CDN]. }
  intros ou2 rs rnd3 rnd4 e2 sender2 r2 l O2 H2. rewrite strip_pad in O2.
  eapply C217_ignored; [exact O2|apply blob_content; [left; reflexivity|exact PK|exact SM]|reflexivity|reflexivity|reflexivity|left; reflexivity|exact H2].
Qed.
Print Assumptions C217_answer_dropped.

(* B answers with two contacts, one of which is valid; A, who asked, opens the answer and could fetch the list *)
Definition ex_ptr : pointer := Eval vm_compute in
  match uploadAttachmentV3 toy ex_sha ex_up (repeat 9 64) (repeat 8 16) ex_blob octet_stream false with Ok (p, _) => p | _ => mkPtr [] 0 [] [] [] 0 false end.
Definition ex_stored : bytes := Eval vm_compute in
  match uploadAttachmentV3 toy ex_sha ex_up (repeat 9 64) (repeat 8 16) ex_blob octet_stream false with Ok (_, (_, m)) => m | _ => [] end.
Definition w_contacts := Eval vm_compute in ex_wire (marshal_blob 2 ex_ptr).
Definition with_list := ex_outside (fun _ => Ok ex_stored).

Lemma contacts_come : content_of toy with_list ex_worldB ex_r (ex_env w_contacts) = Some (marshal_blob 2 ex_ptr).
Proof. vm_compute. reflexivity. Qed.
(* C217. FALSE of the code: the contacts asked for do not come. The list is there and could be read, but the message
   that says so is done with no call of the application. *)
Theorem C217_contacts_refuted : exists C ou st rnd rnd2 e sender body a s contacts l,
  crypto_ok C /\ opened C ou st e rnd sender body /\ blob_in 2 body = Some a /\ handleSingleAttachment C ou a = Ok s /\
  contact_blob contacts = Ok s /\ filter (fun c => isValidUUID (ct_uuid c)) contacts <> [] /\
  handleReceivedMessage C ou st rnd rnd2 (Some e) = (Ok tt, l) /\ forall h, ~ In (ACall h) l.
Proof.
  destruct (content_opened _ _ _ (fun _ => None) _ _ _ contacts_come) as (sender & OP).
  destruct (handleReceivedMessage toy with_list (mkRs ex_worldB (fun _ => None)) ex_r ex_r (Some (ex_env w_contacts))) as [r l] eqn:E.
  assert (K : r = Ok tt /\ Forall saves l).
  { eapply C217_ignored; [exact OP|apply blob_content; [left; reflexivity| |reflexivity]|reflexivity|reflexivity|reflexivity|left; reflexivity|exact E].
    vm_compute. repeat split; discriminate. }
  destruct K as [-> F].
  exists toy, with_list, (mkRs ex_worldB (fun _ => None)), ex_r, ex_r, (ex_env w_contacts), sender, (marshal_blob 2 ex_ptr), (blob_ptr ex_ptr), ex_blob, ex_contacts, l.
  split; [exact toy_ok|]. split; [exact OP|]. split; [vm_compute; reflexivity|]. split; [vm_compute; reflexivity|].
  split; [vm_compute; reflexivity|]. split; [vm_compute; discriminate|]. split; [exact E|].
  intros h HI. rewrite Forall_forall in F. destruct (F _ HI) as (x & X). discriminate X.
Qed.
Print Assumptions C217_contacts_refuted.

(* the client asks: it fetches keys for and writes to itself; the request is the one that B answers in C210_example; with
   a server that refuses it stops *)
Definition no_server := third_server (fun _ => PutStatus 413 [] [] [] false).
Example C217_example :
  (let (r, st) := SyncContacts toy tV PropSending.ex_rnd 5 nb 1000 (ex_recv tV O) in (r, map to_whom (cs_log tV st))) = (Some (Ok tt), [nb; nb]) /\
  marshal_request 1 = c_request 1 /\
  fst (SyncContacts toy no_server PropSending.ex_rnd 5 nb 1000 (ex_recv no_server O)) = Some Panic.
Proof. split; [vm_compute; reflexivity|]. split; [reflexivity|]. vm_compute. reflexivity. Qed.
