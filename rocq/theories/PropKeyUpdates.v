(* C178: the profile key kept for a contact is the one that contact announced (/repo/textsecure.go 494-513,
   /repo/contacts/contacts.go 163-178, /repo/handler.go 10-112, /repo/sync.go 18-135).
   C75: what is posted for the own devices is the copy meant there (/repo/sender.go 13-84). *)
From Coq Require Import ZArith List Lia Bool.
From Verif Require Import Bytes Res Wire WireProofs Crypto Cbc Messages Session Builder Conversation RecordCodec Content ContentProofs
  Encodings PropEncodings Sending SendingProofs Examples PropHistory PropSending Receiving PropReceiving.
Import ListNotations.
Open Scope Z_scope.

(* what is done for a message that was opened *)
Lemma opened_acts C ou st rnd rnd2 e sender body r l : opened C ou st e rnd sender body ->
  handleReceivedMessage C ou st rnd rnd2 (Some e) = (r, l) ->
  exists pre src ts, l = map AStore pre ++ snd (handleMessage C ou src sender ts body).
Proof.
  intros O H. destruct O as [(pt & lst & DEC & -> & ->)|(text & ts & d0 & T & DD & CR & B64 & NB)].
  - rewrite (handle_decrypted C ou st rnd rnd2 e pt lst DEC) in H. injection H as _ <-.
    exists lst, (source e), (g_num (e_sts e)). reflexivity.
  - exists [], [], (ts mod 2 ^ 64). unfold handleReceivedMessage in H. rewrite T in H. cbn [Z.eqb Pos.eqb] in H.
    unfold handle_unidentified in H. rewrite DD, CR in H. unfold pure, andthen at 1 in H. cbn [app] in H.
    rewrite B64 in H. unfold andthen in H. cbn [app] in H. destruct body as [|x body]; [contradiction|].
    destruct (handleMessage C ou [] sender (ts mod 2 ^ 64) (x :: body)) as [r' l'] eqn:HM.
    injection H as _ <-. reflexivity.
Qed.

Lemma stores_keep st l : rs_pkeys (apply_acts st (map AStore l)) = rs_pkeys st.
Proof. revert st. induction l as [|a l IH]; intros st; [reflexivity|]. exact (IH (mkRs (apply_eff (rs_w st) a) (rs_pkeys st))). Qed.

Definition keyless (a : act) : Prop := match a with AContact _ _ => False | _ => True end.
Lemma keyless_keep l : Forall keyless l -> forall st, rs_pkeys (apply_acts st l) = rs_pkeys st.
Proof.
  induction 1 as [|a l K _ IH]; intros st; [reflexivity|]. cbn [apply_acts fold_left]. fold (apply_acts (apply_act st a) l).
  rewrite IH. destruct a; try reflexivity. elim K.
Qed.

(* the acts of a data message: those of its flags, then calls *)
Lemma data_acts C ou src uuid dm : exists lc,
  snd (handleDataMessage C ou src uuid dm) = snd (handleFlags ou uuid dm) ++ lc /\ Forall keyless lc.
Proof.
  unfold handleDataMessage, andthen, pure. destruct (handleFlags ou uuid dm) as [[f|e|] lf]; cbn [snd];
    [|exists []; rewrite app_nil_r; split; [reflexivity|constructor]..].
  destruct (handleAttachments C ou (d_atts dm)) as [atts|e|]; cbn [snd];
    [|exists []; split; [reflexivity|constructor]..].
  destruct (d_ts dm) as [ts|]; [|exists []; split; [reflexivity|constructor]].
  destruct (match d_gv2 dm with None => Ok None | Some g => ou_group ou g end) as [g|e|]; cbn [snd app];
    eexists; (split; [reflexivity|]); repeat constructor.
Qed.

(* C178: a key announced by a contact is the one kept for that contact, and those of all others stay *)
Theorem C178_learnt : forall C ou st rnd rnd2 e sender body c dm r l,
  opened C ou st e rnd sender body -> unmarshal_content body = Some c -> c_data c = Some dm -> d_flags dm = Some 4 ->
  handleReceivedMessage C ou st rnd rnd2 (Some e) = (r, l) ->
  forall v, rs_pkeys (apply_acts st l) v = if beq v sender then Some (d_pkey dm) else rs_pkeys st v.
Proof.
  intros C ou st rnd rnd2 e sender body c dm r l O U D F H v.
  destruct (opened_acts _ _ _ _ _ _ _ _ _ _ O H) as (pre & src & ts & ->).
  rewrite apply_acts_app. set (st1 := apply_acts st (map AStore pre)).
  assert (K : rs_pkeys st1 = rs_pkeys st) by apply stores_keep. rewrite <- K. clearbody st1. clear K.
  unfold handleMessage. rewrite U, D.
  destruct (data_acts C ou src sender dm) as (lc & -> & KL). rewrite apply_acts_app, (keyless_keep lc KL).
  unfold handleFlags. rewrite F. cbn [g_num Z.eqb Pos.eqb]. destruct (ou_contacts ou); reflexivity.
Qed.
Print Assumptions C178_learnt.

(* a message that announces no key and carries no copy of a sent message changes no key. Not proved, because false: the
   same of copies of sent messages. *)
Theorem C178_only_announced_partial : forall C ou st rnd rnd2 e sender body c r l,
  opened C ou st e rnd sender body -> unmarshal_content body = Some c ->
  (forall dm, c_data c = Some dm -> d_flags dm <> Some 4) ->
  (c_data c = None -> forall sm, c_sync c = Some sm -> sy_sent sm = None) ->
  handleReceivedMessage C ou st rnd rnd2 (Some e) = (r, l) ->
  forall v, rs_pkeys (apply_acts st l) v = rs_pkeys st v.
Proof.
  intros C ou st rnd rnd2 e sender body c r l O U D S H v.
  destruct (opened_acts _ _ _ _ _ _ _ _ _ _ O H) as (pre & src & ts & ->).
  rewrite apply_acts_app. set (st1 := apply_acts st (map AStore pre)).
  assert (K : rs_pkeys st1 = rs_pkeys st) by apply stores_keep. rewrite <- K. clearbody st1. clear K.
  rewrite keyless_keep; [reflexivity|]. unfold handleMessage. rewrite U.
  destruct (c_data c) as [dm|].
  - destruct (data_acts C ou src sender dm) as (lc & -> & KL). apply Forall_app. split; [|exact KL].
    unfold handleFlags. specialize (D dm eq_refl). destruct (d_flags dm) as [f|]; cbn [g_num].
    + destruct (Z.eqb_spec f 1) as [->|]; [destruct (recID sender); repeat constructor|].
      destruct (Z.eqb_spec f 4) as [->|]; [elim D; reflexivity|constructor].
    + cbn [Z.eqb]. constructor.
  - specialize (S eq_refl). destruct (c_sync c) as [sm|].
    + unfold handleSyncMessage. rewrite (S sm eq_refl).
      destruct (sy_contacts sm); [constructor|]. destruct (sy_groups sm); [constructor|].
      destruct (sy_request sm) as [ty|].
      { unfold handleSyncRequest. destruct ((g_num ty =? 1) || (g_num ty =? 2)); repeat constructor. }
      destruct (sy_read sm) as [|x rs].
      { destruct (sy_blocked sm); [constructor|]. destruct (sy_verified sm); repeat constructor. }
      unfold handleSyncRead. cbn [snd]. apply Forall_forall. intros a Ha. apply in_map_iff in Ha.
      destruct Ha as (y & <- & _). exact Logic.I.
    + destruct (c_call c) as [cm|]; [repeat constructor|].
      destruct (c_receipt c) as [rm|]; [unfold handleReceiptMessage; destruct (rc_ts rm), (rc_type rm); repeat constructor|].
      destruct (c_typing c); repeat constructor.
Qed.
Print Assumptions C178_only_announced_partial.

(* a key sent with flag 4 by this library is the one the peer keeps *)
Theorem C178_end_to_end : forall C ou st src me sts pk now text, wfb text -> u64 now -> opt wfb pk ->
  zlen (marshal_data (createMessage pk now (mkOut me text None None None 4 0 None))) < 2 ^ 63 ->
  let l := snd (handleMessage C ou src me sts
             (stripPadding (padMessage (marshal_data (createMessage pk now (mkOut me text None None None 4 0 None)))))) in
  rs_pkeys (apply_acts st l) me = Some pk.
Proof.
  intros C ou st src me sts pk now text Wt Un Wp S. cbv zeta. unfold handleMessage.
  rewrite strip_pad, unmarshal_marshal_data; [|apply create_ok; constructor; cbn [o_text o_att o_flags o_expire o_time o_gv2]; auto; try discriminate; unfold u32; lia|exact S].
  cbn [c_data]. destruct (data_acts C ou src me (createMessage pk now (mkOut me text None None None 4 0 None))) as (lc & -> & KL).
  rewrite apply_acts_app, (keyless_keep lc KL). unfold handleFlags. cbn [createMessage d_flags o_flags g_num].
  unfold createMessage. cbn [d_flags d_pkey o_flags Z.eqb Pos.eqb g_num].
  destruct (ou_contacts ou); cbn [snd apply_acts fold_left apply_act rs_pkeys]; rewrite beq_refl; reflexivity.
Qed.
Print Assumptions C178_end_to_end.

(* FALSE for copies: whoever sends one sets the key of whomever it names *)
Theorem C178_anyone_sets_any_key : forall C ou st rnd rnd2 e sender body c sm s dm dest r l,
  opened C ou st e rnd sender body -> unmarshal_content body = Some c -> c_data c = None -> c_sync c = Some sm ->
  sy_sent sm = Some s -> sn_e164 s = dest -> sn_msg s = Some dm -> d_flags dm = Some 4 ->
  handleReceivedMessage C ou st rnd rnd2 (Some e) = (r, l) ->
  rs_pkeys (apply_acts st l) (g_bytes dest) = Some (d_pkey dm).
Proof.
  intros C ou st rnd rnd2 e sender body c sm s dm dest r l O U D SY SE DE SM F H.
  destruct (opened_acts _ _ _ _ _ _ _ _ _ _ O H) as (pre & src & ts & ->). rewrite apply_acts_app.
  unfold handleMessage. rewrite U, D, SY. unfold handleSyncMessage. rewrite SE. unfold handleSyncSent. rewrite SM, DE.
  unfold handleFlags. rewrite F. cbn [g_num Z.eqb Pos.eqb]. unfold andthen, pure.
  assert (X : forall q lc, Forall keyless lc ->
            rs_pkeys (apply_acts q (AContact (g_bytes dest) (d_pkey dm) :: lc)) (g_bytes dest) = Some (d_pkey dm)).
  { intros q lc K. cbn [apply_acts fold_left]. fold (apply_acts (apply_act q (AContact (g_bytes dest) (d_pkey dm))) lc).
    rewrite (keyless_keep lc K). cbn [apply_act rs_pkeys]. rewrite beq_refl. reflexivity. }
  destruct (ou_contacts ou); [|apply X; constructor..].
  destruct (handleAttachments C ou (d_atts dm)); [|apply X; constructor..].
  destruct (d_ts dm); apply X; repeat constructor.
Qed.
Print Assumptions C178_anyone_sets_any_key.

Definition ex_key : bytes := repeat 9 32.
Definition key_msg : datamsg := createMessage (Some ex_key) 1600000000000 (mkOut nb [] None None None 4 0 None).
Definition c_sync_key := Eval vm_compute in marshal_sync (sync_of (mkSent (Some nc) None (Some 77) (Some key_msg))).
Definition w_sync_key := Eval vm_compute in ex_wire c_sync_key.
Definition c_key := Eval vm_compute in marshal_data key_msg.
Definition w_key := Eval vm_compute in ex_wire c_key.

Theorem C178_foreign_key_refuted : exists C ou st rnd rnd2 e other k r l,
  crypto_ok C /\ handleReceivedMessage C ou st rnd rnd2 (Some e) = (r, l) /\ r = Ok tt /\
  source e = na /\ other <> source e /\ rs_pkeys st other <> Some (Some k) /\ rs_pkeys (apply_acts st l) other = Some (Some k).
Proof.
  exists toy, (ex_outside no_fetch), ex_B, ex_r, ex_r, (ex_env w_sync_key), nc, ex_key. do 2 eexists. split; [exact toy_ok|].
  split; [apply pair_eq; vm_compute; reflexivity|]. split; [reflexivity|]. split; [reflexivity|]. split; [discriminate|].
  split; [vm_compute; discriminate|]. vm_compute. reflexivity.
Qed.
Print Assumptions C178_foreign_key_refuted.

(* the copy of an own announcement to a contact known by UUID: on the own other devices the own key is kept under the
   empty name *)
Theorem C178_own_copy_refuted : forall C ou st src me sts pk now uuid text, wfb text -> u64 now -> opt wfb pk ->
  zlen (marshal_sync (copy_of pk now uuid text 4)) < 2 ^ 63 ->
  rs_pkeys (apply_acts st (snd (handleMessage C ou src me sts
     (stripPadding (padMessage (marshal_sync (copy_of pk now uuid text 4))))))) [] = Some pk.
Proof.
  intros C ou st src me sts pk now uuid text Wt Un Wp S. unfold handleMessage.
  rewrite copy_parsed by (auto; unfold u32; lia). cbn [c_data c_sync].
  unfold handleSyncMessage, copy_of, sync_of. cbn [sy_sent]. unfold handleSyncSent. cbn [sn_msg sn_e164 g_bytes].
  unfold handleFlags. unfold createMessage at 1. cbn [d_flags o_flags g_num Z.eqb Pos.eqb].
  unfold andthen, pure, createMessage. cbn [d_pkey d_atts d_ts o_att o_time handleAttachments].
  destruct (ou_contacts ou); reflexivity.
Qed.
Print Assumptions C178_own_copy_refuted.

Example C178_example : exists c dm r l,
  opened toy (ex_outside no_fetch) ex_B (ex_env w_key) ex_r na c_key /\
  unmarshal_content c_key = Some c /\ c_data c = Some dm /\ d_flags dm = Some 4 /\ d_pkey dm = Some ex_key /\
  handleReceivedMessage toy (ex_outside no_fetch) ex_B ex_r ex_r (Some (ex_env w_key)) = (r, l) /\
  r = Ok tt /\ rs_pkeys (apply_acts ex_B l) na = Some (Some ex_key) /\ rs_pkeys ex_B na <> Some (Some ex_key).
Proof.
  do 4 eexists. split.
  { left. exists (padMessage c_key). eexists. split; [eapply ex_decrypts; [reflexivity|vm_compute; reflexivity]|]. split; [reflexivity|vm_compute; reflexivity]. }
  split; [vm_compute; reflexivity|]. split; [reflexivity|]. split; [reflexivity|]. split; [reflexivity|].
  split; [apply pair_eq; vm_compute; reflexivity|]. split; [reflexivity|]. split; [vm_compute; reflexivity|]. vm_compute. discriminate.
Qed.

(* C75: what sendMessage posts for the own devices is the copy of which C75_text_copy_arrives and
   C75_end_session_copy_refused_refuted speak *)
Theorem C75_copy_is_posted : forall C V rnd fuel self pk now uuid text flags st ts st',
  uuid <> [] -> hd 0 uuid <> 43 ->
  buildAndSend C V rnd fuel uuid (padMessage (marshal_data (createMessage pk now (mkOut uuid text None None None flags 0 None))))
    now (default_devs V st uuid) = (Some (Ok (true, ts)), st') ->
  snd (sendMessage C V rnd fuel self pk now (mkOut uuid text None None None flags 0 None) st) =
  snd (buildAndSend C V rnd fuel self (padMessage (marshal_sync (copy_of pk now uuid text flags))) now (default_devs V st' self)).
Proof.
  intros C V rnd fuel self pk now uuid text flags st ts st' NE NP H.
  unfold sendMessage. cbn [o_dest o_time]. rewrite H.
  destruct uuid as [|x t]; [contradiction|]. cbn [hd] in NP. destruct (Z.eqb_spec x 43); [contradiction|].
  unfold sendSyncMessage, copy_of, sync_of.
  match goal with |- context [buildAndSend C V rnd fuel self ?p now ?s] => destruct (buildAndSend C V rnd fuel self p now s) as [[[[b t0]|er|]|] st2] end;
    reflexivity.
Qed.
Print Assumptions C75_copy_is_posted.
