(* Any number of applications that use the library: they send, end sessions, receive envelopes and renew
   keys, against arbitrary servers. What an application does is told as steps of the life of its
   installation (Lifetime.v). Used for C201. *)
From Coq Require Import ZArith List Lia Bool.
From Verif Require Import Bytes Res Wire Crypto Cbc CbcProofs Messages MessagesProofs Session SessionProofs SessionFacts Builder
  History HistoryProofs Active ActiveLink Content Encodings Sending SendingProofs Receiving PropActive Lifetime PropLifetime PropPosted.
Import ListNotations.
Open Scope Z_scope.

(* One thing an application does or meets. For sending: the server and its state, the randomness and how much of
   it is used, the known devices of every name. The device lists are kept in memory only (server.go 741) and
   may be anything at each call. stop says after how many of its acts the reception is cut off. *)
Inductive appev : Type :=
| UStep (x : life)
| USend (V : server) (rnd : nat -> bytes) (devs : bytes -> option (list Z)) (i : nat) (s : sv_state V) (fuel : nat)
    (self : bytes) (pk : option bytes) (now : Z) (o : outgoing)
| UEnd (V : server) (rnd : nat -> bytes) (devs : bytes -> option (list Z)) (i : nat) (s : sv_state V) (fuel : nat)
    (self : bytes) (pk : option bytes) (now : Z) (uuid text : bytes)
| UOther (V : server) (rnd : nat -> bytes) (devs : bytes -> option (list Z)) (i : nat) (s : sv_state V) (fuel : nat)
    (uuid padded : bytes) (ts : Z)
| URecv (ou : outside) (rnd rnd2 : nat -> bytes) (env : option envelope) (stop : option nat).
Definition end_out (uuid text : bytes) : outgoing := mkOut uuid text None None None 1 0 None.

Section App.
Variable C : crypto.
Definition upto {A} (stop : option nat) (l : list A) : list A := match stop with Some j => firstn j l | None => l end.
(* what the application does on receiving, in order *)
Definition uacts (st : rstate) (u : appev) : list act :=
  match u with
  | URecv ou rnd rnd2 env stop => upto stop (snd (handleReceivedMessage C ou st rnd rnd2 env))
  | _ => []
  end.
(* the stores after it *)
Definition ustep (st : rstate) (u : appev) : rstate :=
  match u with
  | UStep x => mkRs (lstep C (rs_w st) x) (rs_pkeys st)
  | USend V rnd devs i s fuel self pk now o =>
      mkRs (cs_w V (snd (sendMessage C V rnd fuel self pk now o (mkCs V (rs_w st) devs i s [])))) (rs_pkeys st)
  | UEnd V rnd devs i s fuel self pk now uuid text =>
      mkRs (cs_w V (snd (EndSession C V rnd fuel self pk now uuid text (mkCs V (rs_w st) devs i s [])))) (rs_pkeys st)
  | UOther V rnd devs i s fuel uuid padded ts =>
      mkRs (cs_w V (snd (buildAndSend C V rnd fuel uuid padded ts (mkCs V (rs_w st) devs i s [])))) (rs_pkeys st)
  | URecv _ _ _ _ _ => apply_acts st (uacts st u)
  end.
Definition unstep (R : nat -> rstate) (e : nat * appev) : nat -> rstate :=
  fun m => if Nat.eqb m (fst e) then ustep (R m) (snd e) else R m.
Definition ubefore (R : nat -> rstate) (us : list (nat * appev)) (k : nat) : nat -> rstate := fold_left unstep (firstn k us) R.

(* ---- an event as steps of a life ---- *)
(* texts with the names they are for, and the randomness *)
Definition sent_texts (u : appev) : list (bytes * bytes) :=
  match u with
  | USend V rnd devs i s fuel self pk now o => texts self pk now o
  | UEnd V rnd devs i s fuel self pk now uuid text => texts self pk now (end_out uuid text)
  | UOther V rnd devs i s fuel uuid padded ts => [(uuid, padded)]
  | _ => []
  end.
(* a call of the session layer, cut off or not *)
Definition one_call (stop : option nat) (c : call) : life := LCall (match stop with Some j => Crash c j | None => Done c end).
(* a step of the reception of an envelope: a decryption of its content as of its source, the source being
   written as given or cleaned, or the deletion of sessions *)
Definition of_receiving (env : option envelope) (rnd rnd2 : nat -> bytes) (stop : option nat) (x : life) : Prop :=
  (exists e rid ty r stop', env = Some e /\ (rid = g_bytes (e_source e) \/ recID (g_bytes (e_source e)) = Ok rid) /\ (r = rnd \/ r = rnd2) /\
     (stop = None -> stop' = None) /\ x = one_call stop' (CRecv rid (g_num (e_device e)) ty (g_bytes (e_content e)) r)) \/
  exists rid, x = LEndAll rid.
(* the content is decrypted first *)
Definition called (env : option envelope) (rnd : nat -> bytes) (stop : option nat) (xs : list life) : Prop :=
  forall e b ty, env = Some e -> e_content e = Some b ->
  (e_type e = Some 1 /\ ty = CIPHERTEXT) \/ (e_type e = Some 3 /\ ty = PREKEY_BUNDLE) ->
  exists rest, xs = one_call stop (CRecv (g_bytes (e_source e)) (g_num (e_device e)) ty b rnd) :: rest.
Definition spelled (u : appev) (xs : list life) : Prop :=
  match u with
  | UStep x => xs = [x]
  | USend V rnd devs i s fuel self pk now o => Forall (of_sending rnd (sent_texts u)) xs
  | UEnd V rnd devs i s fuel self pk now uuid text => Forall (fun x => of_sending rnd (sent_texts u) x \/ exists rid, x = LEndAll rid) xs
  | UOther V rnd devs i s fuel uuid padded ts => Forall (of_sending rnd (sent_texts u)) xs
  | URecv ou rnd rnd2 env stop => Forall (of_receiving env rnd rnd2 stop) xs /\ called env rnd stop xs
  end.
(* the requests that the event puts on the network *)
Definition puts (l : list Sending.event) : list request := flat_map (fun e => match e with EvPut q _ => [q] | _ => [] end) l.
Definition uputs (st : rstate) (u : appev) : list request :=
  match u with
  | USend V rnd devs i s fuel self pk now o => puts (cs_log V (snd (sendMessage C V rnd fuel self pk now o (mkCs V (rs_w st) devs i s []))))
  | UEnd V rnd devs i s fuel self pk now uuid text => puts (cs_log V (snd (EndSession C V rnd fuel self pk now uuid text (mkCs V (rs_w st) devs i s []))))
  | UOther V rnd devs i s fuel uuid padded ts => puts (cs_log V (snd (buildAndSend C V rnd fuel uuid padded ts (mkCs V (rs_w st) devs i s []))))
  | _ => []
  end.
Lemma in_puts q l : In q (puts l) -> exists r, In (EvPut q r) l.
Proof.
  intros H. apply in_flat_map in H. destruct H as (e & H1 & H2). destruct e as [u d r|q' r]; [destruct H2|]. destruct H2 as [<-|[]]. eauto.
Qed.
(* each message in them is made in one of the steps *)
Definition all_made (st : rstate) (u : appev) (xs : list life) : Prop :=
  forall q, In q (uputs st u) -> Forall (made C (rs_w st) xs (q_dest q) (sent_texts u)) (q_msgs q).
Definition turns (st : rstate) (u : appev) (xs : list life) : Prop :=
  rs_w (ustep st u) = lives C (rs_w st) xs /\ spelled u xs /\ all_made st u xs.

(* ---- reception ---- *)
Definition is_store (a : act) : bool := match a with AStore _ => true | _ => false end.
Definition ends (l : list act) : list life := flat_map (fun a => match a with ADelete r => [LEndAll r] | _ => [] end) l.
Lemma acts_stores l : forall st, rs_w (apply_acts st (map AStore l)) = apply_effs (rs_w st) l.
Proof. induction l as [|e l IH]; intros st; [reflexivity|]. cbn [map apply_acts fold_left]. apply IH. Qed.
Lemma acts_app st a b : apply_acts st (a ++ b) = apply_acts (apply_acts st a) b.
Proof. apply fold_left_app. Qed.
Lemma acts_quiet l : Forall (fun a => is_store a = false) l -> forall st, rs_w (apply_acts st l) = lives C (rs_w st) (ends l).
Proof.
  induction 1 as [|a l Ha _ IH]; intros st; [reflexivity|]. unfold apply_acts. cbn [fold_left]. fold (apply_acts (apply_act st a) l). rewrite IH.
  destruct a as [e|r|u k|h]; cbn [is_store] in Ha; [discriminate Ha|..]; reflexivity.
Qed.
Lemma andthen_in {A B} (P : act -> Prop) (x : res A * list act) (k : A -> res B * list act) :
  Forall P (snd x) -> (forall a, Forall P (snd (k a))) -> Forall P (snd (andthen x k)).
Proof.
  destruct x as [[a|e|] l]; cbn [andthen snd]; intros H1 H2; try exact H1. specialize (H2 a). destruct (k a) as [r l']. cbn [snd] in *.
  apply Forall_app. auto.
Qed.
Lemma flags_quiet ou src dm : Forall (fun a => is_store a = false) (snd (handleFlags ou src dm)).
Proof.
  unfold handleFlags. destruct (_ =? 1); [destruct (recID src); cbn [snd]; repeat constructor|].
  destruct (_ =? 4); [destruct (ou_contacts ou); cbn [snd]; repeat constructor|constructor].
Qed.
Lemma message_quiet ou src uuid ts b : Forall (fun a => is_store a = false) (snd (handleMessage C ou src uuid ts b)).
Proof.
  unfold handleMessage. destruct (unmarshal_content b) as [c|]; [|constructor].
  destruct (c_data c) as [dm|].
  { unfold handleDataMessage. apply andthen_in; [apply flags_quiet|]. intros f. apply andthen_in; [constructor|]. intros atts.
    destruct (d_ts dm); [|constructor]. apply andthen_in; [constructor|]. intros gr. repeat constructor. }
  destruct (c_sync c) as [sm|].
  { unfold handleSyncMessage. destruct (sy_sent sm) as [s|].
    - unfold handleSyncSent. destruct (sn_msg s) as [dm|]; [|constructor]. apply andthen_in; [apply flags_quiet|]. intros f.
      apply andthen_in; [constructor|]. intros atts. destruct (d_ts dm); repeat constructor.
    - destruct (sy_contacts sm); [constructor|]. destruct (sy_groups sm); [constructor|]. destruct (sy_request sm) as [ty|].
      + unfold handleSyncRequest. destruct (_ || _); repeat constructor.
      + destruct (sy_read sm) as [|r l]; [destruct (sy_blocked sm); [constructor|]; destruct (sy_verified sm); repeat constructor|].
        unfold handleSyncRead. cbn [snd]. apply Forall_forall. intros a Ha. apply in_map_iff in Ha. destruct Ha as (x & <- & _). reflexivity. }
  destruct (c_call c); [repeat constructor|]. destruct (c_receipt c) as [rm|].
  { unfold handleReceiptMessage. destruct (rc_ts rm); [constructor|]. destruct (rc_type rm); repeat constructor. }
  destruct (c_typing c); repeat constructor.
Qed.
Lemma quiet_upto stop l : Forall (fun a => is_store a = false) l -> Forall (fun a => is_store a = false) (upto stop l).
Proof. destruct stop as [j|]; [|auto]. intros H. cbn [upto]. apply Forall_forall. intros a Ha. rewrite Forall_forall in H. apply H. revert Ha. apply in_firstn. Qed.
Lemma ends_receiving e rnd rnd2 stop l : Forall (of_receiving e rnd rnd2 stop) (ends l).
Proof.
  apply Forall_forall. intros x Hx. apply in_flat_map in Hx. destruct Hx as (a & _ & Ha). destruct a; cbn [In] in Ha; try (destruct Ha; fail).
  destruct Ha as [<-|[]]. right. eauto.
Qed.

Definition rest_stop (stop : option nat) (n : nat) : option nat := match stop with Some j => Some (j - n)%nat | None => None end.
Lemma upto_app {A} stop (a b : list A) : upto stop (a ++ b) = upto stop a ++ upto (rest_stop stop (length a)) b.
Proof. destruct stop as [j|]; [apply firstn_app|reflexivity]. Qed.
Lemma call_acts st rid dev ty b rnd r effs stop : receive C (rs_w st) rid dev ty b rnd = (r, effs) ->
  rs_w (apply_acts st (upto stop (map AStore effs))) = lstep C (rs_w st) (one_call stop (CRecv rid dev ty b rnd)).
Proof.
  intros H. unfold one_call. destruct stop as [j|]; cbn [upto lstep estep perform_call]; rewrite H; cbn [fst]; [|apply acts_stores].
  rewrite firstn_map. apply acts_stores.
Qed.
Lemma rest_quiet st e ty rnd r effs rest stop rnd2 : receive C (rs_w st) (g_bytes (e_source e)) (g_num (e_device e)) ty (g_bytes (e_content e)) rnd = (r, effs) ->
  Forall (fun a => is_store a = false) rest ->
  exists xs, rs_w (apply_acts st (upto stop (map AStore effs ++ rest)))
      = lives C (rs_w st) (one_call stop (CRecv (g_bytes (e_source e)) (g_num (e_device e)) ty (g_bytes (e_content e)) rnd) :: xs) /\
    Forall (of_receiving (Some e) rnd rnd2 stop) (one_call stop (CRecv (g_bytes (e_source e)) (g_num (e_device e)) ty (g_bytes (e_content e)) rnd) :: xs).
Proof.
  intros H HQ. exists (ends (upto (rest_stop stop (length (map AStore effs))) rest)). split.
  - rewrite upto_app, acts_app, (acts_quiet _ (quiet_upto _ _ HQ)), (call_acts _ _ _ _ _ _ _ _ stop H). reflexivity.
  - constructor; [|apply ends_receiving]. left. exists e, (g_bytes (e_source e)), ty, rnd, stop. split; [reflexivity|]. split; [now left|]. split; [now left|]. split; [auto|reflexivity].
Qed.
Lemma retry_quiet st e ty rnd r rid2 r2 effs2 stop rnd2 : receive C (rs_w st) (g_bytes (e_source e)) (g_num (e_device e)) ty (g_bytes (e_content e)) rnd = (r, []) ->
  (rid2 = g_bytes (e_source e) \/ recID (g_bytes (e_source e)) = Ok rid2) ->
  receive C (rs_w st) rid2 (g_num (e_device e)) ty (g_bytes (e_content e)) rnd2 = (r2, effs2) ->
  exists xs, rs_w (apply_acts st (upto stop (map AStore effs2)))
      = lives C (rs_w st) (one_call stop (CRecv (g_bytes (e_source e)) (g_num (e_device e)) ty (g_bytes (e_content e)) rnd) :: xs) /\
    Forall (of_receiving (Some e) rnd rnd2 stop) (one_call stop (CRecv (g_bytes (e_source e)) (g_num (e_device e)) ty (g_bytes (e_content e)) rnd) :: xs).
Proof.
  intros H1 HR H2. exists [one_call stop (CRecv rid2 (g_num (e_device e)) ty (g_bytes (e_content e)) rnd2)]. split.
  - cbn [lives fold_left]. rewrite <- (call_acts _ _ _ _ _ _ _ _ stop H1).
    assert (X : apply_acts st (upto stop (map AStore [])) = st) by (destruct stop as [[|j]|]; reflexivity).
    rewrite X. apply (call_acts _ _ _ _ _ _ _ _ _ H2).
  - constructor; [|constructor; [|constructor]].
    + left. exists e, (g_bytes (e_source e)), ty, rnd, stop. split; [reflexivity|]. split; [now left|]. split; [now left|]. split; [auto|reflexivity].
    + left. exists e, rid2, ty, rnd2, stop. split; [reflexivity|]. split; [exact HR|]. split; [now right|]. split; [auto|reflexivity].
Qed.
Lemma err_no_effs w rid dev b rnd x effs : receive C w rid dev CIPHERTEXT b rnd = (Err x, effs) -> effs = [].
Proof.
  cbn [receive]. destruct (LoadWhisperMessage b) as [m| |]; [|congruence..]. unfold SessionDecryptWhisperMessage.
  destruct (sc_decrypt C _ _ _) as [[pt|e|] r']; congruence.
Qed.
Lemma nothing_done st e rnd rnd2 stop l : Forall (fun a => is_store a = false) l ->
  exists xs, rs_w (apply_acts st (upto stop l)) = lives C (rs_w st) xs /\ Forall (of_receiving e rnd rnd2 stop) xs.
Proof. intros H. exists (ends (upto stop l)). split; [apply (acts_quiet _ (quiet_upto _ _ H))|apply ends_receiving]. Qed.

Lemma recv_turns st ou rnd rnd2 env stop : exists xs, turns st (URecv ou rnd rnd2 env stop) xs.
Proof.
  assert (NIL : forall l, Forall (fun a => is_store a = false) l -> snd (handleReceivedMessage C ou st rnd rnd2 env) = l ->
    (forall e t, env = Some e -> e_type e = Some t -> t <> 1 /\ t <> 3 \/ e_content e = None) ->
    exists xs, turns st (URecv ou rnd rnd2 env stop) xs).
  { intros l HQ E HN. destruct (nothing_done st env rnd rnd2 stop l HQ) as (xs & H1 & H2). exists xs. split; [|split; [split; [exact H2|]|intros q []]].
    - cbn [ustep uacts]. rewrite E. exact H1.
    - intros e b ty E1 E2 [[E3 _]|[E3 _]]; destruct (HN _ _ E1 E3) as [[N1 N3]|N]; congruence. }
  assert (GO : forall e ty l xs, snd (handleReceivedMessage C ou st rnd rnd2 env) = l -> env = Some e ->
    (e_type e = Some 1 /\ ty = CIPHERTEXT) \/ (e_type e = Some 3 /\ ty = PREKEY_BUNDLE) ->
    let ys := one_call stop (CRecv (g_bytes (e_source e)) (g_num (e_device e)) ty (g_bytes (e_content e)) rnd) :: xs in
    rs_w (apply_acts st (upto stop l)) = lives C (rs_w st) ys -> Forall (of_receiving env rnd rnd2 stop) ys ->
    exists xs, turns st (URecv ou rnd rnd2 env stop) xs).
  { intros e ty l xs E EE ET ys H1 H2. exists ys. split; [|split; [split; [exact H2|]|intros q []]].
    - cbn [ustep uacts]. rewrite E. exact H1.
    - intros e' b ty' E1 E2 ET'. rewrite EE in E1. injection E1 as <-.
      assert (ty' = ty) as -> by (destruct ET as [[? ?]|[? ?]], ET' as [[? ?]|[? ?]]; congruence).
      exists xs. unfold ys. rewrite E2. reflexivity. }
  destruct env as [e|]; [|apply (NIL []); [constructor|reflexivity|intros e t X; discriminate X]].
  unfold handleReceivedMessage in NIL, GO. destruct (e_type e) as [t|] eqn:ET; [|apply (NIL []); [constructor|reflexivity|intros e' t [= <-] X; congruence]].
  destruct (Z.eqb_spec t 5) as [->|N5]; [apply (NIL (handleReceipt e)); [repeat constructor|reflexivity|intros e' t [= <-] X; left; split; congruence]|].
  destruct (Z.eqb_spec t 1) as [->|N1].
  { unfold handle_cipher in NIL, GO. destruct (e_content e) as [msg|] eqn:EM; [|apply (NIL []); [constructor|reflexivity|intros e' t [= <-] _; now right]].
    clear NIL. specialize (fun l xs E => GO e CIPHERTEXT l xs E eq_refl (or_introl (conj ET eq_refl))). cbv zeta in GO.
    assert (EB : g_bytes (e_content e) = msg) by (rewrite EM; reflexivity).
    destruct (LoadWhisperMessage msg) as [wm|x|] eqn:EL.
    2,3: assert (RX : exists r, receive C (rs_w st) (g_bytes (e_source e)) (g_num (e_device e)) CIPHERTEXT (g_bytes (e_content e)) rnd = (r, []))
           by (eexists; cbn [receive]; rewrite EB, EL; reflexivity);
         destruct RX as (r & RX); destruct (rest_quiet st e _ _ _ _ [] stop rnd2 RX) as (xs & H1 & H2); [constructor|exact (GO _ _ eq_refl H1 H2)].
    assert (RE : forall w rid dev r, receive C w rid dev CIPHERTEXT (g_bytes (e_content e)) r = SessionDecryptWhisperMessage C w rid dev wm r)
      by (intros; cbn [receive]; rewrite EB, EL; reflexivity).
    destruct (SessionDecryptWhisperMessage C (rs_w st) (g_bytes (e_source e)) (g_num (e_device e)) wm rnd) as [r effs] eqn:ED.
    rewrite <- RE in ED. unfold stored in GO. cbn [fst snd] in GO.
    destruct (rest_quiet st e _ _ _ _ [] stop rnd2 ED) as (xs & H1 & H2); [constructor|]. rewrite app_nil_r in H1.
    destruct r as [b|x|].
    - clear xs H1 H2. destruct (deliver C ou e b) as [r l'] eqn:EV.
      destruct (rest_quiet st e _ _ _ _ l' stop rnd2 ED) as (xs & H1 & H2).
      + unfold deliver in EV. pose proof (message_quiet ou (g_bytes (e_source e)) (g_bytes (e_source e)) (g_num (e_sts e)) (stripPadding b)) as Q.
        rewrite EV in Q. exact Q.
      + exact (GO _ _ eq_refl H1 H2).
    - assert (effs = []) as -> by exact (err_no_effs _ _ _ _ _ _ _ ED).
      destruct x; try exact (GO _ _ eq_refl H1 H2). clear xs H1 H2.
      cbn [map] in GO. change (apply_acts st []) with st in GO.
      set (clean := match recID (g_bytes (e_source e)) with Ok c => c | _ => g_bytes (e_source e) end) in GO.
      assert (EC : clean = g_bytes (e_source e) \/ recID (g_bytes (e_source e)) = Ok clean) by (unfold clean; destruct (recID (g_bytes (e_source e))); auto).
      destruct (SessionDecryptWhisperMessage C (rs_w st) clean (g_num (e_device e)) wm rnd2) as [r2 effs2] eqn:E2. rewrite <- RE in E2.
      destruct (retry_quiet st e _ _ _ _ _ _ stop rnd2 ED EC E2) as (ys & H3 & H4).
      eapply GO; [|exact H3|exact H4]. cbn [fst snd app]. destruct r2 as [b2|x2|]; [reflexivity|destruct x2; reflexivity|reflexivity].
    - exact (GO _ _ eq_refl H1 H2). }
  destruct (Z.eqb_spec t 3) as [->|N3].
  { clear NIL. specialize (fun l xs E => GO e PREKEY_BUNDLE l xs E eq_refl (or_intror (conj ET eq_refl))). cbv zeta in GO. unfold handle_prekey in GO.
    destruct (LoadPreKeyWhisperMessage (g_bytes (e_content e))) as [pm|x|] eqn:EL.
    2,3: assert (RX : exists r, receive C (rs_w st) (g_bytes (e_source e)) (g_num (e_device e)) PREKEY_BUNDLE (g_bytes (e_content e)) rnd = (r, []))
           by (eexists; cbn [receive]; rewrite EL; reflexivity);
         destruct RX as (r & RX); destruct (rest_quiet st e _ _ _ _ [] stop rnd2 RX) as (xs & H1 & H2); [constructor|exact (GO _ _ eq_refl H1 H2)].
    destruct (SessionDecryptPreKeyWhisperMessage C (rs_w st) (g_bytes (e_source e)) (g_num (e_device e)) pm rnd) as [r effs] eqn:ED.
    assert (RD : receive C (rs_w st) (g_bytes (e_source e)) (g_num (e_device e)) PREKEY_BUNDLE (g_bytes (e_content e)) rnd = (r, effs))
      by (cbn [receive]; rewrite EL; exact ED).
    unfold stored in GO. cbn [fst snd] in GO.
    destruct (rest_quiet st e _ _ _ _ [] stop rnd2 RD) as (xs & H1 & H2); [constructor|]. rewrite app_nil_r in H1.
    destruct r as [b|x|].
    - destruct (deliver C ou e b) as [r l'] eqn:EV.
      destruct (rest_quiet st e _ _ _ _ l' stop rnd2 RD) as (ys & H3 & H4).
      + unfold deliver in EV. pose proof (message_quiet ou (g_bytes (e_source e)) (g_bytes (e_source e)) (g_num (e_sts e)) (stripPadding b)) as Q.
        rewrite EV in Q. exact Q.
      + exact (GO _ _ eq_refl H3 H4).
    - destruct x; exact (GO _ _ eq_refl H1 H2).
    - exact (GO _ _ eq_refl H1 H2). }
  assert (NT : forall e' t', Some e = Some e' -> e_type e' = Some t' -> t' <> 1 /\ t' <> 3 \/ e_content e' = None)
    by (intros e' t' [= <-] X; left; split; congruence).
  destruct (t =? 6); [|apply (NIL []); [constructor|reflexivity|exact NT]].
  apply (NIL (snd (handle_unidentified C ou e))); [|reflexivity|exact NT].
  unfold handle_unidentified. destruct (e_dest e); [|constructor]. apply andthen_in; [constructor|]. intros [[sender text] ts].
  apply andthen_in; [constructor|]. intros [|x content]; [constructor|]. apply message_quiet.
Qed.

(* every event is some steps of a life *)
Theorem event_turns st u : exists xs, turns st u xs.
Proof.
  destruct u as [x|V rnd devs i s fuel self pk now o|V rnd devs i s fuel self pk now uuid text|V rnd devs i s fuel uuid padded ts|ou rnd rnd2 env stop].
  - exists [x]. split; [reflexivity|]. split; [reflexivity|intros q []].
  - destruct (sendMessage C V rnd fuel self pk now o (mkCs V (rs_w st) devs i s [])) as [r st'] eqn:E.
    destruct (message_life _ _ _ _ _ _ _ _ _ _ _ E) as (xs & H1 & H2 & lg & H3 & H4). cbn [cs_w cs_log app] in H1, H3, H4. exists xs. split; [|split; [exact H2|]].
    + cbn [ustep rs_w]. rewrite E. exact H1.
    + intros q Hq. cbn [uputs] in Hq. rewrite E in Hq. cbn [snd] in Hq. rewrite H3 in Hq. apply in_puts in Hq. destruct Hq as (rr & Hq). exact (H4 _ _ Hq).
  - destruct (sendMessage C V rnd fuel self pk now (end_out uuid text) (mkCs V (rs_w st) devs i s [])) as [r st'] eqn:E.
    destruct (message_life _ _ _ _ _ _ _ _ _ _ _ E) as (xs & H1 & H2 & lg & G3 & G4). cbn [cs_w cs_log app] in H1, G3, G4.
    assert (H3 : Forall (fun x => of_sending rnd (sent_texts (UEnd V rnd devs i s fuel self pk now uuid text)) x \/ exists rid, x = LEndAll rid) xs).
    { eapply Forall_impl; [|exact H2]. intros a Ha. left. exact Ha. }
    assert (H4 : forall q, In q (puts (cs_log V st')) -> Forall (made C (rs_w st) xs (q_dest q) (texts self pk now (end_out uuid text))) (q_msgs q)).
    { intros q Hq. rewrite G3 in Hq. apply in_puts in Hq. destruct Hq as (rr & Hq). exact (G4 _ _ Hq). }
    unfold turns, all_made. cbn [ustep rs_w spelled uputs sent_texts]. unfold EndSession. fold (end_out uuid text). rewrite E.
    destruct r as [[t|e|]|]; cbn [snd]; try (exists xs; split; [exact H1|split; [exact H3|exact H4]]).
    destruct (recID uuid) as [recid|e|]; cbn [snd]; try (exists xs; split; [exact H1|split; [exact H3|exact H4]]).
    exists (xs ++ [LEndAll recid]). split; [|split; [apply Forall_app; split; [exact H3|constructor; [right; eauto|constructor]]|]].
    + rewrite lives_app, <- H1. reflexivity.
    + intros q Hq. eapply Forall_impl; [|exact (H4 q Hq)]. intros j. apply made_more.
  - destruct (buildAndSend C V rnd fuel uuid padded ts (mkCs V (rs_w st) devs i s [])) as [r st'] eqn:E.
    destruct (send_life C V rnd uuid padded ts [(uuid, padded)] (or_introl eq_refl) _ _ _ _ E) as (xs & H1 & H2 & lg & H3 & H4).
    cbn [cs_w cs_log app] in H1, H3, H4. exists xs. split; [|split; [exact H2|]].
    + cbn [ustep rs_w]. rewrite E. exact H1.
    + intros q Hq. cbn [uputs] in Hq. rewrite E in Hq. cbn [snd] in Hq. rewrite H3 in Hq. apply in_puts in Hq. destruct Hq as (rr & Hq). exact (H4 _ _ Hq).
  - apply recv_turns.
Qed.

(* ---- a run of the applications as a life of the installations ---- *)
Inductive plays : (nat -> rstate) -> list (nat * appev) -> list levent -> Prop :=
| plays_nil R : plays R [] []
| plays_cons R n u us xs evs : turns (R n) u xs -> plays (unstep R (n, u)) us evs -> plays R ((n, u) :: us) (map (pair n) xs ++ evs).
Lemma plays_some us : forall R, exists evs, plays R us evs.
Proof.
  induction us as [|[n u] us IH]; intros R; [exists []; constructor|].
  destruct (event_turns (R n) u) as (xs & H). destruct (IH (unstep R (n, u))) as (evs & H2). eexists. econstructor; eauto.
Qed.
Lemma lnrun_same evs : forall V W, (forall m, V m = W m) -> forall m, lnrun C V evs m = lnrun C W evs m.
Proof.
  induction evs as [|[i x] evs IH]; intros V W H m; [apply H|]. unfold lnrun. cbn [fold_left].
  apply (IH (lnstep C V (i, x)) (lnstep C W (i, x))). intros j. unfold lnstep. cbn [fst snd]. rewrite H. reflexivity.
Qed.
Lemma lnrun_other n xs : forall W m, m <> n -> lnrun C W (map (pair n) xs) m = W m.
Proof.
  induction xs as [|x xs IH]; intros W m H; [reflexivity|]. cbn [map]. unfold lnrun. cbn [fold_left].
  fold (lnrun C (lnstep C W (n, x)) (map (pair n) xs)). rewrite IH by exact H. unfold lnstep. cbn [fst snd].
  destruct (Nat.eqb_spec m n); [contradiction|reflexivity].
Qed.
Lemma turn_run (R : nat -> rstate) n u xs : turns (R n) u xs ->
  forall m, lnrun C (fun i => rs_w (R i)) (map (pair n) xs) m = rs_w (unstep R (n, u) m).
Proof.
  intros [H _] m. unfold unstep. cbn [fst snd]. destruct (Nat.eqb_spec m n) as [->|N].
  - rewrite lnrun_one. symmetry. exact H.
  - now apply lnrun_other.
Qed.
Lemma plays_at R us evs : plays R us evs -> forall k n u, nth_error us k = Some (n, u) ->
  exists evs1 xs evs2, evs = evs1 ++ map (pair n) xs ++ evs2 /\ turns (ubefore R us k n) u xs /\
    (forall m, lnrun C (fun i => rs_w (R i)) evs1 m = rs_w (ubefore R us k m)) /\ plays R (firstn k us) evs1.
Proof.
  induction 1 as [R|R n0 u0 us xs0 evs HT HP IH]; intros k n u Hk; [destruct k; discriminate Hk|].
  destruct k as [|k]; cbn [nth_error] in Hk.
  - injection Hk as <- <-. exists [], xs0, evs. split; [reflexivity|]. split; [exact HT|]. split; [reflexivity|constructor].
  - destruct (IH k n u Hk) as (evs1 & xs & evs2 & -> & H1 & H2 & H3). exists (map (pair n0) xs0 ++ evs1), xs, evs2.
    split; [now rewrite <- app_assoc|]. split; [exact H1|]. split.
    + intros m. rewrite lnrun_app. rewrite (lnrun_same evs1 _ _ (turn_run R n0 u0 xs0 HT)). apply H2.
    + cbn [firstn]. constructor; assumption.
Qed.
Lemma plays_in R us evs : plays R us evs -> forall j n x, nth_error evs j = Some (n, x) ->
  exists k u evs1 xs evs2 i, nth_error us k = Some (n, u) /\ evs = evs1 ++ map (pair n) xs ++ evs2 /\ nth_error xs i = Some x /\
    j = (length evs1 + i)%nat /\ turns (ubefore R us k n) u xs /\ (forall m, lnrun C (fun i => rs_w (R i)) evs1 m = rs_w (ubefore R us k m)).
Proof.
  induction 1 as [R|R n0 u0 us xs0 evs HT HP IH]; intros j n x Hj; [destruct j; discriminate Hj|].
  destruct (Nat.lt_ge_cases j (length xs0)) as [L|L].
  - rewrite nth_error_app1 in Hj by (now rewrite map_length). rewrite nth_error_map in Hj.
    destruct (nth_error xs0 j) as [y|] eqn:EJ; [|discriminate Hj]. cbn [option_map] in Hj. injection Hj as <- <-.
    exists 0%nat, u0, [], xs0, evs, j. split; [reflexivity|]. split; [reflexivity|]. split; [exact EJ|]. split; [reflexivity|].
    split; [exact HT|reflexivity].
  - rewrite nth_error_app2 in Hj by (now rewrite map_length). rewrite map_length in Hj.
    destruct (IH _ _ _ Hj) as (k & u & evs1 & xs & evs2 & i & H1 & -> & H3 & H4 & H5 & H6).
    exists (S k), u, (map (pair n0) xs0 ++ evs1), xs, evs2, i. split; [exact H1|]. split; [now rewrite <- app_assoc|]. split; [exact H3|].
    split; [rewrite app_length, map_length; lia|]. split; [exact H5|].
    intros m. rewrite lnrun_app. rewrite (lnrun_same evs1 _ _ (turn_run R n0 u0 xs0 HT)). apply H6.
Qed.
Lemma plays_end R us evs : plays R us evs -> forall k n u, nth_error us k = Some (n, u) ->
  ubefore R us (S k) n = ustep (ubefore R us k n) u.
Proof.
  intros _ k n u Hk. unfold ubefore. rewrite (firstn_S_nth _ _ _ Hk), fold_left_app. cbn [fold_left]. unfold unstep at 1. cbn [fst snd].
  now rewrite Nat.eqb_refl.
Qed.
End App.
