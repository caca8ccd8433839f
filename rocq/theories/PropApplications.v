(* What applications show to their users, against an active network: property C201. *)
From Coq Require Import ZArith List Lia Bool.
From Verif Require Import Bytes Res Wire Crypto Cbc CbcProofs Messages MessagesProofs Session SessionProofs SessionFacts Builder
  History HistoryProofs Active ActiveLink Content ContentProofs Encodings Sending SendingProofs Receiving Injective PropActive PropSending
  PropRelabel PropReceiving Examples Conversation PropHistory PropReceive Lifetime PropLifetime PropPosted Applications.
Import ListNotations.
Open Scope Z_scope.
Ltac Zify.zify_post_hook ::= Z.to_euclidean_division_equations.

Section Shown.
Variable C : crypto.
(* what the theorem assumes of each event: the keys drawn are the clients' own and are recorded; what is sent
   fits in memory and is within the ranges of the fields; besides messages (USend, UEnd), contents of other kinds are
   sent, and the application calls the session layer in no other way *)
Definition out_fits (self : bytes) (pk : option bytes) (now : Z) (o : outgoing) : Prop :=
  out_ok pk now o /\ Forall (fun x => wfb (snd x) /\ zlen (snd x) < 2 ^ 60) (texts self pk now o).
Definition uknown (priv : bytes -> option bytes) (u : appev) : Prop :=
  match u with
  | UStep x => lknown C priv x /\ match x with LCall _ => False | _ => True end
  | USend V rnd devs i s fuel self pk now o => (forall i, mine C priv (clamp (rnd i))) /\ out_fits self pk now o
  | UEnd V rnd devs i s fuel self pk now uuid text => (forall i, mine C priv (clamp (rnd i))) /\ out_fits self pk now (end_out uuid text)
  | UOther V rnd devs i s fuel uuid padded ts => (forall i, mine C priv (clamp (rnd i))) /\ wfb padded /\ zlen padded < 2 ^ 60 /\
      forall c, unmarshal_content (stripPadding padded) = Some c -> c_data c = None /\ c_call c = None
  | URecv ou rnd rnd2 env stop => forall i, mine C priv (clamp (rnd i)) /\ mine C priv (clamp (rnd2 i))
  end.
(* client n was never cut off within a reception, and removes the key saved for a name only when it has no
   session with that name *)
Definition utidy (R : nat -> rstate) (us : list (nat * appev)) (n : nat) : Prop :=
  (forall ou rnd rnd2 env j, ~ In (n, URecv ou rnd rnd2 env (Some j)) us) /\
  forall k rid, nth_error us k = Some (n, UStep (LForget rid)) -> forall dev, w_sess (rs_w (ubefore C R us k n)) rid dev = None.

(* the message m shown to a user says what o says *)
Definition says (ou : outside) (pk : option bytes) (now : Z) (o : outgoing) (m : message) : Prop :=
  m_text m = o_text o /\ m_ts m = match o_time o with Some t => t | None => now end /\ m_expire m = o_expire o /\ m_pkey m = pk /\
  (m_flags m = 1 <-> o_flags o = 1) /\ m_quote m = None /\ m_contact m = [] /\ m_sticker m = None /\ m_reaction m = None /\
  match o_gv2 o with None => m_group m = None | Some g => ou_group ou g = Ok (m_group m) end /\
  match o_att o with
  | None => m_atts m = []
  | Some p => exists a x, m_atts m = [x] /\ handleSingleAttachment C ou a = Ok x /\ ap_id a = Some (inr (pt_cdnkey p)) /\
      ap_cdn a = Some (pt_cdn p) /\ ap_key a = Some (pt_keys p) /\ ap_type a = Some (pt_ct p) /\ ap_size a = Some (pt_size p) /\ ap_digest a = Some (pt_digest p)
  end.
(* the application asked for that, for a name that it has the key me saved for *)
Definition asked (u : appev) : option (option bytes * Z * outgoing) :=
  match u with
  | USend V rnd devs i s fuel self pk now o => Some (pk, now, o)
  | UEnd V rnd devs i s fuel self pk now uuid text => Some (pk, now, end_out uuid text)
  | _ => None
  end.

(* ---- what is shown comes from a text ---- *)
Lemma flags_shown ou src dm m : ~ In (ACall (HMessage m)) (snd (handleFlags ou src dm)).
Proof.
  unfold handleFlags. destruct (_ =? 1); [destruct (recID src); cbn [snd In]; intros H; decompose [or] H; try discriminate; assumption|].
  destruct (_ =? 4); [destruct (ou_contacts ou); cbn [snd In]; intros H; decompose [or] H; try discriminate; assumption|exact (fun H => H)].
Qed.
Lemma in_andthen {A B} a (x : res A * list act) (k : A -> res B * list act) : In a (snd (andthen x k)) ->
  In a (snd x) \/ exists y, fst x = Ok y /\ In a (snd (k y)).
Proof.
  destruct x as [[y|e|] l]; cbn [andthen fst snd]; auto. destruct (k y) as [r l'] eqn:E. cbn [snd]. intros H. apply in_app_or in H.
  destruct H as [H|H]; [auto|right]. exists y. rewrite E. auto.
Qed.
Definition from_data (ou : outside) (src uuid : bytes) (d : datamsg) (m : message) : Prop :=
  exists flags atts ts gr, fst (handleFlags ou uuid d) = Ok flags /\ handleAttachments C ou (d_atts d) = Ok atts /\ d_ts d = Some ts /\
    match d_gv2 d with None => Ok None | Some g => ou_group ou g end = Ok gr /\
    m = mkMsg src uuid (g_bytes (d_body d)) atts gr flags (g_num (d_expire d)) (d_pkey d) ts (d_quote d) (d_contact d) (d_sticker d) (d_reaction d).
Lemma message_shown ou src uuid ts b m : In (ACall (HMessage m)) (snd (handleMessage C ou src uuid ts b)) ->
  m_source m = src /\ exists c, unmarshal_content b = Some c /\
    ((exists d, c_data c = Some d /\ from_data ou src uuid d m) \/ (c_data c = None /\ c_sync c = None /\ exists cl, c_call c = Some cl)).
Proof.
  unfold handleMessage. destruct (unmarshal_content b) as [c|]; [|intros []].
  destruct (c_data c) as [d|] eqn:ED.
  { unfold handleDataMessage. intros H. apply in_andthen in H. destruct H as [H|(flags & HF & H)]; [destruct (flags_shown _ _ _ _ H)|].
    apply in_andthen in H. destruct H as [[]|(atts & HA & H)]. destruct (d_ts d) as [t|] eqn:ET; [|destruct H].
    apply in_andthen in H. destruct H as [[]|(gr & HG & H)]. cbn [pure fst] in HA, HG. cbn [snd In] in H. destruct H as [H|[]]. injection H as <-.
    split; [reflexivity|]. exists c. split; [reflexivity|]. left. exists d. split; [exact ED|]. exists flags, atts, t, gr. auto. }
  destruct (c_sync c) as [sm|] eqn:ES.
  { intros H. exfalso. revert H. unfold handleSyncMessage. destruct (sy_sent sm) as [s|].
    - unfold handleSyncSent. destruct (sn_msg s) as [dm|]; [|exact (fun H => H)]. intros H. apply in_andthen in H.
      destruct H as [H|(flags & HF & H)]; [destruct (flags_shown _ _ _ _ H)|]. apply in_andthen in H. destruct H as [[]|(atts & HA & H)].
      destruct (d_ts dm); [|exact H]. cbn [snd In] in H. destruct H as [H|[]]. discriminate H.
    - destruct (sy_contacts sm); [exact (fun H => H)|]. destruct (sy_groups sm); [exact (fun H => H)|]. destruct (sy_request sm) as [ty|].
      + unfold handleSyncRequest. destruct (_ || _); [|exact (fun H => H)]. intros [H|[]]. discriminate H.
      + destruct (sy_read sm) as [|r l].
        * destruct (sy_blocked sm); [exact (fun H => H)|]. destruct (sy_verified sm); [|exact (fun H => H)]. intros [H|[]]. discriminate H.
        * unfold handleSyncRead. cbn [snd]. intros H. apply in_map_iff in H. destruct H as (x & H & _). discriminate H. }
  destruct (c_call c) as [cl|] eqn:EC.
  { cbn [handleCallMessage snd In]. intros [H|[]]. injection H as <-. split; [reflexivity|]. exists c. split; [reflexivity|]. right. eauto. }
  intros H. exfalso. revert H. destruct (c_receipt c) as [rm|].
  - unfold handleReceiptMessage. destruct (rc_ts rm); [exact (fun H => H)|]. destruct (rc_type rm); [|exact (fun H => H)]. intros [H|[]]. discriminate H.
  - destruct (c_typing c); [|exact (fun H => H)]. intros [H|[]]. discriminate H.
Qed.
Lemma no_calls l m : ~ In (ACall (HMessage m)) (map AStore l).
Proof. intros H. apply in_map_iff in H. destruct H as (x & H & _). discriminate H. Qed.
Lemma shown_from ou st rnd rnd2 e m : In (ACall (HMessage m)) (snd (handleReceivedMessage C ou st rnd rnd2 (Some e))) -> m_source m <> [] ->
  exists ty b pt l, e_content e = Some b /\ ((e_type e = Some 1 /\ ty = CIPHERTEXT) \/ (e_type e = Some 3 /\ ty = PREKEY_BUNDLE)) /\
    receive C (rs_w st) (g_bytes (e_source e)) (g_num (e_device e)) ty b rnd = (Ok pt, l) /\
    In (ACall (HMessage m)) (snd (deliver C ou e pt)).
Proof.
  intros H HM. unfold handleReceivedMessage in H. destruct (e_type e) as [t|] eqn:ET; [|destruct H].
  destruct (t =? 5); [destruct H as [H|[]]; discriminate H|].
  destruct (Z.eqb_spec t 1) as [->|N1].
  { unfold handle_cipher in H. destruct (e_content e) as [msg|]; [|destruct H]. destruct (LoadWhisperMessage msg) as [wm| |] eqn:EL; [|destruct H..].
    unfold stored in H.
    destruct (SessionDecryptWhisperMessage C (rs_w st) (g_bytes (e_source e)) (g_num (e_device e)) wm rnd) as [[pt|x|] l] eqn:ED; cbn [fst snd] in H.
    - exists CIPHERTEXT, msg, pt, l. split; [reflexivity|]. split; [left; auto|]. split; [cbn [receive]; rewrite EL; exact ED|].
      destruct (deliver C ou e pt) as [r l']. cbn [snd] in H |- *. apply in_app_or in H. destruct H as [H|H]; [destruct (no_calls _ _ H)|exact H].
    - exfalso. destruct x; try (exact (no_calls _ _ H)).
      match type of H with context [SessionDecryptWhisperMessage C ?w ?c ?d wm rnd2] => destruct (SessionDecryptWhisperMessage C w c d wm rnd2) as [r2 l2] end.
      cbn [fst snd] in H.
      assert (H' : In (ACall (HMessage m)) (map AStore l ++ map AStore l2)) by (destruct r2 as [b2|x2|]; [exact H|destruct x2; exact H|exact H]).
      apply in_app_or in H'. destruct H' as [H'|H']; exact (no_calls _ _ H').
    - destruct (no_calls _ _ H). }
  destruct (Z.eqb_spec t 3) as [->|N3].
  { unfold handle_prekey in H. destruct (LoadPreKeyWhisperMessage (g_bytes (e_content e))) as [pm| |] eqn:EL; [|destruct H..].
    unfold stored in H.
    destruct (SessionDecryptPreKeyWhisperMessage C (rs_w st) (g_bytes (e_source e)) (g_num (e_device e)) pm rnd) as [[pt|x|] l] eqn:ED; cbn [fst snd] in H.
    - exists PREKEY_BUNDLE, (g_bytes (e_content e)), pt, l. split; [destruct (e_content e); [reflexivity|discriminate EL]|].
      split; [right; auto|]. split; [cbn [receive]; rewrite EL; exact ED|].
      destruct (deliver C ou e pt) as [r l']. cbn [snd] in H |- *. apply in_app_or in H. destruct H as [H|H]; [destruct (no_calls _ _ H)|exact H].
    - destruct x; destruct (no_calls _ _ H).
    - destruct (no_calls _ _ H). }
  destruct (t =? 6); [|destruct H]. exfalso. unfold handle_unidentified in H. destruct (e_dest e); [|destruct H].
  apply in_andthen in H. destruct H as [[]|([[sender text] ts] & _ & H)]. apply in_andthen in H. destruct H as [[]|(content & _ & H)].
  destruct content as [|c0 content]; [destruct H|]. apply message_shown in H. destruct H as [H _]. contradiction.
Qed.

(* ---- what the texts of a sending show ---- *)
Lemma data_says ou src uuid pk now o d m : d = createMessage pk now o -> from_data ou src uuid d m -> says ou pk now o m.
Proof.
  intros -> (flags & atts & ts & gr & HF & HA & HT & HG & ->).
  unfold createMessage in HF, HA, HT, HG. cbn [d_atts d_ts d_gv2] in HA, HT, HG. injection HT as <-.
  unfold says, createMessage. cbn [m_text m_ts m_expire m_pkey m_flags m_quote m_contact m_sticker m_reaction m_group m_atts
    d_body d_expire d_pkey d_quote d_contact d_sticker d_reaction g_bytes g_num].
  split; [destruct (o_text o); reflexivity|]. split; [reflexivity|]. split; [reflexivity|]. split; [reflexivity|].
  split. { unfold handleFlags in HF. cbn [d_flags g_num d_pkey] in HF. destruct (Z.eqb_spec (o_flags o) 1) as [E|E].
    - destruct (recID uuid); cbn [fst] in HF; try discriminate HF. injection HF as <-. tauto.
    - destruct (o_flags o =? 4); [destruct (ou_contacts ou)|]; cbn [fst] in HF; try discriminate HF; injection HF as <-; split; intros; [discriminate|contradiction|discriminate|contradiction]. }
  split; [reflexivity|]. split; [reflexivity|]. split; [reflexivity|]. split; [reflexivity|].
  split. { destruct (o_gv2 o); [exact HG|congruence]. }
  destruct (o_att o) as [p|]; cbn [handleAttachments] in HA; [|congruence].
  match type of HA with context [handleSingleAttachment C ou ?a] => destruct (handleSingleAttachment C ou a) as [x| |] eqn:EX; cbn [bind] in HA; try discriminate HA;
    injection HA as <-; exists a, x end.
  cbn [ap_id ap_cdn ap_key ap_type ap_size ap_digest]. split; [reflexivity|]. split; [exact EX|]. do 5 (split; [reflexivity|]). reflexivity.
Qed.
Lemma pad_longer m : zlen m <= zlen (padMessage m).
Proof. rewrite pad_length. assert (0 <= zlen m) by (unfold zlen; lia). lia. Qed.
Lemma text_shows self pk now o uuid pt ou e m : out_fits self pk now o -> In (uuid, pt) (texts self pk now o) ->
  In (ACall (HMessage m)) (snd (deliver C ou e pt)) -> uuid = o_dest o /\ says ou pk now o m.
Proof.
  intros [OO HF] HI HM. unfold deliver in HM. apply message_shown in HM. destruct HM as [_ (c & HC & HM)].
  rewrite Forall_forall in HF. specialize (HF _ HI). cbn [snd] in HF. destruct HF as [_ HF].
  unfold texts in HI. cbv zeta in HI. destruct HI as [HI|[HI|[]]]; injection HI as <- <-.
  - split; [reflexivity|]. rewrite strip_pad, unmarshal_marshal_data in HC; [|now apply create_ok|].
    2:{ unfold fits. pose proof (pad_longer (marshal_data (createMessage pk now o))). lia. }
    injection HC as <-. cbn [c_data] in HM. destruct HM as [(d & HD & HM)|(X & _)]; [|discriminate X]. injection HD as <-.
    eapply data_says; [reflexivity|exact HM].
  - exfalso. rewrite strip_pad in HC.
    match type of HC with unmarshal_content (marshal_sync (mkSync (Some ?s) _ _ _ _ _ _)) = _ => change (unmarshal_content (marshal_sync (sync_of s)) = Some c) in HC;
      rewrite unmarshal_marshal_sync in HC end.
    + injection HC as <-. cbn [c_data c_sync c_call] in HM. destruct HM as [(d & X & _)|(_ & X & _)]; discriminate X.
    + split; cbn [sn_ts sn_msg opt]; [apply OO|now apply create_ok].
    + match goal with |- zlen ?x < _ => pose proof (pad_longer x) end. unfold sync_of in *. lia.
Qed.

(* ---- the steps of known, tidy events ---- *)
Section Run.
Variable priv : bytes -> option bytes.
Variable R : nat -> rstate.
Let W := fun i => rs_w (R i).
Lemma turns_known st u xs : uknown priv u -> turns C st u xs -> Forall (lknown C priv) xs.
Proof.
  assert (SENT : forall rnd pts xs, (forall i, mine C priv (clamp (rnd i))) -> Forall (fun x => wfb (snd x) /\ zlen (snd x) < 2 ^ 60) pts ->
    Forall (of_sending rnd pts) xs -> Forall (lknown C priv) xs).
  { intros rnd pts ys HR HP. apply Forall_impl. intros x [(rid & dev & bu & i & ->)|[(uuid & rid & dev & p & Hp & _ & ->)|(rid & dev & ->)]]; cbn [lknown known_keys ecall].
    - split; apply HR.
    - rewrite Forall_forall in HP. exact (HP _ Hp).
    - exact Logic.I. }
  intros HK [_ [HS _]]. destruct u as [x|V rnd devs i s fuel self pk now o|V rnd devs i s fuel self pk now uuid text|V rnd devs i s fuel uuid padded ts|ou rnd rnd2 env stop];
    cbn [uknown spelled] in *.
  - subst xs. constructor; [apply HK|constructor].
  - destruct HK as [HK [_ HT]]. eapply SENT; eauto.
  - destruct HK as [HK [_ HT]]. rewrite Forall_forall in *. intros x Hx. destruct (HS _ Hx) as [Hs|(rid & ->)]; [|exact Logic.I].
    assert (X : Forall (lknown C priv) [x]) by (eapply SENT; [exact HK|apply Forall_forall; exact HT|constructor; [exact Hs|constructor]]).
    now inversion X.
  - destruct HK as (HK & H1 & H2 & _). eapply SENT; [exact HK| |exact HS]. constructor; [split; assumption|constructor].
  - destruct HS as [HS _]. eapply Forall_impl; [|exact HS]. intros x [(e & rid & ty & r & st' & _ & _ & Hr & _ & ->)|(rid & ->)]; [|exact Logic.I].
    unfold one_call. destruct st'; cbn [lknown known_keys ecall]; intros j; destruct Hr as [-> | ->]; apply (HK j).
Qed.
Lemma plays_known us evs : (forall n u, In (n, u) us -> uknown priv u) -> plays C R us evs -> forall n x, In (n, x) evs -> lknown C priv x.
Proof.
  intros HK HP n x Hx. apply In_nth_error in Hx. destruct Hx as [j Hj].
  destruct (plays_in C _ _ _ HP _ _ _ Hj) as (k & u & evs1 & xs & evs2 & i & H1 & _ & H3 & _ & H5 & _).
  pose proof (turns_known _ _ _ (HK _ _ (nth_error_In _ _ H1)) H5) as HF. rewrite Forall_forall in HF. exact (HF _ (nth_error_In _ _ H3)).
Qed.
(* steps other than removing a saved key *)
Lemma turns_forget st u xs rid : turns C st u xs -> In (LForget rid) xs -> u = UStep (LForget rid).
Proof.
  assert (SENT : forall rnd pts, ~ of_sending rnd pts (LForget rid)).
  { intros rnd pts [(r & dev & bu & i & X)|[(uuid & r & dev & p & _ & _ & X)|(r & dev & X)]]; discriminate X. }
  intros [_ [HS _]] HI. destruct u as [x|V rnd devs i s fuel self pk now o|V rnd devs i s fuel self pk now uuid text|V rnd devs i s fuel uuid padded ts|ou rnd rnd2 env stop];
    cbn [spelled] in *.
  - subst xs. destruct HI as [->|[]]. reflexivity.
  - rewrite Forall_forall in HS. destruct (SENT _ _ (HS _ HI)).
  - rewrite Forall_forall in HS. destruct (HS _ HI) as [H|(r & X)]; [destruct (SENT _ _ H)|discriminate X].
  - rewrite Forall_forall in HS. destruct (SENT _ _ (HS _ HI)).
  - destruct HS as [HS _]. rewrite Forall_forall in HS. destruct (HS _ HI) as [(e & r & ty & rr & st' & _ & _ & _ & _ & X)|(r & X)]; discriminate X.
Qed.
Lemma turns_cut st u xs c k : uknown priv u -> turns C st u xs -> In (LCall (Crash c k)) xs -> exists ou rnd rnd2 env j, u = URecv ou rnd rnd2 env (Some j).
Proof.
  assert (SENT : forall rnd pts, ~ of_sending rnd pts (LCall (Crash c k))).
  { intros rnd pts [(r & dev & bu & i & X)|[(uuid & r & dev & p & _ & _ & X)|(r & dev & X)]]; discriminate X. }
  intros HK [_ [HS _]] HI. destruct u as [x|V rnd devs i s fuel self pk now o|V rnd devs i s fuel self pk now uuid text|V rnd devs i s fuel uuid padded ts|ou rnd rnd2 env stop];
    cbn [spelled uknown] in *.
  - subst xs. destruct HI as [->|[]]. destruct HK as [_ []].
  - rewrite Forall_forall in HS. destruct (SENT _ _ (HS _ HI)).
  - rewrite Forall_forall in HS. destruct (HS _ HI) as [H|(r & X)]; [destruct (SENT _ _ H)|discriminate X].
  - rewrite Forall_forall in HS. destruct (SENT _ _ (HS _ HI)).
  - destruct HS as [HS _]. rewrite Forall_forall in HS. destruct (HS _ HI) as [(e & r & ty & rr & st' & _ & _ & _ & HN & X)|(r & X)]; [|discriminate X].
    destruct stop as [j|]; [eauto 6|]. rewrite (HN eq_refl) in X. discriminate X.
Qed.
Lemma plays_tidy us evs n : (forall n u, In (n, u) us -> uknown priv u) -> plays C R us evs -> utidy R us n -> tidy C W evs n.
Proof.
  intros HK HP [T1 T2]. split.
  - intros c k Hx. apply In_nth_error in Hx. destruct Hx as [j Hj].
    destruct (plays_in C _ _ _ HP _ _ _ Hj) as (k' & u & evs1 & xs & evs2 & i & H1 & _ & H3 & _ & H5 & _).
    destruct (turns_cut _ _ _ _ _ (HK _ _ (nth_error_In _ _ H1)) H5 (nth_error_In _ _ H3)) as (ou & rnd & rnd2 & env & j' & ->).
    exact (T1 _ _ _ _ _ (nth_error_In _ _ H1)).
  - intros k rid Hj. destruct (plays_in C _ _ _ HP _ _ _ Hj) as (k' & u & evs1 & xs & evs2 & i & H1 & H2 & H3 & H4 & H5 & H6).
    pose proof (turns_forget _ _ _ _ H5 (nth_error_In _ _ H3)) as ->. destruct H5 as [_ [-> _]].
    assert (i = 0%nat) as -> by (destruct i as [|[|i]]; [reflexivity|discriminate H3|discriminate H3]).
    assert (E : lbefore C W evs k n = rs_w (ubefore C R us k' n)).
    { unfold lbefore. rewrite H4, Nat.add_0_r, H2, firstn_app, Nat.sub_diag, firstn_all. cbn [firstn]. rewrite app_nil_r. apply H6. }
    intros dev. rewrite E. exact (T2 _ _ H1 dev).
Qed.
(* which event a message was made in *)
Lemma plays_sends us evs j n rid dev pt b : (forall n u, In (n, u) us -> uknown priv u) -> plays C R us evs -> lsends C W evs j n rid dev pt b ->
  exists k u evs1 xs evs2 i uuid, nth_error us k = Some (n, u) /\ evs = evs1 ++ map (pair n) xs ++ evs2 /\ j = (length evs1 + i)%nat /\ (i < length xs)%nat /\
    turns C (ubefore C R us k n) u xs /\ (forall m, lnrun C W evs1 m = rs_w (ubefore C R us k m)) /\
    In (uuid, pt) (sent_texts u) /\ recID uuid = Ok rid.
Proof.
  intros HK HP [Hj _]. destruct (plays_in C _ _ _ HP _ _ _ Hj) as (k & u & evs1 & xs & evs2 & i & H1 & H2 & H3 & H4 & H5 & H6).
  assert (X : exists uuid, In (uuid, pt) (sent_texts u) /\ recID uuid = Ok rid).
  { assert (SENT : forall rnd pts, of_sending rnd pts (LCall (Done (CEnc rid dev pt))) -> exists uuid, In (uuid, pt) pts /\ recID uuid = Ok rid).
    { intros rnd pts [(r & d & bu & q & X)|[(uuid & r & d & p & Q1 & Q2 & X)|(r & d & X)]]; [discriminate X| |discriminate X]. injection X as <- <- <-. eauto. }
    pose proof (nth_error_In _ _ H3) as HI. pose proof (HK _ _ (nth_error_In _ _ H1)) as HU. destruct H5 as [_ [HS _]].
    destruct u as [x|V rnd devs q s fuel self pk now o|V rnd devs q s fuel self pk now uuid text|V rnd devs q s fuel uuid padded ts|ou rnd rnd2 env stop];
      cbn [spelled uknown] in *.
    - subst xs. destruct HI as [->|[]]. destruct HU as [_ []].
    - rewrite Forall_forall in HS. exact (SENT _ _ (HS _ HI)).
    - rewrite Forall_forall in HS. destruct (HS _ HI) as [H|(r & X)]; [exact (SENT _ _ H)|discriminate X].
    - rewrite Forall_forall in HS. exact (SENT _ _ (HS _ HI)).
    - destruct HS as [HS _]. rewrite Forall_forall in HS. destruct (HS _ HI) as [(e & r & ty & rr & st' & _ & _ & _ & _ & X)|(r & X)]; [|discriminate X].
      unfold one_call in X. destruct st'; discriminate X. }
  destruct X as (uuid & X1 & X2). exists k, u, evs1, xs, evs2, i, uuid.
  assert (i < length xs)%nat by (apply nth_error_Some; rewrite H3; discriminate). auto 10.
Qed.
End Run.
End Shown.

Lemma ubefore_firstn C R us k k' : (k' <= k)%nat -> ubefore C R (firstn k us) k' = ubefore C R us k'.
Proof. intros H. unfold ubefore. now rewrite firstn_firstn, Nat.min_l. Qed.
Lemma ubefore_S C R us k n u : nth_error us k = Some (n, u) -> ubefore C R us (S k) n = ustep C (ubefore C R us k n) u.
Proof.
  intros Hk. unfold ubefore. rewrite (firstn_S_nth _ _ _ Hk), fold_left_app. cbn [fold_left]. unfold unstep at 1. cbn [fst snd].
  now rewrite Nat.eqb_refl.
Qed.
Lemma utidy_firstn C R us k n : utidy C R us n -> utidy C R (firstn k us) n.
Proof.
  intros [T1 T2]. split.
  - intros ou rnd rnd2 env j HI. exact (T1 _ _ _ _ _ (in_firstn _ _ _ HI)).
  - intros k' rid Hk dev. assert (k' < length (firstn k us))%nat by (apply nth_error_Some; rewrite Hk; discriminate).
    rewrite firstn_length in *. rewrite ubefore_firstn by lia. apply T2.
    rewrite <- (firstn_skipn k us), nth_error_app1; [exact Hk|rewrite firstn_length; lia].
Qed.
(* the state after the steps of an event *)
Lemma after_chunk C (R : nat -> rstate) us k n u evs1 xs evs2 : nth_error us k = Some (n, u) -> turns C (ubefore C R us k n) u xs ->
  (forall m, lnrun C (fun i => rs_w (R i)) evs1 m = rs_w (ubefore C R us k m)) ->
  lbefore C (fun i => rs_w (R i)) (evs1 ++ map (pair n) xs ++ evs2) (length evs1 + length xs) n = rs_w (ubefore C R us (S k) n).
Proof. intros Hk [HT _] HE. rewrite lbefore_mid, HE, (ubefore_S _ _ _ _ _ _ Hk). symmetry. exact HT. Qed.
Lemma chunk_forget C st n u xs rid (evs1 evs2 : list levent) j : turns C st u xs -> u <> UStep (LForget rid) ->
  (length evs1 <= j < length evs1 + length xs)%nat -> nth_error (evs1 ++ map (pair n) xs ++ evs2) j <> Some (n, LForget rid).
Proof.
  intros HT HU HJ HN. rewrite nth_error_app2 in HN by lia. rewrite nth_error_app1 in HN by (rewrite map_length; lia).
  apply nth_error_In, in_one in HN. destruct HN as [_ HN]. apply HU. eapply turns_forget; eauto.
Qed.

(* C201. Whatever the network and the servers do: what an application that checks identities shows as a message from
   a name was asked for earlier, word for word, by the application of the owner of the key that is saved for
   that name, and it was meant for a name under which that application has this user's key. *)
Theorem C201_shown : forall C, crypto_ok C -> forall priv, (forall k x, priv k = Some x -> basepub C x = k) ->
  forall R us, start_ok C priv (fun i => rs_w (R i)) -> (forall n u, In (n, u) us -> uknown C priv u) ->
  forall evs, plays C R us evs ->
  forall k n ou rnd rnd2 env m, w_trust_all (rs_w (R n)) = false -> utidy C R us n ->
  nth_error us k = Some (n, URecv ou rnd rnd2 env None) ->
  In (ACall (HMessage m)) (uacts C (ubefore C R us k n) (URecv ou rnd rnd2 env None)) -> m_source m <> [] ->
  let me := snd (w_ident (rs_w (R n))) in
  exists id, w_ids (rs_w (ubefore C R us (S k) n)) (m_source m) = Some id /\
    (honest priv id = true -> exists e b ty j a p i wh body, env = Some e /\ e_content e = Some b /\ whisper_of ty b = Some wh /\
       wh = body ++ aeval C priv (a_tag a p i id me body) /\ plays C R (firstn k us) (firstn j evs) /\
       forall leak, lmild C (fun i => rs_w (R i)) evs leak -> ~ leak (APriv id) ->
       aknows (honest priv) leak (lsent_before C priv (fun i => rs_w (R i)) evs j) (a_tag a p i id me body) ->
       exists k' n' u pk now o, (k' < k)%nat /\ nth_error us k' = Some (n', u) /\ snd (w_ident (rs_w (R n'))) = id /\
         asked u = Some (pk, now, o) /\ says C ou pk now o m /\
         (w_trust_all (rs_w (R n')) = false -> utidy C R us n' ->
          exists rid, recID (o_dest o) = Ok rid /\ w_ids (rs_w (ubefore C R us (S k') n')) rid = Some me)).
Proof.
  intros C OK priv PO R us SO KU evs HP k n ou rnd rnd2 env m HT TD Hk HM HSrc me. set (W := fun i => rs_w (R i)) in *.
  pose proof (plays_known C priv R us evs KU HP) as KK. pose proof (plays_tidy C priv R us evs n KU HP TD) as TDn.
  destruct (plays_at C _ _ _ HP _ _ _ Hk) as (evs1 & xs & evs2 & EV & HTu & HE & HP1).
  cbn [uacts upto] in HM. destruct env as [e|]; [|destruct HM].
  destruct (shown_from C _ _ _ _ _ _ HM HSrc) as (ty & b & pt & l & EC & ETy & HR & HD).
  assert (ES : m_source m = g_bytes (e_source e)) by (unfold deliver in HD; apply message_shown in HD; apply HD).
  pose proof HTu as [HW [[HF HCd] _]]. destruct (HCd _ _ _ eq_refl EC ETy) as (rest & EX). cbn [one_call] in EX.
  destruct (recv_done C _ _ _ _ _ _ _ _ HR) as (wh0 & m0 & r1 & r' & _ & _ & _ & _ & HS).
  assert (EB : lbefore C W evs (length evs1) n = rs_w (ubefore C R us k n)).
  { unfold lbefore. rewrite EV, firstn_app, Nat.sub_diag, firstn_all. cbn [firstn]. rewrite app_nil_r. apply HE. }
  assert (TK : ltakes C W evs (length evs1) n (g_bytes (e_source e)) (g_num (e_device e)) ty b pt (r_cur r')).
  { exists rnd, l, (r_prevs r'). rewrite EB. split; [|split; [exact HR|exact HS]].
    rewrite EV, nth_error_app2, Nat.sub_diag, EX by lia. reflexivity. }
  destruct (C199_reported C OK priv PO W evs SO KK _ _ _ _ _ _ _ _ HT TDn TK) as (id & ID & HH). exists id. split.
  { assert (AC : lbefore C W evs (length evs1 + length xs) n = rs_w (ubefore C R us (S k) n))
      by (rewrite EV; exact (after_chunk C R us k n _ evs1 xs evs2 Hk HTu HE)).
    rewrite ES, <- AC. apply ID; [rewrite EX; cbn [length]; lia|].
    intros j Hj. rewrite EV. eapply chunk_forget; [exact HTu|intros X; discriminate X|]. unfold levent in *. lia. }
  intros Hid. destruct (HH Hid) as (a & p & i & wh & body & G1 & G2 & G3).
  exists e, b, ty, (length evs1), a, p, i, wh, body. split; [reflexivity|]. split; [exact EC|]. split; [exact G1|]. split; [exact G2|].
  split. { rewrite EV, firstn_app, Nat.sub_diag, firstn_all. cbn [firstn]. rewrite app_nil_r. exact HP1. }
  intros leak HL HN HA. destruct (G3 leak HL HN HA) as (j' & n' & rid' & dev' & b' & F1 & F2 & F3 & F4 & s' & ps' & F5 & F6).
  assert (F2' : lsends C W evs1 j' n' rid' dev' pt b').
  { destruct F2 as [A1 A2]. split.
    - rewrite EV, nth_error_app1 in A1 by exact F1. exact A1.
    - unfold lbefore in *. rewrite EV, firstn_under in A2 by (unfold levent in *; lia). exact A2. }
  assert (KU1 : forall n u, In (n, u) (firstn k us) -> uknown C priv u) by (intros q u Hq; apply (KU q u), (in_firstn _ _ _ Hq)).
  destruct (plays_sends C priv R (firstn k us) evs1 _ _ _ _ _ _ KU1 HP1 F2') as (k' & u & ev1 & xs' & ev2 & i' & uuid & B1 & B2 & B3 & B4 & B5 & B6 & B7 & B8).
  assert (Lk : (k' < k)%nat).
  { assert (k' < length (firstn k us))%nat by (apply nth_error_Some; rewrite B1; discriminate). rewrite firstn_length in *. lia. }
  rewrite ubefore_firstn in B5 by lia.
  assert (B6' : forall q, lnrun C W ev1 q = rs_w (ubefore C R us k' q)) by (intros q; rewrite B6, ubefore_firstn by lia; reflexivity).
  assert (B1' : nth_error us k' = Some (n', u)).
  { assert (k' < length (firstn k us))%nat by (apply nth_error_Some; rewrite B1; discriminate).
    rewrite <- (firstn_skipn k us), nth_error_app1 by assumption. exact B1. }
  assert (AS : exists pk now o, asked u = Some (pk, now, o) /\ uuid = o_dest o /\ says C ou pk now o m).
  { pose proof (KU _ _ (nth_error_In _ _ B1')) as HU.
    destruct u as [x|V rn devs q s fuel self pk now o|V rn devs q s fuel self pk now uu text|V rn devs q s fuel uu padded ts|ou' rn rn2 env' stop];
      cbn [sent_texts uknown asked] in *; try (destruct B7; fail).
    - exists pk, now, o. split; [reflexivity|]. destruct HU as [_ HU]. exact (text_shows C _ _ _ _ _ _ _ _ _ HU B7 HD).
    - exists pk, now, (end_out uu text). split; [reflexivity|]. destruct HU as [_ HU]. exact (text_shows C _ _ _ _ _ _ _ _ _ HU B7 HD).
    - exfalso. destruct B7 as [B7|[]]. injection B7 as <- <-. destruct HU as (_ & _ & _ & HU). unfold deliver in HD. apply message_shown in HD.
      destruct HD as [_ (c & HC & HD)]. destruct (HU _ HC) as [U1 U2]. destruct HD as [(d & X & _)|(_ & _ & cl & X)]; congruence. }
  destruct AS as (pk & now & o & AS & EU & SY). exists k', n', u, pk, now, o. split; [exact Lk|]. split; [exact B1'|]. split; [exact F4|].
  split; [exact AS|]. split; [exact SY|]. intros HT' TD'. exists rid'. split; [rewrite <- EU; exact B8|].
  pose proof (plays_tidy C priv R us evs n' KU HP TD') as TDn'.
  destruct (C199_written C OK priv PO W evs SO KK _ _ _ _ _ _ HT' TDn' F2) as (id' & em & I1 & I2 & (s2 & ps2 & D1 & _ & _ & D4 & _) & D5 & _).
  assert (EI : id' = me) by (rewrite F5 in D1; injection D1 as <- <-; rewrite <- D5, D4; exact F6). rewrite <- EI.
  assert (EV' : evs = ev1 ++ map (pair n') xs' ++ (ev2 ++ map (pair n) xs ++ evs2)) by (rewrite EV, B2, <- !app_assoc; reflexivity).
  assert (AC : lbefore C W evs (length ev1 + length xs') n' = rs_w (ubefore C R us (S k') n'))
    by (rewrite EV'; exact (after_chunk C R us k' n' u ev1 xs' (ev2 ++ map (pair n) xs ++ evs2) B1' B5 B6')).
  rewrite <- AC. apply I2; [unfold levent in *; lia|]. intros q Hq. rewrite EV'. eapply chunk_forget; [exact B5| |unfold levent in *; lia].
  intros ->. destruct B7.
Qed.
Print Assumptions C201_shown.

(* a run can always be told as a life of the installations *)
Theorem C201_runs : forall C R us, exists evs, plays C R us evs.
Proof. intros. apply plays_some. Qed.
Print Assumptions C201_runs.

(* the key saved for a name stays through everything but its removal by the application *)
Lemma lives_kept C rid key xs : (forall x, In x xs -> x <> LForget rid) -> forall w, w_trust_all w = false -> w_ids w rid = Some key ->
  w_trust_all (lives C w xs) = false /\ w_ids (lives C w xs) rid = Some key.
Proof.
  induction xs as [|x xs IH]; intros HF w HT HI; [split; assumption|]. cbn [lives fold_left].
  assert (X : w_trust_all (lstep C w x) = false /\ w_ids (lstep C w x) rid = Some key).
  { destruct x as [e|r dev|r|r|id kp|id kp]; cbn [lstep]; try (split; assumption).
    - pose proof (pinned_history C rid key [e] w (conj HT HI)) as H. cbn [history] in H. destruct (estep C w e). exact H.
    - split; [exact HT|]. cbn [set_id w_ids]. destruct (beq rid r) eqn:EB; [|exact HI]. apply beq_eq in EB. subst r.
      exfalso. exact (HF _ (or_introl eq_refl) eq_refl). }
  destruct X. apply IH; [|assumption..]. intros y Hy. apply HF. now right.
Qed.
Theorem C201_kept : forall C R us n rid key k, w_trust_all (rs_w (ubefore C R us k n)) = false ->
  w_ids (rs_w (ubefore C R us k n)) rid = Some key -> forall d,
  (forall j, (k <= j < k + d)%nat -> nth_error us j <> Some (n, UStep (LForget rid))) ->
  w_trust_all (rs_w (ubefore C R us (k + d) n)) = false /\ w_ids (rs_w (ubefore C R us (k + d) n)) rid = Some key.
Proof.
  intros C R us n rid key k HT HI d. induction d as [|d IH]; intros HF; [rewrite Nat.add_0_r; auto|].
  destruct (IH ltac:(intros j Hj; apply HF; lia)) as [HT' HI']. replace (k + S d)%nat with (S (k + d)) by lia.
  specialize (HF (k + d)%nat ltac:(lia)). destruct (nth_error us (k + d)) as [[m u]|] eqn:E.
  - destruct (Nat.eq_dec n m) as [<-|N].
    + rewrite (ubefore_S _ _ _ _ _ _ E). destruct (event_turns C (ubefore C R us (k + d) n) u) as (xs & HW & HS). rewrite HW.
      apply lives_kept; [|assumption..]. intros x Hx ->. apply HF. f_equal. f_equal.
      exact (turns_forget C _ _ _ _ (conj HW HS) Hx).
    + assert (X : ubefore C R us (S (k + d)) n = ubefore C R us (k + d) n).
      { unfold ubefore. rewrite (firstn_S_nth _ _ _ E), fold_left_app. cbn [fold_left]. unfold unstep at 1. cbn [fst snd].
        destruct (Nat.eqb_spec n m); [contradiction|reflexivity]. }
      rewrite X. auto.
  - assert (X : ubefore C R us (S (k + d)) n = ubefore C R us (k + d) n).
    { apply nth_error_None in E. unfold ubefore. rewrite !firstn_all2 by lia. reflexivity. }
    rewrite X. auto.
Qed.
Print Assumptions C201_kept.

(* what the listening loop does with frames is receiving envelopes *)
Theorem C201_listening : forall C sk fs st tr st' e, listen C sk st fs = (tr, st', e) ->
  exists us, st' = fold_left (ustep C) us st /\
    Forall (fun u => exists f env, In f fs /\ u = URecv (fr_out f) (fr_rnd f) (fr_rnd2 f) env None) us /\
    forall a, In (TAct a) tr -> exists us1 u us2, us = us1 ++ u :: us2 /\ In a (uacts C (fold_left (ustep C) us1 st) u).
Proof.
  intros C sk. induction fs as [|f fs IH]; intros st tr st' e H; cbn [listen] in H.
  { injection H as <- <- <-. exists []. split; [reflexivity|]. split; [constructor|intros a []]. }
  destruct (unmarshal_ws (fr_bytes f)) as [r|]; [|injection H as <- <- <-; exists []; split; [reflexivity|]; split; [constructor|intros a []]].
  assert (B : exists us, apply_acts st (snd (handle_body C sk st f (request_body r))) = fold_left (ustep C) us st /\
    Forall (fun u => exists env, u = URecv (fr_out f) (fr_rnd f) (fr_rnd2 f) env None) us /\
    forall a, In a (snd (handle_body C sk st f (request_body r))) -> exists us1 u us2, us = us1 ++ u :: us2 /\ In a (uacts C (fold_left (ustep C) us1 st) u)).
  { assert (NO : exists us, apply_acts st [] = fold_left (ustep C) us st /\ Forall (fun u => exists env, u = URecv (fr_out f) (fr_rnd f) (fr_rnd2 f) env None) us /\
      forall a, In a (@nil act) -> exists us1 u us2, us = us1 ++ u :: us2 /\ In a (uacts C (fold_left (ustep C) us1 st) u))
      by (exists []; split; [reflexivity|]; split; [constructor|intros a []]).
    unfold handle_body. destruct (request_body r) as [|c m]; [exact NO|].
    destruct (decryptReceivedMessage C sk (c :: m)) as [pt|x|]; [|exact NO|exact NO].
    exists [URecv (fr_out f) (fr_rnd f) (fr_rnd2 f) (createEnvelope pt) None]. split; [reflexivity|]. split; [constructor; [eauto|constructor]|].
    intros a Ha. exists [], (URecv (fr_out f) (fr_rnd f) (fr_rnd2 f) (createEnvelope pt) None), []. split; [reflexivity|exact Ha]. }
  destruct B as (us & B1 & B2 & B3). destruct (handle_body C sk st f (request_body r)) as [o l]. cbn [snd] in B1, B3.
  assert (B2' : Forall (fun u => exists f' env, In f' (f :: fs) /\ u = URecv (fr_out f') (fr_rnd f') (fr_rnd2 f') env None) us).
  { eapply Forall_impl; [|exact B2]. intros u (env & ->). exists f, env. split; [now left|reflexivity]. }
  assert (GO : forall tr0, match o with Panic => True | _ => listen C sk (apply_acts st l) fs = (tr0, st', e) /\ tr = map TAct l ++ TAck (request_id r) :: tr0 end ->
     o <> Panic -> exists us, st' = fold_left (ustep C) us st /\
    Forall (fun u => exists f' env, In f' (f :: fs) /\ u = URecv (fr_out f') (fr_rnd f') (fr_rnd2 f') env None) us /\
    forall a, In (TAct a) tr -> exists us1 u us2, us = us1 ++ u :: us2 /\ In a (uacts C (fold_left (ustep C) us1 st) u)).
  { intros tr0 X NP. assert (X' : listen C sk (apply_acts st l) fs = (tr0, st', e) /\ tr = map TAct l ++ TAck (request_id r) :: tr0) by (destruct o; [exact X|exact X|contradiction]).
    destruct X' as [X1 X2]. destruct (IH _ _ _ _ X1) as (us' & C1 & C2 & C3). exists (us ++ us'). rewrite fold_left_app, <- B1. split; [exact C1|]. split.
    - apply Forall_app. split; [exact B2'|]. eapply Forall_impl; [|exact C2]. intros u (f' & env & Hf & ->). exists f', env. split; [now right|reflexivity].
    - intros a Ha. rewrite X2 in Ha. apply in_app_or in Ha. destruct Ha as [Ha|[Ha|Ha]]; [|discriminate Ha|].
      + apply in_map_iff in Ha. destruct Ha as (a' & Ea & Ha). injection Ea as <-. destruct (B3 _ Ha) as (us1 & u & us2 & -> & HI).
        exists us1, u, (us2 ++ us'). split; [now rewrite <- app_assoc|exact HI].
      + destruct (C3 _ Ha) as (us1 & u & us2 & -> & HI). exists (us ++ us1), u, us2. split; [now rewrite app_assoc|].
        rewrite fold_left_app, <- B1. exact HI. }
  destruct o as [x|x|].
  - destruct (listen C sk (apply_acts st l) fs) as [[tr0 st0] e0] eqn:EL. injection H as <- <- <-. apply (GO tr0); [auto|discriminate].
  - destruct (listen C sk (apply_acts st l) fs) as [[tr0 st0] e0] eqn:EL. injection H as <- <- <-. apply (GO tr0); [auto|discriminate].
  - injection H as <- <- <-. exists us. split; [exact B1|]. split; [exact B2'|].
    intros a Ha. apply in_map_iff in Ha. destruct Ha as (a' & Ea & Ha). injection Ea as <-. exact (B3 _ Ha).
Qed.
Print Assumptions C201_listening.

(* ------------------------------------------------------------------------------------------ *)
(* C202. Whatever happened before and happens afterwards: each message that a careful application puts on the
   network, with whatever call, is for the owner of the key saved for the recipient's name, and nobody else can
   ever compute the key of its text. *)
Theorem C202_sent : forall C, crypto_ok C -> forall priv, (forall k x, priv k = Some x -> basepub C x = k) ->
  forall R us, start_ok C priv (fun i => rs_w (R i)) -> (forall n u, In (n, u) us -> uknown C priv u) ->
  forall evs, plays C R us evs ->
  forall k n u q j, w_trust_all (rs_w (R n)) = false -> utidy C R us n ->
  nth_error us k = Some (n, u) -> In q (uputs C (ubefore C R us k n) u) -> In j (q_msgs q) ->
  exists recid id e b, recID (q_dest q) = Ok recid /\ w_ids (rs_w (ubefore C R us (S k) n)) recid = Some id /\ j_content j = enc64 b /\
    em_from e = snd (w_ident (rs_w (R n))) /\ em_to e = id /\ In (q_dest q, em_text e) (sent_texts u) /\
    ActiveLink.carries b (em_body e ++ aeval C priv (tag_of e)) /\
    (honest priv id = true -> forall leak, lmild C (fun i => rs_w (R i)) evs leak -> ~ leak (APriv id) ->
     ~ aknows (honest priv) leak (lsent_before C priv (fun i => rs_w (R i)) evs (length evs)) (a_mk (em_ag e) (em_path e) (em_idx e) 0 32)).
Proof.
  intros C OK priv PO R us SO KU evs HP k n u q j HT TD Hk HQ HJ. set (W := fun i => rs_w (R i)) in *.
  pose proof (plays_known C priv R us evs KU HP) as KK. pose proof (plays_tidy C priv R us evs n KU HP TD) as TDn.
  destruct (plays_at C _ _ _ HP _ _ _ Hk) as (evs1 & xs & evs2 & EV & HTu & HE & HP1).
  pose proof HTu as (HW & _ & HM). pose proof (HM _ HQ) as MF. rewrite Forall_forall in MF.
  destruct (MF _ HJ) as (recid & xs1 & xs2 & pt & b & ty & l & ER & EX & HP2 & HEn & EC & _).
  assert (HS : lsends C W evs (length evs1 + length xs1) n recid (j_dev j) pt b).
  { rewrite EV. split.
    - rewrite nth_error_app2 by lia. replace (length evs1 + length xs1 - length evs1)%nat with (length xs1) by lia.
      rewrite EX, map_app, <- app_assoc, nth_error_app2 by (rewrite map_length; lia). rewrite map_length, Nat.sub_diag. reflexivity.
    - exists ty, l. rewrite EX, map_app, <- app_assoc.
      pose proof (lbefore_mid C W evs1 n xs1 (map (pair n) (LCall (Done (CEnc recid (j_dev j) pt)) :: xs2) ++ evs2)) as LM.
      unfold levent in *. rewrite LM. rewrite HE. exact HEn. }
  destruct (C199_written C OK priv PO W evs SO KK _ _ _ _ _ _ HT TDn HS) as (id & e & I1 & I2 & HD & HTo & HX).
  destruct HD as (s & ps & D1 & D2 & D3 & D4 & D5 & D6 & D7 & D8 & _).
  exists recid, id, e, b. split; [exact ER|]. split.
  { assert (AC : lbefore C W evs (length evs1 + length xs) n = rs_w (ubefore C R us (S k) n))
      by (rewrite EV; exact (after_chunk C R us k n _ evs1 xs evs2 Hk HTu HE)).
    rewrite <- AC. apply I2; [rewrite EX, app_length; cbn [length]; unfold levent in *; lia|].
    intros i Hi. rewrite EV. eapply chunk_forget; [exact HTu| |unfold levent in *; lia]. intros ->. destruct HQ. }
  split; [exact EC|]. split; [rewrite D3; f_equal; apply (lbefore_ok C OK priv PO W evs SO KK)|]. split; [exact HTo|].
  split; [rewrite D5; exact HP2|]. split; [exact D8|exact HX].
Qed.
Print Assumptions C202_sent.

(* ------------------------------------------------------------------------------------------ *)
(* Example. A sends a text to B, who shows it and ends the session; A shows that. *)
Definition app_server : server := ex_server ex_pub_of (fun _ => ok200).
Definition app_R (n : nat) : rstate := mkRs (ex_W n) (fun _ => None).
Definition app_ou : outside := ex_outside no_fetch.
Definition app_out : outgoing := mkOut nb [104; 105] None None None 0 60 None.
Definition app_send : appev := USend app_server PropSending.ex_rnd (fun _ => None) 0 O 5 na (Some (rb 5)) 7 app_out.
Definition app_put (l : list Sending.event) : bytes :=
  match find (fun e => match e with EvPut _ _ => true | _ => false end) l with
  | Some (EvPut q _) => match q_msgs q with j :: _ => match dec64 (j_content j) with Ok b => b | _ => [] end | [] => [] end
  | _ => [] end.
Definition app_m1 : bytes := Eval vm_compute in
  app_put (cs_log _ (snd (sendMessage toy app_server PropSending.ex_rnd 5 na (Some (rb 5)) 7 app_out (mkCs app_server (ex_W 0%nat) (fun _ => None) 0 O [])))).
Definition app_recv1 : appev := URecv app_ou (PropActive.ex_rnd 101) (PropActive.ex_rnd 101) (Some (mkEnv (Some 3) (Some na) (Some 1) None (Some 7) (Some app_m1) (Some 8))) None.
Definition app_end : appev := UEnd app_server PropSending.ex_rnd (fun _ => None) 0 O 5 nb None 9 na [120].
Definition app_m2 : bytes := Eval vm_compute in
  app_put (cs_log _ (snd (EndSession toy app_server PropSending.ex_rnd 5 nb None 9 na [120] (mkCs app_server (rs_w (ustep toy (app_R 1%nat) app_recv1)) (fun _ => None) 0 O [])))).
Definition app_recv2 : appev := URecv app_ou (PropActive.ex_rnd 102) (PropActive.ex_rnd 102) (Some (mkEnv (Some 1) (Some nb) (Some 1) None (Some 9) (Some app_m2) (Some 10))) None.
Definition app_us : list (nat * appev) := [(0%nat, app_send); (1%nat, app_recv1); (1%nat, app_end); (0%nat, app_recv2)].
Definition app_shown (k n : nat) (u : appev) : list (bytes * bytes * Z * Z) :=
  flat_map (fun a => match a with ACall (HMessage m) => [(m_source m, m_text m, m_expire m, m_flags m)] | _ => [] end)
    (uacts toy (ubefore toy app_R app_us k n) u).
Lemma app_fits self pk now o : out_ok pk now o -> forallb (fun x => wfbb (snd x) && (zlen (snd x) <? 2 ^ 60)) (texts self pk now o) = true ->
  out_fits self pk now o.
Proof.
  intros H X. split; [exact H|]. rewrite forallb_forall in X. apply Forall_forall. intros pt HI. apply X in HI. apply andb_true_iff in HI.
  destruct HI as [H1 H2]. split; [apply wfbb_ok, H1|apply Z.ltb_lt, H2].
Qed.
Lemma app_rnd i : mine toy (priv_of life_keys) (clamp (PropSending.ex_rnd i)).
Proof. unfold PropSending.ex_rnd. destruct (Nat.even i); apply mineb_ok; vm_compute; reflexivity. Qed.
Lemma app_known n u : In (n, u) app_us -> uknown toy (priv_of life_keys) u.
Proof.
  unfold app_us. cbn [In]. intros H. destruct H as [H|[H|[H|[H|[]]]]]; injection H as <- <-; cbn [app_send app_recv1 app_end app_recv2 uknown].
  - split; [exact app_rnd|]. apply app_fits; [|vm_compute; reflexivity].
    constructor; cbn [app_out o_text o_att o_flags o_expire o_time o_gv2 opt]; try (intros p X; discriminate X); try (apply wfbb_ok; vm_compute; reflexivity); unfold RecordCodec.u32, u64; lia.
  - intros i. split; apply mineb_ok; vm_compute; reflexivity.
  - split; [exact app_rnd|]. apply app_fits; [|vm_compute; reflexivity].
    constructor; cbn [end_out o_text o_att o_flags o_expire o_time o_gv2 opt]; try (intros p X; discriminate X); try (apply wfbb_ok; vm_compute; reflexivity); try exact Logic.I; unfold RecordCodec.u32, u64; lia.
  - intros i. split; apply mineb_ok; vm_compute; reflexivity.
Qed.
Lemma app_tidy n : utidy toy app_R app_us n.
Proof.
  split.
  - intros ou rnd rnd2 env j H. unfold app_us in H. cbn [In] in H. destruct H as [H|[H|[H|[H|[]]]]]; discriminate H.
  - intros k rid H. do 4 (destruct k as [|k]; [discriminate H|]). destruct k; discriminate H.
Qed.
Example C201_example : start_ok toy (priv_of life_keys) (fun i => rs_w (app_R i)) /\ (forall n u, In (n, u) app_us -> uknown toy (priv_of life_keys) u) /\
  (forall n, utidy toy app_R app_us n) /\ (forall n, (n < 2)%nat -> w_trust_all (rs_w (app_R n)) = false) /\
  app_shown 1 1%nat app_recv1 = [(na, [104; 105], 60, 0)] /\ w_ids (rs_w (ubefore toy app_R app_us 2 1%nat)) na = Some (pub 11) /\
  app_shown 3 0%nat app_recv2 = [(nb, [120], 0, 1)] /\ w_ids (rs_w (ubefore toy app_R app_us 4 0%nat)) nb = Some (pub 22) /\
  honest (priv_of life_keys) (pub 11) = true /\ honest (priv_of life_keys) (pub 22) = true.
Proof.
  split; [apply ex_start; vm_compute; reflexivity|]. split; [exact app_known|]. split; [exact app_tidy|].
  split; [intros [|[|n]] Hn; [reflexivity|reflexivity|lia]|].
  split; [vm_compute; reflexivity|]. split; [vm_compute; reflexivity|]. split; [vm_compute; reflexivity|]. split; [vm_compute; reflexivity|].
  split; vm_compute; reflexivity.
Qed.
Example C202_example : map (fun q => (q_dest q, map j_dev (q_msgs q), map (fun j => beq (j_content j) (enc64 app_m1)) (q_msgs q)))
    (uputs toy (ubefore toy app_R app_us 0 0%nat) app_send) = [(nb, [1], [true])] /\
  map (fun q => (q_dest q, map j_dev (q_msgs q))) (uputs toy (ubefore toy app_R app_us 2 1%nat) app_end) = [(na, [1])] /\
  honest (priv_of life_keys) (pub 22) = true /\ utidy toy app_R app_us 0%nat.
Proof. split; [vm_compute; reflexivity|]. split; [vm_compute; reflexivity|]. split; [vm_compute; reflexivity|apply app_tidy]. Qed.
