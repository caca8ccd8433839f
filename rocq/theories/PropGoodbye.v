(* C232: a first message that also ends the session, handed over again (/repo/textsecure.go 495-514, 565-673;
   /repo/axolotl/session.go 375-430, 677-701). *)
From Coq Require Import ZArith List Lia Bool.
From Verif Require Import Bytes Res Wire Crypto Messages Session Builder Conversation Content Encodings MessagesProofs SessionProofs SessionFacts
  Sending Examples PropSending Receiving PropReceiving PropPoison.
Import ListNotations.
Open Scope Z_scope.

(* The envelope is handed over again and again: what each handling ends with and what the application is told. *)
Fixpoint shows (C : crypto) (e : envelope) (l : list PropPoison.start) (st : rstate) : list (res unit * list hcall) :=
  match l with
  | [] => []
  | (ou, r, r2) :: t => let (o, acts) := handleReceivedMessage C ou st r r2 (Some e) in (o, calls acts) :: shows C e t (apply_acts st acts)
  end.
(* the envelope has first message pm, which opens to the text message d, one that ends the session; it begins a session, others may be there *)
Definition bye (C : crypto) (e : envelope) (pm : pkmsg) (d : datamsg) (st : rstate) : Prop :=
  e_type e = Some 3 /\ LoadPreKeyWhisperMessage (g_bytes (e_content e)) = Ok pm /\ fits (source e) (device e) pm (rs_w st) /\ source e <> [] /\
  (exists pt c, opens_fresh C (source e) (device e) pm (rs_w st) pt /\
     unmarshal_content (stripPadding pt) = Some c /\ c_data c = Some d) /\
  d_flags d = Some 1 /\ d_atts d = [] /\ d_gv2 d = None.
Definition bye_msg (e : envelope) (d : datamsg) (ts : Z) : hcall :=
  HMessage (mkMsg (source e) (source e) (g_bytes (d_body d)) [] None 1 (g_num (d_expire d)) (d_pkey d) ts (d_quote d) (d_contact d) (d_sticker d) (d_reaction d)).

Section G.
Variable C : crypto.
Variables (e : envelope) (pm : pkmsg) (d : datamsg) (st0 : rstate) (ts : Z).
Hypothesis B : bye C e pm d st0.
Hypothesis TS : d_ts d = Some ts.
Notation rid := (source e).
Notation dev := (device e).
Lemma trusted : IsTrustedIdentity (rs_w st0) rid (pk_ident pm) = true.
Proof. destruct B as (_ & _ & _ & _ & (pt & c & D & _) & _). exact (fresh_trusted _ _ _ _ _ _ D). Qed.
Lemma begin : inv rid dev pm (rs_w st0) (rs_w st0).
Proof.
  unfold inv. split; [reflexivity|]. split; [reflexivity|]. split; [reflexivity|]. split; [reflexivity|]. split; [apply trusted|apply B].
Qed.
Lemma handled st ou r r2 : inv rid dev pm (rs_w st0) (rs_w st) -> exists r' clean, handleReceivedMessage C ou st r r2 (Some e) =
  (Ok tt, (map AStore (ESaveIdentity rid (pk_ident pm) :: (if pk_pkid pm =? 16777215 then [] else [ERemovePreKey (pk_pkid pm)]) ++ [StoreSession rid dev r'])
     ++ [ADelete clean; ADelete rid]) ++ [ACall (bye_msg e d ts)]).
Proof.
  intros I. destruct B as (Te & L & N & NE & (pt & c & D & U & Cd) & Fl & At & Gv).
  destruct (opens_again C _ _ pm (rs_w st0) (rs_w st) pt D I r) as (r' & O). unfold source, device in O.
  assert (RI : exists clean, recID rid = Ok clean).
  { unfold recID. destruct rid as [|a s]; [contradiction|]. destruct (a =? 43); eexists; reflexivity. }
  destruct RI as (clean & RI). exists r', clean.
  unfold handleReceivedMessage. rewrite Te. change (3 =? 5) with false. change (3 =? 1) with false. change (3 =? 3) with true. cbn iota.
  unfold handle_prekey. rewrite L. unfold stored. rewrite O. cbn [fst snd].
  unfold deliver, handleMessage. rewrite U, Cd. unfold handleDataMessage, handleFlags. rewrite Fl. cbn [g_num]. change (1 =? 1) with true. cbn iota.
  fold (source e). rewrite RI. unfold andthen, pure. rewrite At, TS, Gv. cbn [handleAttachments app]. rewrite <- app_assoc. reflexivity.
Qed.
Lemma told l m : calls ((map AStore l ++ m) ++ [ACall (bye_msg e d ts)]) = calls m ++ [bye_msg e d ts].
Proof.
  unfold calls. rewrite !flat_map_app. cbn [flat_map app]. f_equal. induction l as [|a l IH]; [reflexivity|]. exact IH.
Qed.
Lemma quiet st l h : apply_acts st (l ++ [ACall h]) = apply_acts st l.
Proof. unfold apply_acts. rewrite fold_left_app. reflexivity. Qed.
End G.

(* FALSE of the code when the message uses no one-time prekey: the message is shown each time it is handed over. *)
Theorem C232_each_time : forall C e pm d st ts, bye C e pm d st -> d_ts d = Some ts -> pk_pkid pm = 0 \/ pk_pkid pm = 16777215 ->
  forall l, shows C e l st = repeat (Ok tt, [bye_msg e d ts]) (length l).
Proof.
  intros C e pm d st ts B TS K l.
  assert (G : forall l st1, inv (source e) (device e) pm (rs_w st) (rs_w st1) -> shows C e l st1 = repeat (Ok tt, [bye_msg e d ts]) (length l));
    [|exact (G l st (begin C e pm d st B))].
  clear l. induction l as [|((ou, r), r2) l IH]; intros st1 I; [reflexivity|]. cbn [shows length repeat].
  destruct (handled C e pm d st ts B TS st1 ou r r2 I) as (r' & clean & ->). rewrite told, quiet. cbn [calls flat_map app]. f_equal.
  apply IH. exact (inv_after (source e) (device e) pm (rs_w st) st1 r' clean K I).
Qed.
Print Assumptions C232_each_time.

(* With a one-time prekey it is shown once, and handing it over again is not even an error. *)
Theorem C232_once_partial : forall C e pm d st ts, bye C e pm d st -> d_ts d = Some ts -> pk_pkid pm <> 0 -> pk_pkid pm <> 16777215 ->
  forall x l, shows C e (x :: l) st = (Ok tt, [bye_msg e d ts]) :: repeat (Ok tt, []) (length l).
Proof.
  intros C e pm d st ts B TS K0 K1 ((ou, r), r2) l. cbn [shows].
  destruct (handled C e pm d st ts B TS st ou r r2 (begin C e pm d st B)) as (r' & clean & ->). rewrite told, quiet. cbn [calls flat_map app]. f_equal.
  set (st1 := apply_acts st _).
  assert (X : w_sess (rs_w st1) (source e) (device e) = None /\ w_pre (rs_w st1) (pk_pkid pm) = None /\ w_spk (rs_w st1) = w_spk (rs_w st) /\
    IsTrustedIdentity (rs_w st1) (source e) (pk_ident pm) = true).
  { unfold st1, apply_acts. destruct (Z.eqb_spec (pk_pkid pm) 16777215) as [E|E]; [contradiction|].
    cbn [app map fold_left apply_act apply_eff StoreSession]. unfold IsTrustedIdentity.
    cbn [rs_w delete_all set_sess set_id set_pre w_ident w_reg w_trust_all w_spk w_pre w_ids w_sess]. rewrite !beq_refl, Z.eqb_refl.
    split; [reflexivity|]. split; [reflexivity|]. split; [reflexivity|apply orb_true_r]. }
  clearbody st1. destruct X as (X1 & X2 & X3 & X4).
  assert (H : forall ou r r2, handleReceivedMessage C ou st1 r r2 (Some e) = (Ok tt, [])).
  { clear ou r r2. intros ou r r2. destruct B as (Te & L & _ & _ & (pt & c & (rnd0 & D) & _) & _).
    unfold handleReceivedMessage. rewrite Te. change (3 =? 5) with false. change (3 =? 1) with false. change (3 =? 3) with true. cbn iota.
    unfold handle_prekey. rewrite L. fold (source e). fold (device e).
    assert (R : SessionDecryptPreKeyWhisperMessage C (rs_w st1) (source e) (device e) pm r = (Err EPreKeyNotFound, [])).
    { unfold SessionDecryptPreKeyWhisperMessage, LoadSession in *. rewrite X1. cbn [set_sess w_sess] in D. rewrite beq_refl, Z.eqb_refl in D. cbn [andb] in D.
      change (BuildReceiverSession C (set_sess (rs_w st) (source e) (device e) None) (source e) NewSessionRecord pm) with (BuildReceiverSession C (rs_w st) (source e) NewSessionRecord pm) in D.
      unfold BuildReceiverSession in *. rewrite X2, X3, X4.
      destruct (negb (_ =? _)); [discriminate D|]. destruct (negb (IsTrustedIdentity (rs_w st) _ _)); [discriminate D|]. cbn [negb].
      assert (HS : hasSessionState NewSessionRecord (pk_version pm) (key_ser (pk_base pm)) = false).
      { unfold hasSessionState, NewSessionRecord. cbn [existsb r_cur r_prevs]. unfold empty_ss. cbn [s_base].
        replace (beq (key_ser (pk_base pm)) []) with false by reflexivity. rewrite andb_false_r. reflexivity. }
      rewrite HS in *. destruct (of_option ENotFound (w_spk (rs_w st) (pk_spkid pm))) as [k|x|]; cbn [bind] in *; try discriminate D.
      destruct (load_kp k) as [k'|x|]; cbn [bind] in *; try discriminate D. destruct (Z.eqb_spec (pk_pkid pm) 0) as [E|E]; [contradiction|]. reflexivity. }
    unfold stored. rewrite R. reflexivity. }
  clear -H. induction l as [|((ou, r), r2) l IH]; [reflexivity|]. cbn [shows length repeat]. rewrite H. cbn [calls flat_map]. f_equal. exact IH.
Qed.
Print Assumptions C232_once_partial.

(* Two such messages, "hi" and the end of the session: without and with a one-time prekey. *)
Definition w_bye0 := Eval vm_compute in wire0 c_end.
Definition w_bye1 := Eval vm_compute in ex_wire c_end.
Theorem C232_shown_again_refuted : exists C e d st ts, crypto_ok C /\ (exists pm, bye C e pm d st) /\ g_bytes (d_body d) = [104; 105] /\
  forall l, shows C e l st = repeat (Ok tt, [bye_msg e d ts]) (length l).
Proof.
  exists toy, (ex_env w_bye0), (text_msg (Some 77) 1 []), ex_B, 77. split; [exact toy_ok|].
  destruct (LoadPreKeyWhisperMessage (g_bytes (e_content (ex_env w_bye0)))) as [pm|x|] eqn:L; [|vm_compute in L; discriminate L|vm_compute in L; discriminate L].
  assert (Y : bye toy (ex_env w_bye0) pm (text_msg (Some 77) 1 []) ex_B).
  { unfold bye. split; [reflexivity|]. split; [exact L|]. split; [exact Logic.I|]. split; [intros X; discriminate X|]. split; [|split; [reflexivity|]; split; reflexivity].
    vm_compute in L. injection L as <-. eexists _, _. split; [exists ex_r; vm_compute; reflexivity|]. split; [vm_compute; reflexivity|reflexivity]. }
  split; [exists pm; exact Y|]. split; [reflexivity|]. apply (C232_each_time toy _ pm _ _ 77 Y eq_refl). left. vm_compute in L. injection L as <-. reflexivity.
Qed.
Print Assumptions C232_shown_again_refuted.
(* the last: B already had a session with the peer *)
Definition ex_B2 : rstate := mkRs (set_sess (rs_w ex_B) na 1 (Some (empty_ss, []))) (rs_pkeys ex_B).
Example C232_example :
  let s := (ex_outside no_fetch, ex_r, ex_r) in
  map (fun x => length (snd x)) (shows toy (ex_env w_bye0) [s; s; s] ex_B) = [1; 1; 1]%nat /\
  map (fun x => length (snd x)) (shows toy (ex_env w_bye1) [s; s; s] ex_B) = [1; 0; 0]%nat /\
  map (fun x => length (snd x)) (shows toy (ex_env w_bye0) [s; s; s] ex_B2) = [1; 1; 1]%nat.
Proof. vm_compute. auto. Qed.
