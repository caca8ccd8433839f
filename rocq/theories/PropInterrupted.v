(* C188: conversations in which the processes of both sides are stopped and started again. *)
From Coq Require Import ZArith List Lia Bool.
From Verif Require Import Bytes Res Wire Crypto Cbc Messages MessagesProofs Session Builder Conversation ConversationProofs Examples.
Import ListNotations.
Open Scope Z_scope.

(* ------------------------------------------------------------------------------------------ *)
(* A step that is carried out, or one that is cut off after k writes: the process stops and begins
   again with what is stored; nothing is handed out. *)
Inductive cact : Type := Go (a : action) | Cut (a : action) (k : nat).
Definition act_of (c : cact) : action := match c with Go a | Cut a _ => a end.

(* Messages are numbered in the order they are made; one that was made in a call that was cut off was
   not handed out. *)
Record csys : Type := mkCsys { c_w : side -> world; c_net : list (option (side * mtype * bytes)) }.

Section I.
Variable C : crypto.
Variable st : setup.
Notation peer := (st_peer st).

Definition cperform (y : csys) (a : action) : side * res bytes * list eff :=
  match a with
  | Deliver j rnd =>
      match nth_error (c_net y) j with
      | Some (Some (f, ty, b)) =>
          let x := other f in
          let (r, l) := receive C (c_w y x) (fst (peer x)) (snd (peer x)) ty b rnd in (x, r, l)
      | _ => (SA, Err EOther, [])
      end
  | _ => perform C peer (mkSys (c_w y) []) a
  end.

Definition cstep (y : csys) (c : cact) : csys :=
  let '(x, r, l) := cperform y (act_of c) in
  match c with
  | Go a => mkCsys (upd_side (c_w y) x (apply_effs (c_w y x) l))
      (match a, r with
       | Send _ _, Ok b => c_net y ++ [Some (x, sent_type C peer (mkSys (c_w y) []) a, b)]
       | _, _ => c_net y
       end)
  | Cut a k => mkCsys (upd_side (c_w y) x (apply_effs (c_w y x) (firstn k l)))
      (match a, k with Send _ _, S _ => c_net y ++ [None] | _, _ => c_net y end)
  end.

(* A call that is cut off counts if all of its writes were done. *)
Definition counts (y : csys) (c : cact) : bool :=
  match c with
  | Go _ => true
  | Cut a k => match cperform y a with (_, _, l) => (length l <=? k)%nat end
  end.
Definition cspec_step (y : csys) (sp : spec) (c : cact) : spec :=
  if counts y c then spec_step sp (act_of c) else sp.

(* Between the removal of the one-time prekey and the writing of the session (C15) *)
Definition window (y : csys) (c : cact) : Prop :=
  st_otk st <> None /\ counts y c = false /\
  match c with
  | Go _ => False
  | Cut a k => match cperform y a with (_, _, l) => In (ERemovePreKey (st_pkid st)) (firstn k l) end
  end.

Definition crefused (y : csys) (a : action) : Prop :=
  match cperform y a with
  | (x, r, l) => (exists e, r = Err e) /\
      Forall (fun e => e = ESaveIdentity (fst (peer x)) (idpub st (other x))) l
  end.
Definition handed_out (y : csys) (j : nat) : Prop := exists e, nth_error (c_net y) j = Some (Some e).
Definition cassumed (y : csys) (sp : spec) (c : cact) : Prop :=
  ~ window y c /\
  match act_of c with
  | Send x pt => sp_epoch sp x <> 0%nat /\ wfb pt /\ zlen pt < 2 ^ 60
  | Deliver j rnd => length (rnd 0%nat) = 32%nat /\ handed_out y j /\
      (deliverable sp j = true \/ (no_history st /\ repeated sp j = true) \/ crefused y (Deliver j rnd))
  | Inject _ _ _ _ => crefused y (act_of c)
  end.
Fixpoint cadmissible (y : csys) (sp : spec) (cs : list cact) : Prop :=
  match cs with
  | [] => True
  | c :: t => cassumed y sp c /\ cadmissible (cstep y c) (cspec_step y sp c) t
  end.
Fixpoint crun (y : csys) (sp : spec) (cs : list cact) : csys * spec :=
  match cs with
  | [] => (y, sp)
  | c :: t => crun (cstep y c) (cspec_step y sp c) t
  end.
Definition cstart : csys := mkCsys (y_w (start C st)) [].

(* what the users expect of a step that is carried out *)
Definition cexpected (y : csys) (sp : spec) (c : cact) : Prop :=
  match c with
  | Cut _ _ => True
  | Go a =>
    match cperform y a with
    | (x, r, l) =>
      match a with
      | Send z _ => is_ok r = true /\ x = z
      | Deliver j _ =>
          (deliverable sp j = true ->
             exists m, nth_error (sp_sent sp) j = Some m /\ r = Ok (sm_pt m) /\ x = other (sm_from m)) /\
          (no_history st -> repeated sp j = true -> (exists e, r = Err e) /\ l = [])
      | Inject _ _ _ _ => True
      end
    end
  end.

Hypothesis OK : crypto_ok C.
Hypothesis SO : setup_ok C st.
Notation Inv := (Inv C st).

Definition CInv eps (y : csys) (sp : spec) (acts : list action) : Prop :=
  exists N, Inv eps (mkSys (c_w y) N) sp acts /\ length N = length (c_net y) /\
    forall j e, nth_error (c_net y) j = Some (Some e) -> nth_error N j = Some e.

Lemma weaken eps y sp a acts : Inv eps y sp (a :: acts) -> Inv eps y sp acts.
Proof.
  intros [I1 I2 I3 I4 I5 I6 I7 I8]. constructor; auto.
  - cbn [flat_map] in I7. rewrite app_assoc in I7.
    destruct a; cbn [fresh_pub app] in I7; [rewrite app_nil_r in I7; exact I7| |rewrite app_nil_r in I7; exact I7].
    rewrite <- app_assoc in I7. cbn [app] in I7. now apply NoDup_remove_1 in I7.
  - cbn [length] in I8. lia.
Qed.

(* writes that leave the invariant alone *)
Definition harmless (x : side) (e : eff) : Prop :=
  match e with
  | ESaveIdentity r k => r = rid st x /\ k = idpub st (other x)
  | ERemovePreKey i => st_pkid st <> 0 -> i <> st_pkid st
  | EStoreSession _ _ _ _ => False
  end.
Lemma harmless_effs eps w N sp acts x l : Inv eps (mkSys w N) sp acts -> Forall (harmless x) l ->
  Inv eps (mkSys (upd_side w x (apply_effs (w x) l)) N) sp acts.
Proof.
  intros [I1 I2 I3 I4 I5 I6 I7 I8] HL. constructor; cbn [y_w y_net] in *; auto.
  - intros z. unfold upd_side. destruct (side_eqb x z) eqn:Ez; auto.
    assert (z = x) as -> by (destruct x, z; cbn in Ez; congruence).
    apply world_ok_effs; auto. eapply Forall_impl; [|exact HL]. intros [r d s p|i|r k] H; cbn in *; auto.
  - intros z. unfold upd_side. destruct (side_eqb x z) eqn:Ez; auto.
    assert (z = x) as -> by (destruct x, z; cbn in Ez; congruence).
    assert (Hsame : forall v, w_sess (apply_effs v l) = w_sess v /\ (st_pkid st <> 0 -> w_pre (apply_effs v l) (st_pkid st) = w_pre v (st_pkid st))).
    { clear -HL. induction HL as [|e l He HL IH]; intros v; [split; [reflexivity|auto]|].
      change (apply_effs v (e :: l)) with (apply_effs (apply_eff v e) l). destruct (IH (apply_eff v e)) as [-> H2].
      destruct e as [r d s p|i|r k]; cbn [harmless] in He; [contradiction|..]; cbn [apply_eff set_pre set_id w_sess w_pre] in *; (split; [reflexivity|]); auto.
      intros H0. rewrite (H2 H0). destruct (Z.eqb_spec (st_pkid st) i); [|reflexivity]. exfalso. now apply (He H0). }
    specialize (I5 x). unfold sess_ok in *. destruct (Hsame (w x)) as [-> H2].
    destruct (sp_epoch sp x); [|exact I5]. destruct I5 as [A B]. split; [exact A|]. intros H0. rewrite (H2 H0). auto.
Qed.

(* the writes of a message of the conversation that is taken *)
Lemma taken_writes eps w m f ty b rnd pt l : let x := other f in
  msg_ok C st eps m (f, ty, b) -> wfb (sm_pt m) -> zlen (sm_pt m) < 2 ^ 60 -> Z.of_nat (sm_idx m) < 2 ^ 32 ->
  receive C w (rid st x) (dev st x) ty b rnd = (Ok pt, l) ->
  exists pre s p, l = pre ++ [EStoreSession (rid st x) (dev st x) s p] /\
    forall e, In e pre -> e = ESaveIdentity (rid st x) (idpub st (other x)) \/ e = ERemovePreKey 0 \/ e = ERemovePreKey (st_pkid st).
Proof.
  intros x (Hf & prev & Hp & Hm) Hw Hz Hi HR. subst f. destruct ty; cbv zeta in Hm.
  - destruct Hm as [_ ->]. unfold receive in HR. rewrite (gen_msg_load C OK st) in HR by auto.
    unfold SessionDecryptWhisperMessage in HR. destruct (sc_decrypt _ _ _ _) as [[y| |] r']; try (injection HR as HR _; discriminate HR).
    injection HR as _ <-. exists [], (r_cur r'), (r_prevs r'). split; [reflexivity|]. intros e [].
  - destruct Hm as (Hf & _ & ->). assert (EX : x = SB) by (unfold x; now rewrite Hf). clearbody x. subst x.
    unfold receive in HR. rewrite Hf in HR. cbn [other] in HR. rewrite (pre_msg_load C OK st SO) in HR by auto.
    unfold SessionDecryptPreKeyWhisperMessage in HR.
    set (wm := gen_msg _ _ _ _ _ _ _ _) in HR.
    destruct (BuildReceiverSession C w (rid st SB) (LoadSession w (rid st SB) (dev st SB)) (pre_loaded C st wm)) as [[[id r1]| |] l0] eqn:EB;
      try (injection HR as HR _; discriminate HR).
    assert (HB : (id = 0 /\ l0 = []) \/ (id = st_pkid st /\ l0 = [ESaveIdentity (rid st SB) (idpub st SA)])).
    { unfold BuildReceiverSession in EB. destruct (negb _); [discriminate EB|]. destruct (negb _); [discriminate EB|].
      destruct (hasSessionState _ _ _); [injection EB as <- _ <-; now left|]. cbv zeta in EB.
      match type of EB with match ?e with _ => _ end = _ => destruct e as [v| |] eqn:EV end; try discriminate EB.
      injection EB as -> <-.
      destruct (of_option _ _) as [spk| |]; cbn [bind] in EV; try discriminate EV.
      destruct (load_kp _) as [spk'| |]; cbn [bind] in EV; try discriminate EV.
      match type of EV with bind ?e _ = _ => destruct e as [otk| |] end; cbn [bind] in EV; try discriminate EV.
      injection EV as <- _. right. split; reflexivity. }
    destruct (sc_decrypt C r1 _ rnd) as [[y| |] r']; try (injection HR as HR _; discriminate HR). injection HR as _ <-.
    destruct HB as [[-> ->]|[-> ->]].
    + exists [ERemovePreKey 0], (r_cur r'), (r_prevs r'). split; [reflexivity|]. intros e [<-|[]]. tauto.
    + cbn [app other]. exists (ESaveIdentity (rid st SB) (idpub st SA) :: (if st_pkid st =? 16777215 then [] else [ERemovePreKey (st_pkid st)])),
        (r_cur r'), (r_prevs r'). split; [reflexivity|]. intros e [<-|H]; [tauto|]. destruct (_ =? _); [contradiction|].
      destruct H as [<-|[]]. tauto.
Qed.

(* the full system and the one without the lost messages do the same *)
Lemma same_perform y N a : (forall j e, nth_error (c_net y) j = Some (Some e) -> nth_error N j = Some e) ->
  match a with Deliver j _ => handed_out y j | _ => True end ->
  cperform y a = perform C peer (mkSys (c_w y) N) a.
Proof.
  intros HN HA. destruct a as [x pt|j rnd|x ty b rnd]; try reflexivity.
  destruct HA as [[[f ty] b] HJ]. unfold cperform, perform. rewrite HJ. cbn [y_net y_w]. now rewrite (HN _ _ HJ).
Qed.
Lemma nth_snoc {A} (l : list A) x j e : nth_error (l ++ [x]) j = Some e -> nth_error l j = Some e \/ (j = length l /\ e = x).
Proof.
  revert j. induction l as [|a l IH]; intros [|j] H; cbn [app nth_error length] in *; auto.
  - injection H as <-. auto.
  - destruct j; discriminate H.
  - destruct (IH _ H) as [H1|[-> ->]]; auto.
Qed.
Lemma nth_snoc_last {A} (l : list A) x : nth_error (l ++ [x]) (length l) = Some x.
Proof. induction l; cbn [app nth_error length]; auto. Qed.
Lemma nth_snoc_old {A} (l : list A) x j e : nth_error l j = Some e -> nth_error (l ++ [x]) j = Some e.
Proof. revert j. induction l; intros [|j] H; try discriminate H; cbn [app nth_error] in *; auto. Qed.

Lemma in_firstn_app {A} k (l : list A) e (P : A -> Prop) z : (k < length (l ++ [z]))%nat -> In e (firstn k (l ++ [z])) -> In e l.
Proof.
  intros Hk H. rewrite app_length in Hk. cbn [length] in Hk. rewrite firstn_app in H.
  replace (k - length l)%nat with 0%nat in H by lia. cbn [firstn] in H. rewrite app_nil_r in H.
  clear Hk. revert k H. induction l as [|a l IH]; intros [|k] H; cbn [firstn In] in *; try contradiction.
  destruct H as [->|H]; [now left|right; eauto].
Qed.
Lemma firstn_Forall {A} k (l : list A) P : Forall P l -> Forall P (firstn k l).
Proof. intros H. revert k. induction H; intros [|k]; cbn [firstn]; constructor; auto. Qed.

(* the writes of a whole step that is not a message being made *)
Lemma step_same eps y sp N c acts : Inv eps (mkSys (c_w y) N) sp (act_of c :: acts) ->
  length N = length (c_net y) -> (forall j e, nth_error (c_net y) j = Some (Some e) -> nth_error N j = Some e) ->
  cassumed y sp c ->
  cexpected y sp c /\ exists eps', CInv eps' (cstep y c) (cspec_step y sp c) acts.
Proof.
  intros HI HLen HN [HWin HA].
  assert (HS : cperform y (act_of c) = perform C peer (mkSys (c_w y) N) (act_of c)).
  { apply same_perform; [exact HN|]. destruct (act_of c); auto. apply HA. }
  assert (HAs : assumed C st (mkSys (c_w y) N) sp (act_of c)).
  { unfold assumed. destruct (act_of c) as [x pt|j rnd|x ty b rnd] eqn:EA; auto.
    - destruct HA as (H1 & _ & H2). split; [exact H1|]. destruct H2 as [H2|[H2|H2]]; auto.
      right. right. unfold refused, crefused in *. now rewrite <- HS. }
  destruct (any_step C OK st SO _ _ _ _ _ HI HAs) as [HE (eps' & HI')].
  unfold expected in HE.
  destruct (perform C peer (mkSys (c_w y) N) (act_of c)) as [[x r] l] eqn:EP.
  assert (HX : forall z pt, act_of c = Send z pt -> x = z).
  { intros z pt E. rewrite E in EP. unfold perform in EP. destruct (SessionEncryptMessage _ _ _ _ _). now injection EP. }
  assert (HST : forall a, sent_type C peer (mkSys (c_w y) []) a = sent_type C peer (mkSys (c_w y) N) a) by (intros [| |]; reflexivity).
  split.
  - destruct c as [a|a k]; [|exact Logic.I]. cbn [act_of] in *. unfold cexpected. rewrite HS.
    destruct a as [z pt|j rnd|z ty b rnd]; auto. split; [exact HE|]. now apply (HX z pt).
  - unfold step in HI'. rewrite EP in HI'. unfold cspec_step. destruct (counts y c) eqn:EC.
    + exists eps'. unfold CInv, cstep. rewrite HS. destruct c as [a|a k]; cbn [act_of] in *.
      * eexists. split; [exact HI'|]. cbn [c_net]. destruct a as [z pt|j rnd|z ty b rnd]; auto. destruct r as [b| |]; auto.
        rewrite HST, !app_length. cbn [length y_net y_w]. split; [lia|]. intros j e H. apply nth_snoc in H.
        destruct H as [H|[-> H]]; [apply nth_snoc_old; auto|]. injection H as ->. rewrite <- HLen. apply nth_snoc_last.
      * cbn [counts] in EC. rewrite HS in EC. apply Nat.leb_le in EC. rewrite firstn_all2 by exact EC.
        eexists. split; [exact HI'|]. cbn [c_net]. destruct a as [z pt|j rnd|z ty b rnd]; auto.
        destruct r as [b| |]; try discriminate HE.
        assert (HL1 : length l = 1%nat).
        { unfold perform, SessionEncryptMessage in EP. destruct (ss_encrypt _ _ _) as [[[b0 t0] s0]| |]; injection EP; intros; subst; [reflexivity|discriminate..]. }
        destruct k as [|k]; [lia|]. rewrite !app_length. cbn [length y_net y_w]. split; [lia|]. intros j e H. apply nth_snoc in H.
        destruct H as [H|[_ H]]; [apply nth_snoc_old; auto|discriminate H].
    + (* cut off before the end *)
      destruct c as [a|a k]; [discriminate EC|]. cbn [act_of] in *. cbn [counts] in EC. rewrite HS in EC. apply Nat.leb_gt in EC.
      exists eps. unfold CInv, cstep. cbn [act_of]. rewrite HS.
      assert (HH : Forall (harmless x) (firstn k l)).
      { destruct a as [z pt|j rnd|z ty b rnd].
        - assert (HL1 : length l = 1%nat).
          { unfold perform, SessionEncryptMessage in EP. destruct (ss_encrypt _ _ _) as [[[b0 t0] s0]| |]; injection EP; intros; subst; [reflexivity|discriminate..]. }
          replace k with 0%nat by lia. constructor.
        - destruct HA as (Hr & Ho & HA).
          assert (HQ : Forall (fun e => e = ESaveIdentity (fst (peer x)) (idpub st (other x))) l -> Forall (harmless x) (firstn k l)).
          { intros H. apply firstn_Forall. eapply Forall_impl; [|exact H]. intros e ->. split; reflexivity. }
          destruct HA as [HD|[[HNH HR]|HA]].
          + destruct HE as [HE _]. destruct (HE HD) as (m & Hm & -> & ->).
            destruct (Forall2_nth _ _ _ _ _ (iv_net _ _ _ _ _ _ HI) Hm) as ([[f ty] b] & Hnet & Hmsg).
            cbn [y_net] in Hnet. unfold perform in EP. cbn [y_net y_w] in EP. rewrite Hnet in EP.
            destruct (receive C _ _ _ ty b rnd) as [r0 l0] eqn:ER. injection EP as E1 E2 E3. subst r0 l0.
            destruct (sk_sent _ (iv_spec _ _ _ _ _ _ HI) _ _ Hm) as (A1 & A2 & A3 & A4 & A5 & A6).
            pose proof (iv_size _ _ _ _ _ _ HI) as Hsz. cbn [length] in Hsz.
            assert (HIx : Z.of_nat (sm_idx m) < 2 ^ 32) by lia.
            destruct (taken_writes eps _ m f ty b rnd _ _ Hmsg A5 A6 HIx ER) as (pre & s & p & El & Hpre).
            rewrite E1 in *.
            apply Forall_forall. intros e He. rewrite El in EC.
            assert (Hin : In e pre). { eapply in_firstn_app; [exact (fun _ => True)|exact EC|]. rewrite <- El. exact He. }
            destruct (Hpre _ Hin) as [->|[->| ->]].
            * split; [reflexivity|reflexivity].
            * cbn [harmless]. intros H0 E. now apply H0.
            * cbn [harmless]. intros H0 _. apply HWin. split; [|split].
              -- intros EO. pose proof (so_otk _ _ SO) as HO. rewrite EO in HO. now apply H0.
              -- cbn [counts]. rewrite HS. apply Nat.leb_gt. rewrite El. exact EC.
              -- rewrite HS. exact He.
          + destruct HE as [_ HE]. destruct (HE HNH HR) as [_ ->]. destruct k; constructor.
          + unfold crefused in HA. rewrite HS in HA. apply HQ, HA.
        - unfold crefused in HA. rewrite HS in HA. apply firstn_Forall. eapply Forall_impl; [|apply HA]. intros e ->. split; reflexivity. }
      exists N. split; [apply harmless_effs; [eapply weaken; exact HI|exact HH]|]. cbn [c_net].
      destruct a as [z pt|j rnd|z ty b rnd]; auto. destruct k as [|k]; auto. exfalso.
      unfold perform, SessionEncryptMessage in EP. destruct (ss_encrypt _ _ _) as [[[b0 t0] s0]| |]; injection EP; intros; subst; cbn [length] in EC; lia.
Qed.

Theorem interrupted cs : good_schedule C st (map act_of cs) -> cadmissible cstart spec0 cs ->
  forall pre c post, cs = pre ++ c :: post ->
  let '(y, sp) := crun cstart spec0 pre in cexpected y sp c.
Proof.
  intros HG HA. destruct (start_inv C OK st SO (map act_of cs) HG) as (eps & HI). clear HG.
  assert (HC : CInv eps cstart spec0 (map act_of cs)).
  { exists []. cbn [c_net cstart c_w]. assert (E : mkSys (y_w (start C st)) [] = start C st).
    { unfold start. destruct (BuildSenderSession _ _ _ _ _ _ _). reflexivity. }
    rewrite E. split; [exact HI|]. split; [reflexivity|]. intros [|j] e H; discriminate H. }
  clear HI. revert eps HC HA. generalize cstart as y. generalize spec0 as sp. induction cs as [|c0 cs IH]; intros sp y eps HC HA.
  - intros pre c post H. destruct pre; discriminate H.
  - destruct HA as [H1 H2]. destruct HC as (N & HI & HL & HN).
    destruct (step_same _ _ _ _ _ _ HI HL HN H1) as [HE (eps' & HC')].
    intros pre c post H. destruct pre as [|b pre]; cbn [app] in H; injection H as -> ->.
    + exact HE.
    + cbn [crun]. eapply IH; eauto.
Qed.
End I.

(* C188. Both sides may be stopped in any call, after any number of its writes, and begin again with
   what is stored: with the exception of a stop between the removal of the one-time prekey and the
   writing of the session, the conversation goes on as if the calls that were cut off had not been made
   or, when all of their writes were done, as if only their result had been lost. *)
Theorem C188_interrupted : forall C, crypto_ok C -> forall st, setup_ok C st -> forall cs,
  good_schedule C st (map act_of cs) -> cadmissible C st (cstart C st) spec0 cs ->
  forall pre c post, cs = pre ++ c :: post ->
  let '(y, sp) := crun C st (cstart C st) spec0 pre in cexpected C st y sp c.
Proof. intros C OK st SO cs HG HA pre c post H. exact (interrupted C st OK SO cs HG HA pre c post H). Qed.
Print Assumptions C188_interrupted.

(* Sends are cut off before and after their write, the first message is delivered and cut off after the
   identity key has been saved, delivered again, an answer likewise; one delivery is cut off after its
   last write. *)
Definition ex_cs : list cact :=
  [Go (Send SA [1]); Cut (Send SA [2]) 0; Cut (Send SA [2]) 1; Go (Send SA [3]);
   Cut (Deliver 2 (fun _ => rb 101)) 1; Go (Deliver 2 (fun _ => rb 102)); Cut (Send SB [9]) 1; Go (Send SB [10]);
   Cut (Deliver 4 (fun _ => rb 103)) 0; Go (Deliver 4 (fun _ => rb 104)); Cut (Deliver 0 (fun _ => rb 105)) 3;
   Go (Deliver 0 (fun _ => rb 106)); Go (Send SA [4]); Go (Deliver 5 (fun _ => rb 107))].

Definition result_at (cs : list cact) (n : nat) : res bytes :=
  match nth_error cs n with
  | Some c => match crun toy ex_setup (cstart toy ex_setup) spec0 (firstn n cs) with
              | (y, _) => snd (fst (cperform toy ex_setup y (act_of c)))
              end
  | None => Panic
  end.

Definition removes (l : list eff) (k : nat) : bool :=
  existsb (fun e => match e with ERemovePreKey i => i =? st_pkid ex_setup | _ => false end) (firstn k l).

Example C188_example :
  good_schedule toy ex_setup (map act_of ex_cs) /\ cadmissible toy ex_setup (cstart toy ex_setup) spec0 ex_cs /\
  map (result_at ex_cs) [5; 9; 11; 13]%nat = [Ok [3]; Ok [10]; Err EInvalidMessage; Ok [4]].
Proof.
  split; [|split].
  - split; [cbn; lia|]. apply nodupb_ok. vm_compute. reflexivity.
  - assert (W : forall l, wfbb l = true -> wfb l) by exact wfbb_ok.
    assert (G : forall y a, ~ window toy ex_setup y (Go a)) by (intros y a (_ & _ & [])).
    assert (K : forall y a k, counts toy ex_setup y (Cut a k) = true -> ~ window toy ex_setup y (Cut a k)) by (intros y a k H (_ & H' & _); congruence).
    assert (R : forall y a k, removes (snd (cperform toy ex_setup y a)) k = false -> ~ window toy ex_setup y (Cut a k)).
    { intros y a k H (_ & _ & H'). destruct (cperform toy ex_setup y a) as [[x r] l]. cbn [snd] in H. unfold removes in H.

      rewrite <- not_true_iff_false in H. apply H, existsb_exists. exists (ERemovePreKey (st_pkid ex_setup)).
      split; [exact H'|apply Z.eqb_refl]. }
    assert (Z0 : forall y a, ~ window toy ex_setup y (Cut a 0))
      by (intros y a (_ & _ & H); destruct (cperform toy ex_setup y a) as [[x r] l]; destruct l; exact H).
    unfold ex_cs.
    repeat (match goal with
     | |- cadmissible _ _ _ _ [] => exact Logic.I
     | |- cadmissible _ _ _ _ (_ :: _) => split
     | |- cassumed _ _ _ _ _ => split
     | |- ~ window _ _ _ (Go _) => apply G
     | |- ~ window _ _ _ (Cut _ 0) => apply Z0
     | |- ~ window _ _ _ _ => first [apply K; vm_compute; reflexivity | apply R; vm_compute; reflexivity]
     | |- match act_of _ with Send _ _ => _ | Deliver _ _ => _ | Inject _ _ _ _ => _ end => cbn [act_of]
     | |- _ <> 0%nat /\ _ => split; [vm_compute; congruence|split; [apply W; reflexivity|reflexivity]]
     | |- length _ = 32%nat /\ _ => split; [reflexivity|split; [eexists; vm_compute; reflexivity|first [left; vm_compute; reflexivity | right; left; split; [exact ex_no_history|vm_compute; reflexivity]]]]
     end).
  - vm_compute. reflexivity.
Qed.

(* Without the exception it is false (C15): the stop between the two writes makes A's first message, and
   all that follow it, unreadable. *)
Theorem C188_window_refuted : exists cs,
  good_schedule toy ex_setup (map act_of cs) /\
  (forall c, In c cs -> match act_of c with Deliver _ rnd => length (rnd 0%nat) = 32%nat | _ => True end) /\
  exists pre c post y sp, cs = pre ++ c :: post /\ crun toy ex_setup (cstart toy ex_setup) spec0 pre = (y, sp) /\
    match c with Go (Deliver j _) => deliverable sp j = true | _ => False end /\
    cperform toy ex_setup y (act_of c) = (SB, Err EPreKeyNotFound, []).
Proof.
  exists [Go (Send SA [1]); Cut (Deliver 0 (fun _ => rb 101)) 2; Go (Send SA [2]); Go (Deliver 1 (fun _ => rb 102))].
  split; [|split].
  - split; [cbn; lia|]. apply nodupb_ok. vm_compute. reflexivity.
  - intros c [<-|[<-|[<-|[<-|[]]]]]; try exact Logic.I; reflexivity.
  - exists [Go (Send SA [1]); Cut (Deliver 0 (fun _ => rb 101)) 2; Go (Send SA [2])], (Go (Deliver 1 (fun _ => rb 102))), [].
    eexists. eexists. split; [reflexivity|]. split; [unfold crun; reflexivity|]. split; vm_compute; reflexivity.
Qed.
Print Assumptions C188_window_refuted.
