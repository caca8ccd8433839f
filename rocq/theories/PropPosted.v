(* What the send API puts on the network, as part of the life of a client: property C199. *)
From Coq Require Import ZArith List Lia Bool.
From Verif Require Import Bytes Res Wire Crypto Cbc CbcProofs Messages MessagesProofs Session SessionProofs SessionFacts Builder
  History HistoryProofs Active ActiveLink Examples Conversation Content Encodings Sending SendingProofs PropSending PropActive Lifetime PropLifetime.
Import ListNotations.
Open Scope Z_scope.

Section Posted.
Variable C : crypto.
Variable V : server.
Variable rnd : nat -> bytes.

Definition lives (w : world) (xs : list life) : world := fold_left (lstep C) xs w.
Lemma lives_app w xs ys : lives w (xs ++ ys) = lives (lives w xs) ys.
Proof. apply fold_left_app. Qed.

(* what sending the texts pts to the names in front of them does to the store *)
Definition of_sending (pts : list (bytes * bytes)) (x : life) : Prop :=
  (exists rid dev b i, x = LCall (Done (CBuild rid dev b (rnd i) (rnd (S i))))) \/
  (exists uuid rid dev pt, In (uuid, pt) pts /\ recID uuid = Ok rid /\ x = LCall (Done (CEnc rid dev pt))) \/ exists rid dev, x = LEnd rid dev.
(* the message j was made by a call of SessionEncryptMessage in xs *)
Definition made (w : world) (xs : list life) (uuid : bytes) (pts : list (bytes * bytes)) (j : jmsg) : Prop :=
  exists recid xs1 xs2 pt b ty l, recID uuid = Ok recid /\ xs = xs1 ++ LCall (Done (CEnc recid (j_dev j) pt)) :: xs2 /\ In (uuid, pt) pts /\
    SessionEncryptMessage C (lives w xs1) recid (j_dev j) pt = (Ok (b, ty), l) /\ j_content j = enc64 b /\ j_type j = ty.
Lemma made_more w xs ys uuid pts j : made w xs uuid pts j -> made w (xs ++ ys) uuid pts j.
Proof.
  intros (recid & xs1 & xs2 & pt & b & ty & l & HR & -> & H). exists recid, xs1, (xs2 ++ ys), pt, b, ty, l. split; [exact HR|]. split; [now rewrite <- app_assoc|exact H].
Qed.
Lemma made_later w xs ys uuid pts j : made (lives w ys) xs uuid pts j -> made w (ys ++ xs) uuid pts j.
Proof.
  intros (recid & xs1 & xs2 & pt & b & ty & l & HR & -> & H1 & H2 & H3). exists recid, (ys ++ xs1), xs2, pt, b, ty, l. split; [exact HR|]. split; [now rewrite <- app_assoc|].
  split; [exact H1|]. rewrite lives_app. split; [exact H2|exact H3].
Qed.
Definition posts (st st' : cstate V) (xs : list life) (pts : list (bytes * bytes)) : Prop :=
  exists lg, cs_log V st' = cs_log V st ++ lg /\
  forall q r, In (EvPut q r) lg -> Forall (made (cs_w V st) xs (q_dest q) pts) (q_msgs q).

Lemma ensure_life st uuid recid d pts r st' : ensure_session C V rnd st uuid recid d = (r, st') ->
  exists xs lg, cs_w V st' = lives (cs_w V st) xs /\ Forall (of_sending pts) xs /\ cs_log V st' = cs_log V st ++ lg /\
    forall q r, ~ In (EvPut q r) lg.
Proof.
  unfold ensure_session. destruct (w_sess (cs_w V st) recid d).
  { intros [= <- <-]. exists [], []. split; [reflexivity|]. split; [constructor|]. rewrite app_nil_r. auto. }
  unfold makePreKeyBundle. destruct (sv_prekeys V (cs_srv V st) uuid d) as [reply s'].
  assert (HL : forall q r, ~ In (EvPut q r) [EvFetch uuid d reply]) by (intros q r0 [X|[]]; discriminate X).
  destruct (bundle_of reply) as [b|e|]; cbn [cs_w cs_devs cs_rnd cs_srv cs_log].
  2,3: intros [= <- <-]; exists [], [EvFetch uuid d reply]; cbn [cs_w cs_log]; split; [reflexivity|]; split; [constructor|]; auto.
  destruct (BuildSenderSession C (cs_w V st) recid (b_dev b) b (rnd (cs_rnd V st)) (rnd (S (cs_rnd V st)))) as [r0 l] eqn:EB.
  intros [= <- <-]. exists [LCall (Done (CBuild recid (b_dev b) b (rnd (cs_rnd V st)) (rnd (S (cs_rnd V st)))))], [EvFetch uuid d reply].
  cbn [cs_w cs_log]. split; [cbn [lives fold_left lstep estep perform_call]; rewrite EB; reflexivity|].
  split; [constructor; [left; eauto|constructor]|]. auto.
Qed.

Lemma device_life st uuid recid padded d pts r st' : In (uuid, padded) pts -> recID uuid = Ok recid -> device_message C V st recid padded d = (r, st') ->
  exists xs, cs_w V st' = lives (cs_w V st) xs /\ Forall (of_sending pts) xs /\ cs_log V st' = cs_log V st /\
    forall j, r = Ok j -> made (cs_w V st) xs uuid pts j.
Proof.
  intros HP ER. unfold device_message. destruct (SessionEncryptMessage C (cs_w V st) recid d padded) as [o l] eqn:E. intros H.
  exists [LCall (Done (CEnc recid d padded))].
  assert (EW : cs_w V st' = lives (cs_w V st) [LCall (Done (CEnc recid d padded))] /\ cs_log V st' = cs_log V st).
  { cbn [lives fold_left lstep estep perform_call]. rewrite E. destruct o as [[b ty]| |]; injection H as <- <-; split; reflexivity. }
  split; [apply EW|]. split; [constructor; [right; left; exists uuid, recid, d, padded; auto|constructor]|]. split; [apply EW|].
  intros j ->. destruct o as [[b ty]| |]; try discriminate H. injection H as <- <-. exists recid, [], [], padded, b, ty, l.
  split; [exact ER|]. split; [reflexivity|]. split; [exact HP|]. split; [exact E|]. split; reflexivity.
Qed.

Lemma build_life uuid recid padded pts : In (uuid, padded) pts -> recID uuid = Ok recid -> forall devs st r st', build_devices C V rnd uuid recid padded devs st = (r, st') ->
  exists xs lg, cs_w V st' = lives (cs_w V st) xs /\ Forall (of_sending pts) xs /\ cs_log V st' = cs_log V st ++ lg /\
    (forall q r, ~ In (EvPut q r) lg) /\ forall js, r = Ok js -> Forall (made (cs_w V st) xs uuid pts) js.
Proof.
  intros HP ER. induction devs as [|d t IH]; intros st r st'; cbn [build_devices].
  { intros [= <- <-]. exists [], []. split; [reflexivity|]. split; [constructor|]. rewrite app_nil_r. split; [reflexivity|]. split; [auto|].
    intros js [= <-]. constructor. }
  destruct (ensure_session C V rnd st uuid recid d) as [r1 st1] eqn:E1.
  destruct (ensure_life _ _ _ _ pts _ _ E1) as (x1 & g1 & W1 & O1 & G1 & N1).
  destruct r1 as [[]|e|].
  2,3: intros [= <- <-]; exists x1, g1; split; [exact W1|]; split; [exact O1|]; split; [exact G1|]; split; [exact N1|];
    intros js X; discriminate X.
  destruct (device_message C V st1 recid padded d) as [r2 st2] eqn:E2.
  destruct (device_life _ _ _ _ _ _ _ _ HP ER E2) as (x2 & W2 & O2 & G2 & M2).
  assert (W12 : cs_w V st2 = lives (cs_w V st) (x1 ++ x2)) by (rewrite lives_app, <- W1; exact W2).
  assert (O12 : Forall (of_sending pts) (x1 ++ x2)) by (apply Forall_app; auto).
  assert (G12 : cs_log V st2 = cs_log V st ++ g1) by congruence.
  destruct r2 as [j|e|].
  2,3: intros [= <- <-]; exists (x1 ++ x2), g1; split; [exact W12|]; split; [exact O12|]; split; [exact G12|]; split; [exact N1|];
    intros js X; discriminate X.
  destruct (build_devices C V rnd uuid recid padded t st2) as [r3 st3] eqn:E3. destruct (IH _ _ _ E3) as (x3 & g3 & W3 & O3 & G3 & N3 & M3).
  assert (X : exists xs lg, cs_w V st3 = lives (cs_w V st) xs /\ Forall (of_sending pts) xs /\ cs_log V st3 = cs_log V st ++ lg /\
    (forall q r, ~ In (EvPut q r) lg) /\ forall js, r3 = Ok js -> Forall (made (cs_w V st) xs uuid pts) (j :: js)).
  { exists ((x1 ++ x2) ++ x3), (g1 ++ g3). split; [rewrite lives_app, <- W12; exact W3|]. split; [apply Forall_app; auto|].
    split; [rewrite G3, G12, app_assoc; reflexivity|]. split.
    - intros q r0 HI. apply in_app_or in HI. destruct HI as [HI|HI]; [exact (N1 _ _ HI)|exact (N3 _ _ HI)].
    - intros js Hjs. constructor.
      + apply made_more, made_later. rewrite <- W1. apply M2. reflexivity.
      + specialize (M3 _ Hjs). eapply Forall_impl; [|exact M3]. intros a Ha. apply made_later. rewrite <- W12. exact Ha. }
  destruct X as (xs & lg & X1 & X2 & X3 & X4 & X5). intros H. exists xs, lg.
  destruct r3 as [js'|e|]; injection H as <- <-; (split; [exact X1|split; [exact X2|split; [exact X3|split; [exact X4|]]]]);
    intros js Hjs; [injection Hjs as <-; apply X5; reflexivity|discriminate Hjs|discriminate Hjs].
Qed.

Lemma delete_life recid : forall stale w, delete_sessions w recid stale = lives w (map (LEnd recid) stale).
Proof. induction stale as [|d t IH]; intros w; [reflexivity|]. cbn [map lives fold_left lstep delete_sessions]. apply IH. Qed.

Lemma send_life uuid padded ts pts : In (uuid, padded) pts -> forall fuel st r st', buildAndSend C V rnd fuel uuid padded ts st = (r, st') ->
  exists xs, cs_w V st' = lives (cs_w V st) xs /\ Forall (of_sending pts) xs /\ posts st st' xs pts.
Proof.
  intros HP. induction fuel as [|f IH]; intros st r st'; cbn [buildAndSend].
  { intros [= <- <-]. exists []. split; [reflexivity|]. split; [constructor|]. exists []. rewrite app_nil_r. split; [reflexivity|]. intros q r []. }
  destruct (buildMessage C V rnd uuid padded (devs_of V st uuid) st) as [r1 st1] eqn:E1.
  assert (H1 : exists xs lg, cs_w V st1 = lives (cs_w V st) xs /\ Forall (of_sending pts) xs /\ cs_log V st1 = cs_log V st ++ lg /\
    (forall q r, ~ In (EvPut q r) lg) /\ forall js, r1 = Ok js -> exists recid, recID uuid = Ok recid /\ Forall (made (cs_w V st) xs uuid pts) js).
  { unfold buildMessage in E1. destruct (recID uuid) as [recid|e|] eqn:ER.
    - destruct (build_life _ _ _ _ HP ER _ _ _ _ E1) as (xs & lg & X1 & X2 & X3 & X4 & X5). exists xs, lg.
      split; [exact X1|]. split; [exact X2|]. split; [exact X3|]. split; [exact X4|]. intros js Hjs. exists recid. auto.
    - injection E1 as <- <-. exists [], []. split; [reflexivity|]. split; [constructor|]. rewrite app_nil_r. split; [reflexivity|].
      split; [auto|]. intros js X. discriminate X.
    - injection E1 as <- <-. exists [], []. split; [reflexivity|]. split; [constructor|]. rewrite app_nil_r. split; [reflexivity|].
      split; [auto|]. intros js X. discriminate X. }
  destruct H1 as (xs & lg & W1 & O1 & G1 & N1 & M1).
  destruct r1 as [js|e|].
  2,3: intros [= <- <-]; exists xs; split; [exact W1|]; split; [exact O1|]; exists lg; split; [exact G1|];
    intros q r HI; exfalso; exact (N1 _ _ HI).
  destruct (M1 js eq_refl) as (recid & ER & MJ). clear M1.
  destruct (sv_put V (cs_srv V st1) (mkReq uuid ts js)) as [reply s'].
  set (st2 := mkCs V (cs_w V st1) (cs_devs V st1) (cs_rnd V st1) s' (cs_log V st1 ++ [EvPut (mkReq uuid ts js) reply])).
  assert (P2 : forall ys, posts st st2 (xs ++ ys) pts).
  { intros ys. exists (lg ++ [EvPut (mkReq uuid ts js) reply]). split; [cbn [st2 cs_log]; rewrite G1, <- app_assoc; reflexivity|].
    intros q r0 HI. apply in_app_or in HI. destruct HI as [HI|[HI|[]]]; [exfalso; exact (N1 _ _ HI)|]. injection HI as <- <-.
    cbn [q_msgs q_dest]. eapply Forall_impl; [|exact MJ]. intros a. apply made_more. }
  (* one more round from a state that differs from st2 by deletions *)
  assert (MORE : forall st3 ys, cs_w V st3 = lives (cs_w V st2) ys -> Forall (of_sending pts) ys -> cs_log V st3 = cs_log V st2 ->
    buildAndSend C V rnd f uuid padded ts st3 = (r, st') ->
    exists xs, cs_w V st' = lives (cs_w V st) xs /\ Forall (of_sending pts) xs /\ posts st st' xs pts).
  { intros st3 ys W3 O3 G3 H. destruct (IH _ _ _ H) as (zs & W4 & O4 & lg4 & G4 & M4). exists ((xs ++ ys) ++ zs).
    assert (W13 : cs_w V st3 = lives (cs_w V st) (xs ++ ys)) by (rewrite lives_app, <- W1; exact W3).
    split; [rewrite lives_app, <- W13; exact W4|]. split; [rewrite !Forall_app; auto|].
    destruct (P2 ys) as (lg2 & G2 & M2). exists (lg2 ++ lg4). split; [rewrite G4, G3, G2, <- app_assoc; reflexivity|].
    intros q r0 HI. apply in_app_or in HI. destruct HI as [HI|HI].
    - eapply Forall_impl; [|exact (M2 _ _ HI)]. intros a. apply made_more.
    - eapply Forall_impl; [|exact (M4 _ _ HI)]. intros a Ha.
      apply made_later. rewrite <- W13. exact Ha. }
  assert (STOP : (r, st') = (r, st2) -> exists xs, cs_w V st' = lives (cs_w V st) xs /\ Forall (of_sending pts) xs /\ posts st st' xs pts).
  { intros H. assert (st' = st2) as -> by congruence. exists (xs ++ []). rewrite app_nil_r at 1 2. split; [exact W1|]. split; [exact O1|]. apply P2. }
  destruct reply as [|status missing extra stale needsSync]; [intros H; apply STOP; congruence|].
  destruct (status =? 409).
  { intros H. apply (MORE (set_devs V st2 uuid (correct_devices (devs_of V st2 uuid) missing extra)) []); [reflexivity|constructor|reflexivity|exact H]. }
  destruct (status =? 410).
  { rewrite ER. destruct stale as [|d t]; intros H.
    - apply (MORE (set_w V st2 (delete_sessions (cs_w V st2) recid [])) []); [reflexivity|constructor|reflexivity|exact H].
    - apply (MORE (set_w V st2 (delete_sessions (cs_w V st2) recid (d :: t))) (map (LEnd recid) (d :: t))); [apply delete_life| |reflexivity|exact H].
      apply Forall_forall. intros x Hx. apply in_map_iff in Hx. destruct Hx as (y & <- & _). right. right. eauto. }
  destruct (isError status); intros H; apply STOP; congruence.
Qed.

(* the texts that sendMessage encrypts and for whom: the message and the copy for the own devices *)
Definition texts (self : bytes) (pk : option bytes) (now : Z) (o : outgoing) : list (bytes * bytes) :=
  let dm := createMessage pk now o in
  let ts := match o_time o with Some t => t | None => now end in
  let phone := match o_dest o with c :: _ => c =? 43 | [] => false end in
  [(o_dest o, padMessage (marshal_data dm));
   (self, padMessage (marshal_sync (mkSync (Some (mkSent (if phone then Some (o_dest o) else None)
       (match o_dest o with [] => None | _ => if phone then None else Some (o_dest o) end) (Some ts) (Some dm))) false false None [] false None)))].

Lemma message_life fuel self pk now o st r st' : sendMessage C V rnd fuel self pk now o st = (r, st') ->
  exists xs, cs_w V st' = lives (cs_w V st) xs /\ Forall (of_sending (texts self pk now o)) xs /\ posts st st' xs (texts self pk now o).
Proof.
  unfold sendMessage. cbv zeta.
  set (pd := padMessage (marshal_data (createMessage pk now o))). set (ts := match o_time o with Some t => t | None => now end).
  assert (D : forall u s, cs_w V (default_devs V s u) = cs_w V s /\ cs_log V (default_devs V s u) = cs_log V s)
    by (intros u s; unfold default_devs; destruct (cs_devs V s u); split; reflexivity).
  destruct (buildAndSend C V rnd fuel (o_dest o) pd ts (default_devs V st (o_dest o))) as [r1 st1] eqn:E1.
  apply (send_life _ _ _ (texts self pk now o)) in E1; [|left; reflexivity]. destruct E1 as (xs & W1 & O1 & lg & G1 & M1).
  destruct (D (o_dest o) st) as [D1 D2]. rewrite D1 in W1, M1. rewrite D2 in G1.
  assert (STOP : forall st2, st2 = st1 -> exists xs, cs_w V st2 = lives (cs_w V st) xs /\ Forall (of_sending (texts self pk now o)) xs /\ posts st st2 xs (texts self pk now o)).
  { intros st2 ->. exists xs. split; [exact W1|]. split; [exact O1|]. exists lg. auto. }
  destruct r1 as [[[[|] t]|e|]|]; try (intros H; apply STOP; congruence).
  unfold sendSyncMessage.
  match goal with |- context [buildAndSend C V rnd fuel self ?p ts ?s] => destruct (buildAndSend C V rnd fuel self p ts s) as [r2 st2] eqn:E2;
    apply (send_life _ _ _ (texts self pk now o)) in E2 end.
  2:{ right. left. unfold texts. cbv zeta. fold ts. destruct (o_dest o) as [|c t0]; [reflexivity|]. destruct (c =? 43); reflexivity. }
  destruct E2 as (ys & W2 & O2 & lg2 & G2 & M2). destruct (D self st1) as [D3 D4]. rewrite D3 in W2, M2. rewrite D4 in G2.
  intros H. assert (st' = st2) as -> by (destruct r2 as [[[[|] t']|e|]|]; congruence).
  exists (xs ++ ys). split; [rewrite lives_app, <- W1; exact W2|]. split; [apply Forall_app; auto|].
  exists (lg ++ lg2). split; [rewrite G2, G1, <- app_assoc; reflexivity|].
  intros q r0 HI. apply in_app_or in HI. destruct HI as [HI|HI].
  - eapply Forall_impl; [|exact (M1 _ _ HI)]. intros a. apply made_more.
  - eapply Forall_impl; [|exact (M2 _ _ HI)]. intros a Ha.
    apply made_later. rewrite <- W1. exact Ha.
Qed.
End Posted.

(* ------------------------------------------------------------------------------------------ *)
Lemma firstn_under {A} (l1 l2 : list A) k : (k <= length l1)%nat -> firstn k (l1 ++ l2) = firstn k l1.
Proof. intros H. rewrite firstn_app. replace (k - length l1)%nat with 0%nat by lia. cbn [firstn]. apply app_nil_r. Qed.
Lemma lnrun_app C W a b : lnrun C W (a ++ b) = lnrun C (lnrun C W a) b.
Proof. apply fold_left_app. Qed.
Lemma lnrun_one C n : forall xs W, lnrun C W (map (pair n) xs) n = lives C (W n) xs.
Proof.
  induction xs as [|x xs IH]; intros W; [reflexivity|]. cbn [map].
  change (lnrun C W ((n, x) :: map (pair n) xs)) with (lnrun C (lnstep C W (n, x)) (map (pair n) xs)). rewrite IH.
  unfold lnstep. cbn [fst snd]. rewrite Nat.eqb_refl. reflexivity.
Qed.
Lemma lbefore_mid C W evs n xs later : lbefore C W (evs ++ map (pair n) xs ++ later) (length evs + length xs) n = lives C (lnrun C W evs n) xs.
Proof.
  unfold lbefore. rewrite app_assoc, firstn_under by (rewrite app_length, map_length; lia).
  rewrite firstn_all2 by (rewrite app_length, map_length; lia). now rewrite lnrun_app, lnrun_one.
Qed.
Lemma in_one {A B} (n m : A) (x : B) xs : In (m, x) (map (pair n) xs) -> m = n /\ In x xs.
Proof. intros H. apply in_map_iff in H. destruct H as (y & E & H). injection E as <- <-. auto. Qed.

(* C199. Whatever the server answers and whatever happened before: each message that SendMessage puts on
   the network is for the owner of the key that is saved for the recipient's name (for the copy that the
   own devices get, for the own name), and nobody else can ever compute the key of its text. *)
Theorem C199_posted : forall C, crypto_ok C -> forall priv, (forall k x, priv k = Some x -> basepub C x = k) ->
  forall W evs, start_ok C priv W -> (forall n x, In (n, x) evs -> lknown C priv x) ->
  forall n, w_trust_all (W n) = false -> tidy C W evs n ->
  forall V rnd fuel self pk now o st r st', cs_w V st = lnrun C W evs n -> (forall i, mine C priv (clamp (rnd i))) ->
  Forall (fun x => wfb (snd x) /\ zlen (snd x) < 2 ^ 60) (texts self pk now o) ->
  sendMessage C V rnd fuel self pk now o st = (r, st') ->
  exists xs lg, cs_w V st' = lnrun C W (evs ++ map (pair n) xs) n /\ cs_log V st' = cs_log V st ++ lg /\
  forall q rep j, In (EvPut q rep) lg -> In j (q_msgs q) ->
  exists recid id b, recID (q_dest q) = Ok recid /\ w_ids (cs_w V st') recid = Some id /\ j_content j = enc64 b /\
  forall later, (forall m x, In (m, x) later -> lknown C priv x) -> let all := evs ++ map (pair n) xs ++ later in
  exists e, em_from e = snd (w_ident (W n)) /\ em_to e = id /\ In (q_dest q, em_text e) (texts self pk now o) /\
    ActiveLink.carries b (em_body e ++ aeval C priv (tag_of e)) /\
    (honest priv id = true -> forall leak, lmild C W all leak -> ~ leak (APriv id) ->
     ~ aknows (honest priv) leak (lsent_before C priv W all (length all)) (a_mk (em_ag e) (em_path e) (em_idx e) 0 32)).
Proof.
  intros C OK priv PO W evs SO KK n HT TD V rnd fuel self pk now o st r st' EW HR HX H.
  destruct (message_life C V rnd _ _ _ _ _ _ _ _ H) as (xs & W1 & O1 & lg & G1 & M1). exists xs, lg.
  assert (WX : lnrun C W (evs ++ map (pair n) xs) n = lives C (lnrun C W evs n) xs) by now rewrite lnrun_app, lnrun_one.
  split; [rewrite WX, <- EW; exact W1|]. split; [exact G1|]. intros q rep j HQ HJ.
  pose proof (M1 _ _ HQ) as MF. rewrite Forall_forall in MF, O1, HX.
  destruct (MF _ HJ) as (recid & xs1 & xs2 & pt & b & ty & l & ER & EX & HP & HE & EC & _). rewrite EW in HE.
  assert (KX : forall m x, In (m, x) (map (pair n) xs) -> lknown C priv x).
  { intros m x Hx. apply in_one in Hx. destruct Hx as [_ Hx]. destruct (O1 _ Hx) as [(rid & dev & bu & i & ->)|[(uuid & rid & dev & p & Hp & _ & ->)|(rid & dev & ->)]]; cbn [lknown known_keys ecall].
    - split; apply HR.
    - exact (HX _ Hp).
    - exact Logic.I. }
  assert (TX : tidy C W (evs ++ map (pair n) xs) n).
  { split.
    - intros c k HI. apply in_app_or in HI. destruct HI as [HI|HI]; [exact (proj1 TD _ _ HI)|].
      apply in_one in HI. destruct HI as [_ HI]. destruct (O1 _ HI) as [(? & ? & ? & ? & X)|[(? & ? & ? & ? & _ & _ & X)|(? & ? & X)]]; discriminate X.
    - intros k rid Hk dev. destruct (Nat.lt_ge_cases k (length evs)) as [L|L].
      + rewrite nth_error_app1 in Hk by exact L. unfold lbefore. rewrite firstn_under by (exact (Nat.lt_le_incl _ _ L)). exact (proj2 TD _ _ Hk dev).
      + rewrite nth_error_app2 in Hk by exact L. apply nth_error_In, in_one in Hk. destruct Hk as [_ Hk].
        destruct (O1 _ Hk) as [(? & ? & ? & ? & X)|[(? & ? & ? & ? & _ & _ & X)|(? & ? & X)]]; discriminate X. }
  assert (SENT : forall later, lsends C W (evs ++ map (pair n) xs ++ later) (length evs + length xs1) n recid (j_dev j) pt b).
  { intros later. split.
    - rewrite nth_error_app2 by lia. replace (length evs + length xs1 - length evs)%nat with (length xs1) by lia.
      rewrite EX, map_app, <- app_assoc, nth_error_app2 by (rewrite map_length; lia). rewrite map_length, Nat.sub_diag. reflexivity.
    - exists ty, l. rewrite EX, map_app, <- app_assoc, lbefore_mid. exact HE. }
  assert (KA : forall later, (forall m x, In (m, x) later -> lknown C priv x) -> forall m x, In (m, x) (evs ++ map (pair n) xs ++ later) -> lknown C priv x).
  { intros later KL m x HI. apply in_app_or in HI. destruct HI as [HI|HI]; [exact (KK _ _ HI)|].
    apply in_app_or in HI. destruct HI as [HI|HI]; [exact (KX _ _ HI)|exact (KL _ _ HI)]. }
  assert (KN : forall m x, In (m, x) (@nil levent) -> lknown C priv x) by (intros m x []).
  pose proof (SENT []) as S0. pose proof (KA [] KN) as K0. rewrite app_nil_r in S0, K0.
  destruct (C199_written C OK priv PO W _ SO K0 _ _ _ _ _ _ HT TX S0) as (id & e0 & I1 & I2 & D0 & T0 & _).
  destruct D0 as (s & ps & S1 & _ & _ & S4 & _). rewrite T0 in S4.
  exists recid, id, b. split; [exact ER|]. split.
  { assert (EF : lnrun C W (evs ++ map (pair n) xs) n = lbefore C W (evs ++ map (pair n) xs) (length evs + length xs) n).
    { unfold lbefore. rewrite firstn_all2; [reflexivity|]. rewrite app_length, map_length. lia. }
    rewrite W1, EW, <- WX, EF. apply I2; [rewrite EX, app_length; cbn [length]; lia|].
    intros i Hi Hn. rewrite nth_error_app2 in Hn by lia. apply nth_error_In, in_one in Hn. destruct Hn as [_ Hn].
    destruct (O1 _ Hn) as [(? & ? & ? & ? & X)|[(? & ? & ? & ? & _ & _ & X)|(? & ? & X)]]; discriminate X. }
  split; [exact EC|]. intros later KL all. specialize (KA later KL). fold all in KA. specialize (SENT later). fold all in SENT.
  destruct (C200_secret C OK priv PO W all SO KA _ _ _ _ _ _ SENT) as (e & HD & _ & HS).
  destruct HD as (s' & ps' & E1 & E2 & E3 & E4 & E5 & E6 & E7 & E8 & _).
  assert (ES : s' = s).
  { assert (EB : lbefore C W all (length evs + length xs1) n = lbefore C W (evs ++ map (pair n) xs) (length evs + length xs1) n).
    { unfold lbefore, all. rewrite app_assoc, firstn_under; [reflexivity|]. rewrite EX, app_length, map_length, app_length. lia. }
    rewrite EB, S1 in E1. congruence. }
  assert (ET : em_to e = id) by (rewrite E4, ES; congruence).
  exists e. split; [rewrite E3; f_equal; apply (lbefore_ok C OK priv PO W all SO KA)|]. split; [exact ET|]. split; [rewrite E5; exact HP|].
  split; [exact E8|]. rewrite ET in HS. exact HS.
Qed.
Print Assumptions C199_posted.

(* ------------------------------------------------------------------------------------------ *)
(* The recipient has another identity key now than the one that is saved: the keys the server has for
   that name (in whatever spelling) are not of the saved identity. *)
Section Changed.
Variable C : crypto.
Variable V : server.
Variable rnd : nat -> bytes.
Variable recid key : bytes.
Definition other_key : Prop := forall s uuid d ident ds k, recID uuid = Ok recid ->
  fst (sv_prekeys V s uuid d) = PkResp ident ds -> decodeKey ident = Ok k -> k <> key.
Hypothesis OTHER : other_key.
(* no session comes, the saved key stays *)
Definition held (w w' : world) : Prop :=
  w_trust_all w' = false /\ w_ids w' recid = Some key /\ forall d, w_sess w recid d = None -> w_sess w' recid d = None.
Lemma held_trans w w1 w2 : held w w1 -> held w1 w2 -> held w w2.
Proof. intros (A1 & A2 & A3) (B1 & B2 & B3). split; [exact B1|]. split; [exact B2|]. auto. Qed.

Lemma bundle_ident reply b : bundle_of reply = Ok b -> exists ident ds, reply = PkResp ident ds /\ decodeKey ident = Ok (b_ident b).
Proof.
  unfold bundle_of. destruct reply as [e|ident [|pk [|x t]]]; try discriminate. intros B.
  apply bind_ok in B. destruct B as (k & _ & B). destruct (pd_spk pk) as [[[sid stext] sigtext]|]; [|discriminate].
  apply bind_ok in B. destruct B as (k1 & _ & B). apply bind_ok in B. destruct B as (k2 & _ & B).
  apply bind_ok in B. destruct B as (k3 & D & B). injection B as <-. exists ident, [pk]. auto.
Qed.
Lemma ensure_changed st uuid d r st' : w_trust_all (cs_w V st) = false -> w_ids (cs_w V st) recid = Some key -> recID uuid = Ok recid ->
  ensure_session C V rnd st uuid recid d = (r, st') ->
  cs_w V st' = cs_w V st /\ cs_devs V st' = cs_devs V st /\ (w_sess (cs_w V st) recid d = None -> r <> Ok tt) /\
  exists lg, cs_log V st' = cs_log V st ++ lg /\ forall q r, ~ In (EvPut q r) lg.
Proof.
  intros HT HI ER. unfold ensure_session. destruct (w_sess (cs_w V st) recid d) eqn:ES.
  { intros [= <- <-]. split; [reflexivity|]. split; [reflexivity|]. split; [intros X; discriminate X|]. exists []. rewrite app_nil_r. auto. }
  unfold makePreKeyBundle. destruct (sv_prekeys V (cs_srv V st) uuid d) as [reply s'] eqn:EP.
  assert (HL : forall q r, ~ In (EvPut q r) [EvFetch uuid d reply]) by (intros q r0 [X|[]]; discriminate X).
  destruct (bundle_of reply) as [b|e|] eqn:EB; cbn [cs_w cs_devs cs_rnd cs_srv cs_log].
  2,3: intros [= <- <-]; cbn [cs_w cs_log cs_devs]; split; [reflexivity|]; split; [reflexivity|]; split; [intros _ X; discriminate X|]; eauto.
  destruct (bundle_ident _ _ EB) as (ident & ds & -> & ED).
  assert (EQ : fst (sv_prekeys V (cs_srv V st) uuid d) = PkResp ident ds) by now rewrite EP.
  pose proof (OTHER _ _ _ _ _ _ ER EQ ED) as NE.
  unfold BuildSenderSession, IsTrustedIdentity. rewrite HT, HI. cbn [orb].
  destruct (beq key (b_ident b)) eqn:EK; [apply beq_eq in EK; exfalso; now apply NE|]. cbn [negb].
  intros [= <- <-]. cbn [cs_w cs_devs cs_log apply_effs fold_left]. split; [reflexivity|]. split; [reflexivity|]. split; [intros _ X; discriminate X|]. eauto.
Qed.
Lemma encrypt_held w rid d pt r l : w_trust_all w = false -> w_ids w recid = Some key -> SessionEncryptMessage C w rid d pt = (r, l) ->
  held w (apply_effs w l) /\ forall v, r = Ok v -> w_sess w rid d <> None.
Proof.
  intros HT HI H. apply encrypt_inv in H. destruct H as [[-> H]|(m & ty & c & p & s' & -> & HS & -> & _)].
  - split; [split; [exact HT|]; split; [exact HI|]; auto|]. intros v X. exfalso. exact (H _ X).
  - split; [|intros v _; congruence]. cbn [apply_effs fold_left apply_eff]. split; [exact HT|]. split; [exact HI|]. intros d0 H0.
    cbn [set_sess w_sess]. destruct (beq recid rid && (d0 =? d)) eqn:E; [|exact H0]. apply andb_true_iff in E. destruct E as [E1 E2].
    apply beq_eq in E1. apply Z.eqb_eq in E2. subst rid d0. congruence.
Qed.
Lemma build_changed uuid padded : recID uuid = Ok recid -> forall devs st r st', w_trust_all (cs_w V st) = false -> w_ids (cs_w V st) recid = Some key ->
  build_devices C V rnd uuid recid padded devs st = (r, st') ->
  held (cs_w V st) (cs_w V st') /\ cs_devs V st' = cs_devs V st /\
  (forall js, r = Ok js -> map j_dev js = devs /\ forall d, In d devs -> w_sess (cs_w V st) recid d <> None) /\
  exists lg, cs_log V st' = cs_log V st ++ lg /\ forall q r, ~ In (EvPut q r) lg.
Proof.
  intros ER. induction devs as [|d t IH]; intros st r st' HT HI; cbn [build_devices].
  { intros [= <- <-]. split; [split; auto|]. split; [reflexivity|]. split; [intros js [= <-]; split; [reflexivity|intros d []]|]. exists []. rewrite app_nil_r. auto. }
  destruct (ensure_session C V rnd st uuid recid d) as [r1 st1] eqn:E1.
  destruct (ensure_changed _ _ _ _ _ HT HI ER E1) as (W1 & V1 & N1 & lg1 & G1 & L1).
  assert (STOP1 : forall st2, st2 = st1 -> held (cs_w V st) (cs_w V st2) /\ cs_devs V st2 = cs_devs V st /\
     exists lg, cs_log V st2 = cs_log V st ++ lg /\ forall q r, ~ In (EvPut q r) lg).
  { intros st2 ->. split; [rewrite W1; split; auto|]. split; [exact V1|]. eauto. }
  destruct r1 as [[]|e|].
  2,3: intros [= <- <-]; destruct (STOP1 _ eq_refl) as (Q1 & Q2 & Q3); split; [exact Q1|]; split; [exact Q2|]; split; [intros js X; discriminate X|exact Q3].
  assert (HD : w_sess (cs_w V st) recid d <> None) by (intros X; now apply (N1 X)).
  unfold device_message. destruct (SessionEncryptMessage C (cs_w V st1) recid d padded) as [r2 l2] eqn:E2. rewrite W1 in E2.
  destruct (encrypt_held _ _ _ _ _ _ HT HI E2) as [H2 _].
  destruct r2 as [[b ty]|e|].
  2,3: intros [= <- <-]; cbn [set_w cs_w cs_devs cs_log]; rewrite W1; split; [exact H2|]; split; [exact V1|]; split; [intros js X; discriminate X|]; eauto.
  cbv zeta. set (st2 := set_w V st1 (apply_effs (cs_w V st1) l2)).
  assert (W2 : cs_w V st2 = apply_effs (cs_w V st) l2) by (cbn [st2 set_w cs_w]; now rewrite W1).
  destruct (build_devices C V rnd uuid recid padded t st2) as [r3 st3] eqn:E3.
  destruct (IH st2 r3 st3) as (H3 & V3 & M3 & lg3 & G3 & L3); [rewrite W2; apply H2|rewrite W2; apply H2|exact E3|].
  assert (H : forall r' st'', match r3 with Ok js => (Ok (mkJ ty d (s_rreg (r_cur (LoadSession (apply_effs (cs_w V st1) l2) recid d))) (enc64 b) :: js), st3) | _ => (r3, st3) end = (r', st'') ->
    held (cs_w V st) (cs_w V st'') /\ cs_devs V st'' = cs_devs V st /\
    (forall js, r' = Ok js -> map j_dev js = d :: t /\ forall d0, In d0 (d :: t) -> w_sess (cs_w V st) recid d0 <> None) /\
    exists lg, cs_log V st'' = cs_log V st ++ lg /\ forall q r, ~ In (EvPut q r) lg).
  { intros r' st'' HH. assert (st'' = st3) as -> by (destruct r3; congruence).
    split; [apply (held_trans _ (cs_w V st2)); [rewrite W2; exact H2|exact H3]|]. split; [rewrite V3; exact V1|]. split.
    - intros js ->. destruct r3 as [js3|e|]; try discriminate HH. injection HH as <-. destruct (M3 _ eq_refl) as [M4 M5]. split; [cbn [map j_dev]; now rewrite M4|].
      intros d0 [<-|Hd]; [exact HD|]. intros X. apply (M5 _ Hd). rewrite W2. now apply H2.
    - exists (lg1 ++ lg3). split; [rewrite G3; cbn [st2 set_w cs_log]; rewrite G1, <- app_assoc; reflexivity|].
      intros q r0 HI0. apply in_app_or in HI0. destruct HI0 as [HI0|HI0]; [exact (L1 _ _ HI0)|exact (L3 _ _ HI0)]. }
  intros HH. apply H. destruct r3; exact HH.
Qed.
Lemma delete_held stale : forall w w0, held w0 w -> forall rid, held w0 (delete_sessions w rid stale).
Proof.
  induction stale as [|d t IH]; intros w w0 H rid; [exact H|]. cbn [delete_sessions fold_left]. apply IH.
  destruct H as (A1 & A2 & A3). split; [exact A1|]. split; [exact A2|]. intros d0 H0. cbn [set_sess w_sess].
  destruct (beq recid rid && (d0 =? d)); [reflexivity|now apply A3].
Qed.
Lemma send_changed uuid padded ts : recID uuid = Ok recid -> forall fuel st r st', w_trust_all (cs_w V st) = false -> w_ids (cs_w V st) recid = Some key ->
  buildAndSend C V rnd fuel uuid padded ts st = (r, st') ->
  held (cs_w V st) (cs_w V st') /\
  exists lg, cs_log V st' = cs_log V st ++ lg /\
    (forall q rep j, In (EvPut q rep) lg -> In j (q_msgs q) -> w_sess (cs_w V st) recid (j_dev j) <> None) /\
    ((exists d, In d (devs_of V st uuid) /\ w_sess (cs_w V st) recid d = None) -> (forall v, r <> Some (Ok v)) /\ forall q rep, ~ In (EvPut q rep) lg).
Proof.
  intros ER. induction fuel as [|f IH]; intros st r st' HT HI; cbn [buildAndSend].
  { intros [= <- <-]. split; [split; auto|]. exists []. rewrite app_nil_r. split; [reflexivity|]. split; [intros q rep j []|]. intros _. split; [intros v X; discriminate X|auto]. }
  unfold buildMessage. rewrite ER.
  destruct (build_devices C V rnd uuid recid padded (devs_of V st uuid) st) as [r1 st1] eqn:E1.
  destruct (build_changed uuid padded ER _ _ _ _ HT HI E1) as (H1 & V1 & M1 & lg1 & G1 & L1).
  destruct r1 as [js|e|].
  2,3: intros [= <- <-]; split; [exact H1|]; exists lg1; split; [exact G1|]; split; [intros q rep j Hq; exfalso; exact (L1 _ _ Hq)|];
    intros _; split; [intros v X; discriminate X|exact L1].
  destruct (M1 _ eq_refl) as [M2 M3].
  destruct (sv_put V (cs_srv V st1) (mkReq uuid ts js)) as [reply s'].
  set (st2 := mkCs V (cs_w V st1) (cs_devs V st1) (cs_rnd V st1) s' (cs_log V st1 ++ [EvPut (mkReq uuid ts js) reply])).
  assert (P2 : forall q rep j, In (EvPut q rep) (lg1 ++ [EvPut (mkReq uuid ts js) reply]) -> In j (q_msgs q) -> w_sess (cs_w V st) recid (j_dev j) <> None).
  { intros q rep j HIn HJ. apply in_app_or in HIn. destruct HIn as [HIn|[HIn|[]]]; [exfalso; exact (L1 _ _ HIn)|]. injection HIn as <- <-.
    cbn [q_msgs] in HJ. apply M3. rewrite <- M2. now apply in_map. }
  assert (G2 : cs_log V st2 = cs_log V st ++ lg1 ++ [EvPut (mkReq uuid ts js) reply]) by (cbn [st2 cs_log]; rewrite G1, <- app_assoc; reflexivity).
  assert (NO : forall X : Prop, (exists d, In d (devs_of V st uuid) /\ w_sess (cs_w V st) recid d = None) -> X).
  { intros X (d & Hd & HN). exfalso. exact (M3 _ Hd HN). }
  assert (MORE : forall st3, held (cs_w V st) (cs_w V st3) -> cs_log V st3 = cs_log V st2 -> buildAndSend C V rnd f uuid padded ts st3 = (r, st') ->
    held (cs_w V st) (cs_w V st') /\
    exists lg, cs_log V st' = cs_log V st ++ lg /\
      (forall q rep j, In (EvPut q rep) lg -> In j (q_msgs q) -> w_sess (cs_w V st) recid (j_dev j) <> None) /\
      ((exists d, In d (devs_of V st uuid) /\ w_sess (cs_w V st) recid d = None) -> (forall v, r <> Some (Ok v)) /\ forall q rep, ~ In (EvPut q rep) lg)).
  { intros st3 H3 G3 H. destruct (IH st3 r st') as (H4 & lg4 & G4 & M4 & _); [apply H3|apply H3|exact H|].
    split; [exact (held_trans _ _ _ H3 H4)|]. exists ((lg1 ++ [EvPut (mkReq uuid ts js) reply]) ++ lg4).
    split; [rewrite G4, G3, G2, <- app_assoc; reflexivity|]. split; [|apply NO].
    intros q rep j HIn HJ. apply in_app_or in HIn. destruct HIn as [HIn|HIn]; [exact (P2 _ _ _ HIn HJ)|].
    intros X. apply (M4 _ _ _ HIn HJ). now apply H3. }
  assert (STOP : st' = st2 -> held (cs_w V st) (cs_w V st') /\
    exists lg, cs_log V st' = cs_log V st ++ lg /\
      (forall q rep j, In (EvPut q rep) lg -> In j (q_msgs q) -> w_sess (cs_w V st) recid (j_dev j) <> None) /\
      ((exists d, In d (devs_of V st uuid) /\ w_sess (cs_w V st) recid d = None) -> (forall v, r <> Some (Ok v)) /\ forall q rep, ~ In (EvPut q rep) lg)).
  { intros ->. split; [exact H1|]. eexists. split; [exact G2|]. split; [exact P2|apply NO]. }
  destruct reply as [|status missing extra stale needsSync]; [intros H; apply STOP; congruence|].
  destruct (status =? 409).
  { apply (MORE (set_devs V st2 uuid (correct_devices (devs_of V st2 uuid) missing extra))); [exact H1|reflexivity]. }
  destruct (status =? 410).
  { destruct stale as [|d t]; intros H.
    - apply (MORE (set_w V st2 (delete_sessions (cs_w V st2) recid []))); [exact H1|reflexivity|exact H].
    - apply (MORE (set_w V st2 (delete_sessions (cs_w V st2) recid (d :: t)))); [apply delete_held; exact H1|reflexivity|exact H]. }
  destruct (isError status); intros H; apply STOP; congruence.
Qed.
End Changed.

Lemma send_dest C V rnd uuid padded ts : forall fuel st r st', buildAndSend C V rnd fuel uuid padded ts st = (r, st') ->
  exists lg, cs_log V st' = cs_log V st ++ lg /\ forall q rep, In (EvPut q rep) lg -> q_dest q = uuid.
Proof.
  induction fuel as [|f IH]; intros st r st'; cbn [buildAndSend].
  { intros [= <- <-]. exists []. rewrite app_nil_r. split; [reflexivity|intros q rep []]. }
  destruct (buildMessage C V rnd uuid padded (devs_of V st uuid) st) as [r1 st1] eqn:E1.
  assert (H1 : exists lg, cs_log V st1 = cs_log V st ++ lg /\ forall q rep, ~ In (EvPut q rep) lg).
  { unfold buildMessage in E1. destruct (recID uuid) as [recid|e|] eqn:ER.
    - apply (build_life C V rnd _ _ _ [(uuid, padded)] (or_introl eq_refl) ER) in E1. destruct E1 as (_ & lg & _ & _ & X1 & X2 & _). eauto.
    - injection E1 as <- <-. exists []. rewrite app_nil_r. auto.
    - injection E1 as <- <-. exists []. rewrite app_nil_r. auto. }
  destruct H1 as (lg & G1 & N1).
  destruct r1 as [js|e|]; [|intros [= <- <-]; exists lg; split; [exact G1|intros q rep HI; exfalso; exact (N1 _ _ HI)]..].
  destruct (sv_put V (cs_srv V st1) (mkReq uuid ts js)) as [reply s'].
  set (st2 := mkCs V (cs_w V st1) (cs_devs V st1) (cs_rnd V st1) s' (cs_log V st1 ++ [EvPut (mkReq uuid ts js) reply])).
  assert (G2 : cs_log V st2 = cs_log V st ++ lg ++ [EvPut (mkReq uuid ts js) reply]) by (cbn [st2 cs_log]; rewrite G1, <- app_assoc; reflexivity).
  assert (M2 : forall q rep, In (EvPut q rep) (lg ++ [EvPut (mkReq uuid ts js) reply]) -> q_dest q = uuid).
  { intros q rep HI. apply in_app_or in HI. destruct HI as [HI|[HI|[]]]; [exfalso; exact (N1 _ _ HI)|]. injection HI as <- _. reflexivity. }
  assert (MORE : forall st3, cs_log V st3 = cs_log V st2 -> buildAndSend C V rnd f uuid padded ts st3 = (r, st') ->
    exists lg, cs_log V st' = cs_log V st ++ lg /\ forall q rep, In (EvPut q rep) lg -> q_dest q = uuid).
  { intros st3 G3 H. destruct (IH _ _ _ H) as (lg4 & G4 & M4). exists ((lg ++ [EvPut (mkReq uuid ts js) reply]) ++ lg4).
    split; [rewrite G4, G3, G2, <- app_assoc; reflexivity|]. intros q rep HI. apply in_app_or in HI. destruct HI as [HI|HI]; eauto. }
  assert (STOP : st' = st2 -> exists lg, cs_log V st' = cs_log V st ++ lg /\ forall q rep, In (EvPut q rep) lg -> q_dest q = uuid).
  { intros ->. eauto. }
  destruct reply as [|status missing extra stale needsSync]; [intros H; apply STOP; congruence|].
  destruct (status =? 409).
  { apply (MORE (set_devs V st2 uuid (correct_devices (devs_of V st2 uuid) missing extra))). reflexivity. }
  destruct (status =? 410).
  { destruct stale as [|d t]; destruct (recID uuid) as [recid|e|]; intros H; try (apply STOP; congruence);
      first [apply (MORE st2); [reflexivity|exact H]|eapply (MORE (set_w V st2 _)); [|exact H]; reflexivity]. }
  destruct (isError status); intros H; apply STOP; congruence.
Qed.

(* C199. As long as the server has another identity key for a name than the one that is saved, whatever
   else it answers: a message to that name goes only to devices with which there was a session before, no
   session with the name is begun and the saved key stays; and if there is a device without a session,
   sending fails and nothing is sent at all. *)
Theorem C199_changed : forall C V rnd recid key, other_key V recid key ->
  forall fuel self pk now o st r st', recID (o_dest o) = Ok recid -> recID self <> Ok recid ->
  w_trust_all (cs_w V st) = false -> w_ids (cs_w V st) recid = Some key ->
  sendMessage C V rnd fuel self pk now o st = (r, st') ->
  (forall d, w_sess (cs_w V st) recid d = None -> w_sess (cs_w V st') recid d = None) /\ w_ids (cs_w V st') recid = Some key /\
  exists lg, cs_log V st' = cs_log V st ++ lg /\
    (forall q rep j, In (EvPut q rep) lg -> q_dest q = o_dest o -> In j (q_msgs q) -> w_sess (cs_w V st) recid (j_dev j) <> None) /\
    ((exists d, In d (match cs_devs V st (o_dest o) with Some l => l | None => [1] end) /\ w_sess (cs_w V st) recid d = None) ->
     (forall v, r <> Some (Ok v)) /\ forall q rep, ~ In (EvPut q rep) lg).
Proof.
  intros C V rnd recid key OT fuel self pk now o st r st' ER NS HT HI. unfold sendMessage. cbv zeta.
  set (pd := padMessage (marshal_data (createMessage pk now o))). set (ts := match o_time o with Some t => t | None => now end).
  assert (D : forall u s, cs_w V (default_devs V s u) = cs_w V s /\ cs_log V (default_devs V s u) = cs_log V s)
    by (intros u s; unfold default_devs; destruct (cs_devs V s u); split; reflexivity).
  assert (DD : devs_of V (default_devs V st (o_dest o)) (o_dest o) = match cs_devs V st (o_dest o) with Some l => l | None => [1] end).
  { unfold default_devs, devs_of. destruct (cs_devs V st (o_dest o)) eqn:E; [now rewrite E|]. cbn [set_devs cs_devs]. now rewrite beq_refl. }
  destruct (D (o_dest o) st) as [D1 D2].
  destruct (buildAndSend C V rnd fuel (o_dest o) pd ts (default_devs V st (o_dest o))) as [r1 st1] eqn:E1.
  apply (send_changed C V rnd recid key OT _ _ _ ER) in E1; [|now rewrite D1|now rewrite D1].
  destruct E1 as (H1 & lg & G1 & M1 & N1). rewrite D1 in H1, M1, N1. rewrite D2 in G1. rewrite DD in N1. clear D1 D2 DD.
  destruct H1 as (T1 & I1 & K1).
  assert (STOP : st' = st1 -> (forall v, r1 <> Some (Ok v)) \/ (forall v, r = Some (Ok v) -> exists w, r1 = Some (Ok w)) ->
    (forall d, w_sess (cs_w V st) recid d = None -> w_sess (cs_w V st') recid d = None) /\ w_ids (cs_w V st') recid = Some key /\
    exists lg, cs_log V st' = cs_log V st ++ lg /\
    (forall q rep j, In (EvPut q rep) lg -> q_dest q = o_dest o -> In j (q_msgs q) -> w_sess (cs_w V st) recid (j_dev j) <> None) /\
    ((exists d, In d (match cs_devs V st (o_dest o) with Some l => l | None => [1] end) /\ w_sess (cs_w V st) recid d = None) ->
     (forall v, r1 <> Some (Ok v)) /\ forall q rep, ~ In (EvPut q rep) lg)).
  { intros -> _. split; [exact K1|]. split; [exact I1|]. exists lg. split; [exact G1|]. split; [intros q rep j Hq _; exact (M1 _ _ _ Hq)|exact N1]. }
  destruct r1 as [[[ns t]|e|]|].
  2,3,4: intros H; destruct (STOP) as (Q1 & Q2 & lg' & Q3 & Q4 & Q5); [congruence|left; intros v X; discriminate X|];
    (split; [exact Q1|split; [exact Q2|exists lg'; split; [exact Q3|split; [exact Q4|]]]]; intros X; destruct (Q5 X) as [_ Q6];
    split; [intros v X'; assert (X2 := f_equal fst H); cbn [fst] in X2; rewrite X' in X2; discriminate X2|exact Q6]).
  (* the message was accepted: every device had a session *)
  assert (NO : forall X : Prop, (exists d, In d (match cs_devs V st (o_dest o) with Some l => l | None => [1] end) /\ w_sess (cs_w V st) recid d = None) -> X).
  { intros X HX. destruct (N1 HX) as [N2 _]. exfalso. exact (N2 _ eq_refl). }
  destruct ns.
  2:{ intros H. assert (st' = st1) as -> by congruence. split; [exact K1|]. split; [exact I1|]. exists lg. split; [exact G1|].
      split; [intros q rep j Hq _; exact (M1 _ _ _ Hq)|apply NO]. }
  unfold sendSyncMessage.
  match goal with |- context [buildAndSend C V rnd fuel self ?p ts ?s] => destruct (buildAndSend C V rnd fuel self p ts s) as [r2 st2] eqn:E2 end.
  destruct (D self st1) as [D3 D4].
  assert (H2 : (forall d, w_sess (cs_w V st2) recid d = w_sess (cs_w V st1) recid d) /\ w_ids (cs_w V st2) recid = w_ids (cs_w V st1) recid).
  { destruct (recID self) as [rs|e|] eqn:ES.
    - apply (C67_sending_leaves_others_alone _ _ _ _ _ rs) in E2; [|exact ES]. destruct E2 as (_ & _ & _ & _ & _ & F1 & F2 & _).
      assert (N : recid <> rs) by (intros X; apply NS; congruence). rewrite D3 in F1, F2. split; [intros d; apply (F1 _ d N)|apply (F2 _ N)].
    - destruct fuel as [|fu]; cbn [buildAndSend] in E2; [injection E2 as _ <-; rewrite D3; auto|].
      unfold buildMessage in E2. rewrite ES in E2. injection E2 as _ <-. rewrite D3. auto.
    - destruct fuel as [|fu]; cbn [buildAndSend] in E2; [injection E2 as _ <-; rewrite D3; auto|].
      unfold buildMessage in E2. rewrite ES in E2. injection E2 as _ <-. rewrite D3. auto. }
  destruct H2 as [H2 H3].
  apply send_dest in E2. destruct E2 as (lg2 & G2 & M2). rewrite D4 in G2.
  intros H. assert (st' = st2) as -> by (destruct r2 as [[[[|] t']|e|]|]; congruence).
  split; [intros d Hd; rewrite H2; now apply K1|]. split; [congruence|].
  exists (lg ++ lg2). split; [rewrite G2, G1, <- app_assoc; reflexivity|]. split; [|apply NO].
  intros q rep j HIn HD HJ. apply in_app_or in HIn. destruct HIn as [HIn|HIn]; [exact (M1 _ _ _ HIn HJ)|].
  exfalso. apply NS. rewrite <- (M2 _ _ HIn), HD. exact ER.
Qed.
Print Assumptions C199_changed.

(* ------------------------------------------------------------------------------------------ *)
(* Examples: A's life of PropLifetime, after which A writes to B's two devices *)
Definition posted_server : server := ex_server ex_pub_of (fun n => match n with O => PutStatus 409 [2] [] [] false | _ => ok200 end).
Definition after_life (V : server) (s : sv_state V) (ds : option (list Z)) : cstate V :=
  mkCs V (lnrun toy ex_W ex_life 0%nat) (fun u => if beq u nb then ds else None) 0 s [].
Example C199_posted_example : tidy toy ex_W ex_life 0%nat /\ (forall i, mine toy (priv_of life_keys) (clamp (PropSending.ex_rnd i))) /\
  Forall (fun x => wfb (snd x) /\ zlen (snd x) < 2 ^ 60) (texts na (Some (rb 5)) 1 ex_out) /\
  (let (r, st') := sendMessage toy posted_server PropSending.ex_rnd 5 na (Some (rb 5)) 1 ex_out (after_life posted_server O None) in
   (match r with Some (Ok _) => true | _ => false end, map ev_summary (cs_log _ st'))) =
  (true, [(409, [(1, true)]); (2, []); (200, [(1, true); (2, true)])]).
Proof.
  split; [exact (proj1 C199_example)|]. split.
  { intros i. unfold PropSending.ex_rnd. destruct (Nat.even i); apply mineb_ok; vm_compute; reflexivity. }
  split; [|vm_compute; reflexivity].
  assert (X : forallb (fun x => wfbb (snd x) && (zlen (snd x) <? 2 ^ 60)) (texts na (Some (rb 5)) 1 ex_out) = true) by (vm_compute; reflexivity).
  rewrite forallb_forall in X. apply Forall_forall. intros pt HI. apply X in HI. apply andb_true_iff in HI. destruct HI as [H1 H2].
  split; [apply wfbb_ok, H1|apply Z.ltb_lt, H2].
Qed.

(* the server now has the identity key of C for B's name: device 1, with which there is a session, is written
   to; when device 2 is to be written to as well nothing is put *)
Definition changed_ident : bytes := Eval vm_compute in encodeKey (pub 23).
Definition changed_server : server :=
  ex_server (fun d => match ex_pub_of d with PkResp _ ds => PkResp changed_ident ds | r => r end) (fun _ => ok200).
Example C199_changed_example : other_key changed_server nb (pub 22) /\ recID (o_dest ex_out) = Ok nb /\ recID na <> Ok nb /\
  w_ids (lnrun toy ex_W ex_life 0%nat) nb = Some (pub 22) /\
  (let (r, st') := sendMessage toy changed_server PropSending.ex_rnd 5 na (Some (rb 5)) 1 ex_out (after_life changed_server O None) in
   (match r with Some (Ok _) => true | _ => false end, map ev_summary (cs_log _ st'))) = (true, [(200, [(1, true)])]) /\
  (let (r, st') := sendMessage toy changed_server PropSending.ex_rnd 5 na (Some (rb 5)) 1 ex_out (after_life changed_server O (Some [1; 2])) in
   (r, map ev_summary (cs_log _ st'))) = (Some (Err ENotTrusted), [(2, [])]).
Proof.
  split.
  { intros s uuid d ident ds k _ H1 H2. cbn [changed_server ex_server sv_prekeys fst ex_pub_of ex_pub] in H1.
    assert (ident = changed_ident) as -> by congruence.
    assert (decodeKey changed_ident = Ok (pub 23)) as H3 by (vm_compute; reflexivity).
    assert (k = pub 23) as -> by congruence. apply (pub_ne 23 22). vm_compute. reflexivity. }
  split; [reflexivity|]. split; [vm_compute; intros X; discriminate X|]. split; [vm_compute; reflexivity|].
  split; vm_compute; reflexivity.
Qed.
