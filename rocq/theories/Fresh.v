(* Places taken, kept over the deletion of sessions: a session that is begun with a one-time prekey, or by
   the client itself with a base key of its own, is never begun again. Used for C203. *)
From Coq Require Import ZArith List Lia Bool.
From Verif Require Import Bytes Res Wire Crypto Cbc CbcProofs Messages MessagesProofs Session SessionProofs SessionFacts Builder
  History HistoryProofs Replay Active ActiveLink Injective PropActive PropRelabel Lifetime.
Import ListNotations.
Open Scope Z_scope.

(* the first message that begins a session names a one-time prekey *)
Definition one_time (w : world) (c : call) : Prop :=
  match c with
  | CRecv rid dev PREKEY_BUNDLE b rnd => forall pm, LoadPreKeyWhisperMessage b = Ok pm ->
      hasSessionState (LoadSession w rid dev) (pk_version pm) (key_ser (pk_base pm)) = false ->
      pk_pkid pm <> 0 /\ pk_pkid pm <> 16777215
  | _ => True
  end.

Section F.
Variable C : crypto.
Hypothesis OK : crypto_ok C.
Variable priv : bytes -> option bytes.
Hypothesis priv_ok : forall k x, priv k = Some x -> basepub C x = k.
Variable bases signeds : bytes -> Prop.
Notation ev := (aeval C priv).
Notation mine := (mine C priv).
Notation state_at := (state_at C priv bases signeds).
Notation node_ok := (node_ok C priv bases signeds).
Notation holds := (holds C priv bases signeds).

(* a_km tells the one-time prekey *)
Lemma km_otk a a' k k' : ag_base a = ag_base a' -> a_km a = a_km a' -> ag_otk a = Some k -> ag_otk a' = Some k' -> k = k'.
Proof.
  intros HB H E E'. unfold a_km in H. rewrite E, E' in H. injection H as _ _ _ H. apply adh_eq in H. destruct H as [[H _]|[H1 H2]]; congruence.
Qed.
Lemma km_resp me a a' : ag_init a = me -> ag_base a <> me -> ag_resp a <> me -> ag_resp a' = me -> a_km a = a_km a' -> False.
Proof.
  intros I1 N1 N2 R H. assert (S1 : side me a) by (left; auto). assert (S2 : side me a') by (right; exact R).
  pose proof (km_base me a a' S1 S2 H) as HB. unfold a_km in H. injection H as _ H _ _. apply adh_eq in H. destruct H as [[H1 H2]|[H1 H2]]; congruence.
Qed.

(* a session begun by a message, with the one-time prekey *)
Lemma opened_otk w rid dev ty b m r1 : node_ok w -> opened C w rid dev ty b m r1 ->
  r1 = LoadSession w rid dev \/
  exists pm a, ty = PREKEY_BUNDLE /\ LoadPreKeyWhisperMessage b = Ok pm /\
    hasSessionState (LoadSession w rid dev) (pk_version pm) (key_ser (pk_base pm)) = false /\
    state_at (snd (w_ident w)) a [] (r_cur r1) /\ ag_resp a = snd (w_ident w) /\ s_base (r_cur r1) = key_ser (ag_base a) /\
    s_recv (r_cur r1) = [] /\
    (pk_pkid pm <> 0 -> exists kp, w_pre w (pk_pkid pm) = Some kp /\ ag_otk a = Some (snd kp)).
Proof.
  intros HW HO. destruct ty; [left; apply HO|]. destruct HO as (pm & pkid & l & HL & -> & H).
  unfold BuildReceiverSession in H.
  destruct (pk_version pm =? currentVersion) eqn:EV; cbn [negb] in H; [|discriminate H].
  destruct (negb _); [discriminate H|].
  destruct (hasSessionState _ _ _) eqn:EH; [left; injection H as _ <- _; reflexivity|]. right.
  cbv zeta in H. destruct (w_spk w (pk_spkid pm)) as [spk|] eqn:Es; cbn [of_option bind] in H; [|discriminate H].
  unfold load_kp in H at 1.
  destruct (key32 (fst spk)) as [x| |] eqn:E1; cbn [bind] in H; try discriminate H.
  destruct (key32 (snd spk)) as [y| |] eqn:E2; cbn [bind] in H; try discriminate H.
  apply key32_inv in E1, E2. destruct E1 as [-> _], E2 as [-> _]. cbn [fst snd] in H.
  destruct (no_spk _ _ _ _ _ HW _ _ Es) as (Hm & Hp & Hg).
  assert (HO : exists otk : res (option bytes), (if pk_pkid pm =? 0 then Ok None
        else let* kp := of_option EPreKeyNotFound (w_pre w (pk_pkid pm)) in
             let* kp := load_kp kp in Ok (Some (fst kp))) = otk /\
        (forall x, otk = Ok (Some x) -> mine x) /\
        (pk_pkid pm <> 0 -> forall o, otk = Ok o -> exists kp, w_pre w (pk_pkid pm) = Some kp /\ o = Some (fst kp) /\ basepub C (fst kp) = snd kp)).
  { eexists. split; [reflexivity|]. destruct (Z.eqb_spec (pk_pkid pm) 0) as [E0|N0]; [split; [intros ? E; discriminate E|contradiction]|].
    destruct (w_pre w (pk_pkid pm)) as [kp|] eqn:Ep; cbn [of_option bind]; [|split; [intros ? E; discriminate E|intros _ ? E; discriminate E]].
    unfold load_kp. destruct (key32 (fst kp)) eqn:K1; cbn [bind]; try (split; [intros ? E; discriminate E|intros _ ? E; discriminate E]).
    destruct (key32 (snd kp)) eqn:K2; cbn [bind]; try (split; [intros ? E; discriminate E|intros _ ? E; discriminate E]). cbn [fst].
    apply key32_inv in K1. destruct K1 as [-> _]. destruct (no_pre _ _ _ _ _ HW _ _ Ep) as [P1 P2]. split.
    - intros x E. injection E as <-. exact P1.
    - intros _ o E. injection E as <-. exists kp. auto. }
  destruct HO as (otk & EO & HO & HK). rewrite EO in H. clear EO.
  destruct otk as [otk| |]; cbn [bind] in H; [|discriminate H..].
  injection H as _ <- _.
  destruct (archived_ok C priv bases signeds (snd (w_ident w)) (LoadSession w rid dev) (load_ok C priv bases signeds w rid dev HW) (load_fresh w rid dev)) as [_ HE].
  cbn [r_cur r_prevs]. rewrite HE. destruct (no_ident _ _ _ _ _ HW) as [Hi Hpi].
  set (a := mkAg (pk_ident pm) (pk_base pm) (snd (w_ident w)) (snd spk)
                (match otk with Some x => Some (basepub C x) | None => None end)).
  exists pm, a. split; [reflexivity|]. split; [exact HL|]. split; [exact EH|].
  assert (EK : diversifier ++ dh C (fst spk) (pk_ident pm) ++ dh C (fst (w_ident w)) (pk_base pm) ++ dh C (fst spk) (pk_base pm)
       ++ match otk with Some k => dh C k (pk_base pm) | None => [] end = ev (a_km a)).
  { unfold a_km, a. cbn [ag_spk ag_init ag_resp ag_base ag_otk aeval]. rewrite <- Hp, <- Hpi.
    rewrite !(ev_adh C OK priv priv_ok) by assumption. repeat f_equal. destruct otk; [rewrite (ev_adh C OK priv priv_ok); auto|reflexivity]. }
  unfold initializeReceiverSession. cbv zeta. rewrite EK, (derived_at C OK priv).
  split; [|do 3 (split; [reflexivity|]); intros N0; destruct (HK N0 otk eq_refl) as (kp & H1 & -> & H3); exists kp; split; [exact H1|]; unfold a; cbn [ag_otk]; congruence].
  constructor.
  + reflexivity.
  + reflexivity.
  + right. repeat split. exact Hg.
  + reflexivity.
  + cbn. lia.
  + exists (fst spk), 0%nat, []. split; [exact Hm|]. split; [exact Hp|reflexivity].
  + constructor.
Qed.

(* a reception leaves the session as it is or is done completely *)
Lemma effs_pre_some l : forall w id kp, w_pre (apply_effs w l) id = Some kp -> w_pre w id = Some kp.
Proof.
  induction l as [|e l IH]; intros w id kp H; [exact H|]. apply (IH (apply_eff w e)) in H. destruct e; cbn [apply_eff set_sess set_pre set_id w_pre] in H; try exact H.
  destruct (id =? id0); [discriminate H|exact H].
Qed.
Lemma estep_pre_some w e id kp : w_pre (fst (estep C w e)) id = Some kp -> w_pre w id = Some kp.
Proof. destruct e as [c|c k]; cbn [estep]; destruct (perform_call C w c) as [[r o] l]; cbn [fst]; apply effs_pre_some. Qed.
Lemma recv_all w e rid dev ty b rnd : ecall e = CRecv rid dev ty b rnd ->
  w_sess (fst (estep C w e)) rid dev = w_sess w rid dev \/
  exists pt l, receive C w rid dev ty b rnd = (Ok pt, l) /\ fst (estep C w e) = apply_effs w l.
Proof.
  intros E.
  assert (G : exists k, fst (estep C w e) = apply_effs w (firstn k (snd (receive C w rid dev ty b rnd)))).
  { destruct e as [c|c k]; cbn [ecall] in E; subst c; cbn [estep perform_call]; destruct (receive C w rid dev ty b rnd) as [o l]; cbn [fst snd].
    - exists (length l). now rewrite firstn_all.
    - eauto. }
  destruct G as (k & ->). destruct (receive C w rid dev ty b rnd) as [r l] eqn:R. cbn [snd].
  assert (G : (exists pre r' pt, r = Ok pt /\ Forall no_store pre /\ l = pre ++ [StoreSession rid dev r']) \/ Forall no_store l).
  { destruct ty; cbn [receive] in R.
    - destruct (LoadWhisperMessage b) as [m|x|]; try (injection R as <- <-; right; constructor).
      unfold SessionDecryptWhisperMessage in R.
      destruct (sc_decrypt C (LoadSession w rid dev) m rnd) as [[pt|x|] r']; injection R as <- <-; try (right; solve [constructor]).
      left. exists [], r', pt. repeat split; auto.
    - destruct (LoadPreKeyWhisperMessage b) as [pm|x|]; try (injection R as <- <-; right; constructor).
      unfold SessionDecryptPreKeyWhisperMessage in R.
      destruct (BuildReceiverSession C w rid (LoadSession w rid dev) pm) as [[[pkid r1]|x|] l1] eqn:B.
      2:{ apply build_recv_fail in B; [|congruence]. subst. injection R as <- <-. right; constructor. }
      2:{ apply build_recv_fail in B; [|congruence]. subst. injection R as <- <-. right; constructor. }
      assert (F1 : Forall no_store l1).
      { destruct (build_recv_inv _ _ _ _ _ _ _ B) as [(_ & -> & _)|(spk & otk & r2 & -> & _)]; repeat constructor. }
      destruct (sc_decrypt C r1 (pk_msg pm) rnd) as [[pt|x|] r']; injection R as <- <-; auto.
      left. exists (l1 ++ (if pkid =? 16777215 then [] else [ERemovePreKey pkid])), r', pt. split; [reflexivity|]. split.
      { apply Forall_app. split; auto. destruct (_ =? _); repeat constructor. }
      now rewrite app_assoc. }
  destruct G as [(pre & r' & pt & -> & F & ->)|F].
  2:{ left. apply no_store_sess. now apply Forall_firstn. }
  destruct (Nat.le_gt_cases (length (pre ++ [StoreSession rid dev r'])) k) as [L|L].
  - right. exists pt, (pre ++ [StoreSession rid dev r']). split; [reflexivity|]. now rewrite firstn_all2.
  - left. rewrite app_length in L. cbn [length] in L. rewrite firstn_app. replace (k - length pre)%nat with 0%nat by lia.
    cbn [firstn]. rewrite app_nil_r. apply no_store_sess. now apply Forall_firstn.
Qed.
(* the one-time prekey that begins a session is removed *)
Lemma recv_removes w rid dev b rnd pt l pm : receive C w rid dev PREKEY_BUNDLE b rnd = (Ok pt, l) -> LoadPreKeyWhisperMessage b = Ok pm ->
  hasSessionState (LoadSession w rid dev) (pk_version pm) (key_ser (pk_base pm)) = false -> pk_pkid pm <> 16777215 ->
  w_pre (apply_effs w l) (pk_pkid pm) = None.
Proof.
  intros H HL HH HN. cbn [receive] in H. rewrite HL in H. unfold SessionDecryptPreKeyWhisperMessage in H.
  destruct (BuildReceiverSession C w rid (LoadSession w rid dev) pm) as [o0 l0] eqn:EB. destruct o0 as [[pkid r1]| |]; [|discriminate H..].
  destruct (sc_decrypt C r1 (pk_msg pm) rnd) as [o1 r']. destruct o1; try discriminate H. injection H as <- <-.
  assert (pkid = pk_pkid pm) as ->.
  { unfold BuildReceiverSession in EB. destruct (negb _); [discriminate EB|]. destruct (negb _); [discriminate EB|]. rewrite HH in EB.
    cbv zeta in EB. repeat match type of EB with match (let* _ := ?x in _) with _ => _ end = _ => destruct x; cbn [bind] in EB; try discriminate EB end.
    injection EB as <- _ _. reflexivity. }
  destruct (Z.eqb_spec (pk_pkid pm) 16777215); [contradiction|]. unfold apply_effs. rewrite fold_left_app. cbn [app fold_left apply_eff StoreSession set_pre set_sess w_pre].
  now rewrite Z.eqb_refl.
Qed.

(* ------------------------------------------------------------------------------------------ *)
(* U: the chain keys of all places taken; B: the base keys of the sessions so far *)
Definition gone (me : bytes) (K : bytes -> Prop) (w : world) (a : agreement) : Prop :=
  (ag_init a = me /\ ag_base a <> me /\ ag_resp a <> me) \/
  (ag_resp a = me /\ exists k, ag_otk a = Some k /\ K k /\ forall id kp, w_pre w id = Some kp -> snd kp <> k).
Definition ever (U : aterm -> Prop) (B K : bytes -> Prop) (w : world) (rid : bytes) (dev : Z) : Prop :=
  (forall s ps, w_sess w rid dev = Some (s, ps) -> exists a p, holds U (snd (w_ident w)) a p s /\ gone (snd (w_ident w)) K w a /\ B (ag_base a)) /\
  forall t, U t -> exists a q j, t = a_ck a q j /\ gone (snd (w_ident w)) K w a /\ B (ag_base a).
Lemma gone_side me K w a : gone me K w a -> side me a.
Proof. intros [(H1 & H2 & _)|[H _]]; [left; auto|now right]. Qed.
Lemma gone_less me (K K' : bytes -> Prop) w w' a : (forall k, K k -> K' k) -> (forall id kp k, w_pre w' id = Some kp -> K k -> w_pre w id = Some kp \/ snd kp <> k) ->
  gone me K w a -> gone me K' w' a.
Proof.
  intros HK HP [H|(H1 & k & H2 & H3 & H4)]; [now left|right]. split; [exact H1|]. exists k. split; [exact H2|]. split; [auto|].
  intros id kp Hk. destruct (HP id kp k Hk H3) as [Hp|Hp]; [eauto|exact Hp].
Qed.
Lemma ever_same U (B K B' K' : bytes -> Prop) w w' rid dev : ever U B K w rid dev -> w_ident w' = w_ident w ->
  (w_sess w' rid dev = w_sess w rid dev \/ w_sess w' rid dev = None) -> (forall k, B k -> B' k) -> (forall k, K k -> K' k) ->
  (forall id kp k, w_pre w' id = Some kp -> K k -> w_pre w id = Some kp \/ snd kp <> k) -> ever U B' K' w' rid dev.
Proof.
  intros [H1 H2] EI ES HB HK HP. split.
  - intros s ps Hs. destruct ES as [ES|ES]; rewrite ES in Hs; [|discriminate Hs]. destruct (H1 _ _ Hs) as (a & p & A1 & A2 & A3).
    exists a, p. rewrite EI. split; [exact A1|]. split; [eapply gone_less; eauto|auto].
  - intros t Ht. destruct (H2 t Ht) as (a & q & j & A1 & A2 & A3). exists a, q, j. rewrite EI. split; [exact A1|]. split; [eapply gone_less; eauto|auto].
Qed.
(* no place of a new session is taken *)
Lemma new_place U B K w rid dev a : ever U B K w rid dev ->
  (forall a', gone (snd (w_ident w)) K w a' -> B (ag_base a') -> a_km a' <> a_km a) -> forall q j, ~ U (a_ck a q j).
Proof.
  intros [_ H] HN q j Hu. destruct (H _ Hu) as (a' & q' & j' & E & G & HB). apply ck_same in E. destruct E as (_ & _ & E).
  exact (HN a' G HB (eq_sym E)).
Qed.
Lemma holds_new U me a p s : (forall q j, ~ U (a_ck a q j)) -> state_at me a p s -> side me a -> s_base s = key_ser (ag_base a) ->
  (s_recv s = [] \/ exists k c, p = [k] /\ s_recv s = [c] /\ chain_g C priv a p c ([k], 0%nat, [])) -> holds U me a p s.
Proof.
  intros NU HS HD HB HC. constructor; auto. destruct HC as [->|(k & c & -> & -> & HC)].
  - exists []. split; [constructor|]. split; [constructor|]. intros q j Hu. now apply NU in Hu.
  - exists [([k], 0%nat, [])]. split; [constructor; [exact HC|constructor]|]. split; [repeat constructor; intros []|].
    intros q j Hu. now apply NU in Hu.
Qed.

(* the base key drawn is new, and is not for a session with oneself *)
Definition new_base (B : bytes -> Prop) (me : bytes) (c : call) : Prop :=
  match c with
  | CBuild _ _ bu rbase _ => basepub C (clamp rbase) <> me /\ b_ident bu <> me /\ ~ B (basepub C (clamp rbase))
  | _ => True
  end.
Lemma recv_ever U (B K B' : bytes -> Prop) w rid dev ty b rnd pt l : node_ok w -> ever U B K w rid dev ->
  (forall i, mine (clamp (rnd i))) -> receive C w rid dev ty b rnd = (Ok pt, l) ->
  direct C w (CRecv rid dev ty b rnd) -> one_time w (CRecv rid dev ty b rnd) ->
  (forall id kp, w_pre w id = Some kp -> K (snd kp)) ->
  (forall id1 id2 kp1 kp2, w_pre w id1 = Some kp1 -> w_pre w id2 = Some kp2 -> snd kp1 = snd kp2 -> id1 = id2) ->
  (forall k, B k -> B' k) -> (forall s ps k, w_sess (apply_effs w l) rid dev = Some (s, ps) -> s_base s = key_ser k -> B' k) ->
  w_ident (apply_effs w l) = w_ident w ->
  exists a p q j wh m s ps, w_sess (apply_effs w l) rid dev = Some (s, ps) /\ whisper_of ty b = Some wh /\ LoadWhisperMessage wh = Ok m /\
    ~ U (a_ck a q j) /\ state_at (snd (w_ident w)) a p s /\ length (s_remote s) = 32%nat /\ length (snd (w_ident w)) = 32%nat /\
    verifyMAC C m (s_remote s) (snd (w_ident w)) (ev (a_mk a q j 32 32)) = true /\
    Decrypt C (ev (a_mk a q j 0 32)) (ev (a_mk a q j 64 16) ++ wm_ct m) = Ok pt /\
    ever (fun t => U t \/ t = a_ck a q j) B' K (apply_effs w l) rid dev.
Proof.
  intros HW HT Hn HR HD H1 HP HQ HB HB' HI. set (me := snd (w_ident w)) in *.
  destruct (recv_done _ _ _ _ _ _ _ _ _ HR) as (wh & m & r1 & r' & W1 & W2 & HO & HS & HE).
  assert (HDr : exists pt' s', ss_decrypt C (r_cur r1) m (rnd 0%nat) = (Ok pt', s')).
  { apply (HD pt m r1); [now rewrite HR|exact HO]. }
  destruct HDr as (pt' & s' & HDr). unfold sc_decrypt in HS. rewrite HDr in HS. injection HS as -> <-. cbn [r_cur r_prevs] in HE.
  assert (PRE : forall id kp k, w_pre (apply_effs w l) id = Some kp -> K k -> w_pre w id = Some kp \/ snd kp <> k).
  { intros id kp k Hk _. left. now apply effs_pre_some in Hk. }
  assert (G : exists a p, holds U me a p (r_cur r1) /\ gone me K (apply_effs w l) a).
  { destruct (opened_otk _ _ _ _ _ _ _ HW HO) as [->|(pm & a & -> & H2 & H3 & H4 & H5 & H6 & H7 & H8)].
    - unfold LoadSession in HDr |- *. destruct (w_sess w rid dev) as [[s ps]|] eqn:ES; [|discriminate HDr].
      destruct (proj1 HT _ _ ES) as (a & p & A1 & A2 & A3). exists a, p. split; [exact A1|]. exact (gone_less me K K w _ a (fun _ x => x) PRE A2).
    - cbn [one_time] in H1. destruct (H1 pm H2 H3) as [N0 N1]. destruct (H8 N0) as (kp & K1 & K2). exists a, []. split.
      + apply holds_new; auto; [|now right]. apply (new_place _ _ _ _ _ _ _ HT). intros a' [(I1 & I2 & I3)|(I1 & k & I2 & I3 & I4)] _ E.
        * exact (km_resp me a' a I1 I2 I3 H5 E).
        * assert (S1 : side me a') by (now right). assert (S2 : side me a) by (now right).
          apply (I4 _ _ K1). symmetry. exact (km_otk a' a _ _ (km_base me _ _ S1 S2 E) E I2 K2).
      + right. split; [exact H5|]. exists (snd kp). split; [exact K2|]. split; [eauto|]. intros id kp2 Hk E.
        pose proof (effs_pre_some _ _ _ _ Hk) as Hk'. pose proof (HQ _ _ _ _ Hk' K1 E) as ->.
        rewrite (recv_removes _ _ _ _ _ _ _ _ HR H2 H3 N1) in Hk. discriminate Hk. }
  destruct G as (a & p & HH & HG).
  destruct (decrypt_new C OK priv priv_ok bases signeds U me a p _ _ _ _ _ HH (Hn 0%nat) HDr) as (p' & q & j & N1 & N2 & N3 & N4 & N5 & N6 & N7 & N8).
  exists a, p', q, j, wh, m, s', (r_prevs r1). split; [exact HE|]. split; [exact W1|]. split; [exact W2|]. split; [exact N1|]. split; [apply N2|].
  do 4 (split; [assumption|]).
  assert (HBa : B' (ag_base a)) by (apply (HB' _ _ _ HE), (ho_base _ _ _ _ _ _ _ _ _ N2)).
  split; rewrite HI; fold me.
  - intros s ps Hs. rewrite HE in Hs. injection Hs as <- <-. exists a, p'. auto.
  - intros t [Ht| ->].
    + destruct (proj2 HT t Ht) as (a' & q' & j' & A1 & A2 & A3). exists a', q', j'. split; [exact A1|]. split; [|auto].
      exact (gone_less me K K w _ a' (fun _ x => x) PRE A2).
    + exists a, q, j. auto.
Qed.

(* Every call keeps the account. *)
Lemma step_ever U (B K B' : bytes -> Prop) w e rid dev : node_ok w -> ever U B K w rid dev ->
  own_keys C priv bases (ecall e) ->
  (peer_of (ecall e) = (rid, dev) -> direct C w (ecall e) /\ one_time w (ecall e) /\ new_base B (snd (w_ident w)) (ecall e)) ->
  (forall id kp, w_pre w id = Some kp -> K (snd kp)) ->
  (forall id1 id2 kp1 kp2, w_pre w id1 = Some kp1 -> w_pre w id2 = Some kp2 -> snd kp1 = snd kp2 -> id1 = id2) ->
  (forall k, B k -> B' k) -> (forall s ps k, w_sess (fst (estep C w e)) rid dev = Some (s, ps) -> s_base s = key_ser k -> B' k) ->
  w_ident (fst (estep C w e)) = w_ident w ->
  exists U' : aterm -> Prop, (forall t, U t -> U' t) /\ ever U' B' K (fst (estep C w e)) rid dev /\
    forall ty b rnd pt l s ps, e = Done (CRecv rid dev ty b rnd) -> receive C w rid dev ty b rnd = (Ok pt, l) ->
      w_sess (apply_effs w l) rid dev = Some (s, ps) ->
      exists a p q j wh m, whisper_of ty b = Some wh /\ LoadWhisperMessage wh = Ok m /\
        ~ U (a_ck a q j) /\ U' (a_ck a q j) /\ state_at (snd (w_ident w)) a p s /\ length (s_remote s) = 32%nat /\
        length (snd (w_ident w)) = 32%nat /\
        verifyMAC C m (s_remote s) (snd (w_ident w)) (ev (a_mk a q j 32 32)) = true /\
        Decrypt C (ev (a_mk a q j 0 32)) (ev (a_mk a q j 64 16) ++ wm_ct m) = Ok pt.
Proof.
  intros HW HT HK HDB HP HQ HB HB' HI.
  assert (PRE : forall id kp k, w_pre (fst (estep C w e)) id = Some kp -> K k -> w_pre w id = Some kp \/ snd kp <> k).
  { intros id kp k Hk _. left. now apply estep_pre_some in Hk. }
  (* nothing taken *)
  assert (V : ever U B' K (fst (estep C w e)) rid dev -> (forall ty b rnd pt l, e = Done (CRecv rid dev ty b rnd) -> receive C w rid dev ty b rnd <> (Ok pt, l)) ->
       exists U' : aterm -> Prop, (forall t, U t -> U' t) /\ ever U' B' K (fst (estep C w e)) rid dev /\
    forall ty b rnd pt l s ps, e = Done (CRecv rid dev ty b rnd) -> receive C w rid dev ty b rnd = (Ok pt, l) ->
      w_sess (apply_effs w l) rid dev = Some (s, ps) ->
      exists a p q j wh m, whisper_of ty b = Some wh /\ LoadWhisperMessage wh = Ok m /\
        ~ U (a_ck a q j) /\ U' (a_ck a q j) /\ state_at (snd (w_ident w)) a p s /\ length (s_remote s) = 32%nat /\
        length (snd (w_ident w)) = 32%nat /\
        verifyMAC C m (s_remote s) (snd (w_ident w)) (ev (a_mk a q j 32 32)) = true /\
        Decrypt C (ev (a_mk a q j 0 32)) (ev (a_mk a q j 64 16) ++ wm_ct m) = Ok pt).
  { intros H1 H2. exists U. split; [auto|]. split; [exact H1|]. intros ty b rnd pt l s ps E HR. now apply H2 in HR. }
  destruct (ecall e) as [r d pt|r d ty b rnd|r d bu rbase rratchet] eqn:EC.
  2:{ destruct (beq r rid && (d =? dev)) eqn:EQ.
      - apply andb_true_iff in EQ. destruct EQ as [E1 E2]. apply beq_eq in E1. apply Z.eqb_eq in E2. subst r d.
        destruct (HDB eq_refl) as (D1 & D2 & _). cbn [own_keys] in HK.
        assert (OKR : forall pt l, receive C w rid dev ty b rnd = (Ok pt, l) -> fst (estep C w e) = apply_effs w l ->
          exists a p q j wh m s ps, w_sess (apply_effs w l) rid dev = Some (s, ps) /\ whisper_of ty b = Some wh /\ LoadWhisperMessage wh = Ok m /\
            ~ U (a_ck a q j) /\ state_at (snd (w_ident w)) a p s /\ length (s_remote s) = 32%nat /\ length (snd (w_ident w)) = 32%nat /\
            verifyMAC C m (s_remote s) (snd (w_ident w)) (ev (a_mk a q j 32 32)) = true /\
            Decrypt C (ev (a_mk a q j 0 32)) (ev (a_mk a q j 64 16) ++ wm_ct m) = Ok pt /\
            ever (fun t => U t \/ t = a_ck a q j) B' K (apply_effs w l) rid dev).
        { intros pt l HR EF. rewrite EF in HB', HI. exact (recv_ever U B K B' w rid dev ty b rnd pt l HW HT HK HR D1 D2 HP HQ HB HB' HI). }
        destruct (recv_all w e rid dev ty b rnd EC) as [ES|(pt & l & HR & EF)].
        + destruct (receive C w rid dev ty b rnd) as [[pt|x|] l] eqn:HR.
          * destruct e as [c|c k]; cbn [ecall] in EC; subst c.
            -- assert (EF : fst (estep C w (Done (CRecv rid dev ty b rnd))) = apply_effs w l) by (cbn [estep perform_call]; rewrite HR; reflexivity).
               destruct (OKR pt l eq_refl EF) as (a & p & q & j & wh & m & s & ps & R1 & R2 & R3 & R4 & R5 & R6 & R7 & R8 & R9 & R10).
               exists (fun t => U t \/ t = a_ck a q j). split; [auto|]. rewrite EF. split; [exact R10|].
               intros ty0 b0 rnd0 pt0 l0 s0 ps0 E HR0 HS0. injection E as <- <- <-. rewrite HR in HR0. injection HR0 as <- <-.
               rewrite R1 in HS0. injection HS0 as <- <-. exists a, p, q, j, wh, m. auto 12.
            -- apply V; [|intros; discriminate]. apply (ever_same U B K B' K w); auto.
          * apply V; [apply (ever_same U B K B' K w); auto|]. intros ty0 b0 rnd0 pt0 l0 -> HR0. cbn [ecall] in EC. injection EC as -> -> ->. congruence.
          * apply V; [apply (ever_same U B K B' K w); auto|]. intros ty0 b0 rnd0 pt0 l0 -> HR0. cbn [ecall] in EC. injection EC as -> -> ->. congruence.
        + destruct (OKR pt l HR EF) as (a & p & q & j & wh & m & s & ps & R1 & R2 & R3 & R4 & R5 & R6 & R7 & R8 & R9 & R10).
          exists (fun t => U t \/ t = a_ck a q j). split; [auto|]. rewrite EF. split; [exact R10|].
          intros ty0 b0 rnd0 pt0 l0 s0 ps0 -> HR0 HS0. cbn [ecall] in EC. injection EC as -> -> ->. rewrite HR in HR0. injection HR0 as <- <-.
          rewrite R1 in HS0. injection HS0 as <- <-. exists a, p, q, j, wh, m. auto 12.
      - assert (NE : (r, d) <> (rid, dev)).
        { intros X. injection X as -> ->. rewrite beq_refl, Z.eqb_refl in EQ. discriminate EQ. }
        apply V.
        + apply (ever_same U B K B' K w); auto. left. destruct (estep_sess C rid dev w e) as [E|(HX & _)]; [exact E|].
          rewrite EC in HX. cbn [peer_of] in HX. contradiction.
        + intros ty0 b0 rnd0 pt0 l0 -> _. cbn [ecall] in EC. injection EC as <- <-. now apply NE. }
  - apply V; [|intros ty0 b0 rnd0 pt0 l0 ->; cbn [ecall] in EC; discriminate EC].
    destruct (estep_sess C rid dev w e) as [E|(HX & s & ps & HWr & E)]; [apply (ever_same U B K B' K w); auto|].
    rewrite EC in HX, HWr. cbn [peer_of] in HX. injection HX as -> ->. inversion HWr as [rid' dev' pt' b ty s' HEn X1 X2 X3| |]; subst.
    unfold LoadSession in HEn. destruct (w_sess w rid dev) as [[s0 ps0]|] eqn:ES; [|discriminate HEn].
    cbn [r_cur r_prevs] in HEn. destruct (proj1 HT _ _ ES) as (a & p & HH & HG & HBa).
    destruct (holds_enc C priv bases signeds _ _ _ _ _ _ _ _ _ HH HEn) as (H1 & H2 & H3). split; rewrite HI.
    + intros s1 ps1 Hs. rewrite E in Hs. injection Hs as <- <-. exists a, p. split; [exact H1|]. split; [|auto]. eapply gone_less; eauto.
    + intros t Ht. destruct (proj2 HT t Ht) as (a' & q & j & A1 & A2 & A3). exists a', q, j. split; [exact A1|]. split; [|auto]. eapply gone_less; eauto.
  - apply V; [|intros ty0 b0 rnd0 pt0 l0 ->; cbn [ecall] in EC; discriminate EC].
    destruct (estep_sess C rid dev w e) as [E|(HX & s & ps & HWr & E)]; [apply (ever_same U B K B' K w); auto|].
    rewrite EC in HX, HWr. cbn [peer_of] in HX. injection HX as -> ->. destruct (HDB eq_refl) as (_ & _ & N1 & N2 & N3). cbn [own_keys] in HK. destruct HK as (K1 & K2 & K3).
    inversion HWr as [| |rid' dev' bu' rb' rr' spk r1 Hspk Hr1 X1 X2 X3].
    assert (EC1 : r_cur r1 = empty_ss).
    { rewrite Hr1. unfold LoadSession. destruct (w_sess w rid dev) as [[s0 ps0]|]; reflexivity. }
    destruct (built_at C OK priv priv_ok bases signeds w bu spk rbase rratchet HW K1 K2 K3) as (a & k & c & A1 & A2 & A3 & A4 & A5).
    rewrite EC1 in X2. rewrite X2 in A3, A4. 
    assert (A6 : ag_resp a = b_ident bu).
    { destruct (sa_role _ _ _ _ _ _ _ _ A3) as [(_ & R & _)|(_ & R & _)]; rewrite <- X2 in R; cbn in R; [exact R|].
      exfalso. congruence. }
    assert (GA : gone (snd (w_ident w)) K (fst (estep C w e)) a) by (left; split; [exact A1|]; split; congruence).
    assert (HH : holds U (snd (w_ident w)) a [k] s).
    { apply holds_new; auto.
      - apply (new_place _ _ _ _ _ _ _ HT). intros a' G HBa EK. apply N3. rewrite <- A2, <- (km_base (snd (w_ident w)) a' a); auto; eapply gone_side; eauto.
      - eapply gone_side; eauto.
      - rewrite <- X2. cbn [with_regs s_base]. now rewrite A2.
      - right. exists k, c. auto. }
    split; rewrite HI.
    + intros s1 ps1 Hs. rewrite E in Hs. injection Hs as <- <-. exists a, [k]. split; [exact HH|]. split; [exact GA|].
      apply (HB' _ _ _ E). apply (ho_base _ _ _ _ _ _ _ _ _ HH).
    + intros t Ht. destruct (proj2 HT t Ht) as (a' & q & j & B1 & B2 & B3). exists a', q, j. split; [exact B1|]. split; [|auto]. eapply gone_less; eauto.
Qed.
End F.
