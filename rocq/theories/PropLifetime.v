(* Authenticity, secrecy and names over the whole life of installations: properties C199 and C200. *)
From Coq Require Import ZArith List Lia Bool.
From Verif Require Import Bytes Res Wire Crypto Cbc CbcProofs Messages MessagesProofs Session SessionProofs SessionFacts Builder
  History HistoryProofs Active ActiveLink Examples Conversation PropActive PropHistory PropReceive PropInjective PropRelabel Lifetime.
Import ListNotations.
Open Scope Z_scope.

(* ------------------------------------------------------------------------------------------ *)
(* C200. What C184 to C186 say of sessions that are never deleted and keys that are never renewed holds
   over the whole life of the clients. *)
Theorem C200_sent : forall C, crypto_ok C -> forall priv, (forall k x, priv k = Some x -> basepub C x = k) ->
  forall W evs, start_ok C priv W -> (forall n x, In (n, x) evs -> lknown C priv x) ->
  forall k n rid dev pt b, lsends C W evs k n rid dev pt b ->
  exists e, describes C priv (lbase C evs) (lsigned W evs) (lbefore C W evs k n) rid dev pt b e.
Proof.
  intros C OK priv PO W evs SO KK k n rid dev pt b (Hk & ty & l & HE).
  destruct (lbefore_ok C OK priv PO W evs SO KK k n) as [HN HI].
  pose proof (KK _ _ (nth_error_In _ _ Hk)) as HK. unfold lknown, known_keys in HK. cbn [ecall] in HK. destruct HK.
  apply (encrypt_at C OK priv (lbase C evs) (lsigned W evs)) in HE; auto. destruct HE as [_ HE]. eauto.
Qed.
Print Assumptions C200_sent.

(* the tags that clients have put on messages before event k *)
Definition lsent_before C priv W evs (k : nat) (e : emission) : Prop :=
  exists k' n rid dev pt b, (k' < k)%nat /\ lsends C W evs k' n rid dev pt b /\
    describes C priv (lbase C evs) (lsigned W evs) (lbefore C W evs k' n) rid dev pt b e.
(* losses of private keys only, and none of a base key or of a signed prekey *)
Definition lmild C (W : nat -> world) (evs : list levent) (leak : aterm -> Prop) : Prop :=
  (forall t, leak t -> exists k, t = APriv k) /\
  (forall k, lbase C evs k -> ~ leak (APriv k)) /\ (forall k, lsigned W evs k -> ~ leak (APriv k)).
Lemma lmild_role C priv W evs leak me rem a : start_ok C priv W -> (forall n x, In (n, x) evs -> lknown C priv x) ->
  lmild C W evs leak -> honest priv rem = true -> ~ leak (APriv rem) ->
  role (lbase C evs) (lsigned W evs) me rem a -> ~ km_bad (honest priv) leak a.
Proof.
  intros SO KK (_ & HB & HS) Hh Hl HR (K1 & K2 & _).
  assert (GR : ~ bad (honest priv) leak rem) by (intros [H|H]; [congruence|now apply Hl]).
  destruct HR as [(R1 & R2 & R3)|(R1 & R2 & R3)].
  - rewrite R2 in K2. destruct K2 as [K2|[K2|K2]]; [now apply GR| |now apply (HB _ R3)].
    destruct R3 as (n & e & rid & dev & bu & rbase & rr & H1 & H2 & H3).
    pose proof (KK _ _ H1) as HK. unfold lknown, known_keys in HK. rewrite H2 in HK. destruct HK as [HK _].
    unfold mine in HK. unfold honest in K2. rewrite H3, HK in K2. discriminate K2.
  - rewrite R2 in K1. destruct K1 as [[K1|K1]|K1]; [|now apply (HS _ R3)|now apply GR].
    destruct R3 as [(n & id & kp & H1 & H2)|(n & id & kp & H1 & H2)].
    + destruct (so_spk _ _ _ SO _ _ _ H1) as [H3 H4].
      unfold mine in H3. unfold honest in K1. rewrite <- H2, <- H4, H3 in K1. discriminate K1.
    + destruct (KK _ _ H1) as [H3 H4].
      unfold mine in H3. unfold honest in K1. rewrite <- H2, <- H4, H3 in K1. discriminate K1.
Qed.

Theorem C200_taken : forall C, crypto_ok C -> forall priv, (forall k x, priv k = Some x -> basepub C x = k) ->
  forall W evs, start_ok C priv W -> (forall n x, In (n, x) evs -> lknown C priv x) ->
  forall k n rid dev ty b pt s, ltakes C W evs k n rid dev ty b pt s ->
  let me := snd (w_ident (W n)) in let rem := s_remote s in
  exists a p i wh body, whisper_of ty b = Some wh /\ wh = body ++ aeval C priv (a_tag a p i rem me body) /\
    role (lbase C evs) (lsigned W evs) me rem a /\
    forall leak, aknows (honest priv) leak (lsent_before C priv W evs k) (a_tag a p i rem me body) ->
    mk_bad (honest priv) leak a p i 32 32 \/
    exists k' n' rid' dev' b', (k' < k)%nat /\ lsends C W evs k' n' rid' dev' pt b' /\ carries b' wh /\
      snd (w_ident (W n')) = rem /\
      exists s' ps', w_sess (lbefore C W evs k' n') rid' dev' = Some (s', ps') /\ s_remote s' = me.
Proof.
  intros C OK priv PO W evs SO KK k n rid dev ty b pt s HT me rem.
  destruct (ltakes_tag C OK priv PO W evs SO KK _ _ _ _ _ _ _ _ HT) as (a & p & i & wh & body & H1 & H2 & H3 & Lm & Lr & m & H4 & H5).
  fold me rem in H2, H3, Lm, Lr. exists a, p, i, wh, body. split; [exact H1|]. split; [exact H2|]. split; [exact H3|].
  intros leak HK. apply tag_exact in HK. destruct HK as [HK|(e & He & E1 & E2)]; [now left|right].
  destruct He as (k' & n' & rid' & dev' & pt' & b' & Hlt & HS & (s' & ps' & D1 & D2 & D3 & D4 & D5 & D6 & D7 & D8 & m' & D9 & D10)).
  assert (ET : tag_of e = a_tag a p i rem me body) by (unfold tag_of, a_tag; now rewrite E1, E2).
  apply ids_inj in E2; [|assumption..]. destruct E2 as (E2 & E3 & E4).
  assert (EW : em_body e ++ aeval C priv (tag_of e) = wh) by (rewrite H2, ET, E4; reflexivity).
  rewrite EW in D8, D9. rewrite H4 in D9. injection D9 as <-.
  unfold a_mk in E1. injection E1 as E1.
  assert (EP : pt' = pt).
  { unfold a_mk in D10, H5. rewrite E1 in D10. destruct HS as [Hk' _].
    pose proof (KK _ _ (nth_error_In _ _ Hk')) as HKK. unfold lknown, known_keys in HKK. cbn [ecall] in HKK. destruct HKK as [Hw _].
    rewrite (Decrypt_Encrypt C OK _ _ _ _ Hw) in H5; [now injection H5| |exact D10].
    cbn [aeval]. apply wfb_firstn, wfb_skipn, (hkdf_wf C OK). }
  rewrite EP in HS. clear D5. exists k', n', rid', dev', b'. split; [exact Hlt|]. split; [exact HS|]. split; [exact D8|].
  destruct (lbefore_ok C OK priv PO W evs SO KK k' n') as [_ HI]. split; [rewrite <- HI; congruence|].
  exists s', ps'. split; [exact D1|congruence].
Qed.
Print Assumptions C200_taken.

Theorem C200_authentic : forall C, crypto_ok C -> forall priv, (forall k x, priv k = Some x -> basepub C x = k) ->
  forall W evs, start_ok C priv W -> (forall n x, In (n, x) evs -> lknown C priv x) ->
  forall k n rid dev ty b pt s, ltakes C W evs k n rid dev ty b pt s ->
  let me := snd (w_ident (W n)) in let rem := s_remote s in honest priv rem = true ->
  exists a p i wh body, whisper_of ty b = Some wh /\ wh = body ++ aeval C priv (a_tag a p i rem me body) /\
    forall leak, lmild C W evs leak -> ~ leak (APriv rem) ->
    aknows (honest priv) leak (lsent_before C priv W evs k) (a_tag a p i rem me body) ->
    exists k' n' rid' dev' b', (k' < k)%nat /\ lsends C W evs k' n' rid' dev' pt b' /\ carries b' wh /\
      snd (w_ident (W n')) = rem /\
      exists s' ps', w_sess (lbefore C W evs k' n') rid' dev' = Some (s', ps') /\ s_remote s' = me.
Proof.
  intros C OK priv PO W evs SO KK k n rid dev ty b pt s HT me rem HH.
  destruct (C200_taken C OK priv PO W evs SO KK _ _ _ _ _ _ _ _ HT) as (a & p & i & wh & body & H1 & H2 & H3 & H4).
  fold me rem in H2, H3, H4. exists a, p, i, wh, body. split; [exact H1|]. split; [exact H2|].
  intros leak HM HL HK. destruct (H4 leak HK) as [HB|HS]; [exfalso|exact HS].
  apply only_mk in HB; [|exact (proj1 HM)]. revert HB. eapply lmild_role; eauto.
Qed.
Print Assumptions C200_authentic.

Theorem C200_secret : forall C, crypto_ok C -> forall priv, (forall k x, priv k = Some x -> basepub C x = k) ->
  forall W evs, start_ok C priv W -> (forall n x, In (n, x) evs -> lknown C priv x) ->
  forall k n rid dev pt b, lsends C W evs k n rid dev pt b ->
  exists e, describes C priv (lbase C evs) (lsigned W evs) (lbefore C W evs k n) rid dev pt b e /\
    (forall leak, aknows (honest priv) leak (lsent_before C priv W evs (length evs)) (a_mk (em_ag e) (em_path e) (em_idx e) 0 32)
       <-> mk_bad (honest priv) leak (em_ag e) (em_path e) (em_idx e) 0 32) /\
    (honest priv (em_to e) = true -> forall leak, lmild C W evs leak -> ~ leak (APriv (em_to e)) ->
     ~ aknows (honest priv) leak (lsent_before C priv W evs (length evs)) (a_mk (em_ag e) (em_path e) (em_idx e) 0 32)).
Proof.
  intros C OK priv PO W evs SO KK k n rid dev pt b HS.
  destruct (C200_sent C OK priv PO W evs SO KK _ _ _ _ _ _ HS) as (e & HD). exists e. split; [exact HD|].
  split; [intros leak; apply mk_exact|]. intros HH leak HM HL HK. apply mk_exact in HK.
  apply only_mk in HK; [|exact (proj1 HM)]. destruct HD as (s & ps & D1 & D2 & D3 & D4 & _). rewrite <- D4 in D2.
  revert HK. eapply lmild_role; eauto.
Qed.
Print Assumptions C200_secret.

(* ------------------------------------------------------------------------------------------ *)
(* C199. Names. A client that was never cut off within a call and that removes the key saved for a name
   only when it has no session with that name. *)
Definition tidy C (W : nat -> world) (evs : list levent) (n : nat) : Prop :=
  (forall c k, ~ In (n, LCall (Crash c k)) evs) /\
  forall k rid, nth_error evs k = Some (n, LForget rid) -> forall dev, w_sess (lbefore C W evs k n) rid dev = None.

Section Names.
Variable C : crypto.
Variable W : nat -> world.
Variable evs : list levent.
Variable n : nat.
Hypothesis TD : tidy C W evs n.
Hypothesis WN : well_named (W n).

Lemma lnamed k : well_named (lbefore C W evs k n).
Proof.
  induction k as [|k IH]; [exact WN|]. destruct (nth_error evs k) as [[m x]|] eqn:E; [|now rewrite (lbefore_end C W evs _ _ E)].
  destruct (Nat.eq_dec n m) as [<-|N]; [|now rewrite (lbefore_other C W evs _ _ _ _ E N)].
  rewrite (lbefore_S C W evs _ _ _ E). set (w := lbefore C W evs k n) in *. destruct x as [e|rid dev|rid|rid|id kp|id kp]; cbn [lstep].
  - destruct e as [c|c j]; [|exfalso; exact (proj1 TD _ _ (nth_error_In _ _ E))].
    cbn [estep]. pose proof (pinned_call C w c IH) as H. destruct (perform_call C w c) as [[okk out] l]. exact H.
  - destruct IH as [H1 H2]. split; [exact H1|]. intros r d c ps. cbn [set_sess w_sess w_ids].
    destruct (beq r rid && (d =? dev)); [intros X; discriminate X|]. apply H2.
  - destruct IH as [H1 H2]. split; [exact H1|]. intros r d c ps. cbn [end_all w_sess w_ids].
    destruct (beq r rid); [intros X; discriminate X|]. apply H2.
  - destruct IH as [H1 H2]. split; [exact H1|]. intros r d c ps. cbn [set_id w_sess w_ids]. intros X.
    pose proof (proj2 TD _ _ E) as H3. fold w in H3. destruct (beq r rid) eqn:EB; [|now apply (H2 _ _ _ _ X)].
    apply beq_eq in EB. subst r. rewrite H3 in X. discriminate X.
  - exact IH.
  - exact IH.
Qed.
(* the key saved for a name stays until it is removed *)
Lemma lkept rid key k d : w_ids (lbefore C W evs k n) rid = Some key ->
  (forall j, (k <= j < k + d)%nat -> nth_error evs j <> Some (n, LForget rid)) -> w_ids (lbefore C W evs (k + d) n) rid = Some key.
Proof.
  intros HI. induction d as [|d IH]; intros HF; [now rewrite Nat.add_0_r|].
  assert (IH' : w_ids (lbefore C W evs (k + d) n) rid = Some key) by (apply IH; intros j Hj; apply HF; lia).
  replace (k + S d)%nat with (S (k + d)) by lia. specialize (HF (k + d)%nat ltac:(lia)). pose proof (lnamed (k + d)) as [HT _].
  destruct (nth_error evs (k + d)) as [[m x]|] eqn:E; [|now rewrite (lbefore_end C W evs _ _ E)].
  destruct (Nat.eq_dec n m) as [<-|N]; [|now rewrite (lbefore_other C W evs _ _ _ _ E N)].
  rewrite (lbefore_S C W evs _ _ _ E). destruct x as [e|r dev|r|r|id kp|id kp]; cbn [lstep]; try exact IH'.
  - pose proof (pinned_history C rid key [e] (lbefore C W evs (k + d) n) (conj HT IH')) as H. cbn [history] in H.
    destruct (estep C (lbefore C W evs (k + d) n) e). apply H.
  - cbn [set_id w_ids]. destruct (beq rid r) eqn:EB; [|exact IH']. apply beq_eq in EB. subst r. exfalso. now apply HF.
Qed.
End Names.

(* What is written to a name can be read by nobody but the owner of the key saved for that name. *)
Theorem C199_written : forall C, crypto_ok C -> forall priv, (forall k x, priv k = Some x -> basepub C x = k) ->
  forall W evs, start_ok C priv W -> (forall n x, In (n, x) evs -> lknown C priv x) ->
  forall k n rid dev pt b, w_trust_all (W n) = false -> tidy C W evs n -> lsends C W evs k n rid dev pt b ->
  exists id e, w_ids (lbefore C W evs k n) rid = Some id /\
    (forall k', (k <= k')%nat -> (forall j, (k <= j < k')%nat -> nth_error evs j <> Some (n, LForget rid)) ->
       w_ids (lbefore C W evs k' n) rid = Some id) /\
    describes C priv (lbase C evs) (lsigned W evs) (lbefore C W evs k n) rid dev pt b e /\ em_to e = id /\
    (honest priv id = true -> forall leak, lmild C W evs leak -> ~ leak (APriv id) ->
     ~ aknows (honest priv) leak (lsent_before C priv W evs (length evs)) (a_mk (em_ag e) (em_path e) (em_idx e) 0 32)).
Proof.
  intros C OK priv PO W evs SO KK k n rid dev pt b HT TD HS.
  assert (HW : well_named (W n)). { split; [exact HT|]. intros r d c ps E. rewrite (so_sess _ _ _ SO) in E. discriminate E. }
  pose proof (lnamed C W evs n TD HW k) as HN.
  destruct (C200_secret C OK priv PO W evs SO KK _ _ _ _ _ _ HS) as (e & HD & _ & HX).
  pose proof HD as (s & ps & D1 & D2 & D3 & D4 & _).
  assert (HI : w_ids (lbefore C W evs k n) rid = Some (em_to e)).
  { rewrite D4. pose proof (proj2 HN _ _ _ _ D1) as HF. inversion HF as [|? ? [H4|H4] _]; subst; [exfalso|exact H4].
    destruct HS as (_ & ty & l & HE). unfold SessionEncryptMessage, LoadSession in HE. rewrite D1 in HE. cbn [r_cur r_prevs] in HE.
    unfold ss_encrypt in HE. rewrite H4 in HE. discriminate HE. }
  exists (em_to e), e. split; [exact HI|]. split.
  { intros k' Hk HF. replace k' with (k + (k' - k))%nat by lia. apply (lkept C W evs n TD HW); [exact HI|]. intros j Hj. apply HF. lia. }
  split; [exact HD|]. split; [reflexivity|exact HX].
Qed.
Print Assumptions C199_written.

(* What is reported as from a name was sent by the owner of the key saved for that name. *)
Theorem C199_reported : forall C, crypto_ok C -> forall priv, (forall k x, priv k = Some x -> basepub C x = k) ->
  forall W evs, start_ok C priv W -> (forall n x, In (n, x) evs -> lknown C priv x) ->
  forall k n rid dev ty b pt s, w_trust_all (W n) = false -> tidy C W evs n -> ltakes C W evs k n rid dev ty b pt s ->
  exists id, (forall k', (k < k')%nat -> (forall j, (k < j < k')%nat -> nth_error evs j <> Some (n, LForget rid)) ->
       w_ids (lbefore C W evs k' n) rid = Some id) /\
    (honest priv id = true ->
     exists a p i wh body, whisper_of ty b = Some wh /\ wh = body ++ aeval C priv (a_tag a p i id (snd (w_ident (W n))) body) /\
       forall leak, lmild C W evs leak -> ~ leak (APriv id) ->
       aknows (honest priv) leak (lsent_before C priv W evs k) (a_tag a p i id (snd (w_ident (W n))) body) ->
       exists k' n' rid' dev' b', (k' < k)%nat /\ lsends C W evs k' n' rid' dev' pt b' /\ carries b' wh /\
         snd (w_ident (W n')) = id /\
         exists s' ps', w_sess (lbefore C W evs k' n') rid' dev' = Some (s', ps') /\ s_remote s' = snd (w_ident (W n))).
Proof.
  intros C OK priv PO W evs SO KK k n rid dev ty b pt s HT TD HK.
  assert (HW : well_named (W n)). { split; [exact HT|]. intros r d c ps E. rewrite (so_sess _ _ _ SO) in E. discriminate E. }
  pose proof HK as (rnd & l & ps & H1 & H2 & H3).
  assert (E1 : w_ids (lbefore C W evs (S k) n) rid = Some (s_remote s)).
  { pose proof (lnamed C W evs n TD HW (S k)) as [_ HP]. rewrite (lbefore_S C W evs _ _ _ H1) in HP |- *.
    cbn [lstep estep perform_call] in HP |- *. rewrite H2 in HP |- *. cbn [fst] in HP |- *. specialize (HP _ _ _ _ H3).
    inversion HP as [|? ? [H4|H4] _]; subst; [exfalso|exact H4].
    exact (ltakes_sender C OK priv PO W evs SO KK _ _ _ _ _ _ _ _ HK H4). }
  exists (s_remote s). split.
  { intros k' Hk HF. replace k' with (S k + (k' - S k))%nat by lia. apply (lkept C W evs n TD HW); [exact E1|]. intros j Hj. apply HF. lia. }
  intros HH.
  destruct (C200_authentic C OK priv PO W evs SO KK _ _ _ _ _ _ _ _ HK HH) as (a & p & i & wh & body & G1 & G2 & G3).
  exists a, p, i, wh, body. split; [exact G1|]. split; [exact G2|]. intros leak HM HL HA.
  destruct (G3 leak HM HL HA) as (k' & n' & rid' & dev' & b' & F1 & F2 & F3 & F4 & F5). exists k', n', rid', dev', b'. auto.
Qed.
Print Assumptions C199_reported.

(* ------------------------------------------------------------------------------------------ *)
(* C200. Deleting sessions and replays: with no session, an ordinary message is refused ... *)
Theorem C200_ended : forall C w rid dev b rnd r l, w_sess w rid dev = None ->
  receive C w rid dev CIPHERTEXT b rnd = (r, l) -> (forall pt, r <> Ok pt) /\ l = [].
Proof.
  intros C w rid dev b rnd r l HS H. cbn [receive] in H. destruct (LoadWhisperMessage b) as [m| |].
  2,3: injection H as <- <-; split; [intros pt X; discriminate X|reflexivity].
  unfold SessionDecryptWhisperMessage, LoadSession in H. rewrite HS in H.
  destruct (sc_decrypt C NewSessionRecord m rnd) as [o r'] eqn:E. destruct o as [pt| |].
  - exfalso. apply no_sender_no_text in E; [exact E|]. constructor; [reflexivity|constructor].
  - injection H as <- <-. split; [intros pt X; discriminate X|reflexivity].
  - injection H as <- <-. split; [intros pt X; discriminate X|reflexivity].
Qed.
Print Assumptions C200_ended.

(* ... and a first message that names a one-time prekey that was used begins no session again, whatever
   was deleted in between, until a new prekey is stored under that number ... *)
Lemma lbefore_pre C W evs n id k1 d : w_pre (lbefore C W evs k1 n) id = None ->
  (forall j kp, (k1 <= j < k1 + d)%nat -> nth_error evs j <> Some (n, LPreKey id kp)) -> w_pre (lbefore C W evs (k1 + d) n) id = None.
Proof.
  intros H. induction d as [|d IH]; intros HF; [now rewrite Nat.add_0_r|].
  assert (IH' : w_pre (lbefore C W evs (k1 + d) n) id = None) by (apply IH; intros j kp Hj; apply HF; lia).
  replace (k1 + S d)%nat with (S (k1 + d)) by lia.
  destruct (nth_error evs (k1 + d)) as [[m x]|] eqn:E; [|now rewrite (lbefore_end C W evs _ _ E)].
  destruct (Nat.eq_dec n m) as [<-|N]; [|now rewrite (lbefore_other C W evs _ _ _ _ E N)].
  rewrite (lbefore_S C W evs _ _ _ E). destruct x as [e|r dev|r|r|i kp|i kp]; cbn [lstep]; try exact IH'.
  - now apply estep_pre.
  - cbn [set_pre w_pre]. destruct (Z.eqb_spec id i) as [->|]; [|exact IH']. exfalso. exact (HF (k1 + d)%nat kp ltac:(lia) E).
Qed.
Theorem C200_one_time : forall C W evs k1 k2 n rid1 dev1 rid2 dev2 b1 b2 pt1 s1 m1 m2 rnd2 r l,
  (k1 < k2)%nat -> ltakes C W evs k1 n rid1 dev1 PREKEY_BUNDLE b1 pt1 s1 ->
  LoadPreKeyWhisperMessage b1 = Ok m1 -> ~ begun (lbefore C W evs k1 n) rid1 dev1 m1 ->
  LoadPreKeyWhisperMessage b2 = Ok m2 -> pk_pkid m2 = pk_pkid m1 -> pk_pkid m1 <> 0 -> pk_pkid m1 <> 16777215 ->
  ~ begun (lbefore C W evs k2 n) rid2 dev2 m2 ->
  (forall j kp, (k1 < j < k2)%nat -> nth_error evs j <> Some (n, LPreKey (pk_pkid m1) kp)) ->
  receive C (lbefore C W evs k2 n) rid2 dev2 PREKEY_BUNDLE b2 rnd2 = (r, l) ->
  (forall pt, r <> Ok pt) /\ l = [].
Proof.
  intros C W evs k1 k2 n rid1 dev1 rid2 dev2 b1 b2 pt1 s1 m1 m2 rnd2 r l Hlt (rnd & l1 & ps & Hk & HR & _) L1 N1 L2 E Hz Hl N2 HF H2.
  assert (G : w_pre (lbefore C W evs (S k1) n) (pk_pkid m1) = None).
  { rewrite (lbefore_S C W evs _ _ _ Hk). cbn [lstep estep perform_call]. rewrite HR. cbn [fst].
    apply (C14_used_prekey_is_removed C _ rid1 dev1 b1 rnd pt1 l1 m1 HR L1); [|exact Hl].
    apply begun_not; [exact N1|]. unfold receive in HR. rewrite L1 in HR.
    unfold SessionDecryptPreKeyWhisperMessage, BuildReceiverSession in HR.
    destruct (Z.eqb_spec (pk_version m1) currentVersion) as [Ev|Ev]; [exact Ev|discriminate HR]. }
  apply (lbefore_pre C W evs n _ (S k1) (k2 - S k1)) in G; [|intros j kp Hj; apply HF; lia].
  replace (S k1 + (k2 - S k1))%nat with k2 in G by lia. unfold receive in H2. rewrite L2 in H2.
  unfold SessionDecryptPreKeyWhisperMessage, BuildReceiverSession in H2.
  destruct (Z.eqb_spec (pk_version m2) currentVersion) as [Ev|Ev]; cbn [negb] in H2; [|injection H2 as <- <-; split; [intros pt X; discriminate X|reflexivity]].
  destruct (IsTrustedIdentity _ _ _); cbn [negb] in H2; [|injection H2 as <- <-; split; [intros pt X; discriminate X|reflexivity]].
  rewrite (begun_not _ _ _ _ N2 Ev) in H2. cbv iota in H2. rewrite E, G in H2.
  destruct (w_spk _ _) as [kp|]; cbn [of_option bind] in H2; [|injection H2 as <- <-; split; [intros pt X; discriminate X|reflexivity]].
  unfold load_kp in H2 at 1. destruct (Z.eqb_spec (pk_pkid m1) 0) as [Z0|_]; [contradiction|].
  unfold key32 in H2. destruct (Nat.eqb (length (fst kp)) 32), (Nat.eqb (length (snd kp)) 32); cbn [bind of_option] in H2;
    injection H2 as <- <-; (split; [intros pt X; discriminate X|reflexivity]).
Qed.
Print Assumptions C200_one_time.

(* ------------------------------------------------------------------------------------------ *)
(* Examples. A writes to B, B ends the session and has a new signed prekey, A's session is deleted and
   begun anew. *)
Definition new_bundle : bundle :=
  mkBundle 5 1 0 None 2 (Some (pub 36)) (ex_sign (pub 22) (key_ser (pub 36))) (pub 22).
Definition ex_m4 : bytes := Eval vm_compute in
  match history toy (ex_W 0%nat) [Done (CBuild nb 1 new_bundle (rb 79) (rb 89)); Done (CEnc nb 1 [4])] with
  | (_, x :: _) => se_bytes x | _ => [] end.
Definition ex_life : list levent :=
  [(0%nat, LCall (Done (CBuild nb 1 (ex_bundle 22 33 5 (Some (pub 55))) (rb 77) (rb 88))));
   (0%nat, LCall (Done (CEnc nb 1 [1; 2])));
   (1%nat, LCall (Done (CRecv na 1 PREKEY_BUNDLE ex_m1 (ex_rnd 101))));
   (1%nat, LEndAll na); (1%nat, LSigned 2 (ex_kp 36)); (0%nat, LEnd nb 1); (0%nat, LForget nb);
   (0%nat, LCall (Done (CBuild nb 1 new_bundle (rb 79) (rb 89))));
   (0%nat, LCall (Done (CEnc nb 1 [4])));
   (1%nat, LCall (Done (CRecv na 1 PREKEY_BUNDLE ex_m4 (ex_rnd 102))));
   (1%nat, LCall (Done (CRecv na 1 PREKEY_BUNDLE ex_m1 (ex_rnd 103))))].
Definition life_keys : list Z := [11; 22; 23; 33; 34; 35; 55; 66; 77; 88; 79; 89; 101; 102; 103; 36].
Ltac life_known := cbn [In]; intros;
  repeat match goal with H : _ \/ _ |- _ => destruct H as [H|H] end; try (exfalso; assumption);
  match goal with H : _ = _ |- _ => injection H as <- <- end; cbn [lknown known_keys ecall];
  first [exact Logic.I|split; apply mineb_ok; vm_compute; reflexivity
        |split; [apply wfbb_ok; reflexivity|vm_compute; reflexivity]
        |intros i; apply mineb_ok; vm_compute; reflexivity
        |split; [apply mineb_ok; vm_compute; reflexivity|reflexivity]].
Lemma life_known_evs n x : In (n, x) ex_life -> lknown toy (priv_of life_keys) x.
Proof. unfold ex_life. life_known. Qed.
Definition ltaken_with W evs k n rid dev ty b rnd pt rem : bool :=
  match receive toy (lbefore toy W evs k n) rid dev ty b rnd with
  | (Ok x, l) => beq x pt && match w_sess (apply_effs (lbefore toy W evs k n) l) rid dev with Some (s, _) => beq (s_remote s) rem | None => false end
  | _ => false
  end.
Lemma ltaken_with_ok W evs k n rid dev ty b rnd pt rem : nth_error evs k = Some (n, LCall (Done (CRecv rid dev ty b rnd))) ->
  ltaken_with W evs k n rid dev ty b rnd pt rem = true -> exists s, ltakes toy W evs k n rid dev ty b pt s /\ s_remote s = rem.
Proof.
  intros H. unfold ltaken_with. destruct (receive toy _ _ _ _ _ _) as [[x| |] l] eqn:E; try (intros X; discriminate X).
  intros HB. apply andb_true_iff in HB. destruct HB as [H1 H2]. apply beq_eq in H1. subst x.
  destruct (w_sess _ rid dev) as [[s ps]|] eqn:E2; [|discriminate H2]. apply beq_eq in H2. exists s. split; [|exact H2].
  exists rnd, l, ps. auto.
Qed.
Example C200_example : start_ok toy (priv_of life_keys) ex_W /\
  (forall n x, In (n, x) ex_life -> lknown toy (priv_of life_keys) x) /\
  lsends toy ex_W ex_life 1 0%nat nb 1 [1; 2] ex_m1 /\ lsends toy ex_W ex_life 8 0%nat nb 1 [4] ex_m4 /\
  (exists s, ltakes toy ex_W ex_life 2 1%nat na 1 PREKEY_BUNDLE ex_m1 [1; 2] s /\ s_remote s = pub 11) /\
  (exists s, ltakes toy ex_W ex_life 9 1%nat na 1 PREKEY_BUNDLE ex_m4 [4] s /\ s_remote s = pub 11) /\
  (* the first message cannot be taken again *)
  receive toy (lbefore toy ex_W ex_life 4 1%nat) na 1 PREKEY_BUNDLE ex_m1 (ex_rnd 103) = (Err EPreKeyNotFound, []) /\
  lsigned ex_W ex_life (pub 36) /\ honest (priv_of life_keys) (pub 22) = true /\ lmild toy ex_W ex_life (fun _ => False).
Proof.
  split; [apply ex_start; vm_compute; reflexivity|]. split; [exact life_known_evs|].
  split; [split; [reflexivity|do 2 eexists; vm_compute; reflexivity]|]. split; [split; [reflexivity|do 2 eexists; vm_compute; reflexivity]|].
  split; [apply (ltaken_with_ok _ _ _ _ _ _ _ _ (ex_rnd 101)); [reflexivity|vm_compute; reflexivity]|].
  split; [apply (ltaken_with_ok _ _ _ _ _ _ _ _ (ex_rnd 102)); [reflexivity|vm_compute; reflexivity]|].
  split; [vm_compute; reflexivity|].
  split; [right; exists 1%nat, 2, (ex_kp 36); split; [cbn [ex_life In]; tauto|reflexivity]|].
  split; [vm_compute; reflexivity|]. split; [intros t []|split; intros k _ []].
Qed.
Example C199_example : tidy toy ex_W ex_life 0%nat /\ w_trust_all (ex_W 0%nat) = false /\
  w_ids (lbefore toy ex_W ex_life 8 0%nat) nb = Some (pub 22).
Proof.
  split; [|split; [reflexivity|vm_compute; reflexivity]]. split.
  - intros c k H. cbn [ex_life In] in H. repeat match type of H with _ \/ _ => destruct H as [H|H] end; try (exfalso; exact H); discriminate H.
  - intros k rid H dev. do 6 (destruct k as [|k]; [discriminate H|]).
    destruct k as [|k]; [|do 5 (destruct k as [|k]; [discriminate H|]); destruct k; discriminate H].
    assert (rid = nb) as -> by (cbn [ex_life nth_error] in H; congruence). clear H.
    assert (X : forall d, d <> 1 -> w_sess (lbefore toy ex_W ex_life 5 0%nat) nb d = None).
    { intros d Hd. rewrite (lbefore_other toy ex_W ex_life 4 0 1 (LSigned 2 (ex_kp 36)) eq_refl) by lia.
      rewrite (lbefore_other toy ex_W ex_life 3 0 1 (LEndAll na) eq_refl) by lia.
      rewrite (lbefore_other toy ex_W ex_life 2 0 1 _ eq_refl) by lia.
      rewrite (lbefore_S toy ex_W ex_life 1 0 _ eq_refl), (lbefore_S toy ex_W ex_life 0 0 _ eq_refl).
      cbn [lstep estep perform_call]. 
      destruct (BuildSenderSession toy (lbefore toy ex_W ex_life 0 0%nat) nb 1 (ex_bundle 22 33 5 (Some (pub 55))) (rb 77) (rb 88)) as [o l] eqn:EB.
      cbn [fst]. unfold BuildSenderSession in EB.
      assert (HL : w_sess (apply_effs (lbefore toy ex_W ex_life 0 0%nat) l) nb d = None).
      { destruct (negb _); [injection EB as <- <-; reflexivity|]. destruct (b_spk _); [|injection EB as <- <-; reflexivity].
        destruct (negb _); [injection EB as <- <-; reflexivity|]. cbv zeta in EB. injection EB as <- <-.
        cbn [apply_effs fold_left apply_eff set_id set_sess w_sess]. rewrite beq_refl. cbn [andb].
        destruct (Z.eqb_spec d 1); [contradiction|reflexivity]. }
      set (w1 := apply_effs _ l) in *. clearbody w1. clear EB.
      unfold SessionEncryptMessage. destruct (ss_encrypt toy _ _) as [[[b ty] s']| |]; cbn [fst apply_effs fold_left apply_eff set_sess w_sess]; [|exact HL|exact HL].
      rewrite beq_refl. cbn [andb]. destruct (Z.eqb_spec d 1); [contradiction|exact HL]. }
    rewrite (lbefore_S toy ex_W ex_life 5 0 (LEnd nb 1) eq_refl). cbn [lstep set_sess w_sess]. rewrite beq_refl. cbn [andb].
    destruct (Z.eqb_spec dev 1) as [_|N]; [reflexivity|]. exact (X dev N).
Qed.

(* Without tidiness C199 is false: the saved key is removed (as the gateway's rekey request does) while a
   session with its owner is kept, another key is saved for the name, and a text that is then written to the
   name goes to the owner of the old key. *)
Definition ex_forgot : list levent :=
  [(0%nat, LCall (Done (CBuild nb 1 (ex_bundle 23 35 0 None) (rb 77) (rb 88))));
   (0%nat, LForget nb);
   (0%nat, LCall (Done (CBuild nb 2 (ex_bundle 22 33 0 None) (rb 79) (rb 89))));
   (0%nat, LCall (Done (CEnc nb 1 [1])));
   (2%nat, LCall (Done (CRecv na 1 PREKEY_BUNDLE ex_k1 (ex_rnd 101))))].
Theorem C199_forgotten_refuted : exists priv W evs k k' n m rid dev ty b pt s id rid' dev',
  (forall k x, priv k = Some x -> basepub toy x = k) /\ start_ok toy priv W /\ (forall n x, In (n, x) evs -> lknown toy priv x) /\
  w_trust_all (W n) = false /\ (forall c j, ~ In (n, LCall (Crash c j)) evs) /\
  lsends toy W evs k n rid dev pt b /\ w_ids (lbefore toy W evs k n) rid = Some id /\
  ltakes toy W evs k' m rid' dev' ty b pt s /\ snd (w_ident (W m)) <> id.
Proof.
  destruct (ltaken_with_ok ex_W ex_forgot 4 2%nat na 1 PREKEY_BUNDLE ex_k1 (ex_rnd 101) [1] (pub 11)) as (s & HT & HR);
    [reflexivity|vm_compute; reflexivity|].
  exists (priv_of life_keys), ex_W, ex_forgot, 3%nat, 4%nat, 0%nat, 2%nat, nb, 1, PREKEY_BUNDLE, ex_k1, [1], s, (pub 22), na, 1.
  split; [apply priv_of_ok|]. split; [apply ex_start; vm_compute; reflexivity|]. split; [unfold ex_forgot; life_known|].
  split; [reflexivity|]. split.
  { intros c j H. cbn [ex_forgot In] in H. repeat match type of H with _ \/ _ => destruct H as [H|H] end; try (exfalso; exact H); discriminate H. }
  split; [split; [reflexivity|do 2 eexists; vm_compute; reflexivity]|]. split; [vm_compute; reflexivity|]. split; [exact HT|].
  apply (pub_ne 23 22). vm_compute. reflexivity.
Qed.
Print Assumptions C199_forgotten_refuted.

(* C200. Without a one-time prekey the end of a session lets its first message be taken once more: A sends
   one text once, B takes it, ends the session, and takes the same bytes again. *)
Definition ex_again : list levent :=
  [(0%nat, LCall (Done (CBuild nb 1 (ex_bundle 22 33 0 None) (rb 77) (rb 88))));
   (0%nat, LCall (Done (CEnc nb 1 [1])));
   (1%nat, LCall (Done (CRecv na 1 PREKEY_BUNDLE lone (ex_rnd 101))));
   (1%nat, LEndAll na);
   (1%nat, LCall (Done (CRecv na 1 PREKEY_BUNDLE lone (ex_rnd 102))))].
Theorem C200_again_refuted : exists priv W evs k0 k1 k2 n n' rid dev rid' dev' b pt s1 s2,
  (forall k x, priv k = Some x -> basepub toy x = k) /\ start_ok toy priv W /\ (forall n x, In (n, x) evs -> lknown toy priv x) /\
  (k1 < k2)%nat /\ ltakes toy W evs k1 n rid dev PREKEY_BUNDLE b pt s1 /\ ltakes toy W evs k2 n rid dev PREKEY_BUNDLE b pt s2 /\
  lsends toy W evs k0 n' rid' dev' pt b /\
  forall k n rid dev pt b, lsends toy W evs k n rid dev pt b -> k = k0.
Proof.
  destruct (ltaken_with_ok ex_W ex_again 2 1%nat na 1 PREKEY_BUNDLE lone (ex_rnd 101) [1] (pub 11)) as (s1 & HT1 & _); [reflexivity|vm_compute; reflexivity|].
  destruct (ltaken_with_ok ex_W ex_again 4 1%nat na 1 PREKEY_BUNDLE lone (ex_rnd 102) [1] (pub 11)) as (s2 & HT2 & _); [reflexivity|vm_compute; reflexivity|].
  exists (priv_of life_keys), ex_W, ex_again, 1%nat, 2%nat, 4%nat, 1%nat, 0%nat, na, 1, nb, 1, lone, [1], s1, s2.
  split; [apply priv_of_ok|]. split; [apply ex_start; vm_compute; reflexivity|]. split; [unfold ex_again; life_known|].
  split; [lia|]. split; [exact HT1|]. split; [exact HT2|]. split; [split; [reflexivity|do 2 eexists; vm_compute; reflexivity]|].
  intros k n rid dev pt b [Hk _].
  assert (X : match nth_error ex_again k with Some (_, LCall (Done (CEnc _ _ _))) => k = 1%nat | _ => True end).
  { clear. do 5 (destruct k as [|k]; [cbn [nth_error ex_again]; first [exact Logic.I|reflexivity]|]). destruct k; exact Logic.I. }
  rewrite Hk in X. exact X.
Qed.
Print Assumptions C200_again_refuted.
