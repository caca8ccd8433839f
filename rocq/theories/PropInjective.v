(* Each text that was sent is taken at most once, whatever server and network do: property C191. *)
From Coq Require Import ZArith List Lia Bool.
From Verif Require Import Bytes Res Wire Crypto Cbc CbcProofs Messages MessagesProofs Session SessionProofs SessionFacts Builder
  History HistoryProofs Active ActiveLink Examples Conversation Injective PropActive PropHistory.
Import ListNotations.
Open Scope Z_scope.

(* ------------------------------------------------------------------------------------------ *)
(* What is required of the events of client n that concern (rid, dev) up to event k: what is accepted
   is accepted by the newest session, base keys are drawn that are not in use, and no more than 40
   sessions are kept (as then the oldest is forgotten). *)
Definition quiet C (W : nat -> world) (evs : list nevent) (n : nat) (rid : bytes) (dev : Z) (k : nat) : Prop :=
  forall i e, (i <= k)%nat -> nth_error evs i = Some (n, e) ->
    short (before C W evs i n) rid dev /\
    (peer_of (ecall e) = (rid, dev) -> direct C (before C W evs i n) (ecall e) /\ fresh_base C (before C W evs i n) (ecall e)).
(* the text pt that was taken with b has the tag of message j of the chain of q in the session of a *)
Definition placed C priv W evs (n : nat) (ty : mtype) (b pt : bytes) (s : sstate) (a : agreement) (q : list bytes) (j : nat)
    (wh body : bytes) : Prop :=
  let me := snd (w_ident (W n)) in let rem := s_remote s in
  whisper_of ty b = Some wh /\ wh = body ++ aeval C priv (a_tag a q j rem me body) /\
  role (base_key C evs) (signed_key W) me rem a /\ length me = 32%nat /\ length rem = 32%nat /\
  exists m, LoadWhisperMessage wh = Ok m /\
    Decrypt C (aeval C priv (a_mk a q j 0 32)) (aeval C priv (a_mk a q j 64 16) ++ wm_ct m) = Ok pt.
(* E says for each sending of which place it is *)
Definition labels C priv (W : nat -> world) (evs : list nevent) (E : nat -> emission) : Prop :=
  forall k n rid dev pt b, sends C W evs k n rid dev pt b ->
  describes C priv (base_key C evs) (signed_key W) (before C W evs k n) rid dev pt b (E k).
Definition sent_as C (W : nat -> world) (evs : list nevent) (E : nat -> emission) (k : nat) (e : emission) : Prop :=
  exists k' n rid dev pt b, (k' < k)%nat /\ sends C W evs k' n rid dev pt b /\ e = E k'.

Section Proofs.
Variable C : crypto.
Hypothesis OK : crypto_ok C.
Variable priv : bytes -> option bytes.
Hypothesis priv_ok : forall k x, priv k = Some x -> basepub C x = k.
Variable W : nat -> world.
Variable evs : list nevent.
Hypothesis SO : start_ok C priv W.
Hypothesis KK : forall n e, In (n, e) evs -> known_keys C priv e.
Notation bases := (base_key C evs).
Notation signeds := (signed_key W).
Notation ev := (aeval C priv).
Notation placed := (placed C priv W evs).

Lemma mac_tag wh m rem me a q j : LoadWhisperMessage wh = Ok m -> verifyMAC C m rem me (ev (a_mk a q j 32 32)) = true ->
  wh = firstn (length wh - 8) wh ++ ev (a_tag a q j rem me (firstn (length wh - 8) wh)).
Proof.
  intros HL HV. destruct (LoadWhisper_ser _ _ HL) as (Es & Ev & Lw).
  unfold verifyMAC in HV. cbv zeta in HV. apply beq_eq in HV. rewrite Es, Ev in HV. unfold macLength in HV.
  rewrite <- (firstn_skipn (length wh - 8) wh) at 1. f_equal. rewrite <- HV.
  unfold getMac, ComputeTruncatedMAC, a_tag, macLength. change (3 >=? 3) with true. cbv iota. cbn [aeval].
  now rewrite <- app_assoc.
Qed.

Lemma before_S k n e : nth_error evs k = Some (n, e) -> before C W evs (S k) n = fst (estep C (before C W evs k n) e).
Proof.
  intros H. unfold before. rewrite (firstn_S_nth _ _ _ H). unfold nrun. rewrite fold_left_app. cbn [fold_left].
  unfold nstep at 1. cbn [fst snd]. now rewrite Nat.eqb_refl.
Qed.
Lemma before_other k n m e : nth_error evs k = Some (m, e) -> m <> n -> before C W evs (S k) n = before C W evs k n.
Proof.
  intros H N. unfold before. rewrite (firstn_S_nth _ _ _ H). unfold nrun. rewrite fold_left_app. cbn [fold_left].
  unfold nstep at 1. cbn [fst snd]. destruct (Nat.eqb_spec n m); [congruence|reflexivity].
Qed.
Lemma own k n e : nth_error evs k = Some (n, e) -> own_keys C priv bases (ecall e).
Proof.
  intros H. pose proof (KK _ _ (nth_error_In _ _ H)) as HK. unfold known_keys in HK.
  destruct (ecall e) as [|rid dev ty b rnd|rid dev bu rbase rratchet] eqn:EC; cbn [own_keys]; [exact Logic.I|exact HK|].
  destruct HK. split; [assumption|]. split; [assumption|]. exists n, e, rid, dev, bu, rbase, rratchet.
  split; [now apply nth_error_In in H|]. auto.
Qed.

(* one event *)
Lemma step_at k n rid dev (U : aterm -> Prop) e : nth_error evs k = Some (n, e) -> quiet C W evs n rid dev k ->
  taken_at C priv bases signeds U (before C W evs k n) rid dev ->
  exists U' : aterm -> Prop, (forall t, U t -> U' t) /\ taken_at C priv bases signeds U' (before C W evs (S k) n) rid dev /\
    forall ty b pt s, takes C W evs k n rid dev ty b pt s ->
      exists a q j wh body, placed n ty b pt s a q j wh body /\ ~ U (a_ck a q j) /\ U' (a_ck a q j).
Proof.
  intros Hk HQ HT. destruct (before_ok C OK priv priv_ok W evs SO KK k n) as [HN HI].
  destruct (before_ok C OK priv priv_ok W evs SO KK (S k) n) as [_ HI'].
  destruct (HQ k e (le_n k) Hk) as [Q1 Q2].
  rewrite (before_S _ _ _ Hk) in *.
  destruct (step_taken C OK priv priv_ok bases signeds U (before C W evs k n) e rid dev HN HT Q1 (own _ _ _ Hk) Q2)
    as (U' & H1 & H2 & H3); [congruence|].
  exists U'. split; [exact H1|]. split; [exact H2|]. intros ty b pt s (rnd & l & ps & Hk' & HR & HS).
  rewrite Hk in Hk'. injection Hk' as ->.
  destruct (H3 ty b rnd pt l s ps eq_refl HR HS) as (a & p & q & j & wh & m & T1 & T2 & T3 & T4 & T5 & T6 & T7 & T8 & T9).
  exists a, q, j, wh, (firstn (length wh - 8) wh). split; [|auto]. unfold PropInjective.placed. rewrite HI in *.
  split; [exact T1|]. split; [now apply (mac_tag wh m)|]. split; [apply T5|]. split; [exact T7|]. split; [exact T6|]. eauto.
Qed.
Lemma run_at n rid dev k : (forall k', (k' < k)%nat -> quiet C W evs n rid dev k') ->
  exists U : aterm -> Prop, taken_at C priv bases signeds U (before C W evs k n) rid dev /\
    forall k0 ty b pt s, (k0 < k)%nat -> takes C W evs k0 n rid dev ty b pt s ->
      exists a q j wh body, placed n ty b pt s a q j wh body /\ U (a_ck a q j).
Proof.
  induction k as [|k IH]; intros HQ.
  - exists (fun _ => False). split; [|intros; lia]. unfold taken_at, before. cbn [firstn nrun fold_left].
    rewrite (so_sess _ _ _ SO). auto.
  - destruct IH as (U & IH1 & IH2); [intros; apply HQ; lia|].
    destruct (nth_error evs k) as [[m e]|] eqn:Hk.
    + destruct (Nat.eq_dec m n) as [->|N].
      * destruct (step_at k n rid dev U e Hk) as (U' & H1 & H2 & H3); [apply HQ; lia|exact IH1|].
        exists U'. split; [exact H2|]. intros k0 ty b pt s Hlt HT. destruct (Nat.eq_dec k0 k) as [->|Hne].
        -- destruct (H3 _ _ _ _ HT) as (a & q & j & wh & body & G1 & _ & G2). eauto 7.
        -- destruct (IH2 k0 ty b pt s ltac:(lia) HT) as (a & q & j & wh & body & G1 & G2). eauto 8.
      * exists U. rewrite (before_other _ _ _ _ Hk N). split; [exact IH1|].
        intros k0 ty b pt s Hlt HT. destruct (Nat.eq_dec k0 k) as [->|Hne]; [|apply (IH2 k0); [lia|exact HT]].
        exfalso. destruct HT as (rnd & l & ps & HT & _). rewrite Hk in HT. congruence.
    + exists U. assert (EB : before C W evs (S k) n = before C W evs k n).
      { unfold before. apply nth_error_None in Hk. rewrite !firstn_all2 by lia. reflexivity. }
      rewrite EB. split; [exact IH1|]. intros k0 ty b pt s Hlt HT. destruct (Nat.eq_dec k0 k) as [->|Hne]; [|apply (IH2 k0); [lia|exact HT]].
      exfalso. destruct HT as (rnd & l & ps & HT & _). congruence.
Qed.
Lemma two_places n rid dev k1 k2 ty1 b1 pt1 s1 ty2 b2 pt2 s2 : (k1 < k2)%nat -> quiet C W evs n rid dev k2 ->
  takes C W evs k1 n rid dev ty1 b1 pt1 s1 -> takes C W evs k2 n rid dev ty2 b2 pt2 s2 ->
  exists a1 q1 j1 wh1 body1 a2 q2 j2 wh2 body2,
    placed n ty1 b1 pt1 s1 a1 q1 j1 wh1 body1 /\ placed n ty2 b2 pt2 s2 a2 q2 j2 wh2 body2 /\
    a_ck a1 q1 j1 <> a_ck a2 q2 j2.
Proof.
  intros Hlt HQ H1 H2.
  destruct (run_at n rid dev k2) as (U & R1 & R2).
  { intros k' Hk i e Hi. apply HQ. lia. }
  destruct (R2 _ _ _ _ _ Hlt H1) as (a1 & q1 & j1 & wh1 & body1 & P1 & U1).
  assert (HE : exists e, nth_error evs k2 = Some (n, e)) by (destruct H2 as (rnd & l & ps & Hk & _); eauto).
  destruct HE as (e & Hk). destruct (step_at k2 n rid dev U e Hk HQ R1) as (U' & _ & _ & R3).
  destruct (R3 _ _ _ _ H2) as (a2 & q2 & j2 & wh2 & body2 & P2 & U2 & _).
  exists a1, q1, j1, wh1, body1, a2, q2, j2, wh2, body2. split; [exact P1|]. split; [exact P2|]. congruence.
Qed.

(* the sending behind a taking *)
Lemma origin n ty b pt s a q j wh body E k leak : placed n ty b pt s a q j wh body -> labels C priv W evs E ->
  aknows (honest priv) leak (sent_as C W evs E k) (a_tag a q j (s_remote s) (snd (w_ident (W n))) body) ->
  mk_bad (honest priv) leak a q j 32 32 \/
  exists k' n' rid' dev' b', (k' < k)%nat /\ sends C W evs k' n' rid' dev' pt b' /\ carries b' wh /\
    snd (w_ident (W n')) = s_remote s /\ a_ck (em_ag (E k')) (em_path (E k')) (em_idx (E k')) = a_ck a q j.
Proof.
  intros (H1 & H2 & H3 & Lm & Lr & m & H4 & H5) HE HK. apply tag_exact in HK. destruct HK as [HK|(e & He & E1 & E2)]; [now left|right].
  destruct He as (k' & n' & rid' & dev' & pt' & b' & Hlt & HS & ->). set (e := E k') in *.
  assert (HD := HE _ _ _ _ _ _ HS). fold e in HD.
  destruct HD as (s' & ps' & D1 & D2 & D3 & D4 & D5 & D6 & D7 & D8 & m' & D9 & D10).
  assert (ET : tag_of e = a_tag a q j (s_remote s) (snd (w_ident (W n))) body) by (unfold tag_of, a_tag; now rewrite E1, E2).
  apply ids_inj in E2; [|assumption..]. destruct E2 as (E2 & E3 & E4).
  assert (EW : em_body e ++ ev (tag_of e) = wh) by (rewrite H2, ET, E4; reflexivity).
  rewrite EW in D8, D9. rewrite H4 in D9. injection D9 as <-.
  unfold a_mk in E1. injection E1 as E1.
  assert (EP : pt' = pt).
  { unfold a_mk in D10, H5. rewrite E1 in D10. destruct HS as [Hk' _].
    pose proof (KK _ _ (nth_error_In _ _ Hk')) as HKK. unfold known_keys in HKK. cbn [ecall] in HKK. destruct HKK as [Hw _].
    rewrite (Decrypt_Encrypt C OK _ _ _ _ Hw) in H5; [now injection H5| |exact D10].
    cbn [aeval]. apply wfb_firstn, wfb_skipn, (hkdf_wf C OK). }
  rewrite EP in HS. exists k', n', rid', dev', b'. split; [exact Hlt|]. split; [exact HS|]. split; [exact D8|].
  destruct (before_ok C OK priv priv_ok W evs SO KK k' n') as [_ HI]. split; [rewrite <- HI; congruence|exact E1].
Qed.
End Proofs.

(* ------------------------------------------------------------------------------------------ *)
(* C191. Two texts that a client takes from a peer, whatever the network presented and how often, were
   sent in two different calls, unless the keys of one of them are exposed. *)
Theorem C191_exact : forall C, crypto_ok C -> forall priv, (forall k x, priv k = Some x -> basepub C x = k) ->
  forall W evs, start_ok C priv W -> (forall n e, In (n, e) evs -> known_keys C priv e) ->
  forall n rid dev k1 k2 ty1 b1 pt1 s1 ty2 b2 pt2 s2, (k1 < k2)%nat -> quiet C W evs n rid dev k2 ->
  takes C W evs k1 n rid dev ty1 b1 pt1 s1 -> takes C W evs k2 n rid dev ty2 b2 pt2 s2 ->
  exists a1 q1 j1 wh1 body1 a2 q2 j2 wh2 body2,
    placed C priv W evs n ty1 b1 pt1 s1 a1 q1 j1 wh1 body1 /\ placed C priv W evs n ty2 b2 pt2 s2 a2 q2 j2 wh2 body2 /\
    a_ck a1 q1 j1 <> a_ck a2 q2 j2 /\
    forall E leak, labels C priv W evs E ->
    aknows (honest priv) leak (sent_as C W evs E k1) (a_tag a1 q1 j1 (s_remote s1) (snd (w_ident (W n))) body1) ->
    aknows (honest priv) leak (sent_as C W evs E k2) (a_tag a2 q2 j2 (s_remote s2) (snd (w_ident (W n))) body2) ->
    mk_bad (honest priv) leak a1 q1 j1 32 32 \/ mk_bad (honest priv) leak a2 q2 j2 32 32 \/
    exists k1' n1 rid1 dev1 b1' k2' n2 rid2 dev2 b2', k1' <> k2' /\
      (k1' < k1)%nat /\ sends C W evs k1' n1 rid1 dev1 pt1 b1' /\ snd (w_ident (W n1)) = s_remote s1 /\ carries b1' wh1 /\
      (k2' < k2)%nat /\ sends C W evs k2' n2 rid2 dev2 pt2 b2' /\ snd (w_ident (W n2)) = s_remote s2 /\ carries b2' wh2.
Proof.
  intros C OK priv PO W evs SO KK n rid dev k1 k2 ty1 b1 pt1 s1 ty2 b2 pt2 s2 Hlt HQ H1 H2.
  destruct (two_places C OK priv PO W evs SO KK _ _ _ _ _ _ _ _ _ _ _ _ _ Hlt HQ H1 H2)
    as (a1 & q1 & j1 & wh1 & body1 & a2 & q2 & j2 & wh2 & body2 & P1 & P2 & N).
  exists a1, q1, j1, wh1, body1, a2, q2, j2, wh2, body2. split; [exact P1|]. split; [exact P2|]. split; [exact N|].
  intros E leak HE K1 K2.
  destruct (origin C OK priv PO W evs SO KK _ _ _ _ _ _ _ _ _ _ _ _ _ P1 HE K1) as [B|(k1' & n1 & rid1 & dev1 & b1' & A1 & A2 & A3 & A4 & A5)]; [now left|right].
  destruct (origin C OK priv PO W evs SO KK _ _ _ _ _ _ _ _ _ _ _ _ _ P2 HE K2) as [B|(k2' & n2 & rid2 & dev2 & b2' & B1 & B2 & B3 & B4 & B5)]; [now left|right].
  exists k1', n1, rid1, dev1, b1', k2', n2, rid2, dev2, b2'. split; [intros ->; apply N; congruence|]. auto 10.
Qed.
Print Assumptions C191_exact.

(* With losses as in C185, of the keys of other clients: the texts taken are no more than those sent. *)
Theorem C191_once : forall C, crypto_ok C -> forall priv, (forall k x, priv k = Some x -> basepub C x = k) ->
  forall W evs, start_ok C priv W -> (forall n e, In (n, e) evs -> known_keys C priv e) ->
  forall n rid dev k1 k2 ty1 b1 pt1 s1 ty2 b2 pt2 s2, (k1 < k2)%nat -> quiet C W evs n rid dev k2 ->
  takes C W evs k1 n rid dev ty1 b1 pt1 s1 -> takes C W evs k2 n rid dev ty2 b2 pt2 s2 ->
  honest priv (s_remote s1) = true -> honest priv (s_remote s2) = true ->
  exists a1 q1 j1 wh1 body1 a2 q2 j2 wh2 body2,
    placed C priv W evs n ty1 b1 pt1 s1 a1 q1 j1 wh1 body1 /\ placed C priv W evs n ty2 b2 pt2 s2 a2 q2 j2 wh2 body2 /\
    forall E leak, labels C priv W evs E -> mild C W evs leak -> ~ leak (APriv (s_remote s1)) -> ~ leak (APriv (s_remote s2)) ->
    aknows (honest priv) leak (sent_as C W evs E k1) (a_tag a1 q1 j1 (s_remote s1) (snd (w_ident (W n))) body1) ->
    aknows (honest priv) leak (sent_as C W evs E k2) (a_tag a2 q2 j2 (s_remote s2) (snd (w_ident (W n))) body2) ->
    exists k1' n1 rid1 dev1 b1' k2' n2 rid2 dev2 b2', k1' <> k2' /\
      (k1' < k1)%nat /\ sends C W evs k1' n1 rid1 dev1 pt1 b1' /\ snd (w_ident (W n1)) = s_remote s1 /\
      (k2' < k2)%nat /\ sends C W evs k2' n2 rid2 dev2 pt2 b2' /\ snd (w_ident (W n2)) = s_remote s2.
Proof.
  intros C OK priv PO W evs SO KK n rid dev k1 k2 ty1 b1 pt1 s1 ty2 b2 pt2 s2 Hlt HQ H1 H2 HH1 HH2.
  destruct (C191_exact C OK priv PO W evs SO KK _ _ _ _ _ _ _ _ _ _ _ _ _ Hlt HQ H1 H2)
    as (a1 & q1 & j1 & wh1 & body1 & a2 & q2 & j2 & wh2 & body2 & P1 & P2 & N & HX).
  exists a1, q1, j1, wh1, body1, a2, q2, j2, wh2, body2. split; [exact P1|]. split; [exact P2|].
  intros E leak HE HM L1 L2 K1 K2. destruct (HX E leak HE K1 K2) as [B|[B|B]].
  - exfalso. apply only_mk in B; [|exact (proj1 HM)]. revert B.
    exact (mild_role C priv W evs leak _ _ _ SO KK HM HH1 L1 (proj1 (proj2 (proj2 P1)))).
  - exfalso. apply only_mk in B; [|exact (proj1 HM)]. revert B.
    exact (mild_role C priv W evs leak _ _ _ SO KK HM HH2 L2 (proj1 (proj2 (proj2 P2)))).
  - destruct B as (k1' & n1 & rid1 & dev1 & b1' & k2' & n2 & rid2 & dev2 & b2' & B0 & B1 & B2 & B3 & _ & B4 & B5 & B6 & _).
    exists k1', n1, rid1, dev1, b1', k2', n2, rid2, dev2, b2'. auto 10.
Qed.
Print Assumptions C191_once.

(* There are such labels for every run. *)
Theorem C191_labels : forall C, crypto_ok C -> forall priv, (forall k x, priv k = Some x -> basepub C x = k) ->
  forall W evs, start_ok C priv W -> (forall n e, In (n, e) evs -> known_keys C priv e) ->
  exists E, labels C priv W evs E.
Proof.
  intros C OK priv PO W evs SO KK.
  assert (G : forall K, exists E, forall k n rid dev pt b, (k < K)%nat -> sends C W evs k n rid dev pt b ->
    describes C priv (base_key C evs) (signed_key W) (before C W evs k n) rid dev pt b (E k)).
  { induction K as [|K (E & IH)]; [exists (fun _ => mkEm (mkAg [] [] [] [] None) [] 0 [] [] [] []); intros; lia|].
    assert (D : (exists n rid dev pt b, sends C W evs K n rid dev pt b) \/ forall n rid dev pt b, ~ sends C W evs K n rid dev pt b).
    { destruct (nth_error evs K) as [[n e]|] eqn:Hk; [|right; intros ? ? ? ? ? [H _]; pose proof (eq_trans (eq_sym Hk) H) as X; discriminate X].
      destruct e as [[rid dev pt|x1 x2 x3 x4 x5|x1 x2 x3 x4 x5]|c k]; try (right; intros ? ? ? ? ? [H _]; pose proof (eq_trans (eq_sym Hk) H) as X; discriminate X).
      destruct (SessionEncryptMessage C (before C W evs K n) rid dev pt) as [[[b ty]| |] l] eqn:HS.
      - left. exists n, rid, dev, pt, b. split; [exact Hk|eauto].
      - right. intros ? ? ? ? ? [H (ty & l' & H')]. pose proof (eq_trans (eq_sym Hk) H) as X. injection X as <- <- <- <-. congruence.
      - right. intros ? ? ? ? ? [H (ty & l' & H')]. pose proof (eq_trans (eq_sym Hk) H) as X. injection X as <- <- <- <-. congruence. }
    destruct D as [(n & rid & dev & pt & b & HS)|D].
    - destruct (C184_sent C OK priv PO W evs SO KK _ _ _ _ _ _ HS) as (e & HD).
      exists (fun k => if Nat.eqb k K then e else E k). intros k n' rid' dev' pt' b' Hlt HS'.
      destruct (Nat.eqb_spec k K) as [->|Hne]; [|apply IH; [lia|exact HS']].
      destruct HS as [Hk (ty & l & HS)], HS' as [Hk' (ty' & l' & HS')]. rewrite Hk in Hk'. injection Hk' as <- <- <- <-.
      rewrite HS in HS'. injection HS' as <- _ _. exact HD.
    - exists E. intros k n rid dev pt b Hlt HS. destruct (Nat.eq_dec k K) as [->|Hne]; [now apply D in HS|apply IH; [lia|exact HS]]. }
  destruct (G (length evs)) as (E & HE). exists E. intros k n rid dev pt b HS. apply HE; [|exact HS].
  destruct HS as [Hk _]. apply nth_error_Some. intros X. pose proof (eq_trans (eq_sym X) Hk) as Y. discriminate Y.
Qed.
Print Assumptions C191_labels.

(* ------------------------------------------------------------------------------------------ *)
(* Example: A begins a session with B and sends [1] and [2]; B gets the second before the first, and
   then the second again, which it refuses. *)
Definition m0 : bytes := Eval vm_compute in se_bytes (nth 0 outA (mkSent [] 0 CIPHERTEXT [])).
Definition m1 : bytes := Eval vm_compute in se_bytes (nth 1 outA (mkSent [] 0 CIPHERTEXT [])).
Definition m2 : bytes := Eval vm_compute in se_bytes (nth 2 outA (mkSent [] 0 CIPHERTEXT [])).
Definition m3 : bytes := Eval vm_compute in se_bytes (nth 3 outA (mkSent [] 0 CIPHERTEXT [])).
Definition evs1 : list nevent :=
  [(0%nat, Done (CBuild nb 1 (ex_bundle 22 33 5 (Some (pub 55))) (rb 77) (rb 88)));
   (0%nat, Done (CEnc nb 1 [1])); (0%nat, Done (CEnc nb 1 [2]));
   (1%nat, Done (CRecv na 1 PREKEY_BUNDLE m1 (ex_rnd 101))); (1%nat, Done (CRecv na 1 PREKEY_BUNDLE m0 (ex_rnd 102)));
   (1%nat, Done (CRecv na 1 PREKEY_BUNDLE m1 (ex_rnd 79)))].
Lemma known1 n e : In (n, e) evs1 -> known_keys toy (priv_of ex_keys) e.
Proof.
  cbn [evs1 In]. intros H.
  repeat match type of H with _ \/ _ => destruct H as [H|H] end; try (exfalso; exact H); injection H as <- <-; cbn [known_keys ecall].
  - split; apply mineb_ok; vm_compute; reflexivity.
  - split; [apply wfbb_ok; reflexivity|vm_compute; reflexivity].
  - split; [apply wfbb_ok; reflexivity|vm_compute; reflexivity].
  - intros i. apply mineb_ok. vm_compute. reflexivity.
  - intros i. apply mineb_ok. vm_compute. reflexivity.
  - intros i. apply mineb_ok. vm_compute. reflexivity.
Qed.
Definition shortb (w : world) (rid : bytes) (dev : Z) : bool :=
  match w_sess w rid dev with Some (_, ps) => Nat.ltb (length ps) 40 | None => true end.
Lemma shortb_ok w rid dev : shortb w rid dev = true -> short w rid dev.
Proof. unfold shortb. intros H s ps E. rewrite E in H. now apply Nat.ltb_lt. Qed.
Definition wh_of (b : bytes) : bytes := match whisper_of PREKEY_BUNDLE b with Some w => w | None => [] end.
Definition wh0 : bytes := Eval vm_compute in wh_of m0.
Definition wh1 : bytes := Eval vm_compute in wh_of m1.
Definition body0 : bytes := Eval vm_compute in firstn (length wh0 - 8) wh0.
Definition body1 : bytes := Eval vm_compute in firstn (length wh1 - 8) wh1.
Definition E1 (k : nat) : emission :=
  if Nat.eqb k 1 then mkEm ex_ag [pub 88] 0 (pub 11) (pub 22) body0 [1] else mkEm ex_ag [pub 88] 1 (pub 11) (pub 22) body1 [2].
Lemma sends1 : sends toy ex_W evs1 1 0%nat nb 1 [1] m0 /\ sends toy ex_W evs1 2 0%nat nb 1 [2] m1.
Proof. split; (split; [reflexivity|]); do 2 eexists; vm_compute; reflexivity. Qed.
Lemma role1 : role (base_key toy evs1) (signed_key ex_W) (pub 11) (pub 22) ex_ag.
Proof.
  left. split; [reflexivity|]. split; [reflexivity|].
  exists 0%nat, (Done (CBuild nb 1 (ex_bundle 22 33 5 (Some (pub 55))) (rb 77) (rb 88))), nb, 1,
    (ex_bundle 22 33 5 (Some (pub 55))), (rb 77), (rb 88). split; [now left|]. split; reflexivity.
Qed.
Lemma enc_inj a b c a' b' c' : CEnc a b c = CEnc a' b' c' -> a' = a /\ b' = b /\ c' = c.
Proof. intros H. now injection H. Qed.
Lemma ev_inj (n n' : nat) c c' : Some (n, Done c) = Some (n', Done c') -> n' = n /\ c' = c.
Proof. intros H. now injection H. Qed.
Lemma labels1 : labels toy (priv_of ex_keys) ex_W evs1 E1.
Proof.
  assert (HB0 : wh0 = body0 ++ aeval toy (priv_of ex_keys) (a_tag ex_ag [pub 88] 0 (pub 11) (pub 22) body0)) by (vm_compute; reflexivity).
  assert (HB1 : wh1 = body1 ++ aeval toy (priv_of ex_keys) (a_tag ex_ag [pub 88] 1 (pub 11) (pub 22) body1)) by (vm_compute; reflexivity).
  assert (G : forall k, match w_sess (before toy ex_W evs1 k 0%nat) nb 1 with Some (s, _) => s_remote s | None => [] end = pub 22 ->
    exists s ps, w_sess (before toy ex_W evs1 k 0%nat) nb 1 = Some (s, ps) /\ s_remote s = pub 22).
  { intros k H. destruct (w_sess _ nb 1) as [[s ps]|]; [eauto|]. exfalso. revert H. vm_compute. intros X. discriminate X. }
  intros k n rid dev pt b [Hk (ty & l & HS)].
  assert (D : (k = 1 \/ k = 2)%nat).
  { assert (X : match nth_error evs1 k with Some (_, Done (CEnc _ _ _)) => (k = 1 \/ k = 2)%nat | _ => True end).
    { clear. do 6 (destruct k as [|k]; [cbn [nth_error evs1]; first [exact Logic.I|left; reflexivity|right; reflexivity]|]).
      destruct k; exact Logic.I. }
    rewrite Hk in X. exact X. }
  destruct D as [-> | ->]; cbn [nth_error evs1] in Hk; apply ev_inj in Hk; destruct Hk as [-> Hk]; apply enc_inj in Hk; destruct Hk as (<- & <- & <-).
  - destruct (G 1%nat ltac:(vm_compute; reflexivity)) as (s & ps & HW & HR).
    assert (EB : b = m0). { destruct sends1 as [[_ (ty' & l' & H)] _]. rewrite HS in H. now injection H. }
    subst b. exists s, ps. unfold E1, tag_of. change (Nat.eqb 1 1) with true. cbv iota. cbn [em_ag em_path em_idx em_from em_to em_body em_text]. rewrite HR, <- HB0.
    change (snd (w_ident (before toy ex_W evs1 1 0%nat))) with (pub 11).
    split; [exact HW|]. split; [exact role1|]. split; [reflexivity|]. split; [reflexivity|]. split; [reflexivity|].
    split; [vm_compute; reflexivity|]. split; [vm_compute; reflexivity|].
    split; [right; exists 51, 1001, 5, 1, (pub 77), (pub 11); vm_compute; reflexivity|].
    eexists. split; [vm_compute; reflexivity|vm_compute; reflexivity].
  - destruct (G 2%nat ltac:(vm_compute; reflexivity)) as (s & ps & HW & HR).
    assert (EB : b = m1). { destruct sends1 as [_ [_ (ty' & l' & H)]]. rewrite HS in H. now injection H. }
    subst b. exists s, ps. unfold E1, tag_of. change (Nat.eqb 2 1) with false. cbv iota. cbn [em_ag em_path em_idx em_from em_to em_body em_text]. rewrite HR, <- HB1.
    assert (HI : snd (w_ident (before toy ex_W evs1 2 0%nat)) = pub 11) by (vm_compute; reflexivity). rewrite HI.
    split; [exact HW|]. split; [exact role1|]. split; [reflexivity|]. split; [reflexivity|]. split; [reflexivity|].
    split; [vm_compute; reflexivity|]. split; [vm_compute; reflexivity|].
    split; [right; exists 51, 1001, 5, 1, (pub 77), (pub 11); vm_compute; reflexivity|].
    eexists. split; [vm_compute; reflexivity|vm_compute; reflexivity].
Qed.
Example C191_example :
  quiet toy ex_W evs1 1%nat na 1 4 /\
  (exists s, takes toy ex_W evs1 3 1%nat na 1 PREKEY_BUNDLE m1 [2] s /\ s_remote s = pub 11 /\
     placed toy (priv_of ex_keys) ex_W evs1 1%nat PREKEY_BUNDLE m1 [2] s ex_ag [pub 88] 1 wh1 body1) /\
  (exists s, takes toy ex_W evs1 4 1%nat na 1 PREKEY_BUNDLE m0 [1] s /\ s_remote s = pub 11 /\
     placed toy (priv_of ex_keys) ex_W evs1 1%nat PREKEY_BUNDLE m0 [1] s ex_ag [pub 88] 0 wh0 body0) /\
  labels toy (priv_of ex_keys) ex_W evs1 E1 /\
  aknows (honest (priv_of ex_keys)) (fun _ => False) (sent_as toy ex_W evs1 E1 3) (a_tag ex_ag [pub 88] 1 (pub 11) (pub 22) body1) /\
  aknows (honest (priv_of ex_keys)) (fun _ => False) (sent_as toy ex_W evs1 E1 4) (a_tag ex_ag [pub 88] 0 (pub 11) (pub 22) body0) /\
  mild toy ex_W evs1 (fun _ => False) /\ honest (priv_of ex_keys) (pub 11) = true /\
  (forall pt s, ~ takes toy ex_W evs1 5 1%nat na 1 PREKEY_BUNDLE m1 pt s).
Proof.
  assert (RB : role (base_key toy evs1) (signed_key ex_W) (pub 22) (pub 11) ex_ag).
  { right. split; [reflexivity|]. split; [reflexivity|]. exists 1%nat, 1, (ex_kp 33). split; reflexivity. }
  split.
  { intros i e Hi Hk.
    destruct i as [|[|[|[|[|i]]]]]; cbn [nth_error evs1] in Hk; try discriminate Hk.
    3:{ exfalso. lia. }
    - assert (EC : ecall e = CRecv na 1 PREKEY_BUNDLE m1 (ex_rnd 101)) by (injection Hk as <-; reflexivity). rewrite EC.
      split; [apply shortb_ok; vm_compute; reflexivity|]. intros _. split; [|exact Logic.I].
      apply openedb_ok. vm_compute. reflexivity.
    - assert (EC : ecall e = CRecv na 1 PREKEY_BUNDLE m0 (ex_rnd 102)) by (injection Hk as <-; reflexivity). rewrite EC.
      split; [apply shortb_ok; vm_compute; reflexivity|]. intros _. split; [|exact Logic.I].
      apply openedb_ok. vm_compute. reflexivity. }
  split.
  { destruct (taken_with_ok ex_W evs1 3 1%nat na 1 PREKEY_BUNDLE m1 (ex_rnd 101) [2] (pub 11)) as (s & HT & HR); [reflexivity|vm_compute; reflexivity|].
    exists s. split; [exact HT|]. split; [exact HR|]. unfold placed. rewrite HR. split; [vm_compute; reflexivity|]. split; [vm_compute; reflexivity|].
    split; [exact RB|]. split; [vm_compute; reflexivity|]. split; [vm_compute; reflexivity|].
    eexists. split; [vm_compute; reflexivity|vm_compute; reflexivity]. }
  split.
  { destruct (taken_with_ok ex_W evs1 4 1%nat na 1 PREKEY_BUNDLE m0 (ex_rnd 102) [1] (pub 11)) as (s & HT & HR); [reflexivity|vm_compute; reflexivity|].
    exists s. split; [exact HT|]. split; [exact HR|]. unfold placed. rewrite HR. split; [vm_compute; reflexivity|]. split; [vm_compute; reflexivity|].
    split; [exact RB|]. split; [vm_compute; reflexivity|]. split; [vm_compute; reflexivity|].
    eexists. split; [vm_compute; reflexivity|vm_compute; reflexivity]. }
  split; [exact labels1|]. split.
  { apply (ak_tag _ _ _ (E1 2)). exists 2%nat, 0%nat, nb, 1, [2], m1. split; [lia|]. split; [apply sends1|reflexivity]. }
  split.
  { apply (ak_tag _ _ _ (E1 1)). exists 1%nat, 0%nat, nb, 1, [1], m0. split; [lia|]. split; [apply sends1|reflexivity]. }
  split; [split; [intros t []|split; intros k _ []]|]. split; [vm_compute; reflexivity|].
  intros pt s (rnd & l & ps & Hk & HR & _). assert (ER : rnd = ex_rnd 79) by (cbn [nth_error evs1] in Hk; now injection Hk). subst rnd.
  assert (X : match fst (receive toy (before toy ex_W evs1 5 1%nat) na 1 PREKEY_BUNDLE m1 (ex_rnd 79)) with Ok _ => true | _ => false end = false)
    by (vm_compute; reflexivity).
  rewrite HR in X. discriminate X.
Qed.

(* Without "by the newest session" it is false: A's texts [1], [2], [3] are of one session, [4] of a second
   one. B gets [1], [4] and [2], and then [3] twice. It takes it both times, though it was sent once. *)
Definition evs2 : list nevent :=
  [(0%nat, Done (CBuild nb 1 (ex_bundle 22 33 5 (Some (pub 55))) (rb 77) (rb 88)));
   (0%nat, Done (CEnc nb 1 [1])); (0%nat, Done (CEnc nb 1 [2])); (0%nat, Done (CEnc nb 1 [3]));
   (0%nat, Done (CBuild nb 1 (ex_bundle 22 33 6 (Some (pub 66))) (rb 78) (rb 89))); (0%nat, Done (CEnc nb 1 [4]));
   (1%nat, Done (CRecv na 1 PREKEY_BUNDLE m0 (ex_rnd 101))); (1%nat, Done (CRecv na 1 PREKEY_BUNDLE m3 (ex_rnd 102)));
   (1%nat, Done (CRecv na 1 PREKEY_BUNDLE m1 (ex_rnd 103))); (1%nat, Done (CRecv na 1 PREKEY_BUNDLE m2 (ex_rnd 104)));
   (1%nat, Done (CRecv na 1 PREKEY_BUNDLE m2 (ex_rnd 105)))].
Definition keys2 : list Z := [11; 22; 23; 33; 34; 35; 55; 66; 77; 88; 78; 89; 101; 102; 103; 104; 105].
Theorem C191_twice_refuted : exists C priv W evs n rid dev k1 k2 b pt s1 s2 k0,
  crypto_ok C /\ (forall k x, priv k = Some x -> basepub C x = k) /\ start_ok C priv W /\
  (forall n e, In (n, e) evs -> known_keys C priv e) /\ (k1 < k2)%nat /\
  takes C W evs k1 n rid dev PREKEY_BUNDLE b pt s1 /\ takes C W evs k2 n rid dev PREKEY_BUNDLE b pt s2 /\
  (exists n' rid' dev', sends C W evs k0 n' rid' dev' pt b) /\
  forall k' n' rid' dev' b', sends C W evs k' n' rid' dev' pt b' -> k' = k0.
Proof.
  destruct (taken_with_ok ex_W evs2 9 1%nat na 1 PREKEY_BUNDLE m2 (ex_rnd 104) [3] (pub 11)) as (s1 & HT1 & _); [reflexivity|vm_compute; reflexivity|].
  destruct (taken_with_ok ex_W evs2 10 1%nat na 1 PREKEY_BUNDLE m2 (ex_rnd 105) [3] (pub 11)) as (s2 & HT2 & _); [reflexivity|vm_compute; reflexivity|].
  exists toy, (priv_of keys2), ex_W, evs2, 1%nat, na, 1, 9%nat, 10%nat, m2, [3], s1, s2, 3%nat.
  split; [exact toy_ok|]. split; [apply priv_of_ok|]. split; [apply ex_start; vm_compute; reflexivity|]. split.
  { cbn [evs2 In]. intros n e H.
    repeat match type of H with _ \/ _ => destruct H as [H|H] end; try (exfalso; exact H); injection H as <- <-; cbn [known_keys ecall];
      first [split; apply mineb_ok; vm_compute; reflexivity|split; [apply wfbb_ok; reflexivity|vm_compute; reflexivity]
            |intros i; apply mineb_ok; vm_compute; reflexivity]. }
  split; [lia|]. split; [exact HT1|]. split; [exact HT2|]. split.
  { exists 0%nat, nb, 1. split; [reflexivity|]. do 2 eexists. vm_compute. reflexivity. }
  intros k n rid dev b [Hk _].
  assert (X : match nth_error evs2 k with Some (_, Done (CEnc _ _ [3])) => k = 3%nat | _ => True end).
  { clear. do 11 (destruct k as [|k]; [cbn [nth_error evs2]; first [exact Logic.I|reflexivity]|]). destruct k; exact Logic.I. }
  rewrite Hk in X. exact X.
Qed.
Print Assumptions C191_twice_refuted.
