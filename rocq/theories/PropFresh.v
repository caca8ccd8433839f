(* Each text is taken at most once over the whole life of an installation: property C203. *)
From Coq Require Import ZArith List Lia Bool.
From Verif Require Import Bytes Res Wire Crypto Cbc CbcProofs Messages MessagesProofs Session SessionProofs SessionFacts Builder
  History HistoryProofs Replay Active ActiveLink Examples Conversation Injective PropActive PropHistory PropReceive PropInjective PropRelabel
  Lifetime PropLifetime Fresh.
Import ListNotations.
Open Scope Z_scope.

(* ------------------------------------------------------------------------------------------ *)
(* the base key of a session that client n had with (rid, dev) by event i; a prekey that it had by then *)
Definition based C W evs (n : nat) (rid : bytes) (dev : Z) (i : nat) (k : bytes) : Prop :=
  exists i' s ps, (i' <= i)%nat /\ w_sess (lbefore C W evs i' n) rid dev = Some (s, ps) /\ s_base s = key_ser k.
Definition stored C W evs (n : nat) (i : nat) (k : bytes) : Prop :=
  exists i' id kp, (i' <= i)%nat /\ w_pre (lbefore C W evs i' n) id = Some kp /\ snd kp = k.
Definition distinct (w : world) : Prop :=
  forall id1 id2 kp1 kp2, w_pre w id1 = Some kp1 -> w_pre w id2 = Some kp2 -> snd kp1 = snd kp2 -> id1 = id2.
(* What is required of the events of client n up to event k: what is accepted from (rid, dev) is accepted by the
   newest session, first messages that begin a session with (rid, dev) name a one-time prekey, base keys that are
   drawn for (rid, dev) and prekeys that are stored are new, and it is not a session with oneself. Sessions may be
   deleted at any time, saved keys removed, signed prekeys replaced, and calls cut off. *)
Definition lasting C (W : nat -> world) (evs : list levent) (n : nat) (rid : bytes) (dev : Z) (k : nat) : Prop :=
  distinct (W n) /\
  forall i x, (i <= k)%nat -> nth_error evs i = Some (n, x) ->
    match x with
    | LCall e => peer_of (ecall e) = (rid, dev) ->
        direct C (lbefore C W evs i n) (ecall e) /\ one_time (lbefore C W evs i n) (ecall e) /\
        new_base C (based C W evs n rid dev i) (snd (w_ident (W n))) (ecall e)
    | LPreKey id kp => ~ stored C W evs n i (snd kp)
    | _ => True
    end.
(* Or: from event k0, when there is no session with (rid, dev), no session with it is deleted, what is accepted is
   accepted by the newest session, base keys are drawn that are not in use, and no more than 40 sessions are kept. *)
Definition undisturbed C (W : nat -> world) (evs : list levent) (n : nat) (rid : bytes) (dev : Z) (k0 k : nat) : Prop :=
  w_sess (lbefore C W evs k0 n) rid dev = None /\
  forall i x, (k0 <= i <= k)%nat -> nth_error evs i = Some (n, x) ->
    short (lbefore C W evs i n) rid dev /\
    match x with
    | LCall e => peer_of (ecall e) = (rid, dev) -> direct C (lbefore C W evs i n) (ecall e) /\ fresh_base C (lbefore C W evs i n) (ecall e)
    | LEnd r d => (r, d) <> (rid, dev)
    | LEndAll r => r <> rid
    | _ => True
    end.
(* the text pt that was taken with b has the tag of message j of the chain of q in the session of a *)
Definition lplaced C priv W evs (n : nat) (ty : mtype) (b pt : bytes) (s : sstate) (a : agreement) (q : list bytes) (j : nat)
    (wh body : bytes) : Prop :=
  let me := snd (w_ident (W n)) in let rem := s_remote s in
  whisper_of ty b = Some wh /\ wh = body ++ aeval C priv (a_tag a q j rem me body) /\
  role (lbase C evs) (lsigned W evs) me rem a /\ length me = 32%nat /\ length rem = 32%nat /\
  exists m, LoadWhisperMessage wh = Ok m /\
    Decrypt C (aeval C priv (a_mk a q j 0 32)) (aeval C priv (a_mk a q j 64 16) ++ wm_ct m) = Ok pt.
(* E says for each sending of which place it is *)
Definition llabels C priv (W : nat -> world) (evs : list levent) (E : nat -> emission) : Prop :=
  forall k n rid dev pt b, lsends C W evs k n rid dev pt b ->
  describes C priv (lbase C evs) (lsigned W evs) (lbefore C W evs k n) rid dev pt b (E k).
Definition lsent_as C (W : nat -> world) (evs : list levent) (E : nat -> emission) (k : nat) (e : emission) : Prop :=
  exists k' n rid dev pt b, (k' < k)%nat /\ lsends C W evs k' n rid dev pt b /\ e = E k'.

Section Proofs.
Variable C : crypto.
Hypothesis OK : crypto_ok C.
Variable priv : bytes -> option bytes.
Hypothesis priv_ok : forall k x, priv k = Some x -> basepub C x = k.
Variable W : nat -> world.
Variable evs : list levent.
Hypothesis SO : start_ok C priv W.
Hypothesis KK : forall n x, In (n, x) evs -> lknown C priv x.
Notation bases := (lbase C evs).
Notation signeds := (lsigned W evs).
Notation ev := (aeval C priv).
Notation lplaced := (lplaced C priv W evs).

Lemma lown k n e : nth_error evs k = Some (n, LCall e) -> own_keys C priv bases (ecall e).
Proof.
  intros H. pose proof (KK _ _ (nth_error_In _ _ H)) as HK. unfold lknown, known_keys in HK.
  destruct (ecall e) as [|rid dev ty b rnd|rid dev bu rbase rratchet] eqn:EC; cbn [own_keys]; [exact Logic.I|exact HK|].
  destruct HK. split; [assumption|]. split; [assumption|]. exists n, e, rid, dev, bu, rbase, rratchet.
  split; [now apply nth_error_In in H|]. auto.
Qed.
(* the places of a taking *)
Lemma to_placed k n rid dev ty b pt s (U U' : aterm -> Prop) e : nth_error evs k = Some (n, LCall e) ->
  (forall ty b rnd pt l s ps, e = Done (CRecv rid dev ty b rnd) -> receive C (lbefore C W evs k n) rid dev ty b rnd = (Ok pt, l) ->
      w_sess (apply_effs (lbefore C W evs k n) l) rid dev = Some (s, ps) ->
      exists a p q j wh m, whisper_of ty b = Some wh /\ LoadWhisperMessage wh = Ok m /\
        ~ U (a_ck a q j) /\ U' (a_ck a q j) /\ state_at C priv bases signeds (snd (w_ident (lbefore C W evs k n))) a p s /\ length (s_remote s) = 32%nat /\
        length (snd (w_ident (lbefore C W evs k n))) = 32%nat /\
        verifyMAC C m (s_remote s) (snd (w_ident (lbefore C W evs k n))) (ev (a_mk a q j 32 32)) = true /\
        Decrypt C (ev (a_mk a q j 0 32)) (ev (a_mk a q j 64 16) ++ wm_ct m) = Ok pt) ->
  ltakes C W evs k n rid dev ty b pt s ->
  exists a q j wh body, lplaced n ty b pt s a q j wh body /\ ~ U (a_ck a q j) /\ U' (a_ck a q j).
Proof.
  intros Hk H3 (rnd & l & ps & Hk' & HR & HS). rewrite Hk in Hk'. injection Hk' as ->.
  destruct (H3 ty b rnd pt l s ps eq_refl HR HS) as (a & p & q & j & wh & m & T1 & T2 & T3 & T4 & T5 & T6 & T7 & T8 & T9).
  exists a, q, j, wh, (firstn (length wh - 8) wh). split; [|auto]. unfold PropFresh.lplaced.
  destruct (lbefore_ok C OK priv priv_ok W evs SO KK k n) as [_ HI]. rewrite HI in *.
  split; [exact T1|]. split; [now apply (mac_tag C priv wh m)|]. split; [apply T5|]. split; [exact T7|]. split; [exact T6|]. eauto.
Qed.

Lemma based_more n rid dev i j k : (i <= j)%nat -> based C W evs n rid dev i k -> based C W evs n rid dev j k.
Proof. intros L (i' & s & ps & H1 & H2). exists i', s, ps. split; [lia|exact H2]. Qed.
Lemma stored_more n i j k : (i <= j)%nat -> stored C W evs n i k -> stored C W evs n j k.
Proof. intros L (i' & id & kp & H1 & H2). exists i', id, kp. split; [lia|exact H2]. Qed.

(* one event *)
Notation ever_at U k n rid dev := (ever C priv bases signeds U (based C W evs n rid dev k) (stored C W evs n k) (lbefore C W evs k n) rid dev).
Lemma ever_step k n rid dev (U : aterm -> Prop) x : nth_error evs k = Some (n, x) -> lasting C W evs n rid dev k ->
  distinct (lbefore C W evs k n) -> ever_at U k n rid dev ->
  exists U' : aterm -> Prop, (forall t, U t -> U' t) /\ ever_at U' (S k) n rid dev /\ distinct (lbefore C W evs (S k) n) /\
    forall ty b pt s, ltakes C W evs k n rid dev ty b pt s ->
      exists a q j wh body, lplaced n ty b pt s a q j wh body /\ ~ U (a_ck a q j) /\ U' (a_ck a q j).
Proof.
  intros Hk [_ HQ] HD HT. destruct (lbefore_ok C OK priv priv_ok W evs SO KK k n) as [HN HI].
  destruct (lbefore_ok C OK priv priv_ok W evs SO KK (S k) n) as [_ HI'].
  specialize (HQ k x (le_n k) Hk). pose proof (lbefore_S C W evs k n x Hk) as ES.
  assert (NT : forall x', x = x' -> match x' with LCall _ => False | _ => True end -> forall ty b pt s, ltakes C W evs k n rid dev ty b pt s -> False).
  { intros x' -> Hx ty b pt s (rnd & l & ps & Hk' & _). rewrite Hk in Hk'. injection Hk' as ->. exact Hx. }
  assert (KEEP : match x with LCall _ => False | _ => True end ->
     (w_sess (lbefore C W evs (S k) n) rid dev = w_sess (lbefore C W evs k n) rid dev \/ w_sess (lbefore C W evs (S k) n) rid dev = None) ->
     (forall id kp k0, w_pre (lbefore C W evs (S k) n) id = Some kp -> stored C W evs n k k0 -> w_pre (lbefore C W evs k n) id = Some kp \/ snd kp <> k0) ->
     distinct (lbefore C W evs (S k) n) ->
     exists U' : aterm -> Prop, (forall t, U t -> U' t) /\ ever_at U' (S k) n rid dev /\ distinct (lbefore C W evs (S k) n) /\
       forall ty b pt s, ltakes C W evs k n rid dev ty b pt s ->
         exists a q j wh body, lplaced n ty b pt s a q j wh body /\ ~ U (a_ck a q j) /\ U' (a_ck a q j)).
  { intros Hx H1 H2 H3. exists U. split; [auto|]. split; [|split; [exact H3|intros ty b pt s HX; exfalso; exact (NT x eq_refl Hx _ _ _ _ HX)]].
    eapply ever_same; [exact HT|congruence|exact H1| | |exact H2].
    - intros k0. apply based_more. lia.
    - intros k0. apply stored_more. lia. }
  destruct x as [e|r d|r|r|id kp|id kp].
  - assert (EF : fst (estep C (lbefore C W evs k n) e) = lbefore C W evs (S k) n) by (rewrite ES; reflexivity).
    destruct (step_ever C OK priv priv_ok bases signeds U (based C W evs n rid dev k) (stored C W evs n k) (based C W evs n rid dev (S k))
       (lbefore C W evs k n) e rid dev HN HT (lown _ _ _ Hk)) as (U' & H1 & H2 & H3).
    + rewrite HI. exact HQ.
    + intros id kp Hp. exists k, id, kp. auto.
    + exact HD.
    + intros k0. apply based_more. lia.
    + intros s ps k0 Hs Hb. exists (S k), s, ps. rewrite <- EF. auto.
    + rewrite EF. congruence.
    + exists U'. split; [exact H1|]. split; [|split].
      * rewrite EF in H2. eapply ever_same; [exact H2|reflexivity|now left|auto| |].
        -- intros k0. apply stored_more. lia.
        -- intros id kp k0 Hp _. now left.
      * intros id1 id2 kp1 kp2 P1 P2. rewrite <- EF in P1, P2. apply estep_pre_some in P1, P2. exact (HD _ _ _ _ P1 P2).
      * intros ty b pt s HX. exact (to_placed k n rid dev ty b pt s U U' e Hk H3 HX).
  - apply KEEP; [exact Logic.I| | |]; rewrite ES; cbn [lstep].
    + cbn [set_sess w_sess]. destruct (beq rid r && (dev =? d)); auto.
    + intros; now left.
    + exact HD.
  - apply KEEP; [exact Logic.I| | |]; rewrite ES; cbn [lstep].
    + cbn [end_all w_sess]. destruct (beq rid r); auto.
    + intros; now left.
    + exact HD.
  - apply KEEP; [exact Logic.I| | |]; rewrite ES; cbn [lstep].
    + now left.
    + intros; now left.
    + exact HD.
  - apply KEEP; [exact Logic.I| | |]; rewrite ES; cbn [lstep].
    + now left.
    + intros i q k0 Hp Hs. cbn [set_pre w_pre] in Hp. destruct (Z.eqb_spec i id); [|now left]. right. injection Hp as <-. intros <-. exact (HQ Hs).
    + intros i1 i2 p1 p2 P1 P2 E. cbn [set_pre w_pre] in P1, P2.
      destruct (Z.eqb_spec i1 id) as [->|], (Z.eqb_spec i2 id) as [->|]; [reflexivity|..].
      * exfalso. injection P1 as <-. apply HQ. exists k, i2, p2. split; [lia|]. split; [exact P2|now symmetry].
      * exfalso. injection P2 as <-. apply HQ. exists k, i1, p1. split; [lia|]. split; [exact P1|exact E].
      * exact (HD _ _ _ _ P1 P2 E).
  - apply KEEP; [exact Logic.I| | |]; rewrite ES; cbn [lstep].
    + now left.
    + intros; now left.
    + exact HD.
Qed.
Lemma lasting_less n rid dev k k' : (k' <= k)%nat -> lasting C W evs n rid dev k -> lasting C W evs n rid dev k'.
Proof. intros L [H1 H2]. split; [exact H1|]. intros i x Hi. apply H2. lia. Qed.
Lemma ever_run n rid dev k : (forall k', (k' < k)%nat -> lasting C W evs n rid dev k') -> distinct (W n) ->
  exists U : aterm -> Prop, ever_at U k n rid dev /\ distinct (lbefore C W evs k n) /\
    forall k0 ty b pt s, (k0 < k)%nat -> ltakes C W evs k0 n rid dev ty b pt s ->
      exists a q j wh body, lplaced n ty b pt s a q j wh body /\ U (a_ck a q j).
Proof.
  induction k as [|k IH]; intros HQ HD.
  - exists (fun _ => False). split; [|split; [exact HD|intros; lia]]. split; [|intros t []].
    intros s ps Hs. unfold lbefore in Hs. cbn [firstn lnrun fold_left] in Hs. rewrite (so_sess _ _ _ SO) in Hs. discriminate Hs.
  - destruct IH as (U & IH1 & IH2 & IH3); [intros; apply HQ; lia|exact HD|].
    destruct (nth_error evs k) as [[m x]|] eqn:Hk.
    + destruct (Nat.eq_dec n m) as [<-|N].
      * destruct (ever_step k n rid dev U x Hk) as (U' & H1 & H2 & H3 & H4); [apply HQ; lia|exact IH2|exact IH1|].
        exists U'. split; [exact H2|]. split; [exact H3|]. intros k0 ty b pt s Hlt HT. destruct (Nat.eq_dec k0 k) as [->|Hne].
        -- destruct (H4 _ _ _ _ HT) as (a & q & j & wh & body & G1 & _ & G2). eauto 7.
        -- destruct (IH3 k0 ty b pt s ltac:(lia) HT) as (a & q & j & wh & body & G1 & G2). eauto 8.
      * exists U. pose proof (lbefore_other C W evs _ _ _ _ Hk N) as EB. split; [|split].
        -- eapply ever_same; [exact IH1|now rewrite EB|left; now rewrite EB| | |].
           ++ intros k0. apply based_more. lia.
           ++ intros k0. apply stored_more. lia.
           ++ intros id kp k0 Hp _. left. now rewrite EB in Hp.
        -- rewrite EB. exact IH2.
        -- intros k0 ty b pt s Hlt HT. destruct (Nat.eq_dec k0 k) as [->|Hne]; [|apply (IH3 k0); [lia|exact HT]].
           exfalso. destruct HT as (rnd & l & ps & HT & _). rewrite Hk in HT. congruence.
    + exists U. pose proof (lbefore_end C W evs _ n Hk) as EB. split; [|split].
      * eapply ever_same; [exact IH1|now rewrite EB|left; now rewrite EB| | |].
        -- intros k0. apply based_more. lia.
        -- intros k0. apply stored_more. lia.
        -- intros id kp k0 Hp _. left. now rewrite EB in Hp.
      * rewrite EB. exact IH2.
      * intros k0 ty b pt s Hlt HT. destruct (Nat.eq_dec k0 k) as [->|Hne]; [|apply (IH3 k0); [lia|exact HT]].
        exfalso. destruct HT as (rnd & l & ps & HT & _). congruence.
Qed.
Definition two_places_of (n : nat) ty1 b1 pt1 s1 ty2 b2 pt2 s2 : Prop :=
  exists a1 q1 j1 wh1 body1 a2 q2 j2 wh2 body2,
    lplaced n ty1 b1 pt1 s1 a1 q1 j1 wh1 body1 /\ lplaced n ty2 b2 pt2 s2 a2 q2 j2 wh2 body2 /\
    a_ck a1 q1 j1 <> a_ck a2 q2 j2.
Lemma takes_event k n rid dev ty b pt s : ltakes C W evs k n rid dev ty b pt s -> exists e, nth_error evs k = Some (n, LCall e).
Proof. intros (rnd & l & ps & Hk & _). eauto. Qed.
Lemma ltwo_places n rid dev k1 k2 ty1 b1 pt1 s1 ty2 b2 pt2 s2 : (k1 < k2)%nat -> lasting C W evs n rid dev k2 ->
  ltakes C W evs k1 n rid dev ty1 b1 pt1 s1 -> ltakes C W evs k2 n rid dev ty2 b2 pt2 s2 -> two_places_of n ty1 b1 pt1 s1 ty2 b2 pt2 s2.
Proof.
  intros Hlt HQ H1 H2.
  destruct (ever_run n rid dev k2) as (U & R1 & R2 & R3); [intros k' Hk; apply (lasting_less _ _ _ k2); [lia|exact HQ]|apply HQ|].
  destruct (R3 _ _ _ _ _ Hlt H1) as (a1 & q1 & j1 & wh1 & body1 & P1 & U1).
  destruct (takes_event _ _ _ _ _ _ _ _ H2) as (e & Hk). destruct (ever_step k2 n rid dev U _ Hk HQ R2 R1) as (U' & _ & _ & _ & R4).
  destruct (R4 _ _ _ _ H2) as (a2 & q2 & j2 & wh2 & body2 & P2 & U2 & _).
  exists a1, q1, j1, wh1, body1, a2, q2, j2, wh2, body2. split; [exact P1|]. split; [exact P2|]. congruence.
Qed.

(* without deletions *)
Lemma und_step k0 k n rid dev (U : aterm -> Prop) x : nth_error evs k = Some (n, x) -> (k0 <= k)%nat -> undisturbed C W evs n rid dev k0 k ->
  taken_at C priv bases signeds U (lbefore C W evs k n) rid dev ->
  exists U' : aterm -> Prop, (forall t, U t -> U' t) /\ taken_at C priv bases signeds U' (lbefore C W evs (S k) n) rid dev /\
    forall ty b pt s, ltakes C W evs k n rid dev ty b pt s ->
      exists a q j wh body, lplaced n ty b pt s a q j wh body /\ ~ U (a_ck a q j) /\ U' (a_ck a q j).
Proof.
  intros Hk L [_ HQ] HT. destruct (lbefore_ok C OK priv priv_ok W evs SO KK k n) as [HN HI].
  destruct (lbefore_ok C OK priv priv_ok W evs SO KK (S k) n) as [_ HI'].
  destruct (HQ k x (conj L (le_n k)) Hk) as [Q1 Q2]. pose proof (lbefore_S C W evs k n x Hk) as ES.
  assert (KEEP : match x with LCall _ => False | _ => True end ->
     w_sess (lbefore C W evs (S k) n) rid dev = w_sess (lbefore C W evs k n) rid dev ->
     exists U' : aterm -> Prop, (forall t, U t -> U' t) /\ taken_at C priv bases signeds U' (lbefore C W evs (S k) n) rid dev /\
       forall ty b pt s, ltakes C W evs k n rid dev ty b pt s ->
         exists a q j wh body, lplaced n ty b pt s a q j wh body /\ ~ U (a_ck a q j) /\ U' (a_ck a q j)).
  { intros Hx H1. exists U. split; [auto|]. split.
    - unfold taken_at in *. rewrite H1, HI'. rewrite HI in HT. exact HT.
    - intros ty b pt s (rnd & l & ps & Hk' & _). exfalso. rewrite Hk in Hk'. injection Hk' as ->. exact Hx. }
  destruct x as [e|r d|r|r|id kp|id kp].
  - assert (EF : fst (estep C (lbefore C W evs k n) e) = lbefore C W evs (S k) n) by (rewrite ES; reflexivity).
    destruct (step_taken C OK priv priv_ok bases signeds U (lbefore C W evs k n) e rid dev HN HT Q1 (lown _ _ _ Hk) Q2) as (U' & H1 & H2 & H3).
    + rewrite EF. congruence.
    + exists U'. split; [exact H1|]. rewrite EF in H2. split; [exact H2|].
      intros ty b pt s HX. exact (to_placed k n rid dev ty b pt s U U' e Hk H3 HX).
  - apply KEEP; [exact Logic.I|]. rewrite ES. cbn [lstep set_sess w_sess]. destruct (beq rid r) eqn:B; [|reflexivity]. apply beq_eq in B. subst r.
    destruct (Z.eqb_spec dev d) as [->|]; [exfalso; now apply Q2|reflexivity].
  - apply KEEP; [exact Logic.I|]. rewrite ES. cbn [lstep end_all w_sess]. destruct (beq rid r) eqn:B; [|reflexivity]. apply beq_eq in B. subst r. exfalso. now apply Q2.
  - apply KEEP; [exact Logic.I|]. rewrite ES. reflexivity.
  - apply KEEP; [exact Logic.I|]. rewrite ES. reflexivity.
  - apply KEEP; [exact Logic.I|]. rewrite ES. reflexivity.
Qed.
Lemma und_run k0 n rid dev d : (forall k', (k0 <= k' < k0 + d)%nat -> undisturbed C W evs n rid dev k0 k') -> w_sess (lbefore C W evs k0 n) rid dev = None ->
  exists U : aterm -> Prop, taken_at C priv bases signeds U (lbefore C W evs (k0 + d) n) rid dev /\
    forall k ty b pt s, (k0 <= k < k0 + d)%nat -> ltakes C W evs k n rid dev ty b pt s ->
      exists a q j wh body, lplaced n ty b pt s a q j wh body /\ U (a_ck a q j).
Proof.
  intros HQ H0. induction d as [|d IH].
  - exists (fun _ => False). split; [|intros; lia]. rewrite Nat.add_0_r. unfold taken_at. rewrite H0. auto.
  - destruct IH as (U & IH1 & IH3); [intros; apply HQ; lia|].
    replace (k0 + S d)%nat with (S (k0 + d)) in * by lia.
    destruct (nth_error evs (k0 + d)) as [[m x]|] eqn:Hk.
    + destruct (Nat.eq_dec n m) as [<-|N].
      * destruct (und_step k0 (k0 + d) n rid dev U x Hk) as (U' & H1 & H2 & H4); [lia|apply HQ; lia|exact IH1|].
        exists U'. split; [exact H2|]. intros k ty b pt s Hlt HT. destruct (Nat.eq_dec k (k0 + d)) as [->|Hne].
        -- destruct (H4 _ _ _ _ HT) as (a & q & j & wh & body & G1 & _ & G2). eauto 7.
        -- destruct (IH3 k ty b pt s ltac:(lia) HT) as (a & q & j & wh & body & G1 & G2). eauto 8.
      * exists U. rewrite (lbefore_other C W evs _ _ _ _ Hk N). split; [exact IH1|].
        intros k ty b pt s Hlt HT. destruct (Nat.eq_dec k (k0 + d)) as [->|Hne]; [|apply (IH3 k); [lia|exact HT]].
        exfalso. destruct HT as (rnd & l & ps & HT & _). rewrite Hk in HT. congruence.
    + exists U. rewrite (lbefore_end C W evs _ n Hk). split; [exact IH1|].
      intros k ty b pt s Hlt HT. destruct (Nat.eq_dec k (k0 + d)) as [->|Hne]; [|apply (IH3 k); [lia|exact HT]].
      exfalso. destruct HT as (rnd & l & ps & HT & _). congruence.
Qed.
Lemma und_two n rid dev k0 k1 k2 ty1 b1 pt1 s1 ty2 b2 pt2 s2 : (k0 <= k1 < k2)%nat -> undisturbed C W evs n rid dev k0 k2 ->
  ltakes C W evs k1 n rid dev ty1 b1 pt1 s1 -> ltakes C W evs k2 n rid dev ty2 b2 pt2 s2 -> two_places_of n ty1 b1 pt1 s1 ty2 b2 pt2 s2.
Proof.
  intros Hlt HQ H1 H2. destruct (und_run k0 n rid dev (k2 - k0)) as (U & R1 & R3).
  { intros k' Hk. destruct HQ as [Q0 Q]. split; [exact Q0|]. intros i x Hi. apply Q. lia. }
  { apply HQ. }
  replace (k0 + (k2 - k0))%nat with k2 in * by lia.
  destruct (R3 _ _ _ _ _ Hlt H1) as (a1 & q1 & j1 & wh1 & body1 & P1 & U1).
  destruct (takes_event _ _ _ _ _ _ _ _ H2) as (e & Hk). destruct (und_step k0 k2 n rid dev U _ Hk ltac:(lia) HQ R1) as (U' & _ & _ & R4).
  destruct (R4 _ _ _ _ H2) as (a2 & q2 & j2 & wh2 & body2 & P2 & U2 & _).
  exists a1, q1, j1, wh1, body1, a2, q2, j2, wh2, body2. split; [exact P1|]. split; [exact P2|]. congruence.
Qed.

(* the sending behind a taking *)
Lemma lorigin n ty b pt s a q j wh body E k leak : lplaced n ty b pt s a q j wh body -> llabels C priv W evs E ->
  aknows (honest priv) leak (lsent_as C W evs E k) (a_tag a q j (s_remote s) (snd (w_ident (W n))) body) ->
  mk_bad (honest priv) leak a q j 32 32 \/
  exists k' n' rid' dev' b', (k' < k)%nat /\ lsends C W evs k' n' rid' dev' pt b' /\ carries b' wh /\
    snd (w_ident (W n')) = s_remote s /\ a_ck (em_ag (E k')) (em_path (E k')) (em_idx (E k')) = a_ck a q j.
Proof.
  intros (H1 & H2 & H3 & Lm & Lr & m & H4 & H5) HE HK. apply tag_exact in HK. destruct HK as [HK|(e & He & E1 & E2)]; [now left|right].
  destruct He as (k' & n' & rid' & dev' & pt' & b' & Hlt & HS & ->). set (e := E k') in *.
  assert (HD := HE _ _ _ _ _ _ HS). fold e in HD.
  destruct HD as (s' & ps' & D1 & D2 & D3 & D4 & D5 & D6 & D7 & D8 & m' & D9 & D10).
  assert (ET : tag_of e = a_tag a q j (s_remote s) (snd (w_ident (W n))) body) by (unfold tag_of, a_tag; now rewrite E1, E2).
  apply ids_inj in E2; [|assumption..]. destruct E2 as (E2 & E3 & E4).
  assert (EW : em_body e ++ ev (tag_of e) = wh) by (rewrite H2, ET, E4; reflexivity).
  rewrite EW in D8, D9. rewrite H4 in D9. injection D9 as <-.
  unfold a_mk in E1. injection E1 as E1.
  assert (EP : pt' = pt).
  { unfold a_mk in D10, H5. rewrite E1 in D10. destruct HS as [Hk' _].
    pose proof (KK _ _ (nth_error_In _ _ Hk')) as HKK. unfold lknown, known_keys in HKK. cbn [ecall] in HKK. destruct HKK as [Hw _].
    rewrite (Decrypt_Encrypt C OK _ _ _ _ Hw) in H5; [now injection H5| |exact D10].
    cbn [aeval]. apply wfb_firstn, wfb_skipn, (hkdf_wf C OK). }
  rewrite EP in HS. exists k', n', rid', dev', b'. split; [exact Hlt|]. split; [exact HS|]. split; [exact D8|].
  destruct (lbefore_ok C OK priv priv_ok W evs SO KK k' n') as [_ HI]. split; [rewrite <- HI; congruence|exact E1].
Qed.
(* two sendings behind two takings *)
Definition two_sendings (n : nat) (k1 k2 : nat) (pt1 : bytes) (s1 : sstate) (pt2 : bytes) (s2 : sstate) : Prop :=
  exists k1' n1 rid1 dev1 b1' k2' n2 rid2 dev2 b2', k1' <> k2' /\
      (k1' < k1)%nat /\ lsends C W evs k1' n1 rid1 dev1 pt1 b1' /\ snd (w_ident (W n1)) = s_remote s1 /\
      (k2' < k2)%nat /\ lsends C W evs k2' n2 rid2 dev2 pt2 b2' /\ snd (w_ident (W n2)) = s_remote s2.
Lemma both n k1 k2 ty1 b1 pt1 s1 ty2 b2 pt2 s2 : two_places_of n ty1 b1 pt1 s1 ty2 b2 pt2 s2 ->
  honest priv (s_remote s1) = true -> honest priv (s_remote s2) = true ->
  exists a1 q1 j1 wh1 body1 a2 q2 j2 wh2 body2,
    lplaced n ty1 b1 pt1 s1 a1 q1 j1 wh1 body1 /\ lplaced n ty2 b2 pt2 s2 a2 q2 j2 wh2 body2 /\
    forall E leak, llabels C priv W evs E -> lmild C W evs leak -> ~ leak (APriv (s_remote s1)) -> ~ leak (APriv (s_remote s2)) ->
    aknows (honest priv) leak (lsent_as C W evs E k1) (a_tag a1 q1 j1 (s_remote s1) (snd (w_ident (W n))) body1) ->
    aknows (honest priv) leak (lsent_as C W evs E k2) (a_tag a2 q2 j2 (s_remote s2) (snd (w_ident (W n))) body2) ->
    two_sendings n k1 k2 pt1 s1 pt2 s2.
Proof.
  intros (a1 & q1 & j1 & wh1 & body1 & a2 & q2 & j2 & wh2 & body2 & P1 & P2 & N) HH1 HH2.
  exists a1, q1, j1, wh1, body1, a2, q2, j2, wh2, body2. split; [exact P1|]. split; [exact P2|].
  intros E leak HE HM L1 L2 K1 K2.
  destruct (lorigin _ _ _ _ _ _ _ _ _ _ _ _ _ P1 HE K1) as [B|(k1' & n1 & rid1 & dev1 & b1' & A1 & A2 & A3 & A4 & A5)].
  { exfalso. apply only_mk in B; [|exact (proj1 HM)]. revert B. exact (lmild_role C priv W evs leak _ _ _ SO KK HM HH1 L1 (proj1 (proj2 (proj2 P1)))). }
  destruct (lorigin _ _ _ _ _ _ _ _ _ _ _ _ _ P2 HE K2) as [B|(k2' & n2 & rid2 & dev2 & b2' & B1 & B2 & B3 & B4 & B5)].
  { exfalso. apply only_mk in B; [|exact (proj1 HM)]. revert B. exact (lmild_role C priv W evs leak _ _ _ SO KK HM HH2 L2 (proj1 (proj2 (proj2 P2)))). }
  exists k1', n1, rid1, dev1, b1', k2', n2, rid2, dev2, b2'. split; [intros ->; apply N; congruence|]. auto 10.
Qed.
End Proofs.

(* ------------------------------------------------------------------------------------------ *)
(* C203. Whatever the network presents and however often, and whatever sessions the client deletes in between, two
   texts that it takes from a device of a peer were sent in two different calls. *)
Theorem C203_ever : forall C, crypto_ok C -> forall priv, (forall k x, priv k = Some x -> basepub C x = k) ->
  forall W evs, start_ok C priv W -> (forall n x, In (n, x) evs -> lknown C priv x) ->
  forall n rid dev k1 k2 ty1 b1 pt1 s1 ty2 b2 pt2 s2, (k1 < k2)%nat -> lasting C W evs n rid dev k2 ->
  ltakes C W evs k1 n rid dev ty1 b1 pt1 s1 -> ltakes C W evs k2 n rid dev ty2 b2 pt2 s2 ->
  honest priv (s_remote s1) = true -> honest priv (s_remote s2) = true ->
  exists a1 q1 j1 wh1 body1 a2 q2 j2 wh2 body2,
    lplaced C priv W evs n ty1 b1 pt1 s1 a1 q1 j1 wh1 body1 /\ lplaced C priv W evs n ty2 b2 pt2 s2 a2 q2 j2 wh2 body2 /\
    forall E leak, llabels C priv W evs E -> lmild C W evs leak -> ~ leak (APriv (s_remote s1)) -> ~ leak (APriv (s_remote s2)) ->
    aknows (honest priv) leak (lsent_as C W evs E k1) (a_tag a1 q1 j1 (s_remote s1) (snd (w_ident (W n))) body1) ->
    aknows (honest priv) leak (lsent_as C W evs E k2) (a_tag a2 q2 j2 (s_remote s2) (snd (w_ident (W n))) body2) ->
    exists k1' n1 rid1 dev1 b1' k2' n2 rid2 dev2 b2', k1' <> k2' /\
      (k1' < k1)%nat /\ lsends C W evs k1' n1 rid1 dev1 pt1 b1' /\ snd (w_ident (W n1)) = s_remote s1 /\
      (k2' < k2)%nat /\ lsends C W evs k2' n2 rid2 dev2 pt2 b2' /\ snd (w_ident (W n2)) = s_remote s2.
Proof.
  intros C OK priv PO W evs SO KK n rid dev k1 k2 ty1 b1 pt1 s1 ty2 b2 pt2 s2 Hlt HQ H1 H2.
  apply (both C OK priv PO W evs SO KK n k1 k2), (ltwo_places C OK priv PO W evs SO KK n rid dev k1 k2); assumption.
Qed.
Print Assumptions C203_ever.

(* The same without one-time prekeys, while no session with the device is deleted. *)
Theorem C203_undisturbed : forall C, crypto_ok C -> forall priv, (forall k x, priv k = Some x -> basepub C x = k) ->
  forall W evs, start_ok C priv W -> (forall n x, In (n, x) evs -> lknown C priv x) ->
  forall n rid dev k0 k1 k2 ty1 b1 pt1 s1 ty2 b2 pt2 s2, (k0 <= k1 < k2)%nat -> undisturbed C W evs n rid dev k0 k2 ->
  ltakes C W evs k1 n rid dev ty1 b1 pt1 s1 -> ltakes C W evs k2 n rid dev ty2 b2 pt2 s2 ->
  honest priv (s_remote s1) = true -> honest priv (s_remote s2) = true ->
  exists a1 q1 j1 wh1 body1 a2 q2 j2 wh2 body2,
    lplaced C priv W evs n ty1 b1 pt1 s1 a1 q1 j1 wh1 body1 /\ lplaced C priv W evs n ty2 b2 pt2 s2 a2 q2 j2 wh2 body2 /\
    forall E leak, llabels C priv W evs E -> lmild C W evs leak -> ~ leak (APriv (s_remote s1)) -> ~ leak (APriv (s_remote s2)) ->
    aknows (honest priv) leak (lsent_as C W evs E k1) (a_tag a1 q1 j1 (s_remote s1) (snd (w_ident (W n))) body1) ->
    aknows (honest priv) leak (lsent_as C W evs E k2) (a_tag a2 q2 j2 (s_remote s2) (snd (w_ident (W n))) body2) ->
    exists k1' n1 rid1 dev1 b1' k2' n2 rid2 dev2 b2', k1' <> k2' /\
      (k1' < k1)%nat /\ lsends C W evs k1' n1 rid1 dev1 pt1 b1' /\ snd (w_ident (W n1)) = s_remote s1 /\
      (k2' < k2)%nat /\ lsends C W evs k2' n2 rid2 dev2 pt2 b2' /\ snd (w_ident (W n2)) = s_remote s2.
Proof.
  intros C OK priv PO W evs SO KK n rid dev k0 k1 k2 ty1 b1 pt1 s1 ty2 b2 pt2 s2 Hlt HQ H1 H2.
  apply (both C OK priv PO W evs SO KK n k1 k2), (und_two C OK priv PO W evs SO KK n rid dev k0 k1 k2); assumption.
Qed.
Print Assumptions C203_undisturbed.

(* There are labels for every life. *)
Theorem C203_labels : forall C, crypto_ok C -> forall priv, (forall k x, priv k = Some x -> basepub C x = k) ->
  forall W evs, start_ok C priv W -> (forall n x, In (n, x) evs -> lknown C priv x) ->
  exists E, llabels C priv W evs E.
Proof.
  intros C OK priv PO W evs SO KK.
  assert (G : forall K, exists E, forall k n rid dev pt b, (k < K)%nat -> lsends C W evs k n rid dev pt b ->
    describes C priv (lbase C evs) (lsigned W evs) (lbefore C W evs k n) rid dev pt b (E k)).
  { induction K as [|K (E & IH)]; [exists (fun _ => mkEm (mkAg [] [] [] [] None) [] 0 [] [] [] []); intros; lia|].
    assert (D : (exists n rid dev pt b, lsends C W evs K n rid dev pt b) \/ forall n rid dev pt b, ~ lsends C W evs K n rid dev pt b).
    { destruct (nth_error evs K) as [[n x]|] eqn:Hk; [|right; intros ? ? ? ? ? [H _]; pose proof (eq_trans (eq_sym Hk) H) as X; discriminate X].
      destruct x as [e| | | | |]; try (right; intros ? ? ? ? ? [H _]; pose proof (eq_trans (eq_sym Hk) H) as X; discriminate X).
      destruct e as [[rid dev pt|x1 x2 x3 x4 x5|x1 x2 x3 x4 x5]|c k]; try (right; intros ? ? ? ? ? [H _]; pose proof (eq_trans (eq_sym Hk) H) as X; discriminate X).
      destruct (SessionEncryptMessage C (lbefore C W evs K n) rid dev pt) as [[[b ty]| |] l] eqn:HS.
      - left. exists n, rid, dev, pt, b. split; [exact Hk|eauto].
      - right. intros ? ? ? ? ? [H (ty & l' & H')]. pose proof (eq_trans (eq_sym Hk) H) as X. injection X as <- <- <- <-. congruence.
      - right. intros ? ? ? ? ? [H (ty & l' & H')]. pose proof (eq_trans (eq_sym Hk) H) as X. injection X as <- <- <- <-. congruence. }
    destruct D as [(n & rid & dev & pt & b & HS)|D].
    - destruct (C200_sent C OK priv PO W evs SO KK _ _ _ _ _ _ HS) as (e & HD).
      exists (fun k => if Nat.eqb k K then e else E k). intros k n' rid' dev' pt' b' Hlt HS'.
      destruct (Nat.eqb_spec k K) as [->|Hne]; [|apply IH; [lia|exact HS']].
      destruct HS as [Hk (ty & l & HS)], HS' as [Hk' (ty' & l' & HS')]. rewrite Hk in Hk'. injection Hk' as <- <- <- <-.
      rewrite HS in HS'. injection HS' as <- _ _. exact HD.
    - exists E. intros k n rid dev pt b Hlt HS. destruct (Nat.eq_dec k K) as [->|Hne]; [now apply D in HS|apply IH; [lia|exact HS]]. }
  destruct (G (length evs)) as (E & HE). exists E. intros k n rid dev pt b HS. apply HE; [|exact HS].
  destruct HS as [Hk _]. apply nth_error_Some. intros X. pose proof (eq_trans (eq_sym X) Hk) as Y. discriminate Y.
Qed.
Print Assumptions C203_labels.

(* ------------------------------------------------------------------------------------------ *)
(* examples *)
(* A begins a session with B's one-time prekey 5 and sends [1; 2]. B takes it, deletes its sessions with A and stores
   a new one-time prekey 7. A does the same with a second session, of prekey 7. B takes [4], and refuses the first
   message when it comes again. *)
Definition new_bundle7 : bundle :=
  mkBundle 5 1 7 (Some (pub 56)) 1 (Some (pub 33)) (ex_sign (pub 22) (key_ser (pub 33))) (pub 22).
Definition ex_m7 : bytes := Eval vm_compute in
  match history toy (ex_W 0%nat) [Done (CBuild nb 1 new_bundle7 (rb 79) (rb 89)); Done (CEnc nb 1 [4])] with
  | (_, x :: _) => se_bytes x | _ => [] end.
Definition ex_two : list levent :=
  [(0%nat, LCall (Done (CBuild nb 1 (ex_bundle 22 33 5 (Some (pub 55))) (rb 77) (rb 88))));
   (0%nat, LCall (Done (CEnc nb 1 [1; 2])));
   (1%nat, LCall (Done (CRecv na 1 PREKEY_BUNDLE ex_m1 (ex_rnd 101))));
   (1%nat, LEndAll na); (1%nat, LPreKey 7 (ex_kp 56)); (0%nat, LEnd nb 1);
   (0%nat, LCall (Done (CBuild nb 1 new_bundle7 (rb 79) (rb 89))));
   (0%nat, LCall (Done (CEnc nb 1 [4])));
   (1%nat, LCall (Done (CRecv na 1 PREKEY_BUNDLE ex_m7 (ex_rnd 102))));
   (1%nat, LCall (Done (CRecv na 1 PREKEY_BUNDLE ex_m1 (ex_rnd 103))))].
Definition two_keys : list Z := [11; 22; 23; 33; 34; 35; 55; 66; 77; 88; 79; 89; 101; 102; 103; 56].
Definition one_timeb (w : world) (c : call) : bool :=
  match c with
  | CRecv rid dev PREKEY_BUNDLE b rnd => match LoadPreKeyWhisperMessage b with
      | Ok pm => negb (pk_pkid pm =? 0) && negb (pk_pkid pm =? 16777215) | _ => true end
  | _ => true
  end.
Lemma one_timeb_ok w c : one_timeb w c = true -> one_time w c.
Proof.
  destruct c as [| r d [] b rnd|]; cbn [one_timeb one_time]; try (intros; exact Logic.I).
  intros H pm EP _. rewrite EP in H. apply andb_true_iff in H. destruct H as [H1 H2]. apply negb_true_iff, Z.eqb_neq in H1, H2. now split.
Qed.
Lemma ex_pre i id kp : (i <= 4)%nat -> w_pre (lbefore toy ex_W ex_two i 1%nat) id = Some kp -> kp = ex_kp 55 \/ kp = ex_kp 66.
Proof.
  induction i as [|i IH]; intros L H.
  - unfold lbefore in H. cbn [firstn lnrun fold_left ex_W ex_worldB w_pre] in H.
    destruct (id =? 5); [left; congruence|]. destruct (id =? 6); [right; congruence|discriminate H].
  - destruct i as [|[|[|[|i]]]]; [revert H..|exfalso; lia].
    + rewrite (lbefore_other toy ex_W ex_two 0 1 0 _ eq_refl) by lia. apply IH. lia.
    + rewrite (lbefore_other toy ex_W ex_two 1 1 0 _ eq_refl) by lia. apply IH. lia.
    + rewrite (lbefore_S toy ex_W ex_two 2 1 _ eq_refl). cbn [lstep]. intros H. apply estep_pre_some in H. revert H. apply IH. lia.
    + rewrite (lbefore_S toy ex_W ex_two 3 1 _ eq_refl). cbn [lstep end_all w_pre]. apply IH. lia.
Qed.
Example C203_example : start_ok toy (priv_of two_keys) ex_W /\
  (forall n x, In (n, x) ex_two -> lknown toy (priv_of two_keys) x) /\ lasting toy ex_W ex_two 1%nat na 1 8 /\
  lsends toy ex_W ex_two 1 0%nat nb 1 [1; 2] ex_m1 /\ lsends toy ex_W ex_two 7 0%nat nb 1 [4] ex_m7 /\
  (exists s, ltakes toy ex_W ex_two 2 1%nat na 1 PREKEY_BUNDLE ex_m1 [1; 2] s /\ s_remote s = pub 11) /\
  (exists s, ltakes toy ex_W ex_two 8 1%nat na 1 PREKEY_BUNDLE ex_m7 [4] s /\ s_remote s = pub 11) /\
  undisturbed toy ex_W ex_two 1%nat na 1 4 8 /\
  honest (priv_of two_keys) (pub 11) = true /\ lmild toy ex_W ex_two (fun _ => False) /\
  (forall pt s, ~ ltakes toy ex_W ex_two 9 1%nat na 1 PREKEY_BUNDLE ex_m1 pt s).
Proof.
  split; [apply ex_start; vm_compute; reflexivity|]. split; [unfold ex_two; life_known|]. split.
  { split.
    - intros i1 i2 p1 p2. cbn [ex_W ex_worldB w_pre].
      destruct (Z.eqb_spec i1 5) as [->|]; [|destruct (Z.eqb_spec i1 6) as [->|]; [|intros X; discriminate X]];
      (destruct (Z.eqb_spec i2 5) as [->|]; [|destruct (Z.eqb_spec i2 6) as [->|]; [|intros _ X; discriminate X]]);
      try (intros; reflexivity); intros H1 H2 H; exfalso.
      + apply (pub_ne 55 66); [vm_compute; reflexivity|]. unfold pub. congruence.
      + apply (pub_ne 66 55); [vm_compute; reflexivity|]. unfold pub. congruence.
    - intros i x Hi Hk. destruct i as [|[|[|[|[|[|[|[|[|i]]]]]]]]]; [..|exfalso; lia]; cbn [nth_error ex_two] in Hk; try discriminate Hk; injection Hk as <-.
      + intros _. cbn [ecall]. split; [apply openedb_ok; vm_compute; reflexivity|]. split; [apply one_timeb_ok; vm_compute; reflexivity|exact Logic.I].
      + exact Logic.I.
      + intros (i' & id & kp & Hi' & Hp & Hs). apply ex_pre in Hp; [|exact Hi']. destruct Hp as [-> | ->].
        * apply (pub_ne 55 56) in Hs; [exact Hs|vm_compute; reflexivity].
        * apply (pub_ne 66 56) in Hs; [exact Hs|vm_compute; reflexivity].
      + intros _. cbn [ecall]. split; [apply openedb_ok; vm_compute; reflexivity|]. split; [apply one_timeb_ok; vm_compute; reflexivity|exact Logic.I]. }
  split; [split; [reflexivity|do 2 eexists; vm_compute; reflexivity]|]. split; [split; [reflexivity|do 2 eexists; vm_compute; reflexivity]|].
  split; [apply (ltaken_with_ok _ _ _ _ _ _ _ _ (ex_rnd 101)); [reflexivity|vm_compute; reflexivity]|].
  split; [apply (ltaken_with_ok _ _ _ _ _ _ _ _ (ex_rnd 102)); [reflexivity|vm_compute; reflexivity]|].
  split.
  { split; [vm_compute; reflexivity|]. intros i x Hi Hk.
    destruct i as [|[|[|[|[|[|[|[|[|i]]]]]]]]]; try (exfalso; lia); cbn [nth_error ex_two] in Hk; try discriminate Hk; injection Hk as <-.
    - split; [apply shortb_ok; vm_compute; reflexivity|exact Logic.I].
    - split; [apply shortb_ok; vm_compute; reflexivity|]. intros _. cbn [ecall]. split; [apply openedb_ok; vm_compute; reflexivity|exact Logic.I]. }
  split; [vm_compute; reflexivity|]. split; [split; [intros t []|split; intros k _ []]|].
  intros pt s (rnd & l & ps & Hk & HR & _). assert (ER : rnd = ex_rnd 103) by (cbn [nth_error ex_two] in Hk; now injection Hk). subst rnd.
  assert (X : match fst (receive toy (lbefore toy ex_W ex_two 9 1%nat) na 1 PREKEY_BUNDLE ex_m1 (ex_rnd 103)) with Ok _ => true | _ => false end = false)
    by (vm_compute; reflexivity).
  rewrite HR in X. discriminate X.
Qed.
