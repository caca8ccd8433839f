(* How often a text that was sent is taken when archived sessions accept messages too: property C191. *)
From Coq Require Import ZArith List Lia Bool.
From Verif Require Import Bytes Res Wire Crypto Cbc CbcProofs Messages MessagesProofs Session SessionProofs SessionFacts Builder
  History HistoryProofs Active ActiveLink Examples Conversation Injective Accounts PropActive PropHistory PropInjective.
Import ListNotations.
Open Scope Z_scope.

(* What is required of the events of client n before event k: the record of (rid, dev) has room (of 41
   sessions the oldest is forgotten), and base keys are drawn that are not in use. *)
Definition calm C (W : nat -> world) (evs : list nevent) (n : nat) (rid : bytes) (dev : Z) (k : nat) : Prop :=
  forall i e, (i < k)%nat -> nth_error evs i = Some (n, e) ->
    roomy (before C W evs i n) rid dev /\ (peer_of (ecall e) = (rid, dev) -> fresh_base C (before C W evs i n) (ecall e)).
(* in event i client n takes a message of (rid, dev) with an archived session *)
Definition late_at C (W : nat -> world) (evs : list nevent) (n : nat) (rid : bytes) (dev : Z) (i : nat) : bool :=
  match nth_error evs i with
  | Some (m, e) => Nat.eqb m n && late_for C (before C W evs i n) rid dev (ecall e)
  | None => false
  end.
(* What is counted: events in which client n takes a message of (rid, dev) that the newest session does not open. *)
Theorem C191_counted : forall C W evs n rid dev i, late_at C W evs n rid dev i = true ->
  exists e ty b rnd pt m r, nth_error evs i = Some (n, e) /\ ecall e = CRecv rid dev ty b rnd /\
    fst (receive C (before C W evs i n) rid dev ty b rnd) = Ok pt /\
    reads C (before C W evs i n) rid dev ty b = Some (m, r) /\ is_ok (fst (ss_decrypt C (r_cur r) m (rnd 0%nat))) = false.
Proof.
  intros C W evs n rid dev i. unfold late_at. destruct (nth_error evs i) as [(m0, e)|] eqn:N; [|discriminate]. intros H.
  apply andb_prop in H. destruct H as [E H]. apply Nat.eqb_eq in E. subst m0. unfold late_for in H. apply andb_prop in H. destruct H as [H L].
  apply andb_prop in H. destruct H as [H1 H2]. apply beq_eq in H1. apply Z.eqb_eq in H2. exists e. unfold late in L.
  destruct (ecall e) as [r0 d0 pt0|r0 d0 ty b rnd|r0 d0 bu x y]; [discriminate| |discriminate]. cbn [peer_of fst snd] in H1, H2. subst r0 d0.
  destruct (reads C (before C W evs i n) rid dev ty b) as [(m, r)|] eqn:R; [|discriminate]. apply andb_prop in L. destruct L as [L1 L2].
  destruct (fst (receive C (before C W evs i n) rid dev ty b rnd)) as [pt|x|] eqn:Q; [|discriminate|discriminate].
  exists ty, b, rnd, pt, m, r. split; [reflexivity|]. split; [reflexivity|]. split; [exact Q|]. split; [exact R|]. now apply negb_true_iff.
Qed.
Print Assumptions C191_counted.
(* the number of such events before event k, without those that f picks *)
Definition others C W evs n rid dev (k : nat) (f : nat -> bool) : nat :=
  length (filter (fun i => late_at C W evs n rid dev i && negb (f i)) (seq 0 k)).
Definition among (ks : list nat) (i : nat) : bool := existsb (Nat.eqb i) ks.
(* in event i client n takes a text of (rid, dev) *)
Definition taker C W evs n rid dev (i : nat) : Prop := exists ty b pt s, takes C W evs i n rid dev ty b pt s.
(* the inner message and its part before the tag *)
Definition inner (ty : mtype) (b : bytes) : bytes := match whisper_of ty b with Some wh => wh | None => [] end.
Definition untagged (ty : mtype) (b : bytes) : bytes := firstn (length (inner ty b) - 8) (inner ty b).

Lemma others_S C W evs n rid dev k f : others C W evs n rid dev (S k) f =
  (others C W evs n rid dev k f + if late_at C W evs n rid dev k && negb (f k) then 1 else 0)%nat.
Proof.
  unfold others. rewrite seq_S, filter_app, app_length. cbn [filter plus]. destruct (late_at C W evs n rid dev k && negb (f k)); reflexivity.
Qed.
Lemma others_le C W evs n rid dev f g : forall k, (forall i, (i < k)%nat -> g i = true -> f i = true) ->
  (others C W evs n rid dev k f <= others C W evs n rid dev k g)%nat.
Proof.
  induction k as [|k IH]; intros H; [cbn; lia|]. rewrite !others_S. assert (X := H k (le_n _)).
  assert (Y : (others C W evs n rid dev k f <= others C W evs n rid dev k g)%nat) by (apply IH; intros i Hi; apply H; lia).
  destruct (late_at C W evs n rid dev k), (f k), (g k); cbn [andb negb]; try lia.
Qed.
Lemma among_In ks i : among ks i = true <-> In i ks.
Proof.
  unfold among. rewrite existsb_exists. split; [intros (x & H & E); apply Nat.eqb_eq in E; now subst|intros H; exists i; split; [exact H|apply Nat.eqb_refl]].
Qed.
Lemma count_places (f : nat -> aterm) (t : aterm) : forall K ks, NoDup ks -> (forall i, In i ks -> In i K /\ f i = t) ->
  (length ks <= count_occ aterm_eq_dec (map f K) t)%nat.
Proof.
  induction K as [|x K IH]; intros ks ND H.
  - destruct ks as [|i ks]; [cbn; lia|]. destruct (H i (or_introl eq_refl)) as [[] _].
  - cbn [map count_occ]. destruct (in_dec Nat.eq_dec x ks) as [Hi|Hn].
    + destruct (in_split _ _ Hi) as (l1 & l2 & ->). destruct (H x Hi) as [_ E].
      destruct (aterm_eq_dec (f x) t) as [_|N]; [|contradiction]. rewrite app_length. cbn [length].
      apply NoDup_remove in ND. destruct ND as [ND NI].
      assert (X : (length (l1 ++ l2) <= count_occ aterm_eq_dec (map f K) t)%nat); [|rewrite app_length in X; lia].
      apply IH; [exact ND|]. intros i Hin. destruct (H i) as [[<-|HK] Hf].
      * apply in_app_or in Hin. apply in_or_app. cbn [In]. tauto.
      * now apply NI in Hin.
      * auto.
    + assert (X : (length ks <= count_occ aterm_eq_dec (map f K) t)%nat).
      { apply IH; [exact ND|]. intros i Hin. destruct (H i Hin) as [[<-|HK] Hf]; [contradiction|auto]. }
      destruct (aterm_eq_dec (f x) t); lia.
Qed.

Section Proofs.
Variable C : crypto.
Hypothesis OK : crypto_ok C.
Variable priv : bytes -> option bytes.
Hypothesis priv_ok : forall k x, priv k = Some x -> basepub C x = k.
Variable W : nat -> world.
Variable evs : list nevent.
Hypothesis SO : start_ok C priv W.
Hypothesis KK : forall n e, In (n, e) evs -> known_keys C priv e.
Notation bases := (base_key C evs).
Notation signeds := (signed_key W).
Notation placed := (placed C priv W evs).
Notation accounts := (accounts C priv bases signeds).

Lemma takes_same i n rid dev ty b pt s ty' b' pt' s' : takes C W evs i n rid dev ty b pt s -> takes C W evs i n rid dev ty' b' pt' s' ->
  ty' = ty /\ b' = b /\ pt' = pt /\ s' = s.
Proof.
  intros (rnd & l & ps & H1 & H2 & H3) (rnd' & l' & ps' & H1' & H2' & H3'). rewrite H1 in H1'. injection H1' as <- <- <-.
  rewrite H2 in H2'. injection H2' as <- <-. rewrite H3 in H3'. injection H3' as <- _. auto.
Qed.
Definition at_place (A : nat -> agreement) (Q : nat -> list bytes) (J : nat -> nat) (K : list nat) (t : aterm) (i : nat) : bool :=
  among K i && if aterm_eq_dec (a_ck (A i) (Q i) (J i)) t then true else false.
Lemma accounts_mono P P' L w rid dev : accounts P L w rid dev -> (forall t, (P t <= P' t)%nat) -> accounts P' L w rid dev.
Proof.
  intros H HP. unfold Accounts.accounts in *. destruct (w_sess w rid dev) as [[s ps]|]; [|exact H]. destruct H as (X & H1 & H2 & H3).
  exists X. split; [exact H1|]. split; [exact H2|]. intros t b0 H0. specialize (H3 t b0 H0). specialize (HP t). lia.
Qed.
Lemma run_accounts n rid dev k : calm C W evs n rid dev k ->
  exists A Q J K, accounts (fun t => others C W evs n rid dev k (at_place A Q J K t)) (map (fun i => a_ck (A i) (Q i) (J i)) K) (before C W evs k n) rid dev /\
    (forall i, (i < k)%nat -> taker C W evs n rid dev i -> In i K) /\ (forall i, In i K -> (i < k)%nat) /\
    forall i ty b pt s, (i < k)%nat -> takes C W evs i n rid dev ty b pt s ->
      placed n ty b pt s (A i) (Q i) (J i) (inner ty b) (untagged ty b).
Proof.
  induction k as [|k IH]; intros HC.
  - exists (fun _ => mkAg [] [] [] [] None), (fun _ => []), (fun _ => 0%nat), [].
    split; [|split; [intros; lia|split; [intros ? []|intros; lia]]].
    unfold Accounts.accounts, before. cbn [firstn nrun fold_left]. rewrite (so_sess _ _ _ SO). reflexivity.
  - destruct IH as (A & Q & J & K & IH1 & IH2 & IH3 & IH4); [intros i e Hi; apply HC; lia|].
    destruct (nth_error evs k) as [[m e]|] eqn:Hk.
    + destruct (Nat.eq_dec m n) as [->|N].
      * destruct (before_ok C OK priv priv_ok W evs SO KK k n) as [HN HI].
        destruct (before_ok C OK priv priv_ok W evs SO KK (S k) n) as [_ HI'].
        destruct (HC k e (le_n _) Hk) as [C1 C2]. rewrite (before_S C W evs _ _ _ Hk) in HI' |- *.
        destruct (step_accounts C OK priv priv_ok bases signeds (fun t => others C W evs n rid dev k (at_place A Q J K t)) (map (fun i => a_ck (A i) (Q i) (J i)) K)
                    (before C W evs k n) e rid dev HN IH1 C1 (own C priv priv_ok evs KK _ _ _ Hk) C2) as [T1 T2]; [congruence|].
        assert (EL : late_at C W evs n rid dev k = late_for C (before C W evs k n) rid dev (ecall e)).
        { unfold late_at. now rewrite Hk, Nat.eqb_refl. }
        assert (DEC : taker C W evs n rid dev k \/ forall ty b rnd pt l, e = Done (CRecv rid dev ty b rnd) ->
            receive C (before C W evs k n) rid dev ty b rnd <> (Ok pt, l)).
        { destruct e as [[| rid' dev' ty b rnd|]|]; try (right; intros; discriminate).
          destruct (beq rid' rid) eqn:B; [|right; intros ? ? ? ? ? E; injection E as -> _ _ _ _; rewrite beq_refl in B; discriminate B].
          apply beq_eq in B. subst rid'. destruct (Z.eq_dec dev' dev) as [->|N]; [|right; intros ? ? ? ? ? E; injection E as -> _ _ _; congruence].
          destruct (receive C (before C W evs k n) rid dev ty b rnd) as [[pt| |] l] eqn:R;
            [left|right; intros ? ? ? ? ? E; injection E as <- <- <-; rewrite R; discriminate..].
          destruct (recv_done _ _ _ _ _ _ _ _ _ R) as (_ & _ & _ & r' & _ & _ & _ & _ & HE).
          exists ty, b, pt, (r_cur r'), rnd, l, (r_prevs r'). auto. }
        destruct DEC as [(ty & b & pt & s & HT)|NR].
        -- assert (HT' := HT). destruct HT' as (rnd & l & ps & Hk' & HR & HS). rewrite Hk in Hk'. injection Hk' as ->.
           destruct (T1 ty b rnd pt l s ps eq_refl HR HS) as (a & p & q & j & wh & m & W1 & W2 & HA & HSt & F1 & F2 & F3 & F4).
           exists (fun i => if Nat.eqb i k then a else A i), (fun i => if Nat.eqb i k then q else Q i), (fun i => if Nat.eqb i k then j else J i), (k :: K).
           assert (EM : map (fun i => a_ck (if Nat.eqb i k then a else A i) (if Nat.eqb i k then q else Q i) (if Nat.eqb i k then j else J i)) (k :: K) =
              a_ck a q j :: map (fun i => a_ck (A i) (Q i) (J i)) K).
           { cbn [map]. rewrite Nat.eqb_refl. f_equal. apply map_ext_in. intros i Hi. apply IH3 in Hi. destruct (Nat.eqb_spec i k); [lia|reflexivity]. }
           rewrite EM. split.
           { apply (accounts_mono _ _ _ _ _ _ HA). intros t. rewrite others_S, EL. apply Nat.add_le_mono.
             - apply others_le. intros i Hi. unfold at_place, among. cbn [existsb]. destruct (Nat.eqb_spec i k) as [->|_]; [lia|]. exact (fun H => H).
             - unfold at_place, among. cbn [existsb]. rewrite Nat.eqb_refl. cbn [orb andb].
               destruct (late_for C (before C W evs k n) rid dev _), (aterm_eq_dec (a_ck a q j) t); cbn [andb negb]; lia. }
           split; [|split].
           ++ intros i Hi Ht. destruct (Nat.eq_dec i k) as [->|Hne]; [now left|right; apply IH2; [lia|exact Ht]].
           ++ intros i [<-|Hi]; [lia|apply IH3 in Hi; lia].
           ++ intros i ty0 b0 pt0 s0 Hi HT0. destruct (Nat.eqb_spec i k) as [->|Hne]; [|apply IH4; [lia|exact HT0]].
              destruct (takes_same _ _ _ _ _ _ _ _ _ _ _ _ HT HT0) as (-> & -> & -> & ->).
              unfold PropInjective.placed, untagged, inner. rewrite W1. split; [reflexivity|].
              rewrite HI in *. split; [now apply (mac_tag C priv wh m)|]. split; [apply HSt|]. split; [exact F2|]. split; [exact F1|]. eauto.
        -- exists A, Q, J, K. split.
           { apply (accounts_mono _ _ _ _ _ _ (T2 NR)). intros t. rewrite others_S, EL. apply Nat.add_le_mono_l.
             destruct (at_place A Q J K t k) eqn:EA; [|destruct (late_for C (before C W evs k n) rid dev _); cbn; lia].
             unfold at_place in EA. apply andb_prop in EA. destruct EA as [EA _]. apply among_In, IH3 in EA. lia. }
           split; [|split].
           ++ intros i Hi Ht. apply IH2; [|exact Ht]. destruct (Nat.eq_dec i k) as [->|Hne]; [|lia]. exfalso.
              destruct Ht as (ty & b & pt & s & rnd & l & ps & Hk' & HR & _). rewrite Hk in Hk'. injection Hk' as ->. now apply NR in HR.
           ++ intros i Hi. apply IH3 in Hi. lia.
           ++ intros i ty b pt s Hi Ht. apply IH4; [|exact Ht]. destruct (Nat.eq_dec i k) as [->|Hne]; [|lia]. exfalso.
              destruct Ht as (rnd & l & ps & Hk' & HR & _). rewrite Hk in Hk'. injection Hk' as ->. now apply NR in HR.
      * rewrite (before_other C W evs _ _ _ _ Hk N). exists A, Q, J, K.
        split; [apply (accounts_mono _ _ _ _ _ _ IH1); intros t; rewrite others_S; lia|]. split; [|split].
        -- intros i Hi Ht. apply IH2; [|exact Ht]. destruct (Nat.eq_dec i k) as [->|Hne]; [|lia]. exfalso.
           destruct Ht as (ty & b & pt & s & rnd & l & ps & Hk' & _). rewrite Hk in Hk'. congruence.
        -- intros i Hi. apply IH3 in Hi. lia.
        -- intros i ty b pt s Hi Ht. apply IH4; [|exact Ht]. destruct (Nat.eq_dec i k) as [->|Hne]; [|lia]. exfalso.
           destruct Ht as (rnd & l & ps & Hk' & _). rewrite Hk in Hk'. congruence.
    + assert (EB : before C W evs (S k) n = before C W evs k n).
      { unfold before. assert (Hk' := Hk). apply nth_error_None in Hk'. rewrite !firstn_all2 by lia. reflexivity. }
      rewrite EB. exists A, Q, J, K. split; [apply (accounts_mono _ _ _ _ _ _ IH1); intros t; rewrite others_S; lia|]. split; [|split].
      * intros i Hi Ht. apply IH2; [|exact Ht]. destruct (Nat.eq_dec i k) as [->|Hne]; [|lia]. exfalso.
        destruct Ht as (ty & b & pt & s & rnd & l & ps & Hk' & _). congruence.
      * intros i Hi. apply IH3 in Hi. lia.
      * intros i ty b pt s Hi Ht. apply IH4; [|exact Ht]. destruct (Nat.eq_dec i k) as [->|Hne]; [|lia]. exfalso.
        destruct Ht as (rnd & l & ps & Hk' & _). congruence.
Qed.
End Proofs.

(* ------------------------------------------------------------------------------------------ *)
(* C191. Whichever sessions accept what the network presents: no place of a session is taken more often
   than once and once more for each other message that an archived session accepted. *)
Theorem C191_bound : forall C, crypto_ok C -> forall priv, (forall k x, priv k = Some x -> basepub C x = k) ->
  forall W evs, start_ok C priv W -> (forall n e, In (n, e) evs -> known_keys C priv e) ->
  forall n rid dev k, calm C W evs n rid dev k ->
  exists A Q J,
    (forall i ty b pt s, (i < k)%nat -> takes C W evs i n rid dev ty b pt s ->
       placed C priv W evs n ty b pt s (A i) (Q i) (J i) (inner ty b) (untagged ty b)) /\
    forall t ks, NoDup ks -> (forall i, In i ks -> (i < k)%nat /\ taker C W evs n rid dev i /\ a_ck (A i) (Q i) (J i) = t) ->
      (length ks <= 1 + others C W evs n rid dev k (among ks))%nat.
Proof.
  intros C OK priv PO W evs SO KK n rid dev k HC.
  destruct (run_accounts C OK priv PO W evs SO KK n rid dev k HC) as (A & Q & J & K & H1 & H2 & H3 & H4).
  exists A, Q, J. split; [exact H4|]. intros t ks ND HI.
  pose proof (count_places (fun i => a_ck (A i) (Q i) (J i)) t K ks ND) as X.
  pose proof (accounts_bound C priv (base_key C evs) (signed_key W) _ _ _ _ _ t H1) as Y.
  assert (Z : (others C W evs n rid dev k (at_place A Q J K t) <= others C W evs n rid dev k (among ks))%nat).
  { apply others_le. intros i Hi Ha. apply among_In in Ha. destruct (HI i Ha) as (B1 & B2 & B3). unfold at_place.
    rewrite (proj2 (among_In K i)) by auto. rewrite B3. destruct (aterm_eq_dec t t); [reflexivity|contradiction]. }
  enough ((length ks <= count_occ aterm_eq_dec (map (fun i => a_ck (A i) (Q i) (J i)) K) t)%nat) by lia.
  apply X. intros i Hi. destruct (HI i Hi) as (B1 & B2 & B3). auto.
Qed.
Print Assumptions C191_bound.

(* With losses as in C185: every text that a client takes was sent, and each sending is behind no more of
   them than one and one more for each other message that an archived session accepted. *)
Theorem C191_copies : forall C, crypto_ok C -> forall priv, (forall k x, priv k = Some x -> basepub C x = k) ->
  forall W evs, start_ok C priv W -> (forall n e, In (n, e) evs -> known_keys C priv e) ->
  forall n rid dev k, calm C W evs n rid dev k ->
  exists A Q J,
    (forall i ty b pt s, (i < k)%nat -> takes C W evs i n rid dev ty b pt s ->
       placed C priv W evs n ty b pt s (A i) (Q i) (J i) (inner ty b) (untagged ty b)) /\
    forall E leak, labels C priv W evs E -> mild C W evs leak ->
    (forall i ty b pt s, (i < k)%nat -> takes C W evs i n rid dev ty b pt s ->
       honest priv (s_remote s) = true /\ ~ leak (APriv (s_remote s)) /\
       aknows (honest priv) leak (sent_as C W evs E i) (a_tag (A i) (Q i) (J i) (s_remote s) (snd (w_ident (W n))) (untagged ty b))) ->
    exists orig : nat -> nat,
      (forall i ty b pt s, (i < k)%nat -> takes C W evs i n rid dev ty b pt s -> (orig i < i)%nat /\
         exists n' rid' dev' b', sends C W evs (orig i) n' rid' dev' pt b' /\ carries b' (inner ty b) /\ snd (w_ident (W n')) = s_remote s) /\
      forall k0 ks, NoDup ks -> (forall i, In i ks -> (i < k)%nat /\ taker C W evs n rid dev i /\ orig i = k0) ->
        (length ks <= 1 + others C W evs n rid dev k (among ks))%nat.
Proof.
  intros C OK priv PO W evs SO KK n rid dev k HC.
  destruct (C191_bound C OK priv PO W evs SO KK n rid dev k HC) as (A & Q & J & HP & HB).
  exists A, Q, J. split; [exact HP|]. intros E leak HE HM HK.
  assert (G : forall K, (K <= k)%nat -> exists orig : nat -> nat, forall i ty b pt s, (i < K)%nat -> takes C W evs i n rid dev ty b pt s ->
     (orig i < i)%nat /\ a_ck (em_ag (E (orig i))) (em_path (E (orig i))) (em_idx (E (orig i))) = a_ck (A i) (Q i) (J i) /\
         exists n' rid' dev' b', sends C W evs (orig i) n' rid' dev' pt b' /\ carries b' (inner ty b) /\ snd (w_ident (W n')) = s_remote s).
  { induction K as [|K IH]; intros HL; [exists (fun i => i); intros; lia|]. destruct IH as (orig & IH); [lia|].
    assert (D : (exists ty b pt s, takes C W evs K n rid dev ty b pt s) \/ forall ty b pt s, ~ takes C W evs K n rid dev ty b pt s).
    { destruct (nth_error evs K) as [[m e]|] eqn:Hk; [|right; intros ? ? ? ? (rnd & l & ps & H & _); pose proof (eq_trans (eq_sym Hk) H) as X; discriminate X].
      destruct (Nat.eq_dec m n) as [->|N]; [|right; intros ? ? ? ? (rnd & l & ps & H & _); pose proof (eq_trans (eq_sym Hk) H) as X; congruence].
      destruct e as [[x1 x2 x3|rid' dev' ty b rnd|x1 x2 x3 x4 x5]|c j]; try (right; intros ? ? ? ? (rnd' & l & ps & H & _); pose proof (eq_trans (eq_sym Hk) H) as X; discriminate X).
      destruct (beq rid' rid) eqn:B; [|right; intros ? ? ? ? (rnd' & l & ps & H & _); pose proof (eq_trans (eq_sym Hk) H) as X; injection X as -> _ _ _ _; rewrite beq_refl in B; discriminate B].
      apply beq_eq in B. subst rid'.
      destruct (Z.eq_dec dev' dev) as [->|N]; [|right; intros ? ? ? ? (rnd' & l & ps & H & _); pose proof (eq_trans (eq_sym Hk) H) as X; injection X as -> _ _ _; congruence].
      destruct (receive C (before C W evs K n) rid dev ty b rnd) as [[pt| |] l] eqn:R.
      - left. destruct (recv_done _ _ _ _ _ _ _ _ _ R) as (_ & _ & _ & r' & _ & _ & _ & _ & HX).
        exists ty, b, pt, (r_cur r'), rnd, l, (r_prevs r'). auto.
      - right. intros ? ? ? ? (rnd' & l' & ps & H & HR & _). pose proof (eq_trans (eq_sym Hk) H) as X. injection X as <- <- <-. congruence.
      - right. intros ? ? ? ? (rnd' & l' & ps & H & HR & _). pose proof (eq_trans (eq_sym Hk) H) as X. injection X as <- <- <-. congruence. }
    destruct D as [(ty & b & pt & s & HT)|D].
    - destruct (HK K ty b pt s HL HT) as (K1 & K2 & K3). assert (P := HP K ty b pt s HL HT).
      destruct (origin C OK priv PO W evs SO KK _ _ _ _ _ _ _ _ _ _ _ _ _ P HE K3) as [B|(k' & n' & rid' & dev' & b' & A1 & A2 & A3 & A4 & A5)].
      + exfalso. apply only_mk in B; [|exact (proj1 HM)]. revert B.
        exact (mild_role C priv W evs leak _ _ _ SO KK HM K1 K2 (proj1 (proj2 (proj2 P)))).
      + exists (fun i => if Nat.eqb i K then k' else orig i). intros i ty0 b0 pt0 s0 Hi HT0.
        destruct (Nat.eqb_spec i K) as [->|Hne]; [|apply IH; [lia|exact HT0]].
        destruct (takes_same C W evs _ _ _ _ _ _ _ _ _ _ _ _ HT HT0) as (-> & -> & -> & ->).
        split; [exact A1|]. split; [exact A5|]. exists n', rid', dev', b'. auto.
    - exists orig. intros i ty b pt s Hi HT. destruct (Nat.eq_dec i K) as [->|Hne]; [now apply D in HT|apply IH; [lia|exact HT]]. }
  destruct (G k (le_n k)) as (orig & HO). exists orig. split.
  - intros i ty b pt s Hi HT. destruct (HO i ty b pt s Hi HT) as (H1 & _ & H2). auto.
  - intros k0 ks ND HI. apply (HB (a_ck (em_ag (E k0)) (em_path (E k0)) (em_idx (E k0))) ks ND). intros i Hi.
    destruct (HI i Hi) as (B1 & B2 & <-). split; [exact B1|]. split; [exact B2|]. destruct B2 as (ty & b & pt & s & HT).
    destruct (HO i ty b pt s B1 HT) as (_ & H2 & _). symmetry. exact H2.
Qed.
Print Assumptions C191_copies.

(* Example, and the bound is reached: in the run of C191_twice_refuted one other message is taken by an
   archived session, and the text [3], sent once, is taken in the events 9 and 10. *)
Lemma roomy_dec w rid dev : match w_sess w rid dev with Some (_, ps) => Nat.ltb (length ps) 39 | None => true end = true -> roomy w rid dev.
Proof. intros H s ps E. rewrite E in H. now apply Nat.ltb_lt. Qed.
Example C191_bound_example :
  calm toy ex_W evs2 1%nat na 1 11 /\ others toy ex_W evs2 1%nat na 1 11 (among [9%nat; 10%nat]) = 1%nat /\
  taker toy ex_W evs2 1%nat na 1 9 /\ taker toy ex_W evs2 1%nat na 1 10 /\
  (exists s, takes toy ex_W evs2 9 1%nat na 1 PREKEY_BUNDLE m2 [3] s) /\ exists s, takes toy ex_W evs2 10 1%nat na 1 PREKEY_BUNDLE m2 [3] s.
Proof.
  assert (T9 : exists s, takes toy ex_W evs2 9 1%nat na 1 PREKEY_BUNDLE m2 [3] s /\ s_remote s = pub 11)
    by (apply (taken_with_ok ex_W evs2 9 1%nat na 1 PREKEY_BUNDLE m2 (ex_rnd 104) [3] (pub 11)); [reflexivity|vm_compute; reflexivity]).
  assert (T10 : exists s, takes toy ex_W evs2 10 1%nat na 1 PREKEY_BUNDLE m2 [3] s /\ s_remote s = pub 11)
    by (apply (taken_with_ok ex_W evs2 10 1%nat na 1 PREKEY_BUNDLE m2 (ex_rnd 105) [3] (pub 11)); [reflexivity|vm_compute; reflexivity]).
  destruct T9 as (s9 & T9 & _), T10 as (s10 & T10 & _).
  split.
  { intros i e Hi Hk. assert (FB : fresh_base toy (before toy ex_W evs2 i 1%nat) (ecall e)).
    { assert (X : match nth_error evs2 i with Some (1%nat, e) => match ecall e with CBuild _ _ _ _ _ => False | _ => True end | _ => True end).
      { clear. do 11 (destruct i as [|i]; [cbn [nth_error evs2 ecall]; exact Logic.I|]). destruct i; exact Logic.I. }
      rewrite Hk in X. destruct (ecall e); [exact Logic.I|exact Logic.I|destruct X]. }
    split; [|intros _; exact FB]. clear Hk FB. apply roomy_dec.
    do 11 (destruct i as [|i]; [vm_compute; reflexivity|]). lia. }
  split; [vm_compute; reflexivity|]. split; [exists PREKEY_BUNDLE, m2, [3], s9; exact T9|].
  split; [exists PREKEY_BUNDLE, m2, [3], s10; exact T10|]. eauto.
Qed.
