(* A message is shown no more often than it was encrypted, over whole runs of applications: property C204. *)
From Coq Require Import ZArith List Lia Bool.
From Verif Require Import Bytes Res Wire Crypto Cbc CbcProofs Messages MessagesProofs Session SessionProofs SessionFacts Builder
  History HistoryProofs Active ActiveLink Content ContentProofs Encodings Sending SendingProofs Receiving Injective PropActive PropSending
  PropRelabel PropReceiving Examples Conversation PropHistory PropReceive PropInjective Lifetime PropLifetime PropPosted Applications PropApplications
  Fresh PropFresh.
Import ListNotations.
Open Scope Z_scope.

(* step i of the whole run belongs to event k of the applications *)
Definition step_of C R us (evs : list levent) (k i : nat) : Prop :=
  exists a b, plays C R (firstn k us) (firstn a evs) /\ plays C R (firstn (S k) us) (firstn b evs) /\ (a <= i < b)%nat.
(* the message m was encrypted in step i, which belongs to event k' before k: the application of the owner of id asked for it *)
Definition encrypted_at C (R : nat -> rstate) us (evs : list levent) (ou : outside) (m : message) (k : nat) (id : bytes) (i : nat) : Prop :=
  exists k' n' u pk now o rid dev pt b, (k' < k)%nat /\ nth_error us k' = Some (n', u) /\ snd (w_ident (rs_w (R n'))) = id /\
    asked u = Some (pk, now, o) /\ says C ou pk now o m /\ step_of C R us evs k' i /\
    lsends C (fun i => rs_w (R i)) evs i n' rid dev pt b.
(* the envelope has a message whose last eight bytes are the tag t of the bytes before them *)
Definition tagged C priv (e : envelope) (t : bytes -> aterm) (body : bytes) : Prop :=
  exists b ty, e_content e = Some b /\ whisper_of ty b = Some (body ++ aeval C priv (t body)).

Section P.
Variable C : crypto.
Hypothesis OK : crypto_ok C.
Variable priv : bytes -> option bytes.
Hypothesis priv_ok : forall k x, priv k = Some x -> basepub C x = k.

Lemma saved_remote W evs k n rid dev ty b pt s : start_ok C priv W -> (forall n x, In (n, x) evs -> lknown C priv x) ->
  w_trust_all (W n) = false -> tidy C W evs n -> ltakes C W evs k n rid dev ty b pt s ->
  forall k', (k < k')%nat -> (forall j, (k < j < k')%nat -> nth_error evs j <> Some (n, LForget rid)) -> w_ids (lbefore C W evs k' n) rid = Some (s_remote s).
Proof.
  intros SO KK HT TD HK.
  assert (HW : well_named (W n)). { split; [exact HT|]. intros r d c ps E. rewrite (so_sess _ _ _ SO) in E. discriminate E. }
  pose proof HK as (rnd & l & ps & H1 & H2 & H3).
  assert (E1 : w_ids (lbefore C W evs (S k) n) rid = Some (s_remote s)).
  { pose proof (lnamed C W evs n TD HW (S k)) as [_ HP]. rewrite (lbefore_S C W evs _ _ _ H1) in HP |- *.
    cbn [lstep estep perform_call] in HP |- *. rewrite H2 in HP |- *. cbn [fst] in HP |- *. specialize (HP _ _ _ _ H3).
    inversion HP as [|? ? [H4|H4] _]; subst; [exfalso|exact H4].
    exact (ltakes_sender C OK priv priv_ok W evs SO KK _ _ _ _ _ _ _ _ HK H4). }
  intros k' Hk HF. replace k' with (S k + (k' - S k))%nat by lia. apply (lkept C W evs n TD HW); [exact E1|]. intros j Hj. apply HF. lia.
Qed.
Lemma plays_step R us evs : plays C R us evs -> forall j n x, nth_error evs j = Some (n, x) ->
  exists k u xs, nth_error us k = Some (n, u) /\ step_of C R us evs k j /\ turns C (ubefore C R us k n) u xs /\ In x xs.
Proof.
  induction 1 as [R|R n0 u0 us xs0 evs HT HP IH]; intros j n x Hj; [destruct j; discriminate Hj|].
  destruct (Nat.lt_ge_cases j (length xs0)) as [L|L].
  - rewrite nth_error_app1 in Hj by (now rewrite map_length). rewrite nth_error_map in Hj.
    destruct (nth_error xs0 j) as [y|] eqn:EJ; [|discriminate Hj]. cbn [option_map] in Hj. injection Hj as <- <-.
    exists 0%nat, u0, xs0. split; [reflexivity|]. split; [|split; [exact HT|now apply nth_error_In in EJ]].
    exists 0%nat, (length xs0). split; [constructor|]. split; [|lia].
    assert (FI : firstn (length xs0) (map (pair n0) xs0 ++ evs) = map (pair n0) xs0 ++ []).
    { rewrite <- (map_length (pair n0) xs0), <- (Nat.add_0_r (length (map _ xs0))), firstn_app_2. reflexivity. }
    unfold levent in *. rewrite FI. apply (plays_cons C R n0 u0 []); [exact HT|constructor].
  - rewrite nth_error_app2 in Hj by (now rewrite map_length). rewrite map_length in Hj.
    destruct (IH _ _ _ Hj) as (k & u & xs & H1 & (a & b & P1 & P2 & H2) & H3 & H4).
    exists (S k), u, xs. split; [exact H1|]. split; [|split; [exact H3|exact H4]].
    assert (FI : forall c, firstn (length xs0 + c) (map (pair n0) xs0 ++ evs) = map (pair n0) xs0 ++ firstn c evs).
    { intros c. unfold levent in *. rewrite <- (map_length (pair n0) xs0), firstn_app_2. reflexivity. }
    exists (length xs0 + a)%nat, (length xs0 + b)%nat. unfold levent in *. rewrite !FI. cbn [firstn]. split; [now apply (plays_cons C R n0 u0 (firstn k us))|]. split; [now apply (plays_cons C R n0 u0 (firstn (S k) us))|lia].
Qed.
(* what an encryption of the run was asked for *)
Lemma asked_for (R : nat -> rstate) us evs ou e m k j i n' rid dev pt b : (forall n u, In (n, u) us -> uknown C priv u) -> plays C R us evs ->
  plays C R (firstn k us) (firstn j evs) -> (i < j)%nat -> (j <= length evs)%nat ->
  lsends C (fun i => rs_w (R i)) evs i n' rid dev pt b -> In (ACall (HMessage m)) (snd (deliver C ou e pt)) ->
  encrypted_at C R us evs ou m k (snd (w_ident (rs_w (R n')))) i.
Proof.
  intros KU HP HP1 Hi Hj HS HD. pose proof HS as [Hk _].
  assert (Hk1 : nth_error (firstn j evs) i = Some (n', LCall (Done (CEnc rid dev pt)))).
  { refine (eq_trans _ Hk). rewrite <- (firstn_skipn j evs) at 2. rewrite nth_error_app1; [reflexivity|]. rewrite firstn_length. unfold levent in *. lia. }
  destruct (plays_step _ _ _ HP1 _ _ _ Hk1) as (k' & u & xs & H1 & (a & c & P1 & P2 & H2) & H3 & H4).
  assert (Lk : (k' < k)%nat).
  { assert (k' < length (firstn k us))%nat by (apply nth_error_Some; rewrite H1; discriminate). rewrite firstn_length in *. lia. }
  assert (H1' : nth_error us k' = Some (n', u)).
  { assert (k' < length (firstn k us))%nat by (apply nth_error_Some; rewrite H1; discriminate).
    rewrite <- (firstn_skipn k us), nth_error_app1 by assumption. exact H1. }
  assert (X : exists uuid, In (uuid, pt) (sent_texts u) /\ recID uuid = Ok rid).
  { assert (SENT : forall rnd pts, of_sending rnd pts (LCall (Done (CEnc rid dev pt))) -> exists uuid, In (uuid, pt) pts /\ recID uuid = Ok rid).
    { intros rnd pts [(r & d & bu & q & X)|[(uuid & r & d & p & Q1 & Q2 & X)|(r & d & X)]]; [discriminate X| |discriminate X]. injection X as <- <- <-. eauto. }
    pose proof (KU _ _ (nth_error_In _ _ H1')) as HU. destruct H3 as [_ [HSp _]].
    destruct u as [x|V rnd devs q s fuel self pk now o|V rnd devs q s fuel self pk now uuid text|V rnd devs q s fuel uuid padded ts|ou' rnd rnd2 env stop];
      cbn [spelled] in HSp.
    - subst xs. destruct H4 as [->|[]]. cbn [uknown] in HU. destruct HU as [_ []].
    - rewrite Forall_forall in HSp. exact (SENT _ _ (HSp _ H4)).
    - rewrite Forall_forall in HSp. destruct (HSp _ H4) as [H|(r & X)]; [exact (SENT _ _ H)|discriminate X].
    - rewrite Forall_forall in HSp. exact (SENT _ _ (HSp _ H4)).
    - destruct HSp as [HSp _]. rewrite Forall_forall in HSp. destruct (HSp _ H4) as [(e' & r & ty & rr & st' & _ & _ & _ & _ & X)|(r & X)]; [|discriminate X].
      unfold one_call in X. destruct st'; discriminate X. }
  destruct X as (uuid & B7 & B8).
  assert (AS : exists pk now o, asked u = Some (pk, now, o) /\ uuid = o_dest o /\ says C ou pk now o m).
  { pose proof (KU _ _ (nth_error_In _ _ H1')) as HU.
    destruct u as [x|V rn devs q s fuel self pk now o|V rn devs q s fuel self pk now uu text|V rn devs q s fuel uu padded ts|ou' rn rn2 env' stop];
      cbn [sent_texts uknown asked] in *; try (destruct B7; fail).
    - exists pk, now, o. split; [reflexivity|]. destruct HU as [_ HU]. exact (text_shows C _ _ _ _ _ _ _ _ _ HU B7 HD).
    - exists pk, now, (end_out uu text). split; [reflexivity|]. destruct HU as [_ HU]. exact (text_shows C _ _ _ _ _ _ _ _ _ HU B7 HD).
    - exfalso. destruct B7 as [B7|[]]. injection B7 as <- <-. destruct HU as (_ & _ & _ & HU). unfold deliver in HD. apply message_shown in HD.
      destruct HD as [_ (c0 & HC & HD)]. destruct (HU _ HC) as [U1 U2]. destruct HD as [(d & X & _)|(_ & _ & cl & X)]; congruence. }
  destruct AS as (pk & now & o & AS & _ & SY). exists k', n', u, pk, now, o, rid, dev, pt, b.
  split; [exact Lk|]. split; [exact H1'|]. split; [reflexivity|]. split; [exact AS|]. split; [exact SY|]. split; [|exact HS].
  exists (min a j), (min c j). rewrite !firstn_firstn in P1, P2. rewrite Nat.min_l in P1 by lia. rewrite Nat.min_l in P2 by lia.
  split; [exact P1|]. split; [exact P2|lia].
Qed.
(* a reception that shows a message, in the life of the installation *)
Lemma shown_at (R : nat -> rstate) us evs : plays C R us evs -> forall k n ou rnd rnd2 e m,
  nth_error us k = Some (n, URecv ou rnd rnd2 (Some e) None) ->
  In (ACall (HMessage m)) (uacts C (ubefore C R us k n) (URecv ou rnd rnd2 (Some e) None)) -> m_source m <> [] ->
  exists j ty b pt s, (j < length evs)%nat /\ plays C R (firstn k us) (firstn j evs) /\ e_content e = Some b /\ g_bytes (e_source e) = m_source m /\
    ltakes C (fun i => rs_w (R i)) evs j n (m_source m) (g_num (e_device e)) ty b pt s /\
    In (ACall (HMessage m)) (snd (deliver C ou e pt)) /\
    exists j', (j < j')%nat /\ lbefore C (fun i => rs_w (R i)) evs j' n = rs_w (ubefore C R us (S k) n) /\
      (forall i rid, (j <= i < j')%nat -> nth_error evs i <> Some (n, LForget rid)).
Proof.
  intros HP k n ou rnd rnd2 e m Hk HM HSrc. set (W := fun i => rs_w (R i)) in *.
  destruct (plays_at C _ _ _ HP _ _ _ Hk) as (evs1 & xs & evs2 & EV & HTu & HE & HP1).
  cbn [uacts upto] in HM. destruct (shown_from C _ _ _ _ _ _ HM HSrc) as (ty & b & pt & l & EC & ETy & HR & HD).
  assert (ES : m_source m = g_bytes (e_source e)) by (unfold deliver in HD; apply message_shown in HD; apply HD).
  pose proof HTu as [HW [[HF HCd] _]]. destruct (HCd _ _ _ eq_refl EC ETy) as (rest & EX). cbn [one_call] in EX.
  destruct (recv_done C _ _ _ _ _ _ _ _ HR) as (wh0 & m0 & r1 & r' & _ & _ & _ & _ & HS).
  assert (EB : lbefore C W evs (length evs1) n = rs_w (ubefore C R us k n)).
  { unfold lbefore. rewrite EV, firstn_app, Nat.sub_diag, firstn_all. cbn [firstn]. rewrite app_nil_r. apply HE. }
  assert (TK : ltakes C W evs (length evs1) n (g_bytes (e_source e)) (g_num (e_device e)) ty b pt (r_cur r')).
  { exists rnd, l, (r_prevs r'). rewrite EB. split; [|split; [exact HR|exact HS]].
    rewrite EV, nth_error_app2, Nat.sub_diag, EX by lia. reflexivity. }
  assert (L1 : (length xs >= 1)%nat) by (rewrite EX; cbn [length]; lia).
  exists (length evs1), ty, b, pt, (r_cur r').
  split. { rewrite EV, !app_length, map_length. unfold levent in *. lia. }
  split. { rewrite EV, firstn_app, Nat.sub_diag, firstn_all. cbn [firstn]. rewrite app_nil_r. exact HP1. }
  split; [exact EC|]. split; [symmetry; exact ES|]. split; [rewrite ES; exact TK|]. split; [exact HD|].
  exists (length evs1 + length xs)%nat. split; [unfold levent in *; lia|].
  split. { rewrite EV. exact (after_chunk C R us k n _ evs1 xs evs2 Hk HTu HE). }
  intros i rid Hi. rewrite EV. eapply chunk_forget; [exact HTu|intros X; discriminate X|]. unfold levent in *. lia.
Qed.
Lemma nth_firstn {A} (l : list A) j i : (i < j)%nat -> nth_error (firstn j l) i = nth_error l i.
Proof. revert l i. induction j as [|j IH]; intros l i H; [lia|]. destruct l as [|x l]; [reflexivity|]. destruct i as [|i]; [reflexivity|]. cbn [firstn nth_error]. apply IH. lia. Qed.
Lemma lbefore_firstn W (evs : list levent) j i n : (i <= j)%nat -> lbefore C W (firstn j evs) i n = lbefore C W evs i n.
Proof. intros H. unfold lbefore. now rewrite firstn_firstn, Nat.min_l. Qed.
(* two of them *)
Lemma shown_two (R : nat -> rstate) us evs : plays C R us evs -> forall k1 k2 n ou1 rnd1 rnd1' e1 m1 ou2 rnd2 rnd2' e2 m2, (k1 < k2)%nat ->
  nth_error us k1 = Some (n, URecv ou1 rnd1 rnd1' (Some e1) None) -> nth_error us k2 = Some (n, URecv ou2 rnd2 rnd2' (Some e2) None) ->
  In (ACall (HMessage m1)) (uacts C (ubefore C R us k1 n) (URecv ou1 rnd1 rnd1' (Some e1) None)) -> m_source m1 <> [] ->
  In (ACall (HMessage m2)) (uacts C (ubefore C R us k2 n) (URecv ou2 rnd2 rnd2' (Some e2) None)) -> m_source m2 <> [] ->
  exists j1 j2 ty1 b1 pt1 s1 ty2 b2 pt2 s2, (j1 < j2 < length evs)%nat /\
    (plays C R (firstn k1 us) (firstn j1 evs) /\ e_content e1 = Some b1 /\
     ltakes C (fun i => rs_w (R i)) evs j1 n (m_source m1) (g_num (e_device e1)) ty1 b1 pt1 s1 /\ In (ACall (HMessage m1)) (snd (deliver C ou1 e1 pt1)) /\
     exists j', (j1 < j')%nat /\ lbefore C (fun i => rs_w (R i)) evs j' n = rs_w (ubefore C R us (S k1) n) /\
       (forall i rid, (j1 <= i < j')%nat -> nth_error evs i <> Some (n, LForget rid))) /\
    (plays C R (firstn k2 us) (firstn j2 evs) /\ e_content e2 = Some b2 /\
     ltakes C (fun i => rs_w (R i)) evs j2 n (m_source m2) (g_num (e_device e2)) ty2 b2 pt2 s2 /\ In (ACall (HMessage m2)) (snd (deliver C ou2 e2 pt2)) /\
     exists j', (j2 < j')%nat /\ lbefore C (fun i => rs_w (R i)) evs j' n = rs_w (ubefore C R us (S k2) n) /\
       (forall i rid, (j2 <= i < j')%nat -> nth_error evs i <> Some (n, LForget rid))).
Proof.
  intros HP k1 k2 n ou1 rnd1 rnd1' e1 m1 ou2 rnd2 rnd2' e2 m2 Hlt U1 U2 M1 N1 M2 N2.
  destruct (shown_at R us evs HP _ _ _ _ _ _ _ U2 M2 N2) as (j2 & ty2 & b2 & pt2 & s2 & L2 & P2 & C2 & _ & T2 & D2 & B2).
  assert (U1' : nth_error (firstn k2 us) k1 = Some (n, URecv ou1 rnd1 rnd1' (Some e1) None)) by (rewrite nth_firstn by lia; exact U1).
  rewrite <- (ubefore_firstn C R us k2 k1) in M1 by lia.
  destruct (shown_at R _ _ P2 _ _ _ _ _ _ _ U1' M1 N1) as (j1 & ty1 & b1 & pt1 & s1 & L1 & P1 & C1 & _ & T1 & D1 & j' & B1 & B1' & B1'').
  rewrite firstn_length in L1. rewrite !firstn_firstn, !Nat.min_l in P1 by (unfold levent in *; lia). rewrite ubefore_firstn in B1' by lia.
  exists j1, j2, ty1, b1, pt1, s1, ty2, b2, pt2, s2. split; [unfold levent in *; lia|]. split; [|split; [exact P2|auto]].
  split; [exact P1|]. split; [exact C1|]. split; [|split; [exact D1|]].
  - destruct T1 as (rnd & l & ps & X1 & X2 & X3). exists rnd, l, ps. rewrite nth_firstn in X1 by (unfold levent in *; lia).
    rewrite lbefore_firstn in X2 by (unfold levent in *; lia). rewrite lbefore_firstn in X3 by (unfold levent in *; lia). auto.
  - exists (min j' j2). split; [unfold levent in *; lia|]. split.
    + rewrite <- B1'. unfold lbefore. now rewrite firstn_firstn.
    + intros i rid Hi. specialize (B1'' i rid). rewrite nth_firstn in B1'' by lia. apply B1''. lia.
Qed.
End P.

(* ------------------------------------------------------------------------------------------ *)
(* C204. Whatever the network and the servers do: two messages that an application shows as from a device of a person
   were encrypted in two different steps, in which the application of the owner of the key saved for that person was
   asked for exactly these messages. *)
Theorem C204_counted : forall C, crypto_ok C -> forall priv, (forall k x, priv k = Some x -> basepub C x = k) ->
  forall R us, start_ok C priv (fun i => rs_w (R i)) -> (forall n u, In (n, u) us -> uknown C priv u) ->
  forall evs, plays C R us evs ->
  forall n src dev k1 k2 ou1 rnd1 rnd1' e1 m1 ou2 rnd2 rnd2' e2 m2, (k1 < k2)%nat ->
  w_trust_all (rs_w (R n)) = false -> utidy C R us n -> lasting C (fun i => rs_w (R i)) evs n src dev (length evs) ->
  nth_error us k1 = Some (n, URecv ou1 rnd1 rnd1' (Some e1) None) -> nth_error us k2 = Some (n, URecv ou2 rnd2 rnd2' (Some e2) None) ->
  In (ACall (HMessage m1)) (uacts C (ubefore C R us k1 n) (URecv ou1 rnd1 rnd1' (Some e1) None)) -> m_source m1 = src -> g_num (e_device e1) = dev ->
  In (ACall (HMessage m2)) (uacts C (ubefore C R us k2 n) (URecv ou2 rnd2 rnd2' (Some e2) None)) -> m_source m2 = src -> g_num (e_device e2) = dev ->
  src <> [] ->
  let me := snd (w_ident (rs_w (R n))) in
  exists id1 id2, w_ids (rs_w (ubefore C R us (S k1) n)) src = Some id1 /\ w_ids (rs_w (ubefore C R us (S k2) n)) src = Some id2 /\
    (honest priv id1 = true -> honest priv id2 = true ->
     exists a1 p1 i1 body1 j1 a2 p2 i2 body2 j2,
       tagged C priv e1 (a_tag a1 p1 i1 id1 me) body1 /\ plays C R (firstn k1 us) (firstn j1 evs) /\
       tagged C priv e2 (a_tag a2 p2 i2 id2 me) body2 /\ plays C R (firstn k2 us) (firstn j2 evs) /\
       forall E leak, llabels C priv (fun i => rs_w (R i)) evs E -> lmild C (fun i => rs_w (R i)) evs leak ->
       ~ leak (APriv id1) -> ~ leak (APriv id2) ->
       aknows (honest priv) leak (lsent_as C (fun i => rs_w (R i)) evs E j1) (a_tag a1 p1 i1 id1 me body1) ->
       aknows (honest priv) leak (lsent_as C (fun i => rs_w (R i)) evs E j2) (a_tag a2 p2 i2 id2 me body2) ->
       exists s1 s2, s1 <> s2 /\ encrypted_at C R us evs ou1 m1 k1 id1 s1 /\ encrypted_at C R us evs ou2 m2 k2 id2 s2).
Proof.
  intros C OK priv PO R us SO KU evs HP n src dev k1 k2 ou1 rnd1 rnd1' e1 m1 ou2 rnd2 rnd2' e2 m2 Hlt HT TD LA U1 U2 M1 S1 D1 M2 S2 D2 HN me.
  set (W := fun i => rs_w (R i)) in *.
  pose proof (plays_known C priv R us evs KU HP) as KK. pose proof (plays_tidy C priv R us evs n KU HP TD) as TDn.
  assert (N1 : m_source m1 <> []) by congruence. assert (N2 : m_source m2 <> []) by congruence.
  destruct (shown_two C priv PO R us evs HP _ _ _ _ _ _ _ _ _ _ _ _ _ Hlt U1 U2 M1 N1 M2 N2)
    as (j1 & j2 & ty1 & b1 & pt1 & s1 & ty2 & b2 & pt2 & s2 & HJ & (P1 & C1 & T1 & V1 & j1' & A1 & A2 & A3) & (P2 & C2 & T2 & V2 & j2' & B1 & B2 & B3)).
  rewrite S1, D1 in T1. rewrite S2, D2 in T2.
  exists (s_remote s1), (s_remote s2).
  split. { rewrite <- A2. apply (saved_remote C OK priv PO W evs j1 n src dev ty1 b1 pt1 s1 SO KK HT TDn T1); [exact A1|]. intros i Hi. apply A3. lia. }
  split. { rewrite <- B2. apply (saved_remote C OK priv PO W evs j2 n src dev ty2 b2 pt2 s2 SO KK HT TDn T2); [exact B1|]. intros i Hi. apply B3. lia. }
  intros H1 H2.
  assert (LA' : lasting C W evs n src dev j2) by (destruct LA as [L1 L2]; split; [exact L1|]; intros i x Hi; apply L2; lia).
  destruct (C203_ever C OK priv PO W evs SO KK n src dev j1 j2 ty1 b1 pt1 s1 ty2 b2 pt2 s2 (proj1 HJ) LA' T1 T2 H1 H2)
    as (a1 & q1 & i1 & wh1 & body1 & a2 & q2 & i2 & wh2 & body2 & (X1 & X2 & _) & (Y1 & Y2 & _) & HH).
  exists a1, q1, i1, body1, j1, a2, q2, i2, body2, j2.
  split. { exists b1, ty1. split; [exact C1|]. rewrite X1, X2. reflexivity. }
  split; [exact P1|].
  split. { exists b2, ty2. split; [exact C2|]. rewrite Y1, Y2. reflexivity. }
  split; [exact P2|]. intros E leak HE HL L1 L2 K1 K2.
  destruct (HH E leak HE HL L1 L2 K1 K2) as (z1 & n1 & r1 & d1 & x1 & z2 & n2 & r2 & d2 & x2 & Z0 & Z1 & Z2 & Z3 & Z4 & Z5 & Z6).
  exists z1, z2. split; [exact Z0|]. rewrite <- Z3, <- Z6. split.
  - exact (asked_for C priv PO R us evs ou1 e1 m1 k1 j1 z1 n1 r1 d1 pt1 x1 KU HP P1 Z1 ltac:(lia) Z2 V1).
  - exact (asked_for C priv PO R us evs ou2 e2 m2 k2 j2 z2 n2 r2 d2 pt2 x2 KU HP P2 Z4 ltac:(lia) Z5 V2).
Qed.
Print Assumptions C204_counted.

(* ------------------------------------------------------------------------------------------ *)
(* A is asked once to send a text to B. The server answers the first request with 409, naming no device, so that A
   encrypts and sends again, and then with 200; both requests reach B, who shows the text twice. *)
Definition cnt_server : server := ex_server ex_pub_of (fun n => match n with O => PutStatus 409 [] [] [] false | _ => ok200 end).
Definition cnt_send : appev := USend cnt_server PropSending.ex_rnd (fun _ => None) 0 O 5 na (Some (rb 5)) 7 app_out.
Definition cnt_puts : list bytes := Eval vm_compute in
  flat_map (fun q => flat_map (fun j => match dec64 (j_content j) with Ok b => [b] | _ => [] end) (q_msgs q)) (uputs toy (app_R 0%nat) cnt_send).
Definition cnt_b1 : bytes := Eval vm_compute in nth 0 cnt_puts [].
Definition cnt_b2 : bytes := Eval vm_compute in nth 1 cnt_puts [].
Definition cnt_env (b : bytes) : envelope := mkEnv (Some 3) (Some na) (Some 1) None (Some 7) (Some b) (Some 8).
Definition cnt_recv (b : bytes) (k : Z) : appev := URecv app_ou (PropActive.ex_rnd k) (PropActive.ex_rnd k) (Some (cnt_env b)) None.
Definition cnt_us : list (nat * appev) := [(0%nat, cnt_send); (1%nat, cnt_recv cnt_b1 101); (1%nat, cnt_recv cnt_b2 102)].
Definition cnt_shown (k n : nat) (u : appev) : list (bytes * bytes) :=
  flat_map (fun a => match a with ACall (HMessage m) => [(m_source m, m_text m)] | _ => [] end) (uacts toy (ubefore toy app_R cnt_us k n) u).
Definition cnt_call (b : bytes) (k : Z) : life := LCall (Done (CRecv na 1 PREKEY_BUNDLE b (PropActive.ex_rnd k))).
Lemma cnt_turns b k st : rs_w (ustep toy st (cnt_recv b k)) = lives toy (rs_w st) [cnt_call b k] -> turns toy st (cnt_recv b k) [cnt_call b k].
Proof.
  intros H. split; [exact H|]. split; [|intros q []]. split.
  - constructor; [|constructor]. left. exists (cnt_env b), na, PREKEY_BUNDLE, (PropActive.ex_rnd k), None. unfold cnt_call, one_call, cnt_env. cbn [e_source e_device e_content g_bytes g_num]. auto 10.
  - intros e b' ty HE HC HTy. injection HE as <-. cbn [cnt_env e_content e_type e_source e_device g_bytes g_num] in *. injection HC as <-.
    destruct HTy as [[X _]|[_ ->]]; [discriminate X|]. exists []. reflexivity.
Qed.
Lemma cnt_one : rs_w (ustep toy (app_R 1%nat) (cnt_recv cnt_b1 101)) = lives toy (rs_w (app_R 1%nat)) [cnt_call cnt_b1 101].
Proof. vm_compute. reflexivity. Qed.
Lemma cnt_two : rs_w (ustep toy (ustep toy (app_R 1%nat) (cnt_recv cnt_b1 101)) (cnt_recv cnt_b2 102)) =
  lives toy (rs_w (ustep toy (app_R 1%nat) (cnt_recv cnt_b1 101))) [cnt_call cnt_b2 102].
Proof. vm_compute. reflexivity. Qed.
Lemma cnt_plays xs : turns toy (app_R 0%nat) cnt_send xs ->
  plays toy app_R cnt_us (map (pair 0%nat) xs ++ [(1%nat, cnt_call cnt_b1 101); (1%nat, cnt_call cnt_b2 102)]).
Proof.
  intros H. unfold cnt_us. apply plays_cons; [exact H|].
  apply (plays_cons toy _ 1%nat (cnt_recv cnt_b1 101) _ [cnt_call cnt_b1 101] [(1%nat, cnt_call cnt_b2 102)]); [apply cnt_turns, cnt_one|].
  apply (plays_cons toy _ 1%nat (cnt_recv cnt_b2 102) _ [cnt_call cnt_b2 102] []); [apply cnt_turns, cnt_two|]. constructor.
Qed.
Lemma cnt_lasting xs : turns toy (app_R 0%nat) cnt_send xs ->
  let evs := map (pair 0%nat) xs ++ [(1%nat, cnt_call cnt_b1 101); (1%nat, cnt_call cnt_b2 102)] in
  lasting toy (fun i => rs_w (app_R i)) evs 1%nat na 1 (length evs).
Proof.
  intros H evs. split.
  - intros i1 i2 p1 p2. cbn [app_R rs_w ex_W ex_worldB w_pre].
    destruct (Z.eqb_spec i1 5) as [->|]; [|destruct (Z.eqb_spec i1 6) as [->|]; [|intros X; discriminate X]];
    (destruct (Z.eqb_spec i2 5) as [->|]; [|destruct (Z.eqb_spec i2 6) as [->|]; [|intros _ X; discriminate X]]);
    try (intros; reflexivity); intros H1 H2 H3; exfalso.
    + apply (pub_ne 55 66); [vm_compute; reflexivity|]. unfold pub. congruence.
    + apply (pub_ne 66 55); [vm_compute; reflexivity|]. unfold pub. congruence.
  - intros i x _ Hk. destruct (Nat.lt_ge_cases i (length xs)) as [L|L].
    { exfalso. unfold evs in Hk. rewrite nth_error_app1 in Hk by (rewrite map_length; exact L). apply nth_error_In, in_one in Hk. destruct Hk as [X _]. discriminate X. }
    pose proof (turn_run toy app_R 0%nat cnt_send xs H 1%nat) as HR.
    assert (B0 : lbefore toy (fun i => rs_w (app_R i)) evs (length xs) 1%nat = rs_w (app_R 1%nat)).
    { unfold lbefore, evs. rewrite firstn_under, firstn_all2 by (rewrite map_length; lia). rewrite HR. reflexivity. }
    assert (N0 : nth_error evs (length xs) = Some (1%nat, cnt_call cnt_b1 101)).
    { unfold evs. rewrite nth_error_app2, map_length, Nat.sub_diag by (rewrite map_length; lia). reflexivity. }
    destruct (Nat.eq_dec i (length xs)) as [->|N].
    { unfold levent in *. rewrite N0 in Hk. injection Hk as <-. unfold cnt_call at 1. intros _. cbn [ecall].
      rewrite B0. split; [apply openedb_ok; vm_compute; reflexivity|]. split; [apply one_timeb_ok; vm_compute; reflexivity|exact Logic.I]. }
    assert (i = S (length xs)) as ->.
    { assert (X : (i < length evs)%nat) by (apply nth_error_Some; unfold levent in *; rewrite Hk; intros X; discriminate X).
      unfold evs in X. rewrite app_length, map_length in X. cbn [length] in X. lia. }
    assert (N1 : nth_error evs (S (length xs)) = Some (1%nat, cnt_call cnt_b2 102)).
    { unfold evs. rewrite nth_error_app2, map_length by (rewrite map_length; lia). replace (S (length xs) - length xs)%nat with 1%nat by lia. reflexivity. }
    unfold levent in *. rewrite N1 in Hk. injection Hk as <-. unfold cnt_call at 1. intros _. cbn [ecall].
    rewrite (lbefore_S toy _ _ _ _ _ N0), B0.
    split; [apply openedb_ok; vm_compute; reflexivity|]. split; [apply one_timeb_ok; vm_compute; reflexivity|exact Logic.I].
Qed.
Lemma cnt_known n u : In (n, u) cnt_us -> uknown toy (priv_of life_keys) u.
Proof.
  unfold cnt_us. cbn [In]. intros H. destruct H as [H|[H|[H|[]]]]; injection H as <- <-; cbn [cnt_send cnt_recv uknown].
  - split; [exact app_rnd|]. apply app_fits; [|vm_compute; reflexivity].
    constructor; cbn [app_out o_text o_att o_flags o_expire o_time o_gv2 opt]; try (intros p X; discriminate X); try (apply wfbb_ok; vm_compute; reflexivity); unfold RecordCodec.u32, u64; lia.
  - intros i. split; apply mineb_ok; vm_compute; reflexivity.
  - intros i. split; apply mineb_ok; vm_compute; reflexivity.
Qed.
Lemma cnt_tidy n : utidy toy app_R cnt_us n.
Proof.
  split.
  - intros ou rnd rnd2 env j H. unfold cnt_us in H. cbn [In] in H. destruct H as [H|[H|[H|[]]]]; discriminate H.
  - intros k rid H. do 3 (destruct k as [|k]; [discriminate H|]). destruct k; discriminate H.
Qed.
Example C204_example : exists evs, plays toy app_R cnt_us evs /\ start_ok toy (priv_of life_keys) (fun i => rs_w (app_R i)) /\
  (forall n u, In (n, u) cnt_us -> uknown toy (priv_of life_keys) u) /\ utidy toy app_R cnt_us 1%nat /\
  w_trust_all (rs_w (app_R 1%nat)) = false /\ lasting toy (fun i => rs_w (app_R i)) evs 1%nat na 1 (length evs) /\
  cnt_shown 1 1%nat (cnt_recv cnt_b1 101) = [(na, [104; 105])] /\ cnt_shown 2 1%nat (cnt_recv cnt_b2 102) = [(na, [104; 105])] /\
  w_ids (rs_w (ubefore toy app_R cnt_us 2 1%nat)) na = Some (pub 11) /\ w_ids (rs_w (ubefore toy app_R cnt_us 3 1%nat)) na = Some (pub 11) /\
  honest (priv_of life_keys) (pub 11) = true.
Proof.
  destruct (event_turns toy (app_R 0%nat) cnt_send) as (xs & H). eexists. split; [exact (cnt_plays xs H)|].
  split; [apply ex_start; vm_compute; reflexivity|]. split; [exact cnt_known|]. split; [apply cnt_tidy|].
  split; [reflexivity|]. split; [exact (cnt_lasting xs H)|]. split; [vm_compute; reflexivity|]. split; [vm_compute; reflexivity|].
  split; [vm_compute; reflexivity|]. split; vm_compute; reflexivity.
Qed.
Definition cnt_m : message := Eval vm_compute in
  hd (plain_msg [] [] [] 0) (flat_map (fun a => match a with ACall (HMessage m) => [m] | _ => [] end) (uacts toy (ubefore toy app_R cnt_us 1 1%nat) (cnt_recv cnt_b1 101))).
Definition is_shown (a : act) : bool := match a with ACall (HMessage _) => true | _ => false end.
Lemma cnt_in l : map (fun a => match a with ACall (HMessage m) => Some m | _ => None end) (filter is_shown l) = [Some cnt_m] -> In (ACall (HMessage cnt_m)) l.
Proof.
  intros H. destruct (filter is_shown l) as [|a [|a' l']] eqn:E; cbn [map] in H; [discriminate H| |discriminate H].
  assert (HI : In a (filter is_shown l)) by (rewrite E; left; reflexivity). apply filter_In in HI. destruct HI as [HI _].
  destruct a as [e|r|u k|h]; try discriminate H. destruct h; try discriminate H. injection H as ->. exact HI.
Qed.
(* It is not shown only as often as it was asked for: one call of SendMessage, shown twice. *)
Theorem C204_once_refuted : exists C priv R us, crypto_ok C /\ (forall k x, priv k = Some x -> basepub C x = k) /\
  start_ok C priv (fun i => rs_w (R i)) /\ (forall n u, In (n, u) us -> uknown C priv u) /\
  exists n k1 k2 ou rnd1 rnd2 e1 e2 m1 m2, (k1 < k2)%nat /\ utidy C R us n /\ w_trust_all (rs_w (R n)) = false /\
    nth_error us k1 = Some (n, URecv ou rnd1 rnd1 (Some e1) None) /\ nth_error us k2 = Some (n, URecv ou rnd2 rnd2 (Some e2) None) /\
    In (ACall (HMessage m1)) (uacts C (ubefore C R us k1 n) (URecv ou rnd1 rnd1 (Some e1) None)) /\
    In (ACall (HMessage m2)) (uacts C (ubefore C R us k2 n) (URecv ou rnd2 rnd2 (Some e2) None)) /\
    m_source m1 = na /\ m1 = m2 /\
    length (filter (fun x => match asked (snd x) with Some _ => true | None => false end) us) = 1%nat.
Proof.
  exists toy, (priv_of life_keys), app_R, cnt_us. split; [exact toy_ok|]. split; [exact (priv_of_ok life_keys)|].
  split; [apply ex_start; vm_compute; reflexivity|]. split; [exact cnt_known|].
  exists 1%nat, 1%nat, 2%nat, app_ou, (PropActive.ex_rnd 101), (PropActive.ex_rnd 102), (cnt_env cnt_b1), (cnt_env cnt_b2), cnt_m, cnt_m.
  split; [lia|]. split; [apply cnt_tidy|]. split; [reflexivity|]. split; [reflexivity|]. split; [reflexivity|].
  split; [apply cnt_in; vm_compute; reflexivity|]. split; [apply cnt_in; vm_compute; reflexivity|].
  split; [vm_compute; reflexivity|]. split; reflexivity.
Qed.
Print Assumptions C204_once_refuted.
