(* The whole life of installations. Besides the calls of the session API (History.v), sessions are
   deleted, saved identity keys are removed and new prekeys are stored, at any time. Used for C199 and C200. *)
From Coq Require Import ZArith List Lia Bool.
From Verif Require Import Bytes Res Wire Crypto Cbc CbcProofs Messages MessagesProofs Session SessionProofs SessionFacts Builder
  History HistoryProofs Active ActiveLink PropActive.
Import ListNotations.
Open Scope Z_scope.

(* DeleteAllSessions for a peer (store.go 451-457), which EndSession (textsecure.go 188-204) and a
   received end-session message (494-506) do; the files of all devices of the peer *)
Definition end_all (w : world) (rid : bytes) : world :=
  mkWorld (w_ident w) (w_reg w) (w_trust_all w) (fun r d => if beq r rid then None else w_sess w r d) (w_pre w) (w_spk w) (w_ids w).
Definition set_spk (w : world) (id : Z) (kp : keypair) : world :=
  mkWorld (w_ident w) (w_reg w) (w_trust_all w) (w_sess w) (w_pre w) (fun i => if i =? id then Some kp else w_spk w i) (w_ids w).

Inductive life : Type :=
| LCall (e : event)                     (* a call of the session API, possibly cut off *)
| LEnd (rid : bytes) (dev : Z)          (* DeleteSession, store.go 446-449: server.go 915-928 *)
| LEndAll (rid : bytes)                 (* DeleteAllSessions *)
| LForget (rid : bytes)                 (* the saved identity key is removed: cmd/textsecure/main.go 353-378 *)
| LPreKey (id : Z) (kp : keypair)       (* StorePreKey, store.go 328-334 *)
| LSigned (id : Z) (kp : keypair).      (* StoreSignedPreKey, store.go 336-343 *)

Section L.
Variable C : crypto.
Definition lstep (w : world) (x : life) : world :=
  match x with
  | LCall e => fst (estep C w e)
  | LEnd rid dev => set_sess w rid dev None
  | LEndAll rid => end_all w rid
  | LForget rid => set_id w rid None
  | LPreKey id kp => set_pre w id (Some kp)
  | LSigned id kp => set_spk w id kp
  end.
(* any number of clients *)
Definition levent : Type := nat * life.
Definition lnstep (W : nat -> world) (e : levent) : nat -> world :=
  fun m => if Nat.eqb m (fst e) then lstep (W m) (snd e) else W m.
Definition lnrun (W : nat -> world) (evs : list levent) : nat -> world := fold_left lnstep evs W.
Definition lbefore (W : nat -> world) (evs : list levent) (k : nat) : nat -> world := lnrun W (firstn k evs).

(* client n makes the message b of the text pt for (rid, dev) in event k *)
Definition lsends (W : nat -> world) (evs : list levent) (k n : nat) (rid : bytes) (dev : Z) (pt b : bytes) : Prop :=
  nth_error evs k = Some (n, LCall (Done (CEnc rid dev pt))) /\
  exists ty l, SessionEncryptMessage C (lbefore W evs k n) rid dev pt = (Ok (b, ty), l).
(* client n takes b as a message of (rid, dev) with the text pt in event k, its current session with
   (rid, dev) then being s *)
Definition ltakes (W : nat -> world) (evs : list levent) (k n : nat) (rid : bytes) (dev : Z) (ty : mtype) (b pt : bytes)
    (s : sstate) : Prop :=
  exists rnd l ps, nth_error evs k = Some (n, LCall (Done (CRecv rid dev ty b rnd))) /\
    receive C (lbefore W evs k n) rid dev ty b rnd = (Ok pt, l) /\
    w_sess (apply_effs (lbefore W evs k n) l) rid dev = Some (s, ps).

Variable priv : bytes -> option bytes.
Definition key_pair (kp : keypair) : Prop := mine C priv (fst kp) /\ basepub C (fst kp) = snd kp.
Definition lknown (x : life) : Prop :=
  match x with
  | LCall e => known_keys C priv e
  | LPreKey _ kp | LSigned _ kp => key_pair kp
  | _ => True
  end.
(* the base keys drawn, and the signed prekeys that clients have had *)
Definition lbase (evs : list levent) (b : bytes) : Prop :=
  exists n e rid dev bu rbase rratchet, In (n, LCall e) evs /\ ecall e = CBuild rid dev bu rbase rratchet /\
    b = basepub C (clamp rbase).
Definition lsigned (W : nat -> world) (evs : list levent) (b : bytes) : Prop :=
  signed_key W b \/ exists n id kp, In (n, LSigned id kp) evs /\ snd kp = b.
End L.

(* ------------------------------------------------------------------------------------------ *)
Section Proofs.
Variable C : crypto.
Hypothesis OK : crypto_ok C.
Variable priv : bytes -> option bytes.
Hypothesis priv_ok : forall k x, priv k = Some x -> basepub C x = k.
Variable W : nat -> world.
Variable evs : list levent.
Hypothesis SO : start_ok C priv W.
Hypothesis KK : forall n x, In (n, x) evs -> lknown C priv x.
Notation bases := (lbase C evs).
Notation signeds := (lsigned W evs).
Notation node_ok := (node_ok C priv bases signeds).
Notation ev := (aeval C priv).

Lemma lstep_ok n x w : In (n, x) evs -> node_ok w -> node_ok (lstep C w x) /\ w_ident (lstep C w x) = w_ident w.
Proof.
  intros Hin HW. pose proof (KK _ _ Hin) as HK. destruct x as [e|rid dev|rid|rid|id kp|id kp]; cbn [lstep lknown] in *.
  - unfold known_keys in HK.
    assert (HE : Forall (eff_ok C priv bases signeds (snd (w_ident w))) (snd (perform_call C w (ecall e)))).
    { destruct (ecall e) as [rid dev pt|rid dev ty b rnd|rid dev bu rbase rratchet] eqn:EC; cbn [perform_call].
      - destruct (SessionEncryptMessage C w rid dev pt) as [o l] eqn:E. destruct HK.
        apply (encrypt_at C OK priv bases signeds) in E; auto. destruct o as [[b ty]| |]; apply E.
      - destruct (receive C w rid dev ty b rnd) as [o l] eqn:E.
        apply (receive_at C OK priv priv_ok bases signeds) in E; auto. apply E.
      - destruct (BuildSenderSession C w rid dev bu rbase rratchet) as [o l] eqn:E. destruct HK.
        apply (sender_at C OK priv priv_ok bases signeds) in E; auto.
        exists n, e, rid, dev, bu, rbase, rratchet. auto. }
    destruct e as [c|c k]; cbn [estep ecall] in *; destruct (perform_call C w c) as [[okk out] l]; cbn [fst snd] in *.
    + now apply apply_all_ok.
    + apply apply_all_ok; [exact HW|]. rewrite Forall_forall in HE |- *. intros y Hy. apply HE.
      eapply in_firstn; exact Hy.
  - split; [|reflexivity]. constructor; try apply HW. cbn [set_sess w_sess w_ident]. intros r d c p H.
    destruct (beq r rid && (d =? dev)); [discriminate H|]. eapply no_sess; eauto.
  - split; [|reflexivity]. constructor; try apply HW. cbn [end_all w_sess w_ident]. intros r d c p H.
    destruct (beq r rid); [discriminate H|]. eapply no_sess; eauto.
  - split; [|reflexivity]. constructor; try apply HW.
  - split; [|reflexivity]. constructor; try apply HW. cbn [set_pre w_pre]. intros i q H.
    destruct (i =? id); [injection H as <-; exact HK|]. eapply no_pre; eauto.
  - split; [|reflexivity]. constructor; try apply HW. cbn [set_spk w_spk]. intros i q H.
    destruct (i =? id); [injection H as <-; destruct HK; split; [assumption|]; split; [assumption|right; eauto]|].
    eapply no_spk; eauto.
Qed.
Lemma lstart_node n : node_ok (W n).
Proof.
  constructor.
  - apply (so_ident _ _ _ SO).
  - intros id kp H. destruct (so_spk _ _ _ SO n id kp H). split; [assumption|]. split; [assumption|]. left. exists n, id, kp. auto.
  - apply (so_pre _ _ _ SO).
  - intros rid dev c p H. rewrite (so_sess _ _ _ SO) in H. discriminate H.
Qed.
Lemma lnrun_ok l : forall V, (forall n e, In (n, e) l -> In (n, e) evs) -> (forall n, node_ok (V n) /\ w_ident (V n) = w_ident (W n)) ->
  forall n, node_ok (lnrun C V l n) /\ w_ident (lnrun C V l n) = w_ident (W n).
Proof.
  induction l as [|[m e] l IH]; intros V HI HV n; [apply HV|].
  change (lnrun C V ((m, e) :: l)) with (lnrun C (lnstep C V (m, e)) l). apply IH; [intros; apply HI; now right|].
  intros i. unfold lnstep. cbn [fst snd]. destruct (Nat.eqb_spec i m) as [->|]; [|apply HV].
  destruct (HV m) as [H1 H2]. destruct (lstep_ok m e (V m)) as [H3 H4]; [apply HI; now left|exact H1|]. split; [exact H3|congruence].
Qed.
Lemma lbefore_ok k n : node_ok (lbefore C W evs k n) /\ w_ident (lbefore C W evs k n) = w_ident (W n).
Proof.
  apply lnrun_ok.
  - intros m e. apply in_firstn.
  - intros m. split; [apply lstart_node|reflexivity].
Qed.
Lemma ltakes_tag k n rid dev ty b pt s : ltakes C W evs k n rid dev ty b pt s ->
  let me := snd (w_ident (W n)) in let rem := s_remote s in
  exists a p i wh body, whisper_of ty b = Some wh /\ wh = body ++ ev (a_tag a p i rem me body) /\
    role bases signeds me rem a /\ length me = 32%nat /\ length rem = 32%nat /\
    exists m, LoadWhisperMessage wh = Ok m /\
      Decrypt C (ev (a_mk a p i 0 32)) (ev (a_mk a p i 64 16) ++ wm_ct m) = Ok pt.
Proof.
  intros (rnd & l & ps & Hk & HR & HS) me rem. destruct (lbefore_ok k n) as [HN HI].
  pose proof (KK _ _ (nth_error_In _ _ Hk)) as HK. unfold lknown, known_keys in HK. cbn [ecall] in HK.
  apply (receive_at C OK priv priv_ok bases signeds) in HR; auto. destruct HR as [_ HR].
  destruct (HR pt eq_refl) as (wh & m & s1 & ps1 & H1 & H2 & HA & H3). rewrite HS in H3. injection H3 as <- <-.
  rewrite HI in HA. fold me in HA. destruct HA as (a & p & q & i & HSt & _ & Lr & Ll & HV & HD).
  destruct (LoadWhisper_ser _ _ H2) as (Es & Ev & Lw).
  exists a, q, i, wh, (firstn (length wh - 8) wh). split; [exact H1|].
  split; [|split; [apply HSt|split; [exact Ll|split; [exact Lr|exists m; auto]]]].
  unfold verifyMAC in HV. cbv zeta in HV. apply beq_eq in HV. rewrite Es, Ev in HV. unfold macLength in HV.
  rewrite <- (firstn_skipn (length wh - 8) wh) at 1. f_equal. rewrite <- HV.
  unfold getMac, ComputeTruncatedMAC, a_tag, macLength. change (3 >=? 3) with true. cbv iota. cbn [aeval]. fold rem.
  now rewrite <- app_assoc.
Qed.
(* an accepted text leaves a session that can send *)
Lemma ltakes_sender k n rid dev ty b pt s : ltakes C W evs k n rid dev ty b pt s -> s_sender s <> None.
Proof.
  intros (rnd & l & ps & Hk & HR & HS). destruct (lbefore_ok k n) as [HN HI].
  pose proof (KK _ _ (nth_error_In _ _ Hk)) as HK. unfold lknown, known_keys in HK. cbn [ecall] in HK.
  apply (receive_at C OK priv priv_ok bases signeds) in HR; auto. destruct HR as [_ HR].
  destruct (HR pt eq_refl) as (wh & m & s1 & ps1 & _ & _ & (a & p & q & i & HA & _) & H5).
  rewrite HS in H5. injection H5 as <- <-. destruct (sa_sender _ _ _ _ _ _ _ _ HA) as (x & j & mks & _ & _ & H6). congruence.
Qed.
Lemma lbefore_S k n x : nth_error evs k = Some (n, x) -> lbefore C W evs (S k) n = lstep C (lbefore C W evs k n) x.
Proof.
  intros H. unfold lbefore, lnrun. rewrite (firstn_S_nth _ _ _ H), fold_left_app. cbn [fold_left]. unfold lnstep at 1. cbn [fst snd].
  now rewrite Nat.eqb_refl.
Qed.
Lemma lbefore_other k n m x : nth_error evs k = Some (m, x) -> n <> m -> lbefore C W evs (S k) n = lbefore C W evs k n.
Proof.
  intros H N. unfold lbefore, lnrun. rewrite (firstn_S_nth _ _ _ H), fold_left_app. cbn [fold_left]. unfold lnstep at 1. cbn [fst snd].
  destruct (Nat.eqb_spec n m); [contradiction|reflexivity].
Qed.
Lemma lbefore_end k n : nth_error evs k = None -> lbefore C W evs (S k) n = lbefore C W evs k n.
Proof. intros H. apply nth_error_None in H. unfold lbefore. rewrite !firstn_all2 by lia. reflexivity. Qed.
End Proofs.
