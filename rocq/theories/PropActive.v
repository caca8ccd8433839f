(* Any number of clients, and a server and a network that do what they like: properties C184 to C187. *)
From Coq Require Import ZArith List Lia Bool.
From Verif Require Import Bytes Res Wire Crypto Cbc CbcProofs Messages MessagesProofs Session SessionProofs SessionFacts Builder
  History HistoryProofs Active ActiveLink Examples Conversation.
Import ListNotations.
Open Scope Z_scope.

(* ------------------------------------------------------------------------------------------ *)
(* Executions: one client after the other makes a call, with bundles and messages of any content. A
   client may also be cut off within a call. *)
Section N.
Variable C : crypto.
Definition nevent : Type := nat * event.
Definition nstep (W : nat -> world) (e : nevent) : nat -> world :=
  fun m => if Nat.eqb m (fst e) then fst (estep C (W m) (snd e)) else W m.
Definition nrun (W : nat -> world) (evs : list nevent) : nat -> world := fold_left nstep evs W.
(* the stores before event k *)
Definition before (W : nat -> world) (evs : list nevent) (k : nat) : nat -> world := nrun W (firstn k evs).

(* client n makes the message b of the text pt for (rid, dev) in event k *)
Definition sends (W : nat -> world) (evs : list nevent) (k n : nat) (rid : bytes) (dev : Z) (pt b : bytes) : Prop :=
  nth_error evs k = Some (n, Done (CEnc rid dev pt)) /\
  exists ty l, SessionEncryptMessage C (before W evs k n) rid dev pt = (Ok (b, ty), l).
(* client n takes b as a message of (rid, dev) with the text pt in event k, and then has the current
   session s with (rid, dev) *)
Definition takes (W : nat -> world) (evs : list nevent) (k n : nat) (rid : bytes) (dev : Z) (ty : mtype) (b pt : bytes)
    (s : sstate) : Prop :=
  exists rnd l ps, nth_error evs k = Some (n, Done (CRecv rid dev ty b rnd)) /\
    receive C (before W evs k n) rid dev ty b rnd = (Ok pt, l) /\
    w_sess (apply_effs (before W evs k n) l) rid dev = Some (s, ps).

(* priv knows every private key that a client has or draws *)
Variable priv : bytes -> option bytes.
Definition known_keys (e : event) : Prop :=
  match ecall e with
  | CEnc _ _ pt => wfb pt /\ zlen pt < 2 ^ 60
  | CRecv _ _ _ _ rnd => forall i, mine C priv (clamp (rnd i))
  | CBuild _ _ _ rbase rratchet => mine C priv (clamp rbase) /\ mine C priv (clamp rratchet)
  end.
Record start_ok (W : nat -> world) : Prop := {
  so_ident : forall n, mine C priv (fst (w_ident (W n))) /\ basepub C (fst (w_ident (W n))) = snd (w_ident (W n));
  so_spk : forall n id kp, w_spk (W n) id = Some kp -> mine C priv (fst kp) /\ basepub C (fst kp) = snd kp;
  so_pre : forall n id kp, w_pre (W n) id = Some kp -> mine C priv (fst kp) /\ basepub C (fst kp) = snd kp;
  so_sess : forall n rid dev, w_sess (W n) rid dev = None }.
(* a public key whose private key a client has *)
Definition honest (k : bytes) : bool := match priv k with Some _ => true | None => false end.
(* the base keys drawn, and the signed prekeys *)
Definition base_key (evs : list nevent) (b : bytes) : Prop :=
  exists n e rid dev bu rbase rratchet, In (n, e) evs /\ ecall e = CBuild rid dev bu rbase rratchet /\
    b = basepub C (clamp rbase).
Definition signed_key (W : nat -> world) (b : bytes) : Prop :=
  exists n id kp, w_spk (W n) id = Some kp /\ snd kp = b.
End N.

Lemma in_firstn {A} k (l : list A) x : In x (firstn k l) -> In x l.
Proof.
  revert k; induction l as [|y l IH]; intros [|k]; cbn [firstn In]; try tauto. intros [->|Hx]; [now left|right; eauto].
Qed.

Lemma firstn_S_nth {A} k : forall (l : list A) x, nth_error l k = Some x -> firstn (S k) l = firstn k l ++ [x].
Proof.
  induction k as [|k IH]; intros [|y l] x H; try discriminate H.
  - injection H as ->. reflexivity.
  - cbn [firstn app]. f_equal. apply IH. exact H.
Qed.
Lemma firstn_plus {A} k d : forall l : list A, firstn (k + d) l = firstn k l ++ firstn d (skipn k l).
Proof.
  induction k as [|k IH]; intros [|y l]; try reflexivity.
  - cbn. now rewrite firstn_nil.
  - cbn [firstn app skipn Nat.add]. f_equal. apply IH.
Qed.

Section Proofs.
Variable C : crypto.
Hypothesis OK : crypto_ok C.
Variable priv : bytes -> option bytes.
Hypothesis priv_ok : forall k x, priv k = Some x -> basepub C x = k.
Variable W : nat -> world.
Variable evs : list nevent.
Hypothesis SO : start_ok C priv W.
Hypothesis KK : forall n e, In (n, e) evs -> known_keys C priv e.
Notation bases := (base_key C evs).
Notation signeds := (signed_key W).
Notation node_ok := (node_ok C priv bases signeds).
Notation ev := (aeval C priv).

Lemma estep_ok n e w : In (n, e) evs -> node_ok w -> node_ok (fst (estep C w e)) /\ w_ident (fst (estep C w e)) = w_ident w.
Proof.
  intros Hin HW. pose proof (KK _ _ Hin) as HK. unfold known_keys in HK.
  assert (HE : Forall (eff_ok C priv bases signeds (snd (w_ident w))) (snd (perform_call C w (ecall e)))).
  { destruct (ecall e) as [rid dev pt|rid dev ty b rnd|rid dev bu rbase rratchet] eqn:EC; cbn [perform_call].
    - destruct (SessionEncryptMessage C w rid dev pt) as [o l] eqn:E. destruct HK.
      apply (encrypt_at C OK priv bases signeds) in E; auto. destruct o as [[b ty]| |]; apply E.
    - destruct (receive C w rid dev ty b rnd) as [o l] eqn:E.
      apply (receive_at C OK priv priv_ok bases signeds) in E; auto. apply E.
    - destruct (BuildSenderSession C w rid dev bu rbase rratchet) as [o l] eqn:E. destruct HK.
      apply (sender_at C OK priv priv_ok bases signeds) in E; auto.
      exists n, e, rid, dev, bu, rbase, rratchet. auto. }
  destruct e as [c|c k]; cbn [estep ecall] in *; destruct (perform_call C w c) as [[okk out] l]; cbn [fst snd] in *.
  - now apply apply_all_ok.
  - apply apply_all_ok; [exact HW|]. rewrite Forall_forall in HE |- *. intros x Hx. apply HE.
    eapply in_firstn; exact Hx.
Qed.
Lemma start_node n : node_ok (W n).
Proof.
  constructor.
  - apply (so_ident _ _ _ SO).
  - intros id kp H. destruct (so_spk _ _ _ SO n id kp H). split; [assumption|]. split; [assumption|]. exists n, id, kp. auto.
  - apply (so_pre _ _ _ SO).
  - intros rid dev c p H. rewrite (so_sess _ _ _ SO) in H. discriminate H.
Qed.
Lemma nrun_ok l : forall V, (forall n e, In (n, e) l -> In (n, e) evs) -> (forall n, node_ok (V n) /\ w_ident (V n) = w_ident (W n)) ->
  forall n, node_ok (nrun C V l n) /\ w_ident (nrun C V l n) = w_ident (W n).
Proof.
  induction l as [|[m e] l IH]; intros V HI HV n; [apply HV|].
  change (nrun C V ((m, e) :: l)) with (nrun C (nstep C V (m, e)) l). apply IH; [intros; apply HI; now right|].
  intros i. unfold nstep. cbn [fst snd]. destruct (Nat.eqb_spec i m) as [->|]; [|apply HV].
  destruct (HV m) as [H1 H2]. destruct (estep_ok m e (V m)) as [H3 H4]; [apply HI; now left|exact H1|]. split; [exact H3|congruence].
Qed.
Lemma before_ok k n : node_ok (before C W evs k n) /\ w_ident (before C W evs k n) = w_ident (W n).
Proof.
  apply nrun_ok.
  - intros m e. apply in_firstn.
  - intros m. split; [apply start_node|reflexivity].
Qed.

(* what a client takes has the tag of a place in a session of its own *)
Lemma takes_tag k n rid dev ty b pt s : takes C W evs k n rid dev ty b pt s ->
  let me := snd (w_ident (W n)) in let rem := s_remote s in
  exists a p i wh body, whisper_of ty b = Some wh /\ wh = body ++ ev (a_tag a p i rem me body) /\
    role bases signeds me rem a /\ length me = 32%nat /\ length rem = 32%nat /\
    exists m, LoadWhisperMessage wh = Ok m /\
      Decrypt C (ev (a_mk a p i 0 32)) (ev (a_mk a p i 64 16) ++ wm_ct m) = Ok pt.
Proof.
  intros (rnd & l & ps & Hk & HR & HS) me rem. destruct (before_ok k n) as [HN HI].
  pose proof (KK _ _ (nth_error_In _ _ Hk)) as HK. unfold known_keys in HK. cbn [ecall] in HK.
  apply (receive_at C OK priv priv_ok bases signeds) in HR; auto. destruct HR as [_ HR].
  destruct (HR pt eq_refl) as (wh & m & s1 & ps1 & H1 & H2 & HA & H3). rewrite HS in H3. injection H3 as <- <-.
  rewrite HI in HA. fold me in HA. destruct HA as (a & p & q & i & HSt & _ & Lr & Ll & HV & HD).
  destruct (LoadWhisper_ser _ _ H2) as (Es & Ev & Lw).
  exists a, q, i, wh, (firstn (length wh - 8) wh). split; [exact H1|].
  split; [|split; [apply HSt|split; [exact Ll|split; [exact Lr|exists m; auto]]]].
  unfold verifyMAC in HV. cbv zeta in HV. apply beq_eq in HV. rewrite Es, Ev in HV. unfold macLength in HV.
  rewrite <- (firstn_skipn (length wh - 8) wh) at 1. f_equal. rewrite <- HV.
  unfold getMac, ComputeTruncatedMAC, a_tag, macLength. change (3 >=? 3) with true. cbv iota. cbn [aeval]. fold rem.
  now rewrite <- app_assoc.
Qed.
End Proofs.

Lemma app_inv_len {A} (a : list A) : forall b c d, length a = length c -> a ++ b = c ++ d -> a = c /\ b = d.
Proof.
  induction a as [|x a IH]; intros b [|y c] d L H; try discriminate L; [auto|].
  injection L as L. injection H as -> H. destruct (IH _ _ _ L H) as [-> ->]. auto.
Qed.
Lemma ids_inj a b c d x y : length a = 32%nat -> length b = 32%nat -> length c = 32%nat -> length d = 32%nat ->
  key_ser a ++ key_ser b ++ x = key_ser c ++ key_ser d ++ y -> a = c /\ b = d /\ x = y.
Proof.
  intros La Lb Lc Ld H. unfold key_ser in H. cbn [app] in H. injection H as H.
  apply app_inv_len in H; [|congruence]. destruct H as [-> H]. injection H as H.
  apply app_inv_len in H; [|congruence]. destruct H as [-> H]. auto.
Qed.

(* ------------------------------------------------------------------------------------------ *)
(* C184. Every message that a client makes carries the tag of a place in a session of its own with the
   owner of an identity key. *)
Theorem C184_sent : forall C, crypto_ok C -> forall priv, (forall k x, priv k = Some x -> basepub C x = k) ->
  forall W evs, start_ok C priv W -> (forall n e, In (n, e) evs -> known_keys C priv e) ->
  forall k n rid dev pt b, sends C W evs k n rid dev pt b ->
  exists e, describes C priv (base_key C evs) (signed_key W) (before C W evs k n) rid dev pt b e.
Proof.
  intros C OK priv PO W evs SO KK k n rid dev pt b (Hk & ty & l & HE).
  destruct (before_ok C OK priv PO W evs SO KK k n) as [HN HI].
  pose proof (KK _ _ (nth_error_In _ _ Hk)) as HK. unfold known_keys in HK. cbn [ecall] in HK. destruct HK.
  apply (encrypt_at C OK priv (base_key C evs) (signed_key W)) in HE; auto. destruct HE as [_ HE]. eauto.
Qed.
Print Assumptions C184_sent.

(* the tags that clients have put on messages before event k *)
Definition sent_before C priv W evs (k : nat) (e : emission) : Prop :=
  exists k' n rid dev pt b, (k' < k)%nat /\ sends C W evs k' n rid dev pt b /\
    describes C priv (base_key C evs) (signed_key W) (before C W evs k' n) rid dev pt b e.

(* Whatever a client takes has the tag of a place in one of its sessions. Whoever computes that tag
   from the messages sent so far and from lost keys and stores has exposed the place, or the message
   is one that the owner of the session's identity key has made for this client's identity key, with
   this text. *)
Theorem C184_taken : forall C, crypto_ok C -> forall priv, (forall k x, priv k = Some x -> basepub C x = k) ->
  forall W evs, start_ok C priv W -> (forall n e, In (n, e) evs -> known_keys C priv e) ->
  forall k n rid dev ty b pt s, takes C W evs k n rid dev ty b pt s ->
  let me := snd (w_ident (W n)) in let rem := s_remote s in
  exists a p i wh body, whisper_of ty b = Some wh /\ wh = body ++ aeval C priv (a_tag a p i rem me body) /\
    role (base_key C evs) (signed_key W) me rem a /\
    forall leak, aknows (honest priv) leak (sent_before C priv W evs k) (a_tag a p i rem me body) ->
    mk_bad (honest priv) leak a p i 32 32 \/
    exists k' n' rid' dev' b', (k' < k)%nat /\ sends C W evs k' n' rid' dev' pt b' /\ carries b' wh /\
      snd (w_ident (W n')) = rem /\
      exists s' ps', w_sess (before C W evs k' n') rid' dev' = Some (s', ps') /\ s_remote s' = me.
Proof.
  intros C OK priv PO W evs SO KK k n rid dev ty b pt s HT me rem.
  destruct (takes_tag C OK priv PO W evs SO KK _ _ _ _ _ _ _ _ HT) as (a & p & i & wh & body & H1 & H2 & H3 & Lm & Lr & m & H4 & H5).
  fold me rem in H2, H3, Lm, Lr. exists a, p, i, wh, body. split; [exact H1|]. split; [exact H2|]. split; [exact H3|].
  intros leak HK. apply tag_exact in HK. destruct HK as [HK|(e & He & E1 & E2)]; [now left|right].
  destruct He as (k' & n' & rid' & dev' & pt' & b' & Hlt & HS & (s' & ps' & D1 & D2 & D3 & D4 & D5 & D6 & D7 & D8 & m' & D9 & D10)).
  assert (ET : tag_of e = a_tag a p i rem me body) by (unfold tag_of, a_tag; now rewrite E1, E2).
  apply ids_inj in E2; [|assumption..]. destruct E2 as (E2 & E3 & E4).
  assert (EW : em_body e ++ aeval C priv (tag_of e) = wh) by (rewrite H2, ET, E4; reflexivity).
  rewrite EW in D8, D9. rewrite H4 in D9. injection D9 as <-.
  unfold a_mk in E1. injection E1 as E1.
  assert (EP : pt' = pt).
  { unfold a_mk in D10, H5. rewrite E1 in D10. destruct HS as [Hk' _].
    pose proof (KK _ _ (nth_error_In _ _ Hk')) as HKK. unfold known_keys in HKK. cbn [ecall] in HKK. destruct HKK as [Hw _].
    rewrite (Decrypt_Encrypt C OK _ _ _ _ Hw) in H5; [now injection H5| |exact D10].
    cbn [aeval]. apply wfb_firstn, wfb_skipn, (hkdf_wf C OK). }
  rewrite EP in HS. clear D5. exists k', n', rid', dev', b'. split; [exact Hlt|]. split; [exact HS|]. split; [exact D8|].
  destruct (before_ok C OK priv PO W evs SO KK k' n') as [_ HI]. split; [rewrite <- HI; congruence|].
  exists s', ps'. split; [exact D1|congruence].
Qed.
Print Assumptions C184_taken.

(* ------------------------------------------------------------------------------------------ *)
(* Losses of private keys only, and none of a base key or of a signed prekey *)
Definition mild C (W : nat -> world) (evs : list nevent) (leak : aterm -> Prop) : Prop :=
  (forall t, leak t -> exists k, t = APriv k) /\
  (forall k, base_key C evs k -> ~ leak (APriv k)) /\ (forall k, signed_key W k -> ~ leak (APriv k)).
Lemma mild_role C priv W evs leak me rem a : start_ok C priv W -> (forall n e, In (n, e) evs -> known_keys C priv e) ->
  mild C W evs leak -> honest priv rem = true -> ~ leak (APriv rem) ->
  role (base_key C evs) (signed_key W) me rem a -> ~ km_bad (honest priv) leak a.
Proof.
  intros SO KK (_ & HB & HS) Hh Hl HR (K1 & K2 & _).
  assert (GR : ~ bad (honest priv) leak rem) by (intros [H|H]; [congruence|now apply Hl]).
  destruct HR as [(R1 & R2 & R3)|(R1 & R2 & R3)].
  - rewrite R2 in K2. destruct K2 as [K2|[K2|K2]]; [now apply GR| |now apply (HB _ R3)].
    destruct R3 as (n & e & rid & dev & bu & rbase & rr & H1 & H2 & H3).
    pose proof (KK _ _ H1) as HK. unfold known_keys in HK. rewrite H2 in HK. destruct HK as [HK _].
    unfold mine in HK. unfold honest in K2. rewrite H3, HK in K2. discriminate K2.
  - rewrite R2 in K1. destruct K1 as [[K1|K1]|K1]; [|now apply (HS _ R3)|now apply GR].
    destruct R3 as (n & id & kp & H1 & H2). destruct (so_spk _ _ _ SO _ _ _ H1) as [H3 H4].
    unfold mine in H3. unfold honest in K1. rewrite <- H2, <- H4, H3 in K1. discriminate K1.
Qed.

(* C185. Whatever the server hands out and the network does, and also if other keys are lost (the
   client's own identity key among them): what a client takes in a session with the identity key of
   another client was sent by that client to it. *)
Theorem C185_authentic : forall C, crypto_ok C -> forall priv, (forall k x, priv k = Some x -> basepub C x = k) ->
  forall W evs, start_ok C priv W -> (forall n e, In (n, e) evs -> known_keys C priv e) ->
  forall k n rid dev ty b pt s, takes C W evs k n rid dev ty b pt s ->
  let me := snd (w_ident (W n)) in let rem := s_remote s in honest priv rem = true ->
  exists a p i wh body, whisper_of ty b = Some wh /\ wh = body ++ aeval C priv (a_tag a p i rem me body) /\
    forall leak, mild C W evs leak -> ~ leak (APriv rem) ->
    aknows (honest priv) leak (sent_before C priv W evs k) (a_tag a p i rem me body) ->
    exists k' n' rid' dev' b', (k' < k)%nat /\ sends C W evs k' n' rid' dev' pt b' /\ carries b' wh /\
      snd (w_ident (W n')) = rem /\
      exists s' ps', w_sess (before C W evs k' n') rid' dev' = Some (s', ps') /\ s_remote s' = me.
Proof.
  intros C OK priv PO W evs SO KK k n rid dev ty b pt s HT me rem HH.
  destruct (C184_taken C OK priv PO W evs SO KK _ _ _ _ _ _ _ _ HT) as (a & p & i & wh & body & H1 & H2 & H3 & H4).
  fold me rem in H2, H3, H4. exists a, p, i, wh, body. split; [exact H1|]. split; [exact H2|].
  intros leak HM HL HK. destruct (H4 leak HK) as [HB|HS]; [exfalso|exact HS].
  apply only_mk in HB; [|exact (proj1 HM)]. revert HB. eapply mild_role; eauto.
Qed.
Print Assumptions C185_authentic.

(* C186. And nobody else can compute the key of a text that a client sends in such a session. *)
Theorem C186_secret : forall C, crypto_ok C -> forall priv, (forall k x, priv k = Some x -> basepub C x = k) ->
  forall W evs, start_ok C priv W -> (forall n e, In (n, e) evs -> known_keys C priv e) ->
  forall k n rid dev pt b, sends C W evs k n rid dev pt b ->
  exists e, describes C priv (base_key C evs) (signed_key W) (before C W evs k n) rid dev pt b e /\
    (forall leak, aknows (honest priv) leak (sent_before C priv W evs (length evs)) (a_mk (em_ag e) (em_path e) (em_idx e) 0 32)
       <-> mk_bad (honest priv) leak (em_ag e) (em_path e) (em_idx e) 0 32) /\
    (honest priv (em_to e) = true -> forall leak, mild C W evs leak -> ~ leak (APriv (em_to e)) ->
     ~ aknows (honest priv) leak (sent_before C priv W evs (length evs)) (a_mk (em_ag e) (em_path e) (em_idx e) 0 32)).
Proof.
  intros C OK priv PO W evs SO KK k n rid dev pt b HS.
  destruct (C184_sent C OK priv PO W evs SO KK _ _ _ _ _ _ HS) as (e & HD). exists e. split; [exact HD|].
  split; [intros leak; apply mk_exact|]. intros HH leak HM HL HK. apply mk_exact in HK.
  apply only_mk in HK; [|exact (proj1 HM)]. destruct HD as (s & ps & D1 & D2 & D3 & D4 & _). rewrite <- D4 in D2.
  revert HK. eapply mild_role; eauto.
Qed.
Print Assumptions C186_secret.

(* ------------------------------------------------------------------------------------------ *)
(* C187. The name under which a text is reported. *)
(* every session kept under a name is one with the identity key saved for that name *)
Definition well_named (w : world) : Prop :=
  w_trust_all w = false /\
  forall rid dev c ps, w_sess w rid dev = Some (c, ps) ->
  Forall (fun s => s_sender s = None \/ w_ids w rid = Some (s_remote s)) (c :: ps).

Section Pin.
Variable C : crypto.
Definition with_key (k : bytes) (s : sstate) : Prop := s_sender s = None \/ s_remote s = k.
Definition rec_key (k : bytes) (r : srecord) : Prop := Forall (with_key k) (r_cur r :: r_prevs r).

Lemma ss_decrypt_key k s m rnd r s' : with_key k s -> ss_decrypt C s m rnd = (r, s') -> with_key k s'.
Proof.
  intros HK H. unfold ss_decrypt in H. destruct (s_sender s) eqn:Es; [|injection H as <- <-; exact HK].
  destruct HK as [HK|HK]; [congruence|].
  destruct (negb _); [injection H as <- <-; now right|].
  destruct (getOrCreateChainKey C s (wm_rkey m) rnd) as [[c0 s1]| |] eqn:E1; [|injection H as <- <-; now right..].
  apply gocck_frame in E1. destruct E1 as [E1 _].
  destruct (getOrCreateMessageKeys C s1 (wm_rkey m) c0 (wm_counter m)) as [r2 s2] eqn:E2.
  apply gocmk_frame in E2. destruct E2 as [E2 _]. right.
  destruct r2; [|injection H as <- <-; congruence..].
  destruct (key32 (s_remote s2)), (key32 (s_local s2)); try (injection H as <- <-; congruence).
  destruct (negb _); [injection H as <- <-; congruence|].
  destruct (Decrypt _ _ _); injection H as <- <-; cbn; congruence.
Qed.
Lemma try_prevs_key k m rnd : forall l i r l', Forall (with_key k) l -> try_prevs C l m rnd i = (r, l') ->
  Forall (with_key k) l' /\ forall pt s, r = Ok (Some (pt, s)) -> with_key k s.
Proof.
  induction l as [|s l IH]; intros i r l' HF H; cbn [try_prevs] in H.
  - injection H as <- <-. split; [constructor|]. intros pt s E. discriminate E.
  - inversion HF as [|? ? HS HF']; subst. destruct (ss_decrypt C s m (rnd i)) as [r0 s0] eqn:E0.
    apply (ss_decrypt_key k) in E0; auto. destruct r0.
    + injection H as <- <-. split; [now constructor|]. intros pt s1 E. injection E as <- <-. auto.
    + destruct (try_prevs C l m rnd (S i)) as [r1 l1] eqn:E1. injection H as <- <-.
      destruct (IH _ _ _ HF' E1) as [H1 H2]. split; [now constructor|exact H2].
    + injection H as <- <-. split; [now constructor|]. intros pt s1 E. discriminate E.
Qed.
Lemma promote_key k r s : rec_key k r -> with_key k s -> rec_key k (promoteState r s).
Proof.
  intros HR HS. constructor; [exact HS|]. unfold promoteState. cbv zeta. cbn [r_prevs].
  destruct (Nat.ltb _ _); [|exact HR]. unfold rec_key in HR.
  rewrite Forall_forall in HR |- *. intros x Hx. apply HR. revert Hx. generalize (r_cur r :: r_prevs r) as l.
  induction l as [|y l IH]; [intros []|]. cbn [removelast]. destruct l; [intros []|].
  intros [->|Hx]; [now left|right]. now apply IH.
Qed.
Lemma sc_decrypt_key k r m rnd o r' : rec_key k r -> sc_decrypt C r m rnd = (o, r') -> rec_key k r'.
Proof.
  intros HR H. pose proof HR as HR0. inversion HR0 as [|? ? HC HP]; subst. unfold sc_decrypt in H.
  destruct (ss_decrypt C (r_cur r) m (rnd 0%nat)) as [o0 s0] eqn:E0.
  apply (ss_decrypt_key k) in E0; auto. destruct o0; [injection H as <- <-; now constructor| |injection H as <- <-; now constructor].
  destruct (try_prevs C (r_prevs r) m rnd 1) as [o1 l1] eqn:E1.
  destruct (try_prevs_key k m rnd _ _ _ _ HP E1) as [HF H1].
  destruct o1 as [[[pt s]|]| |]; injection H as <- <-; try (now constructor).
  apply promote_key; [now constructor|]. now apply (H1 pt s).
Qed.

Lemma no_sender_no_text r m rnd pt r' : Forall (fun s => s_sender s = None) (r_cur r :: r_prevs r) ->
  sc_decrypt C r m rnd = (Ok pt, r') -> False.
Proof.
  intros HK ES. unfold sc_decrypt in ES. inversion HK as [|? ? H1 H2]; subst. unfold ss_decrypt in ES at 1. rewrite H1 in ES.
  assert (ET : forall i, exists l, try_prevs C (r_prevs r) m rnd i = (Ok None, l)).
  { clear - H2. induction H2 as [|s ps H H2 IH]; intros i; cbn [try_prevs]; [eauto|].
    unfold ss_decrypt. rewrite H. destruct (IH (S i)) as [l ->]. eauto. }
  destruct (ET 1%nat) as [l EL]. rewrite EL in ES. discriminate ES.
Qed.

(* after saving a trusted key for a name, its sessions are with that key *)
Lemma trusted_key w rid k dev : well_named w -> IsTrustedIdentity w rid k = true -> rec_key k (LoadSession w rid dev).
Proof.
  intros [HT HP] H. unfold IsTrustedIdentity in H. rewrite HT in H. cbn [orb] in H.
  unfold LoadSession. destruct (w_sess w rid dev) as [[c ps]|] eqn:E.
  - specialize (HP _ _ _ _ E). eapply Forall_impl; [|exact HP]. cbn beta. intros s [Hs|Hs]; [now left|right].
    rewrite Hs in H. now apply beq_eq in H.
  - constructor; [now left|constructor].
Qed.
Lemma pinned_key w rid dev : well_named w -> forall s ps, w_sess w rid dev = Some (s, ps) ->
  match w_ids w rid with Some k => rec_key k (mkSr s ps false) | None => Forall (fun s => s_sender s = None) (s :: ps) end.
Proof.
  intros [_ HP] s ps E. specialize (HP _ _ _ _ E). destruct (w_ids w rid) as [k|].
  - eapply Forall_impl; [|exact HP]. cbn beta. intros x [Hx|Hx]; [now left|right; congruence].
  - eapply Forall_impl; [|exact HP]. cbn beta. intros x [Hx|Hx]; [exact Hx|discriminate Hx].
Qed.
(* the two writes in either order, all sessions of the name being with the key *)
Lemma pinned_save w rid k : well_named w -> IsTrustedIdentity w rid k = true -> well_named (set_id w rid (Some k)).
Proof.
  intros HP H. split; [apply HP|]. intros r d c ps E. cbn [set_id w_sess w_ids] in *. destruct (beq r rid) eqn:ER.
  - apply beq_eq in ER. subst r. pose proof (trusted_key w rid k d HP H) as HK. unfold LoadSession in HK. rewrite E in HK.
    eapply Forall_impl; [|exact HK]. intros s [Hs|Hs]; [now left|right; congruence].
  - exact (proj2 HP _ _ _ _ E).
Qed.
Lemma pinned_store w rid dev k s ps : well_named w -> w_ids w rid = Some k -> rec_key k (mkSr s ps false) ->
  well_named (set_sess w rid dev (Some (s, ps))).
Proof.
  intros HP HI HK. split; [apply HP|]. intros r d c q E. cbn [set_sess w_sess w_ids] in *.
  destruct (beq r rid && (d =? dev)) eqn:ER; [|exact (proj2 HP _ _ _ _ E)].
  apply andb_true_iff in ER. destruct ER as [ER _]. apply beq_eq in ER. subst r. injection E as <- <-.
  eapply Forall_impl; [|exact HK]. intros x [Hx|Hx]; [now left|right; congruence].
Qed.
Lemma pinned_remove w id : well_named w -> well_named (set_pre w id None).
Proof. intros [H1 H2]. split; [exact H1|exact H2]. Qed.
(* the order of the writes does not matter *)
Lemma pinned_store_save w rid dev k s ps : well_named w -> IsTrustedIdentity w rid k = true -> rec_key k (mkSr s ps false) ->
  well_named (set_id (set_sess w rid dev (Some (s, ps))) rid (Some k)).
Proof.
  intros HP H HK. pose proof (pinned_store _ rid dev k s ps (pinned_save w rid k HP H)) as HS.
  cbn [set_id w_ids] in HS. rewrite beq_refl in HS. exact (HS eq_refl HK).
Qed.
Lemma archive_key k r : rec_key k r -> rec_key k (if r_fresh r then r else archiveCurrentState r).
Proof. intros H. destruct (r_fresh r); [exact H|]. apply promote_key; [exact H|now left]. Qed.

Lemma pinned_call w c : well_named w -> well_named (apply_effs w (snd (perform_call C w c))).
Proof.
  intros HP. destruct c as [rid dev pt|rid dev ty b rnd|rid dev bu rbase rr]; cbn [perform_call].
  - unfold SessionEncryptMessage. unfold LoadSession. destruct (w_sess w rid dev) as [[s ps]|] eqn:E; [|exact HP]. cbn [r_cur r_prevs].
    destruct (ss_encrypt C s pt) as [[[b ty] s']| |] eqn:EE; try exact HP. cbn [snd apply_effs fold_left apply_eff].
    pose proof (pinned_key w rid dev HP _ _ E) as HK. unfold ss_encrypt in EE.
    destruct (s_sender s) as [sc|] eqn:Es; [|discriminate EE].
    destruct (w_ids w rid) as [k|] eqn:EI.
    + apply (pinned_store w rid dev k); auto. inversion HK as [|? ? H1 H2]; subst. constructor; [|exact H2]. right. cbn [r_cur] in *.
      destruct H1 as [H1|H1]; [congruence|]. rewrite <- H1. clear - EE.
      destruct (load_ck (ch_ck sc)); cbn [bind] in EE; try discriminate EE.
      destruct (key32 (ch_rpub sc)); cbn [bind] in EE; try discriminate EE.
      destruct (Encrypt _ _ _ _); cbn [bind] in EE; try discriminate EE.
      destruct (key32 (s_local s)); cbn [bind] in EE; try discriminate EE.
      destruct (key32 (s_remote s)); cbn [bind] in EE; try discriminate EE.
      destruct (s_pending s) as [pp|]; [destruct (key_unser (pp_base pp)); cbn [bind] in EE; try discriminate EE|];
        injection EE as _ _ <-; reflexivity.
    + inversion HK; congruence.
  - destruct (receive C w rid dev ty b rnd) as [r l] eqn:ER. cbn [snd]. destruct ty; cbn [receive] in ER.
    + destruct (LoadWhisperMessage b) as [m| |]; [|injection ER as <- <-; exact HP..].
      unfold SessionDecryptWhisperMessage in ER. destruct (sc_decrypt C (LoadSession w rid dev) m rnd) as [o r'] eqn:ES.
      destruct o; injection ER as <- <-; try exact HP. cbn [apply_effs fold_left apply_eff StoreSession].
      unfold LoadSession in ES. destruct (w_sess w rid dev) as [[s ps]|] eqn:E.
      * pose proof (pinned_key w rid dev HP _ _ E) as HK. destruct (w_ids w rid) as [k|] eqn:EI.
        -- apply (pinned_store w rid dev k); auto. apply (sc_decrypt_key k) in ES; auto.
        -- exfalso. exact (no_sender_no_text (mkSr s ps false) _ _ _ _ HK ES).
      * exfalso. apply no_sender_no_text in ES; [exact ES|]. constructor; [reflexivity|constructor].
    + destruct (LoadPreKeyWhisperMessage b) as [m| |]; [|injection ER as <- <-; exact HP..].
      unfold SessionDecryptPreKeyWhisperMessage in ER.
      destruct (BuildReceiverSession C w rid (LoadSession w rid dev) m) as [o l0] eqn:EB.
      assert (HB : (o = Err ENotTrusted \/ (exists e, o = Err e) \/ o = Panic) /\ l0 = [] \/
                   IsTrustedIdentity w rid (pk_ident m) = true /\ exists id r1, o = Ok (id, r1) /\ rec_key (pk_ident m) r1 /\
                     (l0 = [] /\ r1 = LoadSession w rid dev /\ id = 0 \/ l0 = [ESaveIdentity rid (pk_ident m)])).
      { unfold BuildReceiverSession in EB. destruct (negb _); [injection EB as <- <-; left; eauto|].
        destruct (IsTrustedIdentity w rid (pk_ident m)) eqn:ET; cbn [negb] in EB; [|injection EB as <- <-; left; eauto].
        pose proof (trusted_key w rid (pk_ident m) dev HP ET) as HK.
        destruct (hasSessionState _ _ _).
        - injection EB as <- <-. right. split; [reflexivity|]. exists 0, (LoadSession w rid dev). auto 10.
        - cbv zeta in EB.
          match type of EB with match ?e with _ => _ end = _ => destruct e as [v| |] eqn:EV end;
            injection EB as <- <-; [right|left; eauto..].
          split; [reflexivity|]. destruct v as [id r1]. exists id, r1. split; [reflexivity|]. split; [|now right].
          destruct (of_option ENotFound (w_spk w (pk_spkid m))) as [spk| |]; cbn [bind] in EV; try discriminate EV.
          destruct (load_kp spk) as [[x y]| |]; cbn [bind] in EV; try discriminate EV.
          match type of EV with bind ?e _ = _ => destruct e as [otk| |] end; cbn [bind] in EV; try discriminate EV.
          injection EV as <- <-. pose proof (archive_key _ _ HK) as HA. constructor; [right; reflexivity|].
          inversion HA; assumption. }
      destruct HB as [[HB ->]|(HT & id & r1 & -> & HK & HL)].
      { assert (l = []); [|subst l; exact HP].
        destruct HB as [->|[[e ->]| ->]]; injection ER as <- <-; reflexivity. }
      destruct (sc_decrypt C r1 (pk_msg m) rnd) as [o1 r'] eqn:ES. pose proof ES as ES0.
      apply (sc_decrypt_key (pk_ident m)) in ES; auto.
      destruct HL as [(-> & -> & ->)| ->].
      * destruct o1; injection ER as <- <-; try exact HP. cbn [app apply_effs fold_left apply_eff].
        change (0 =? 16777215) with false. cbv iota. cbn [app fold_left apply_eff StoreSession].
        apply (pinned_store _ rid dev (pk_ident m)); [now apply pinned_remove| |exact ES]. cbn [set_pre w_ids].
        unfold IsTrustedIdentity in HT. rewrite (proj1 HP) in HT. cbn [orb] in HT.
        destruct (w_ids w rid) as [k|] eqn:EI; [apply beq_eq in HT; congruence|exfalso].
        unfold LoadSession in ES0. destruct (w_sess w rid dev) as [[s ps]|] eqn:E.
        -- pose proof (pinned_key w rid dev HP _ _ E) as HN. rewrite EI in HN. exact (no_sender_no_text (mkSr s ps false) _ _ _ _ HN ES0).
        -- apply no_sender_no_text in ES0; [exact ES0|]. constructor; [reflexivity|constructor].
      * assert (HP1 : well_named (set_id w rid (Some (pk_ident m)))) by now apply pinned_save.
        destruct o1; injection ER as <- <-; cbn [app apply_effs fold_left apply_eff]; try exact HP1.
        destruct (id =? 16777215); cbn [app fold_left apply_eff StoreSession].
        -- apply (pinned_store _ rid dev (pk_ident m)); auto. cbn [set_id w_ids]. now rewrite beq_refl.
        -- apply (pinned_store _ rid dev (pk_ident m)); auto using pinned_remove. cbn [set_id set_pre w_ids]. now rewrite beq_refl.
  - destruct (BuildSenderSession C w rid dev bu rbase rr) as [r l] eqn:EB. cbn [snd]. unfold BuildSenderSession in EB.
    destruct (IsTrustedIdentity w rid (b_ident bu)) eqn:ET; cbn [negb] in EB; [|injection EB as <- <-; exact HP].
    destruct (b_spk bu) as [spk|]; [|injection EB as <- <-; exact HP].
    destruct (negb _); [injection EB as <- <-; exact HP|]. cbv zeta in EB. injection EB as <- <-.
    cbn [apply_effs fold_left apply_eff]. apply pinned_store_save; auto.
    pose proof (archive_key _ _ (trusted_key w rid (b_ident bu) dev HP ET)) as HA.
    constructor; [right; reflexivity|]. inversion HA; assumption.
Qed.
End Pin.

(* no call was cut off *)
Definition no_crash (evs : list nevent) (n : nat) : Prop := forall e, In (n, e) evs -> exists c, e = Done c.

Lemma nrun_pinned C n : forall evs W, no_crash evs n -> well_named (W n) -> well_named (nrun C W evs n).
Proof.
  induction evs as [|[m e] evs IH]; intros W HN HP; [exact HP|].
  change (nrun C W ((m, e) :: evs) n) with (nrun C (nstep C W (m, e)) evs n). apply IH; [intros x Hx; apply HN; now right|].
  unfold nstep. cbn [fst snd]. destruct (Nat.eqb_spec n m) as [->|]; [|exact HP].
  destruct (HN e (or_introl eq_refl)) as [c ->]. cbn [estep]. pose proof (pinned_call C (W m) c HP) as H.
  destruct (perform_call C (W m) c) as [[okk out] l]. exact H.
Qed.
Lemma nrun_kept C n rid k : forall evs W, w_trust_all (W n) = false -> w_ids (W n) rid = Some k ->
  w_ids (nrun C W evs n) rid = Some k.
Proof.
  induction evs as [|[m e] evs IH]; intros W HT HI; [exact HI|].
  change (nrun C W ((m, e) :: evs) n) with (nrun C (nstep C W (m, e)) evs n).
  unfold nstep at 1. destruct (Nat.eqb_spec n m) as [->|Hn].
  - pose proof (pinned_history C rid k [e] (W m) (conj HT HI)) as H. cbn [history] in H.
    apply IH; unfold nstep; cbn [fst snd]; rewrite Nat.eqb_refl; destruct (estep C (W m) e); apply H.
  - apply IH; unfold nstep; cbn [fst snd]; destruct (Nat.eqb_spec n m); congruence.
Qed.

(* C187. A client that does not trust every key and was never cut off within a call: what it reports as
   from a name came in a session with the identity key saved for that name, which stays saved; if that
   is the key of a client, that client sent it (as in C185). *)
Theorem C187_named : forall C, crypto_ok C -> forall priv, (forall k x, priv k = Some x -> basepub C x = k) ->
  forall W evs, start_ok C priv W -> (forall n e, In (n, e) evs -> known_keys C priv e) ->
  forall k n rid dev ty b pt s, w_trust_all (W n) = false -> no_crash evs n -> takes C W evs k n rid dev ty b pt s ->
  (forall k', (k < k')%nat -> w_ids (before C W evs k' n) rid = Some (s_remote s)) /\
  forall id, w_ids (nrun C W evs n) rid = Some id -> honest priv id = true ->
  exists a p i wh body, whisper_of ty b = Some wh /\ wh = body ++ aeval C priv (a_tag a p i id (snd (w_ident (W n))) body) /\
    forall leak, mild C W evs leak -> ~ leak (APriv id) ->
    aknows (honest priv) leak (sent_before C priv W evs k) (a_tag a p i id (snd (w_ident (W n))) body) ->
    exists k' n' rid' dev' b', (k' < k)%nat /\ sends C W evs k' n' rid' dev' pt b' /\ carries b' wh /\
      snd (w_ident (W n')) = id.
Proof.
  intros C OK priv PO W evs SO KK k n rid dev ty b pt s HT HC HK.
  assert (HW : well_named (W n)). { split; [exact HT|]. intros r d c ps E. rewrite (so_sess _ _ _ SO) in E. discriminate E. }
  assert (HB : forall j, well_named (before C W evs j n)).
  { intros j. apply nrun_pinned; [|exact HW]. intros e He. apply HC. eapply in_firstn; exact He. }
  assert (HS : forall k', (k < k')%nat -> w_ids (before C W evs k' n) rid = Some (s_remote s)).
  { pose proof HK as (rnd & l & ps & H1 & H2 & H3).
    assert (EB : before C W evs (S k) n = apply_effs (before C W evs k n) l).
    { unfold before, nrun. rewrite (firstn_S_nth _ _ _ H1), fold_left_app. cbn [fold_left]. unfold nstep at 1. cbn [fst snd].
      rewrite Nat.eqb_refl. cbn [estep perform_call]. change (fold_left (nstep C) (firstn k evs) W n) with (before C W evs k n). now rewrite H2. }
    assert (E1 : w_ids (before C W evs (S k) n) rid = Some (s_remote s)).
    { destruct (HB (S k)) as [_ HP]. rewrite EB in HP |- *. specialize (HP _ _ _ _ H3). inversion HP as [|? ? [H4|H4] _]; subst; [exfalso|exact H4].
      destruct (before_ok C OK priv PO W evs SO KK k n) as [HN HI].
      pose proof (KK _ _ (nth_error_In _ _ H1)) as HKK. unfold known_keys in HKK. cbn [ecall] in HKK.
      apply (receive_at C OK priv PO (base_key C evs) (signed_key W)) in H2; auto. destruct H2 as [_ H2].
      destruct (H2 pt eq_refl) as (wh & m & s1 & ps1 & _ & _ & (a & p & q & i & HA & _) & H5).
      rewrite H3 in H5. injection H5 as <- <-. destruct (sa_sender _ _ _ _ _ _ _ _ HA) as (x & j & mks & _ & _ & H6). congruence. }
    intros k' Hk. replace k' with (S k + (k' - S k))%nat by lia. generalize (k' - S k)%nat as d. intros d.
    unfold before in *. rewrite firstn_plus. unfold nrun. rewrite fold_left_app. apply nrun_kept; [|exact E1].
    apply (HB (S k)). }
  split; [exact HS|]. intros id HI HH.
  assert (id = s_remote s).
  { destruct (Nat.lt_ge_cases k (length evs)) as [Hl|Hl].
    - specialize (HS (length evs) Hl). unfold before in HS. rewrite firstn_all in HS. rewrite HS in HI. now injection HI.
    - destruct HK as (rnd & l & ps & H1 & _). apply nth_error_None in Hl. exfalso. pose proof (eq_trans (eq_sym Hl) H1) as HX. discriminate HX. }
  subst id.
  destruct (C185_authentic C OK priv PO W evs SO KK _ _ _ _ _ _ _ _ HK HH) as (a & p & i & wh & body & H1 & H2 & H3).
  exists a, p, i, wh, body. split; [exact H1|]. split; [exact H2|]. intros leak HM HL HA.
  destruct (H3 leak HM HL HA) as (k' & n' & rid' & dev' & b' & G1 & G2 & G3 & G4 & _). exists k', n', rid', dev', b'. auto.
Qed.
Print Assumptions C187_named.

(* ------------------------------------------------------------------------------------------ *)
(* Examples: A, B and C. The server gives A the prekeys of B, or those of C under the name of B. *)
Definition ex_own (ident spk reg : Z) : world :=
  mkWorld (ex_kp ident) reg false (fun _ _ => None) (fun _ => None) (fun i => if i =? 1 then Some (ex_kp spk) else None) (fun _ => None).
(* client 0 is A, client 1 is B, all others are devices of C *)
Definition ex_W (n : nat) : world :=
  match n with 0%nat => ex_own 11 34 1001 | 1%nat => ex_worldB | _ => ex_own 23 35 1003 end.
Definition ex_bundle (ident spk pkid : Z) (pk : option bytes) : bundle :=
  mkBundle 5 1 pkid pk 1 (Some (snd (ex_kp spk))) (ex_sign (snd (ex_kp ident)) (key_ser (snd (ex_kp spk)))) (snd (ex_kp ident)).
Definition pub (n : Z) : bytes := snd (ex_kp n).
Definition priv_of (l : list Z) (k : bytes) : option bytes :=
  match find (fun n => beq (pub n) k) l with Some n => Some (ex_priv n) | None => None end.
Lemma priv_of_ok l k x : priv_of l k = Some x -> basepub toy x = k.
Proof.
  unfold priv_of. destruct (find _ l) as [n|] eqn:E; [|discriminate]. intros H. injection H as <-.
  apply find_some in E. destruct E as [_ E]. apply beq_eq in E. exact E.
Qed.
Definition mineb (l : list Z) (x : bytes) : bool := match priv_of l (basepub toy x) with Some y => beq y x | None => false end.
Lemma mineb_ok l x : mineb l x = true -> mine toy (priv_of l) x.
Proof.
  unfold mineb, mine. destruct (priv_of l (basepub toy x)) as [y|]; [|discriminate]. intros H. apply beq_eq in H. congruence.
Qed.
Lemma ex_start l : forallb (fun n => mineb l (ex_priv n)) [11; 22; 23; 33; 34; 35; 55; 66] = true ->
  start_ok toy (priv_of l) ex_W.
Proof.
  intros H. rewrite forallb_forall in H. assert (HM : forall n, In n [11; 22; 23; 33; 34; 35; 55; 66] -> mine toy (priv_of l) (ex_priv n)).
  { intros n Hn. apply mineb_ok, H, Hn. }
  constructor.
  - intros [|[|n]]; (split; [apply HM; cbn [In]; tauto|reflexivity]).
  - intros [|[|n]] id kp; cbn [ex_W ex_own ex_worldB w_spk]; destruct (id =? 1); intros E; try discriminate E;
      injection E as <-; (split; [apply HM; cbn [In]; tauto|reflexivity]).
  - intros [|[|n]] id kp; cbn [ex_W ex_own ex_worldB w_pre]; try (intros E; discriminate E).
    destruct (id =? 5); [|destruct (id =? 6)]; intros E; try discriminate E;
      injection E as <-; (split; [apply HM; cbn [In]; tauto|reflexivity]).
  - intros [|[|n]] rid dev; reflexivity.
Qed.
Definition ex_rnd (n : Z) : nat -> bytes := fun _ => rb n.
Definition ex_m1 : bytes :=
  [51; 8; 5; 18; 33; 5; 136; 183; 183; 183; 0; 0; 0; 0; 0; 0; 0; 0; 0; 0; 0; 0; 0; 0; 0; 0; 0; 0; 0; 0; 0; 0; 0;
   0; 0; 0; 0; 0; 26; 33; 5; 72; 99; 99; 99; 0; 0; 0; 0; 0; 0; 0; 0; 0; 0; 0; 0; 0; 0; 0; 0; 0; 0; 0; 0; 0; 0; 0;
   0; 0; 0; 0; 0; 34; 66; 51; 10; 33; 5; 24; 27; 27; 27; 0; 0; 0; 0; 0; 0; 0; 0; 0; 0; 0; 0; 0; 0; 0; 0; 0; 0; 0;
   0; 0; 0; 0; 0; 0; 0; 0; 0; 16; 0; 24; 0; 34; 16; 129; 216; 34; 172; 193; 62; 80; 181; 52; 143; 143; 236; 122;
   240; 218; 216; 197; 140; 62; 236; 79; 23; 38; 178; 40; 233; 7; 48; 1].
Definition ex_m2 : bytes :=
  [51; 10; 33; 5; 96; 144; 144; 144; 0; 0; 0; 0; 0; 0; 0; 0; 0; 0; 0; 0; 0; 0; 0; 0; 0; 0; 0; 0; 0; 0; 0; 0; 0;
   0; 0; 0; 16; 0; 24; 0; 34; 16; 95; 46; 198; 153; 48; 231; 236; 89; 188; 16; 225; 138; 89; 233; 198; 204; 0;
   48; 141; 144; 95; 233; 65; 206].
(* A begins a session with B and sends; B takes it and answers; C is given a key of nobody for B *)
Definition ex_evs : list nevent :=
  [(0%nat, Done (CBuild nb 1 (ex_bundle 22 33 5 (Some (pub 55))) (rb 77) (rb 88)));
   (2%nat, Done (CBuild nb 1 (ex_bundle 50 51 0 None) (rb 79) (rb 89)));
   (0%nat, Done (CEnc nb 1 [1; 2]));
   (1%nat, Done (CRecv na 1 PREKEY_BUNDLE ex_m1 (ex_rnd 101)));
   (1%nat, Done (CEnc na 1 [3]));
   (0%nat, Done (CRecv nb 1 CIPHERTEXT ex_m2 (ex_rnd 102)))].
Definition ex_keys : list Z := [11; 22; 23; 33; 34; 35; 55; 66; 77; 88; 79; 89; 101; 102].
Lemma ex_known_evs n e : In (n, e) ex_evs -> known_keys toy (priv_of ex_keys) e.
Proof.
  cbn [ex_evs In]. intros H.
  repeat match type of H with _ \/ _ => destruct H as [H|H] end; try (exfalso; exact H); injection H as <- <-; cbn [known_keys ecall].
  - split; apply mineb_ok; vm_compute; reflexivity.
  - split; apply mineb_ok; vm_compute; reflexivity.
  - split; [apply wfbb_ok; reflexivity|vm_compute; reflexivity].
  - intros i. apply mineb_ok. vm_compute. reflexivity.
  - split; [apply wfbb_ok; reflexivity|vm_compute; reflexivity].
  - intros i. apply mineb_ok. vm_compute. reflexivity.
Qed.
Lemma ex_starts : start_ok toy (priv_of ex_keys) ex_W.
Proof. apply ex_start. vm_compute. reflexivity. Qed.

(* a check that a message is taken, for computation *)
Definition taken_with W evs k n rid dev ty b rnd pt rem : bool :=
  match receive toy (before toy W evs k n) rid dev ty b rnd with
  | (Ok x, l) => beq x pt && match w_sess (apply_effs (before toy W evs k n) l) rid dev with Some (s, _) => beq (s_remote s) rem | None => false end
  | _ => false
  end.
Lemma taken_with_ok W evs k n rid dev ty b rnd pt rem : nth_error evs k = Some (n, Done (CRecv rid dev ty b rnd)) ->
  taken_with W evs k n rid dev ty b rnd pt rem = true -> exists s, takes toy W evs k n rid dev ty b pt s /\ s_remote s = rem.
Proof.
  intros H. unfold taken_with. destruct (receive toy _ _ _ _ _ _) as [[x| |] l] eqn:E; try (intros X; discriminate X).
  intros HB. apply andb_true_iff in HB. destruct HB as [H1 H2]. apply beq_eq in H1. subst x.
  destruct (w_sess _ rid dev) as [[s ps]|] eqn:E2; [|discriminate H2]. apply beq_eq in H2. exists s. split; [|exact H2].
  exists rnd, l, ps. auto.
Qed.

Example C184_example :
  (exists e, describes toy (priv_of ex_keys) (base_key toy ex_evs) (signed_key ex_W) (before toy ex_W ex_evs 2 0%nat) nb 1 [1; 2] ex_m1 e) /\
  sends toy ex_W ex_evs 2 0%nat nb 1 [1; 2] ex_m1 /\
  (exists s, takes toy ex_W ex_evs 3 1%nat na 1 PREKEY_BUNDLE ex_m1 [1; 2] s /\ s_remote s = pub 11) /\
  sends toy ex_W ex_evs 4 1%nat na 1 [3] ex_m2 /\
  (exists s, takes toy ex_W ex_evs 5 0%nat nb 1 CIPHERTEXT ex_m2 [3] s /\ s_remote s = pub 22).
Proof.
  assert (H : sends toy ex_W ex_evs 2 0%nat nb 1 [1; 2] ex_m1).
  { split; [reflexivity|]. exists PREKEY_BUNDLE. eexists. vm_compute. reflexivity. }
  split; [|split; [exact H|split; [|split]]].
  - exact (C184_sent toy toy_ok (priv_of ex_keys) (priv_of_ok ex_keys) ex_W ex_evs ex_starts ex_known_evs _ _ _ _ _ _ H).
  - apply (taken_with_ok _ _ _ _ _ _ _ _ (ex_rnd 101)); [reflexivity|vm_compute; reflexivity].
  - split; [reflexivity|]. exists CIPHERTEXT. eexists. vm_compute. reflexivity.
  - apply (taken_with_ok _ _ _ _ _ _ _ _ (ex_rnd 102)); [reflexivity|vm_compute; reflexivity].
Qed.

(* The tag on the first message, as a term; it is known because A sent it, and although B has lost its
   identity key and the one-time prekey, C could not have made it. *)
Definition ex_ag : agreement := mkAg (pub 11) (pub 77) (pub 22) (pub 33) (Some (pub 55)).
Definition ex_wh : bytes := Eval vm_compute in match whisper_of PREKEY_BUNDLE ex_m1 with Some w => w | None => [] end.
Definition ex_body : bytes := Eval vm_compute in firstn (length ex_wh - 8) ex_wh.
Definition ex_leak (t : aterm) : Prop := t = APriv (pub 22) \/ t = APriv (pub 55).
Lemma priv_inj a b : APriv a = APriv b -> a = b.
Proof. intros H. now injection H. Qed.
Lemma build_inj a b c d e a' b' c' d' e' : CBuild a b c d e = CBuild a' b' c' d' e' -> d' = d.
Proof. intros H. now injection H. Qed.
Lemma pub_ne a b : beq (pub a) (pub b) = false -> pub a <> pub b.
Proof. intros H E. rewrite E, beq_refl in H. discriminate H. Qed.
Example C185_example :
  whisper_of PREKEY_BUNDLE ex_m1 = Some ex_wh /\
  ex_wh = ex_body ++ aeval toy (priv_of ex_keys) (a_tag ex_ag [pub 88] 0 (pub 11) (pub 22) ex_body) /\
  honest (priv_of ex_keys) (pub 11) = true /\ mild toy ex_W ex_evs ex_leak /\ ~ ex_leak (APriv (pub 11)) /\
  aknows (honest (priv_of ex_keys)) ex_leak (sent_before toy (priv_of ex_keys) ex_W ex_evs 3)
    (a_tag ex_ag [pub 88] 0 (pub 11) (pub 22) ex_body) /\
  ~ aknows (honest (priv_of ex_keys)) ex_leak (fun _ => False) (a_tag ex_ag [pub 88] 0 (pub 11) (pub 22) ex_body).
Proof.
  assert (HM : mild toy ex_W ex_evs ex_leak).
  { split; [intros t [->| ->]; eauto|]. split.
    - intros k (n & e & rid & dev & bu & rbase & rr & H1 & H2 & H3) HL. cbn [ex_evs In] in H1.
      repeat match type of H1 with _ \/ _ => destruct H1 as [H1|H1] end; try (exfalso; exact H1); injection H1 as <- <-;
        cbn [ecall] in H2; try discriminate H2; apply build_inj in H2; subst rbase k;
        destruct HL as [HL|HL]; apply priv_inj in HL; revert HL; [apply (pub_ne 77 22)|apply (pub_ne 77 55)|apply (pub_ne 79 22)|apply (pub_ne 79 55)];
        vm_compute; reflexivity.
    - intros k (n & id & kp & H1 & <-) HL.
      assert (HK : kp = ex_kp 33 \/ kp = ex_kp 34 \/ kp = ex_kp 35).
      { destruct n as [|[|n]]; cbn [ex_W ex_own ex_worldB w_spk] in H1; destruct (id =? 1); try discriminate H1; injection H1 as <-; tauto. }
      destruct HK as [->|[->| ->]]; destruct HL as [HL|HL]; apply priv_inj in HL; revert HL;
        [apply (pub_ne 33 22)|apply (pub_ne 33 55)|apply (pub_ne 34 22)|apply (pub_ne 34 55)|apply (pub_ne 35 22)|apply (pub_ne 35 55)];
        vm_compute; reflexivity. }
  assert (HL : ~ ex_leak (APriv (pub 11))).
  { intros [H|H]; apply priv_inj in H; revert H; [apply (pub_ne 11 22)|apply (pub_ne 11 55)]; vm_compute; reflexivity. }
  assert (HB : ex_wh = ex_body ++ aeval toy (priv_of ex_keys) (a_tag ex_ag [pub 88] 0 (pub 11) (pub 22) ex_body)) by (vm_compute; reflexivity).
  split; [vm_compute; reflexivity|]. split; [exact HB|]. split; [vm_compute; reflexivity|]. split; [exact HM|]. split; [exact HL|]. split.
  - apply (ak_tag _ _ _ (mkEm ex_ag [pub 88] 0 (pub 11) (pub 22) ex_body [1; 2])).
    exists 2%nat, 0%nat, nb, 1, [1; 2], ex_m1. split; [lia|]. split; [apply C184_example|].
    unfold describes. unfold tag_of. cbn [em_ag em_path em_idx em_from em_to em_body em_text]. rewrite <- HB.
    destruct (w_sess (before toy ex_W ex_evs 2 0%nat) nb 1) as [[s ps]|] eqn:ES.
    2:{ exfalso. revert ES. vm_compute. intros X. discriminate X. }
    assert (ER : s_remote s = pub 22).
    { assert (X : match w_sess (before toy ex_W ex_evs 2 0%nat) nb 1 with Some (s, _) => s_remote s | None => [] end = pub 22)
        by (vm_compute; reflexivity). rewrite ES in X. exact X. }
    exists s, ps. rewrite ER. split; [reflexivity|]. split.
    { left. split; [vm_compute; reflexivity|]. split; [reflexivity|].
      exists 0%nat, (Done (CBuild nb 1 (ex_bundle 22 33 5 (Some (pub 55))) (rb 77) (rb 88))), nb, 1,
        (ex_bundle 22 33 5 (Some (pub 55))), (rb 77), (rb 88). split; [now left|]. split; reflexivity. }
    split; [vm_compute; reflexivity|]. split; [reflexivity|]. split; [reflexivity|]. split; [vm_compute; reflexivity|]. split; [vm_compute; reflexivity|].
    split; [right; exists 51, 1001, 5, 1, (pub 77), (pub 11); vm_compute; reflexivity|].
    eexists. split; [vm_compute; reflexivity|vm_compute; reflexivity].
  - intros H. apply tag_exact in H. destruct H as [H|(e & H & _)]; [|exact H].
    apply only_mk in H; [|exact (proj1 HM)]. revert H.
    apply (mild_role toy (priv_of ex_keys) ex_W ex_evs ex_leak (pub 22) (pub 11) ex_ag ex_starts ex_known_evs HM); [vm_compute; reflexivity|exact HL|].
    right. split; [reflexivity|]. split; [reflexivity|]. exists 1%nat, 1, (ex_kp 33). split; reflexivity.
Qed.

(* C185 stops at the signed prekeys: who has got hold of B's signed prekey (and of nothing else) makes B
   take a message of A that A never sent. *)
Definition ex_forged : list nevent := [(1%nat, Done (CRecv na 1 PREKEY_BUNDLE ex_m1 (ex_rnd 101)))].
Definition ex_keys' : list Z := [11; 22; 23; 33; 34; 35; 55; 66; 101].
Theorem C185_signed_prekey_lost_refuted : exists priv W evs k n rid dev ty b pt s a p i wh body leak spk,
  (forall k x, priv k = Some x -> basepub toy x = k) /\ start_ok toy priv W /\ (forall n e, In (n, e) evs -> known_keys toy priv e) /\
  takes toy W evs k n rid dev ty b pt s /\ honest priv (s_remote s) = true /\ s_remote s <> snd (w_ident (W n)) /\
  whisper_of ty b = Some wh /\ wh = body ++ aeval toy priv (a_tag a p i (s_remote s) (snd (w_ident (W n))) body) /\
  signed_key W spk /\ (forall t, leak t <-> t = APriv spk) /\ spk <> s_remote s /\
  (forall k' n' rid' dev' pt' b', ~ sends toy W evs k' n' rid' dev' pt' b') /\
  aknows (honest priv) leak (sent_before toy priv W evs k) (a_tag a p i (s_remote s) (snd (w_ident (W n))) body).
Proof.
  destruct (taken_with_ok ex_W ex_forged 0 1%nat na 1 PREKEY_BUNDLE ex_m1 (ex_rnd 101) [1; 2] (pub 11)) as (s & HT & HR);
    [reflexivity|vm_compute; reflexivity|].
  exists (priv_of ex_keys'), ex_W, ex_forged, 0%nat, 1%nat, na, 1, PREKEY_BUNDLE, ex_m1, [1; 2], s, ex_ag, [pub 88], 0%nat, ex_wh, ex_body,
    (fun t => t = APriv (pub 33)), (pub 33). rewrite HR.
  split; [apply priv_of_ok|]. split; [apply ex_start; vm_compute; reflexivity|]. split.
  { intros n e [H|[]]. injection H as <- <-. intros i. apply mineb_ok. vm_compute. reflexivity. }
  split; [exact HT|]. split; [vm_compute; reflexivity|]. split; [apply (pub_ne 11 22); vm_compute; reflexivity|].
  split; [vm_compute; reflexivity|]. split; [vm_compute; reflexivity|]. split; [exists 1%nat, 1, (ex_kp 33); split; reflexivity|].
  split; [intros t; split; intros H; exact H|]. split; [apply (pub_ne 33 11); vm_compute; reflexivity|]. split.
  { intros k' n' rid' dev' pt' b' [H _]. destruct k' as [|[|k']]; discriminate H. }
  apply tag_exact. left. right. right.
  assert (HB : bad (honest (priv_of ex_keys')) (fun t => t = APriv (pub 33)) (pub 33)) by (right; reflexivity).
  assert (H77 : bad (honest (priv_of ex_keys')) (fun t => t = APriv (pub 33)) (pub 77)) by (left; vm_compute; reflexivity).
  split; [left; exact HB|]. right. split; [left; exact HB|]. split; [right; exact H77|]. split; [left; exact HB|right; exact H77].
Qed.
Print Assumptions C185_signed_prekey_lost_refuted.

Example C186_example :
  sends toy ex_W ex_evs 2 0%nat nb 1 [1; 2] ex_m1 /\ honest (priv_of ex_keys) (pub 22) = true /\ mild toy ex_W ex_evs (fun _ => False) /\
  (* and with the bundle of a key of nobody the text would be readable *)
  honest (priv_of ex_keys) (pub 50) = false /\
  exists s ps, w_sess (before toy ex_W ex_evs 6 2%nat) nb 1 = Some (s, ps) /\ s_remote s = pub 50.
Proof.
  split; [apply C184_example|]. split; [vm_compute; reflexivity|].
  split; [split; [intros t []|split; intros k _ []]|]. split; [vm_compute; reflexivity|].
  destruct (w_sess (before toy ex_W ex_evs 6 2%nat) nb 1) as [[s ps]|] eqn:ES.
  2:{ exfalso. revert ES. vm_compute. intros X. discriminate X. }
  exists s, ps. split; [reflexivity|].
  assert (X : match w_sess (before toy ex_W ex_evs 6 2%nat) nb 1 with Some (s, _) => s_remote s | None => [] end = pub 50)
    by (vm_compute; reflexivity). rewrite ES in X. exact X.
Qed.

Example C187_example :
  w_trust_all (ex_W 0%nat) = false /\ no_crash ex_evs 0%nat /\ no_crash ex_evs 1%nat /\
  w_ids (nrun toy ex_W ex_evs 0%nat) nb = Some (pub 22) /\ w_ids (nrun toy ex_W ex_evs 1%nat) na = Some (pub 11).
Proof.
  split; [reflexivity|]. split; [|split; [|split; vm_compute; reflexivity]].
  - intros e H. cbn [ex_evs In] in H.
    repeat match type of H with _ \/ _ => destruct H as [H|H] end; try (exfalso; exact H); try discriminate H; injection H as <-; eauto.
  - intros e H. cbn [ex_evs In] in H.
    repeat match type of H with _ \/ _ => destruct H as [H|H] end; try (exfalso; exact H); try discriminate H; injection H as <-; eauto.
Qed.

(* Without no_crash it is false: the process is stopped after the session was written and before the
   identity key is. The session stays, another key is saved for the name later, and what comes in the
   old session is still reported under the name; answers then go to the owner of the old key. *)
Definition ex_k1 : bytes :=
  [51; 8; 0; 18; 33; 5; 136; 183; 183; 183; 0; 0; 0; 0; 0; 0; 0; 0; 0; 0; 0; 0; 0; 0; 0; 0; 0; 0; 0; 0; 0; 0; 0;
   0; 0; 0; 0; 0; 26; 33; 5; 72; 99; 99; 99; 0; 0; 0; 0; 0; 0; 0; 0; 0; 0; 0; 0; 0; 0; 0; 0; 0; 0; 0; 0; 0; 0; 0;
   0; 0; 0; 0; 0; 34; 66; 51; 10; 33; 5; 24; 27; 27; 27; 0; 0; 0; 0; 0; 0; 0; 0; 0; 0; 0; 0; 0; 0; 0; 0; 0; 0; 0;
   0; 0; 0; 0; 0; 0; 0; 0; 0; 16; 0; 24; 0; 34; 16; 178; 23; 130; 107; 76; 84; 27; 15; 142; 64; 196; 37; 159;
   157; 61; 106; 248; 204; 172; 225; 238; 219; 12; 178; 40; 233; 7; 48; 1].
Definition ex_k2 : bytes :=
  [51; 10; 33; 5; 96; 144; 144; 144; 0; 0; 0; 0; 0; 0; 0; 0; 0; 0; 0; 0; 0; 0; 0; 0; 0; 0; 0; 0; 0; 0; 0; 0; 0;
   0; 0; 0; 16; 0; 24; 0; 34; 16; 103; 48; 142; 96; 132; 5; 191; 125; 222; 74; 32; 106; 38; 223; 177; 136; 228;
   179; 0; 41; 132; 211; 137; 82].
Definition ex_cut : list nevent :=
  [(0%nat, Crash (CBuild nb 1 (ex_bundle 23 35 0 None) (rb 77) (rb 88)) 1);
   (0%nat, Done (CEnc nb 1 [1]));
   (2%nat, Done (CRecv na 1 PREKEY_BUNDLE ex_k1 (ex_rnd 101)));
   (2%nat, Done (CEnc na 1 [3]));
   (0%nat, Done (CBuild nb 1 (ex_bundle 22 33 5 (Some (pub 55))) (rb 79) (rb 89)));
   (0%nat, Done (CRecv nb 1 CIPHERTEXT ex_k2 (ex_rnd 102)))].
Theorem C187_cut_off_refuted : exists priv W evs k n rid dev ty b pt s id,
  (forall k x, priv k = Some x -> basepub toy x = k) /\ start_ok toy priv W /\ (forall n e, In (n, e) evs -> known_keys toy priv e) /\
  w_trust_all (W n) = false /\ takes toy W evs k n rid dev ty b pt s /\
  w_ids (before toy W evs k n) rid = Some id /\ w_ids (nrun toy W evs n) rid = Some id /\ s_remote s <> id /\
  exists s' ps, w_sess (nrun toy W evs n) rid dev = Some (s', ps) /\ s_remote s' <> id.
Proof.
  destruct (taken_with_ok ex_W ex_cut 5 0%nat nb 1 CIPHERTEXT ex_k2 (ex_rnd 102) [3] (pub 23)) as (s & HT & HR);
    [reflexivity|vm_compute; reflexivity|].
  exists (priv_of ex_keys), ex_W, ex_cut, 5%nat, 0%nat, nb, 1, CIPHERTEXT, ex_k2, [3], s, (pub 22). rewrite HR.
  split; [apply priv_of_ok|]. split; [apply ex_starts|]. split.
  { intros n e H. cbn [ex_cut In] in H.
    repeat match type of H with _ \/ _ => destruct H as [H|H] end; try (exfalso; exact H); injection H as <- <-; cbn [known_keys ecall].
    - split; apply mineb_ok; vm_compute; reflexivity.
    - split; [apply wfbb_ok; reflexivity|vm_compute; reflexivity].
    - intros i. apply mineb_ok. vm_compute. reflexivity.
    - split; [apply wfbb_ok; reflexivity|vm_compute; reflexivity].
    - split; apply mineb_ok; vm_compute; reflexivity.
    - intros i. apply mineb_ok. vm_compute. reflexivity. }
  split; [reflexivity|]. split; [exact HT|]. split; [vm_compute; reflexivity|]. split; [vm_compute; reflexivity|].
  split; [apply (pub_ne 23 22); vm_compute; reflexivity|].
  destruct (w_sess (nrun toy ex_W ex_cut 0%nat) nb 1) as [[s' ps]|] eqn:ES.
  2:{ exfalso. revert ES. vm_compute. intros X. discriminate X. }
  exists s', ps. split; [reflexivity|].
  assert (X : match w_sess (nrun toy ex_W ex_cut 0%nat) nb 1 with Some (s, _) => s_remote s | None => [] end = pub 23)
    by (vm_compute; reflexivity). rewrite ES in X. rewrite X. apply (pub_ne 23 22). vm_compute. reflexivity.
Qed.
Print Assumptions C187_cut_off_refuted.
