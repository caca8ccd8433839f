(* A recipient with several devices and a server that knows them: what is assumed of them, and what
   sending then comes to. *)
From Coq Require Import ZArith List Lia Bool Permutation.
From Verif Require Import Bytes Res Wire WireProofs Crypto Cbc CbcProofs Messages MessagesProofs Session Builder SessionProofs
  SessionFacts HistoryProofs Conversation ConversationProofs Content ContentProofs Encodings PropEncodings Sending SendingProofs InTouch PropSending.
Import ListNotations.
Open Scope Z_scope.

(* the recipient: the devices they have now, what is stored on each, their public identity key, the name
   and device under which they know the sender, and the randomness each device uses on receiving *)
Record receiver := mkReceiver { rv_devs : list Z; rv_w : Z -> world; rv_ident : bytes;
  rv_src : bytes; rv_sdev : Z; rv_rnd : Z -> nat -> bytes }.

Section D.
Variable C : crypto.
Variable V : server.
Variable rnd : nat -> bytes.       (* the sender's randomness *)
Variable R : receiver.
Variable uuid recid : bytes.

(* the reply of the server for a device: its identity key, registration id, a signed prekey it holds and
   possibly a one-time prekey it holds *)
Definition offers (d : Z) (rp : pkreply) : Prop := exists spk spkid otk sig,
  let w := rv_w R d in
  w_spk w spkid = Some (spk, basepub C spk) /\ 0 < spkid < 2 ^ 31 /\ length spk = 32%nat /\
  sigok C (rv_ident R) (key_ser (basepub C spk)) sig = true /\ wfb sig /\ length sig = 64%nat /\
  match otk with
  | None => True
  | Some (id, k) => 0 < id < 2 ^ 32 /\ length k = 32%nat /\ w_pre w id = Some (k, basepub C k)
  end /\
  basepub C spk <> basepub C (clamp (rv_rnd R d 0%nat)) /\ (forall i, basepub C spk <> basepub C (clamp (rnd i))) /\
  rp = PkResp (encodeKey (rv_ident R))
    [mkPkdev d (w_reg w) (Some (spkid, encodeKey (basepub C spk), Base64EncWithoutPadding sig))
       (match otk with Some (id, k) => Some (id, encodeKey (basepub C k)) | None => None end)].
(* and an error for a device that does not exist *)
Definition keys_served : Prop := forall s d,
  (In d (rv_devs R) -> offers d (fst (sv_prekeys V s uuid d))) /\
  (~ In d (rv_devs R) -> exists e, fst (sv_prekeys V s uuid d) = PkErr e).

(* a request is accepted only if it has one message for each device, with the device's registration id *)
Definition suits (q : request) : Prop :=
  Permutation (map j_dev (q_msgs q)) (rv_devs R) /\
  forall j, In j (q_msgs q) -> j_reg j = w_reg (rv_w R (j_dev j)).
Definition careful : Prop := forall s q status m e x ns, q_dest q = uuid ->
  fst (sv_put V s q) = PutStatus status m e x ns -> status <> 409 -> status <> 410 -> isError status = false -> suits q.

(* the answer, to a request that addresses no device twice, of a server that names what is wrong *)
Definition mem (d : Z) (l : list Z) : bool := existsb (Z.eqb d) l.
Definition missing_of (q : request) : list Z := filter (fun d => negb (mem d (map j_dev (q_msgs q)))) (rv_devs R).
Definition extra_of (q : request) : list Z := filter (fun d => negb (mem d (rv_devs R))) (map j_dev (q_msgs q)).
Definition stale_of (q : request) : list Z :=
  map j_dev (filter (fun j => negb (j_reg j =? w_reg (rv_w R (j_dev j)))) (q_msgs q)).
Definition verdict (q : request) (needsSync : bool) : putreply :=
  match missing_of q, extra_of q with
  | [], [] =>
      match stale_of q with
      | [] => PutStatus 200 [] [] [] needsSync
      | l => PutStatus 410 [] [] l false
      end
  | m, e => PutStatus 409 m e [] false
  end.
Definition helpful : Prop := forall s q, q_dest q = uuid -> NoDup (map j_dev (q_msgs q)) -> exists ns, fst (sv_put V s q) = verdict q ns.

(* the devices and the sender fit together *)
Record acquainted (w : world) : Prop := {
  aq_nodup : NoDup (rv_devs R);
  aq_self : snd (w_ident w) = basepub C (fst (w_ident w)) /\ length (fst (w_ident w)) = 32%nat /\ 0 <= w_reg w < 2 ^ 32;
  aq_trust : IsTrustedIdentity w recid (rv_ident R) = true;
  aq_rnd : forall i, length (rnd i) = 32%nat;
  aq_dev : forall d, In d (rv_devs R) ->
    snd (w_ident (rv_w R d)) = rv_ident R /\ rv_ident R = basepub C (fst (w_ident (rv_w R d))) /\
    length (fst (w_ident (rv_w R d))) = 32%nat /\ 0 <= w_reg (rv_w R d) < 2 ^ 32 /\
    IsTrustedIdentity (rv_w R d) (rv_src R) (snd (w_ident w)) = true /\
    length (rv_rnd R d 0%nat) = 32%nat /\
    forall i, basepub C (clamp (rnd i)) <> basepub C (clamp (rv_rnd R d 0%nat)) /\
      hasSessionState (LoadSession (rv_w R d) (rv_src R) (rv_sdev R)) 3 (key_ser (basepub C (clamp (rnd i)))) = false }.

(* where the sender has a session for the registration a device has now, the device understands it *)
Definition current (n : nat) (w : world) (pt : bytes) : Prop := forall d c p, In d (rv_devs R) ->
  w_sess w recid d = Some (c, p) -> s_rreg c = w_reg (rv_w R d) ->
  understood C n w recid d pt (rv_w R d) (rv_src R) (rv_sdev R) (rv_rnd R d).
(* device d opens a message of a request *)
Definition opens (j : jmsg) (pt : bytes) : Prop := exists b l, dec64 (j_content j) = Ok b /\
  receive C (rv_w R (j_dev j)) (rv_src R) (rv_sdev R) (j_type j) b (rv_rnd R (j_dev j)) = (Ok pt, l).

(* ------------------------------------------------------------------------------------------ *)
Hypothesis OK : crypto_ok C.
Hypothesis KS : keys_served.

Record same_self (w w' : world) : Prop := {
  ss_id : w_ident w' = w_ident w; ss_rg : w_reg w' = w_reg w }.

Lemma acquainted_keeps w w' : acquainted w -> w_ident w' = w_ident w -> w_reg w' = w_reg w ->
  IsTrustedIdentity w' recid (rv_ident R) = true -> acquainted w'.
Proof.
  intros [A1 A2 A3 A4 A5] E1 E2 E3. constructor; auto; [now rewrite E1, E2|]. intros d H. rewrite E1. now apply A5.
Qed.

(* the session built from the reply *)
Lemma built st d pt n : acquainted (cs_w V st) -> In d (rv_devs R) -> w_sess (cs_w V st) recid d = None ->
  wfb pt -> zlen pt < 2 ^ 60 -> (n <= 2001)%nat ->
  exists st' s p, ensure_session C V rnd st uuid recid d = (Ok tt, st') /\
    cs_w V st' = apply_effs (cs_w V st) [EStoreSession recid d s p; ESaveIdentity recid (rv_ident R)] /\
    s_rreg s = w_reg (rv_w R d) /\ usable s /\ acquainted (cs_w V st') /\
    cs_devs V st' = cs_devs V st /\
    understood C n (cs_w V st') recid d pt (rv_w R d) (rv_src R) (rv_sdev R) (rv_rnd R d).
Proof.
  intros A D E W Z N. destruct (KS (cs_srv V st) d) as [O _]. specialize (O D).
  destruct O as (spk & spkid & otk & sig & O). cbv zeta in O.
  destruct O as (O1 & O2 & O3 & O4 & O5 & O6 & O7 & O8 & O9 & O10).
  pose proof (aq_dev _ A d D) as (B1 & B2 & B3 & B4 & B5 & B6 & B7).
  destruct (aq_self _ A) as (S1 & S2 & S3).
  set (rb := rnd (cs_rnd V st)). set (rr := rnd (S (cs_rnd V st))).
  set (su := mkSetup (fun x => match x with SA => (recid, d) | SB => (rv_src R, rv_sdev R) end)
               (fun x => match x with SA => cs_w V st | SB => rv_w R d end) spk spkid
               (match otk with Some (_, k) => Some k | None => None end)
               (match otk with Some (id, _) => id | None => 0 end) sig rb rr).
  assert (SO : setup_ok C su).
  { constructor.
    - intros []; unfold idpub, idpriv; cbn [su st_w]; [split; [exact S1|exact S2]|]. rewrite B1. split; [exact B2|exact B3].
    - intros []; cbn [su st_w]; assumption.
    - intros []; unfold idpub; cbn [su st_w st_peer other fst snd]; [rewrite B1; apply (aq_trust _ A)|exact B5].
    - exact O1.
    - exact O2.
    - exact O3.
    - cbn [su st_otk st_pkid st_w]. destruct otk as [[id k]|]; [exact O7|reflexivity].
    - unfold idpub. cbn [su st_w st_spk st_sig]. rewrite B1. exact O4.
    - cbn [su st_rbase st_rratchet]. unfold rb, rr. split; apply (aq_rnd _ A).
    - unfold base_pub. cbn [su st_w st_peer st_rbase fst snd]. unfold rb. apply B7. }
  destruct (new_in_touch C OK su SO n pt (rv_rnd R d) W Z B6 N) as (l & BS & U).
  { cbn [su st_spk st_rratchet]. unfold rr. constructor.
    - intros [H|[H|[]]]; [exact (O9 _ (eq_sym H))|exact (O8 (eq_sym H))].
    - constructor; [|constructor; [intros []|constructor]]. intros [H|[]]. destruct (B7 (S (cs_rnd V st))) as [B8 _]. exact (B8 (eq_sym H)). }
  assert (PB : fst (sv_prekeys V (cs_srv V st) uuid d) = published C su).
  { rewrite O10. unfold published, idpub. cbn [su st_w st_peer st_spk st_spkid st_otk st_pkid st_sig fst snd]. rewrite B1.
    destruct otk as [[id k]|]; reflexivity. }
  pose proof (published_bundle C OK su SO O5 O6) as HB.
  cbn [su st_w st_peer st_rbase st_rratchet fst snd] in BS, U. fold su in BS.
  set (w1 := apply_effs (cs_w V st) l) in *.
  set (st' := mkCs V w1 (cs_devs V st) (cs_rnd V st + 2) (snd (sv_prekeys V (cs_srv V st) uuid d))
     (cs_log V st ++ [EvFetch uuid d (published C su)])).
  assert (EN : ensure_session C V rnd st uuid recid d = (Ok tt, st')).
  { unfold ensure_session. rewrite E. unfold makePreKeyBundle. unfold st'.
    destruct (sv_prekeys V (cs_srv V st) uuid d) as [rp s1] eqn:EP. cbn [fst snd] in PB |- *. subst rp.
    rewrite HB. cbn [cs_w cs_devs cs_rnd cs_srv cs_log].
    change (b_dev (the_bundle C su)) with d. fold rb. fold rr. rewrite BS. reflexivity. }
  pose proof (build_sender_inv C _ _ _ _ _ _ _ _ BS) as [(_ & NO & _)|(s & p & _ & EL & _ & US)]; [exfalso; exact (NO eq_refl)|].
  assert (EI : b_ident (the_bundle C su) = rv_ident R) by exact B1.
  rewrite EI in EL.
  assert (RG : s_rreg s = w_reg (rv_w R d)).
  { rewrite EL in BS. unfold BuildSenderSession in BS. rewrite EI in BS. rewrite (aq_trust _ A) in BS. cbn [negb] in BS.
    change (b_spk (the_bundle C su)) with (Some (basepub C spk)) in BS.
    change (b_sig (the_bundle C su)) with sig in BS. cbv beta iota zeta in BS. rewrite O4 in BS. cbn [negb] in BS.
    match type of BS with (_, [EStoreSession _ _ ?a _; _]) = _ => assert (HS : s = a) by congruence end.
    rewrite HS. reflexivity. }
  exists st', s, p. split; [exact EN|]. split; [unfold st', w1; cbn [cs_w]; now rewrite EL|]. split; [exact RG|].
  split; [apply US; [exact OK|rewrite S1; apply (basepub_length C OK)|rewrite EI, B2; apply (basepub_length C OK)]|].
  split; [|split; [reflexivity|exact U]].
  unfold st', w1. cbn [cs_w]. rewrite EL. apply (acquainted_keeps (cs_w V st)); [exact A|reflexivity|reflexivity|].
  unfold IsTrustedIdentity. cbn [apply_effs fold_left apply_eff set_sess set_id w_ids w_trust_all].
  rewrite !beq_refl. apply orb_true_r.
Qed.

Lemma sess_other w d d' c p : d' <> d -> w_sess (set_sess w recid d (Some (c, p))) recid d' = w_sess w recid d'.
Proof. intros H. cbn. rewrite beq_refl. cbn [andb]. destruct (Z.eqb_spec d' d); [contradiction|]. reflexivity. Qed.

(* every session of the sender with the recipient can encrypt *)
Definition all_usable (w : world) : Prop := forall d c p, w_sess w recid d = Some (c, p) -> usable c.
(* every session with a device is for its present registration *)
Definition all_current (w : world) : Prop := forall d c p, In d (rv_devs R) -> w_sess w recid d = Some (c, p) ->
  s_rreg c = w_reg (rv_w R d).

Lemma encrypt_rreg w d pt b ty l c p : w_sess w recid d = Some (c, p) ->
  SessionEncryptMessage C w recid d pt = (Ok (b, ty), l) ->
  exists s', l = [EStoreSession recid d s' p] /\ s_rreg s' = s_rreg c.
Proof.
  intros E. unfold SessionEncryptMessage, LoadSession. rewrite E. cbn [r_cur r_prevs].
  destruct (ss_encrypt C c pt) as [[[m t] s']|e|] eqn:S; [|congruence|congruence].
  intros H. exists s'. split; [congruence|]. apply ss_encrypt_inv in S.
  destruct S as (sc & ck & ct & _ & _ & _ & _ & _ & _ & -> & _). reflexivity.
Qed.

(* one device *)
Lemma one_device n pt d st st1 j st2 : acquainted (cs_w V st) -> current (S n) (cs_w V st) pt ->
  wfb pt -> zlen pt < 2 ^ 60 -> (S n <= 2001)%nat ->
  ensure_session C V rnd st uuid recid d = (Ok tt, st1) -> device_message C V st1 recid pt d = (Ok j, st2) ->
  acquainted (cs_w V st2) /\ current n (cs_w V st2) pt /\ j_dev j = d /\ cs_devs V st2 = cs_devs V st /\
  (all_usable (cs_w V st) -> all_usable (cs_w V st2)) /\
  (In d (rv_devs R) -> j_reg j = w_reg (rv_w R d) -> opens j pt) /\
  (all_current (cs_w V st) -> all_current (cs_w V st2) /\ (In d (rv_devs R) -> j_reg j = w_reg (rv_w R d))) /\
  (exists c p, w_sess (cs_w V st2) recid d = Some (c, p) /\ s_rreg c = j_reg j) /\
  (forall d', d' <> d -> w_sess (cs_w V st2) recid d' = w_sess (cs_w V st) recid d').
Proof.
  intros A CU W Z N E1 E2.
  (* after making sure there is a session *)
  assert (M : acquainted (cs_w V st1) /\ current (S n) (cs_w V st1) pt /\ cs_devs V st1 = cs_devs V st /\
     (all_usable (cs_w V st) -> all_usable (cs_w V st1)) /\ (all_current (cs_w V st) -> all_current (cs_w V st1)) /\
     (forall d', d' <> d -> w_sess (cs_w V st1) recid d' = w_sess (cs_w V st) recid d')).
  { destruct (w_sess (cs_w V st) recid d) as [[c p]|] eqn:ES.
    { unfold ensure_session in E1. rewrite ES in E1. injection E1 as <-. split; [exact A|]. split; [exact CU|]. split; [reflexivity|]. split; [auto|]. split; [auto|]. reflexivity. }
    destruct (in_dec Z.eq_dec d (rv_devs R)) as [D|D].
    2:{ exfalso. destruct (KS (cs_srv V st) d) as [_ X]. destruct (X D) as (e & X').
        unfold ensure_session in E1. rewrite ES in E1. unfold makePreKeyBundle in E1.
        destruct (sv_prekeys V (cs_srv V st) uuid d) as [rp s1]. cbn [fst] in X'. subst rp. cbn [bundle_of] in E1. discriminate. }
    destruct (built st d pt (S n) A D ES W Z N) as (st' & s & p & B1 & B2 & B3 & B4 & B5 & B6 & B7).
    rewrite E1 in B1. injection B1 as ->. split; [exact B5|]. 
    assert (SD : w_sess (cs_w V st') recid d = Some (s, p)).
    { rewrite B2. cbn [apply_effs fold_left apply_eff set_id w_sess]. apply set_sess_same. }
    assert (SX : forall d', d' <> d -> w_sess (cs_w V st') recid d' = w_sess (cs_w V st) recid d').
    { intros d' H. rewrite B2. exact (sess_other _ _ _ _ _ H). }
    split; [|split; [exact B6|split; [|split; [|exact SX]]]].
    - intros d' c p' D' H HR. destruct (Z.eq_dec d' d) as [->|Q]; [exact B7|].
      rewrite SX in H by exact Q. apply (understood_local C (S n) (cs_w V st)); [symmetry; apply SX; exact Q|].
      exact (CU d' c p' D' H HR).
    - intros U d' c p' H. destruct (Z.eq_dec d' d) as [->|Q]; [rewrite SD in H; injection H as <- <-; exact B4|].
      rewrite SX in H by exact Q. exact (U _ _ _ H).
    - intros U d' c p' D' H. destruct (Z.eq_dec d' d) as [->|Q]; [rewrite SD in H; injection H as <- <-; exact B3|].
      rewrite SX in H by exact Q. exact (U _ _ _ D' H). }
  destruct M as (M1 & M2 & M3 & M4 & M5 & M6).
  unfold device_message in E2.
  destruct (SessionEncryptMessage C (cs_w V st1) recid d pt) as [r l] eqn:SE.
  destruct r as [[b ty]|e|]; [|discriminate|discriminate].
  injection E2 as <- <-. cbn [j_dev j_reg set_w cs_w cs_devs].
  pose proof (encrypt_inv C _ _ _ _ _ _ SE) as [(_ & NO)|(m & ty' & c & p & s' & _ & WS & EL & _ & US & _)]; [exfalso; exact (NO _ eq_refl)|].
  destruct (encrypt_rreg _ _ _ _ _ _ _ _ WS SE) as (s'' & EL' & RR).
  assert (s'' = s') as -> by congruence. clear EL'.
  assert (SD : w_sess (apply_effs (cs_w V st1) l) recid d = Some (s', p)).
  { rewrite EL. cbn [apply_effs fold_left apply_eff]. apply set_sess_same. }
  assert (SX : forall d', d' <> d -> w_sess (apply_effs (cs_w V st1) l) recid d' = w_sess (cs_w V st1) recid d').
  { intros d' H. rewrite EL. exact (sess_other _ _ _ _ _ H). }
  assert (RG : s_rreg (r_cur (LoadSession (apply_effs (cs_w V st1) l) recid d)) = s_rreg c).
  { unfold LoadSession. rewrite SD. exact RR. }
  split.
  { apply (acquainted_keeps (cs_w V st1)); [exact M1|rewrite EL; reflexivity|rewrite EL; reflexivity|].
    rewrite EL. exact (aq_trust _ M1). }
  split.
  { intros d' c' p' D' H HR. destruct (Z.eq_dec d' d) as [->|Q].
    - rewrite SD in H. injection H as <- <-. rewrite RR in HR.
      pose proof (M2 d c p D' WS HR) as U. cbn [understood] in U. destruct U as (b0 & ty0 & l0 & U1 & _ & _ & U4).
      rewrite SE in U1. assert (l = l0) as -> by congruence. exact U4.
    - rewrite SX in H by exact Q.
      apply (understood_fewer C (S n)); [lia|].
      apply (understood_local C (S n) (cs_w V st1)); [symmetry; apply SX; exact Q|]. exact (M2 d' c' p' D' H HR). }
  split; [reflexivity|]. split; [exact M3|].
  split.
  { intros U d' c' p' H. destruct (Z.eq_dec d' d) as [->|Q]; [rewrite SD in H; injection H as <- <-; exact (US OK)|].
    rewrite SX in H by exact Q. exact (M4 U _ _ _ H). }
  split.
  { intros D HR. rewrite RG in HR. pose proof (M2 d c p D WS HR) as U. cbn [understood] in U.
    destruct U as (b0 & ty0 & l0 & U1 & U2 & (l' & U3) & _). rewrite SE in U1.
    assert (b0 = b) as -> by congruence. assert (ty0 = ty) as -> by congruence.
    exists b, l'. cbn [j_content j_dev j_type]. split; [apply dec64_enc64, U2|exact U3]. }
  split.
  { intros U. specialize (M5 U). split.
    - intros d' c' p' D' H. destruct (Z.eq_dec d' d) as [->|Q]; [rewrite SD in H; injection H as <- <-; rewrite RR; exact (M5 _ _ _ D' WS)|].
      rewrite SX in H by exact Q. exact (M5 _ _ _ D' H).
    - intros D. rewrite RG. exact (M5 _ _ _ D WS). }
  split.
  - exists s', p. split; [exact SD|]. rewrite RG. exact RR.
  - intros d' Q. rewrite SX by exact Q. exact (M6 d' Q).
Qed.

(* all devices of a list *)
Lemma all_devices pt (W : wfb pt) (Z : zlen pt < 2 ^ 60) devs : forall n st js st', (length devs <= n)%nat -> (n <= 2001)%nat ->
  acquainted (cs_w V st) -> current n (cs_w V st) pt ->
  build_devices C V rnd uuid recid pt devs st = (Ok js, st') ->
  acquainted (cs_w V st') /\ current (n - length devs) (cs_w V st') pt /\ map j_dev js = devs /\ cs_devs V st' = cs_devs V st /\
  (all_usable (cs_w V st) -> all_usable (cs_w V st')) /\
  (forall j, In j js -> In (j_dev j) (rv_devs R) -> j_reg j = w_reg (rv_w R (j_dev j)) -> opens j pt) /\
  (all_current (cs_w V st) -> all_current (cs_w V st') /\
     forall j, In j js -> In (j_dev j) (rv_devs R) -> j_reg j = w_reg (rv_w R (j_dev j))) /\
  (NoDup devs -> forall j, In j js -> exists c p, w_sess (cs_w V st') recid (j_dev j) = Some (c, p) /\ s_rreg c = j_reg j) /\
  (forall d, ~ In d devs -> w_sess (cs_w V st') recid d = w_sess (cs_w V st) recid d).
Proof.
  induction devs as [|d devs IH]; intros n st js st' L N A CU; cbn [build_devices].
  { intros H. injection H as <- <-. cbn [length map]. rewrite Nat.sub_0_r. split; [exact A|]. split; [exact CU|].
    split; [reflexivity|]. split; [reflexivity|]. split; [auto|]. split; [intros j []|].
    split; [intros U; split; [exact U|intros j []]|]. split; [intros _ j []|reflexivity]. }
  cbn [length] in L. destruct n as [|n]; [lia|].
  destruct (ensure_session C V rnd st uuid recid d) as [r1 st1] eqn:E1. destruct r1 as [[]|e|]; [|discriminate|discriminate].
  destruct (device_message C V st1 recid pt d) as [r2 st2] eqn:E2. destruct r2 as [j|e|]; [|discriminate|discriminate].
  destruct (one_device n pt d st st1 j st2 A CU W Z N E1 E2) as (A2 & C2 & J1 & DV & U2 & P2 & Q2 & R2 & X2).
  destruct (build_devices C V rnd uuid recid pt devs st2) as [r3 st3] eqn:E3. destruct r3 as [js'|e|]; [|discriminate|discriminate].
  intros H. injection H as <- <-.
  destruct (IH n st2 js' st3 ltac:(lia) ltac:(lia) A2 C2 E3) as (A3 & C3 & J3 & D3 & U3 & P3 & Q3 & R3 & X3).
  split; [exact A3|]. split; [cbn [length]; replace (S n - S (length devs))%nat with (n - length devs)%nat by lia; exact C3|].
  split; [cbn [map]; congruence|]. split; [congruence|]. split; [auto|]. split.
  - intros j' [<-|I']; [rewrite J1; intros D HR; apply P2; assumption|]. now apply P3.
  - split; [|split].
    + intros U. destruct (Q2 U) as (Q4 & Q5). destruct (Q3 Q4) as (Q6 & Q7). split; [exact Q6|].
      intros j' [<-|I']; [rewrite J1; exact Q5|]. now apply Q7.
    + intros ND. inversion ND as [|? ? N1 N2]; subst. intros j' [<-|I']; [|exact (R3 N2 j' I')].
      rewrite X3 by exact N1. exact R2.
    + intros d' H. rewrite X3 by (intros I'; apply H; now right). apply X2. intros ->. apply H. now left.
Qed.

(* building does not fail *)
Lemma builds pt (W : wfb pt) (Z : zlen pt < 2 ^ 60) devs : forall n st, (length devs <= n)%nat -> (n <= 2001)%nat ->
  acquainted (cs_w V st) -> current n (cs_w V st) pt -> all_usable (cs_w V st) ->
  (forall d, In d devs -> In d (rv_devs R) \/ exists v, w_sess (cs_w V st) recid d = Some v) ->
  exists js st', build_devices C V rnd uuid recid pt devs st = (Ok js, st').
Proof.
  induction devs as [|d devs IH]; intros n st L N A CU US HD; cbn [build_devices]; [eexists _, _; reflexivity|].
  cbn [length] in L. destruct n as [|n]; [lia|].
  assert (E : exists st1, ensure_session C V rnd st uuid recid d = (Ok tt, st1) /\
     all_usable (cs_w V st1) /\ (exists c p, w_sess (cs_w V st1) recid d = Some (c, p)) /\
     forall d', d' <> d -> w_sess (cs_w V st1) recid d' = w_sess (cs_w V st) recid d').
  { destruct (w_sess (cs_w V st) recid d) as [[c p]|] eqn:ES.
    { exists st. unfold ensure_session. rewrite ES. split; [reflexivity|]. split; [exact US|]. split; [eauto|reflexivity]. }
    destruct (HD d (or_introl eq_refl)) as [D|(v & X)]; [|congruence].
    destruct (built st d pt (S n) A D ES W Z N) as (st' & s & p & B1 & B2 & B3 & B4 & B5 & B6 & B7).
    exists st'. split; [exact B1|].
    assert (SD : w_sess (cs_w V st') recid d = Some (s, p)).
    { rewrite B2. cbn [apply_effs fold_left apply_eff set_id w_sess]. apply set_sess_same. }
    assert (SX : forall d', d' <> d -> w_sess (cs_w V st') recid d' = w_sess (cs_w V st) recid d').
    { intros d' H. rewrite B2. exact (sess_other _ _ _ _ _ H). }
    split; [|split; [eauto|exact SX]].
    intros d' c p' H. destruct (Z.eq_dec d' d) as [->|Q]; [rewrite SD in H; injection H as <- <-; exact B4|].
    rewrite SX in H by exact Q. exact (US _ _ _ H). }
  destruct E as (st1 & E1 & U1 & (c & p & S1) & X1). rewrite E1.
  destruct (encrypt_usable C OK (cs_w V st1) recid d pt c p S1 (U1 _ _ _ S1)) as (m & ty & l & SE).
  assert (E2 : exists j st2, device_message C V st1 recid pt d = (Ok j, st2) /\ cs_w V st2 = apply_effs (cs_w V st1) l).
  { unfold device_message. rewrite SE. eexists _, _. split; reflexivity. }
  destruct E2 as (j & st2 & E2 & W2). rewrite E2.
  destruct (one_device n pt d st st1 j st2 A CU W Z N E1 E2) as (A2 & C2 & J1 & DV & U2 & P2 & Q2 & R2 & X2).
  destruct (IH n st2 ltac:(lia) ltac:(lia) A2 C2 (U2 US)) as (js & st3 & E3).
  { intros d' I'. destruct (HD d' (or_intror I')) as [D|(v & X)]; [left; exact D|right].
    destruct (encrypt_rreg _ _ _ _ _ _ _ _ S1 SE) as (s' & -> & _). rewrite W2.
    destruct (Z.eq_dec d' d) as [->|Q].
    - eexists. cbn [apply_effs fold_left apply_eff]. apply set_sess_same.
    - exists v. rewrite <- X, <- (X1 d' Q). exact (sess_other _ _ _ _ _ Q). }
  rewrite E3. eexists _, _. reflexivity.
Qed.

(* deleting sessions *)
Lemma delete_sess l : forall w d, w_sess (delete_sessions w recid l) recid d = (if mem d l then None else w_sess w recid d).
Proof.
  unfold delete_sessions. induction l as [|x l IH]; intros w d; [reflexivity|]. cbn [fold_left]. rewrite IH.
  change (mem d (x :: l)) with ((d =? x) || mem d l). destruct (mem d l); [now rewrite orb_true_r|]. rewrite orb_false_r.
  unfold set_sess. cbn [w_sess]. rewrite beq_refl. cbn [andb]. reflexivity.
Qed.
Lemma delete_self l : forall w, w_ident (delete_sessions w recid l) = w_ident w /\ w_reg (delete_sessions w recid l) = w_reg w /\
  w_ids (delete_sessions w recid l) = w_ids w /\ w_trust_all (delete_sessions w recid l) = w_trust_all w.
Proof.
  unfold delete_sessions. induction l as [|x l IH]; intros w; [auto|]. cbn [fold_left]. destruct (IH (set_sess w recid x None)) as (-> & -> & -> & ->). auto.
Qed.
Lemma delete_acquainted l w : acquainted w -> acquainted (delete_sessions w recid l).
Proof.
  intros A. destruct (delete_self l w) as (E1 & E2 & E3 & E4). apply (acquainted_keeps w _ A E1 E2).
  unfold IsTrustedIdentity. rewrite E3, E4. exact (aq_trust _ A).
Qed.
Lemma delete_current l n w pt : current n w pt -> current n (delete_sessions w recid l) pt.
Proof.
  intros H d c p D S HR. pose proof (delete_sess l w d) as E. rewrite E in S. destruct (mem d l) eqn:M; [discriminate|].
  apply (understood_local C n w); [symmetry; exact E|]. exact (H d c p D S HR).
Qed.
Lemma delete_usable l w : all_usable w -> all_usable (delete_sessions w recid l).
Proof. intros H d c p S. rewrite delete_sess in S. destruct (mem d l); [discriminate|]. exact (H _ _ _ S). Qed.
End D.
