(* C05, C06, C07, C10, C13, C14, C16, C17: single API calls on arbitrary stores and messages *)
From Coq Require Import ZArith List Lia Bool.
From Verif Require Import Bytes Res Wire WireProofs Crypto Cbc CbcProofs Messages MessagesProofs Session
  Builder SessionProofs SessionFacts Conversation Examples.
Import ListNotations.
Open Scope Z_scope.

(* ------------------------------------------------------------------ C05 *)
Theorem C05_rejected_message_changes_nothing : forall C w rid dev b rnd r l,
  receive C w rid dev CIPHERTEXT b rnd = (r, l) -> (forall pt, r <> Ok pt) -> apply_effs w l = w.
Proof.
  intros C w rid dev b rnd r l. unfold receive, SessionDecryptWhisperMessage.
  destruct (LoadWhisperMessage b) as [m|e|].
  - destruct (sc_decrypt C (LoadSession w rid dev) m rnd) as [[pt|e|] r'];
      intros H; injection H as <- <-; intros Hn; [exfalso; now apply (Hn pt)|reflexivity|reflexivity].
  - intros H; injection H as <- <-; reflexivity.
  - intros H; injection H as <- <-; reflexivity.
Qed.
Print Assumptions C05_rejected_message_changes_nothing.

(* An accepted ordinary message touches only the session it belongs to. *)
Theorem C05_accepted_message_frame : forall C w rid dev b rnd r l,
  receive C w rid dev CIPHERTEXT b rnd = (r, l) ->
  let w' := apply_effs w l in
  (forall id, w_pre w' id = w_pre w id) /\ (forall id, w_spk w' id = w_spk w id) /\
  (forall p, w_ids w' p = w_ids w p) /\ w_ident w' = w_ident w /\
  (forall p d, p <> rid \/ d <> dev -> w_sess w' p d = w_sess w p d).
Proof.
  intros C w rid dev b rnd r l. unfold receive, SessionDecryptWhisperMessage.
  destruct (LoadWhisperMessage b) as [m|e|].
  - destruct (sc_decrypt C (LoadSession w rid dev) m rnd) as [[pt|e|] r'];
      intros H; injection H as <- <-; cbn [apply_effs fold_left apply_eff StoreSession]; repeat split; auto.
    intros p d Hd. cbn [set_sess w_sess].
    destruct (beq p rid) eqn:B; cbn [andb]; auto. apply beq_eq in B.
    destruct (Z.eqb_spec d dev); [tauto|reflexivity].
  - intros H; injection H as <- <-; cbn; repeat split; auto.
  - intros H; injection H as <- <-; cbn; repeat split; auto.
Qed.
Print Assumptions C05_accepted_message_frame.

(* ------------------------------------------------------------------ C06 *)
(* Refuted: anybody can make a prekey message naming an existing signed prekey; the identity it
   claims is stored before the message is authenticated. *)
Definition mallory_first : bytes :=
  pk_ser (newPreKeyWhisperMessage 3 7 5 1 (basepub toy (ex_priv 40)) (basepub toy (ex_priv 41))
    (newWhisperMessage toy 3 (zeros 32) (basepub toy (ex_priv 42)) 0 0 (zeros 16) (zeros 32) (zeros 32))).
Definition w_after_mallory : world :=
  apply_effs ex_worldB (snd (receive toy ex_worldB na 1 PREKEY_BUNDLE mallory_first (fun _ => rb 9))).

Theorem C06_rejected_prekey_message_sets_identity_refuted :
  exists C w rid dev b rnd e l,
    crypto_ok C /\ receive C w rid dev PREKEY_BUNDLE b rnd = (Err e, l) /\
    w_ids w rid = None /\ w_ids (apply_effs w l) rid = Some (basepub C (ex_priv 41)).
Proof.
  exists toy, ex_worldB, na, 1, mallory_first, (fun _ => rb 9). do 2 eexists.
  split; [exact toy_ok|]. split; [vm_compute; reflexivity|]. split; vm_compute; reflexivity.
Qed.

(* the messages of a run of the two parties of ex_setup *)
Definition ex_first : bytes :=
  match nth_error (y_net (run toy ex_setup (start toy ex_setup) [Send SA [1; 2; 3]])) 0 with
  | Some (_, _, b) => b | None => [] end.

(* Consequence: the genuine first message, which would have been accepted, is then refused, and so is
   every further one. *)
Theorem C06_genuine_peer_locked_out_refuted :
  fst (receive toy ex_worldB na 1 PREKEY_BUNDLE ex_first (fun _ => rb 9)) = Ok [1; 2; 3] /\
  fst (receive toy w_after_mallory na 1 PREKEY_BUNDLE ex_first (fun _ => rb 9)) = Err ENotTrusted.
Proof. vm_compute. auto. Qed.

(* What does hold: an identity that is already stored survives every rejected prekey message, unless
   the configuration says to trust everybody. *)
Theorem C06_stored_identity_partial : forall C w rid dev b rnd r l k,
  receive C w rid dev PREKEY_BUNDLE b rnd = (r, l) -> (forall pt, r <> Ok pt) ->
  w_trust_all w = false -> w_ids w rid = Some k ->
  w_ids (apply_effs w l) rid = Some k.
Proof.
  intros C w rid dev b rnd r l k. unfold receive, SessionDecryptPreKeyWhisperMessage.
  destruct (LoadPreKeyWhisperMessage b) as [m|e|].
  2:{ intros H; injection H as <- <-. auto. }
  2:{ intros H; injection H as <- <-. auto. }
  intros H Hn Ht Hk. revert H. unfold BuildReceiverSession.
  destruct (negb (pk_version m =? currentVersion)). { intros H; injection H as <- <-. auto. }
  destruct (IsTrustedIdentity w rid (pk_ident m)) eqn:T; cbn [negb].
  2:{ intros H; injection H as <- <-. auto. }
  unfold IsTrustedIdentity in T. rewrite Ht, Hk in T. cbn [orb] in T. apply beq_eq in T.
  destruct (hasSessionState _ _ _).
  { destruct (sc_decrypt _ _ _ _) as [[pt|e|] r']; intros H; injection H as <- <-; auto; exfalso; now apply (Hn pt). }
  destruct (bind _ _) as [[pkid r1]|e|].
  2:{ intros H; injection H as <- <-. auto. }
  2:{ intros H; injection H as <- <-. auto. }
  destruct (sc_decrypt _ _ _ _) as [[pt|e|] r']; intros H; injection H as <- <-; try (exfalso; now apply (Hn pt));
    cbn [apply_effs fold_left apply_eff set_id w_ids]; rewrite beq_refl; congruence.
Qed.
Print Assumptions C06_stored_identity_partial.

(* ------------------------------------------------------------------ C07 *)
Lemma sc_decrypt_ok C r m rnd pt r' : sc_decrypt C r m rnd = (Ok pt, r') ->
  exists s i s', In s (r_cur r :: r_prevs r) /\ ss_decrypt C s m (rnd i) = (Ok pt, s').
Proof.
  unfold sc_decrypt. destruct (ss_decrypt C (r_cur r) m (rnd 0%nat)) as [[p|e|] s'] eqn:E.
  - intros H; injection H as <- <-. exists (r_cur r), 0%nat, s'. split; [now left|auto].
  - assert (G : forall l i p s2 l2, try_prevs C l m rnd i = (Ok (Some (p, s2)), l2) ->
       exists s j s3, In s l /\ ss_decrypt C s m (rnd j) = (Ok p, s3)).
    { induction l as [|s l IH]; intros i p s2 l2; cbn [try_prevs]; [congruence|].
      destruct (ss_decrypt C s m (rnd i)) as [[q|e'|] s3] eqn:E3.
      - intros H. injection H as <- <- <-. exists s, i, s3. split; [now left|auto].
      - destruct (try_prevs C l m rnd (S i)) as [q t'] eqn:E4. intros H. injection H as -> _.
        destruct (IH _ _ _ _ E4) as (s4 & j & s5 & Hin & Hd). exists s4, j, s5. split; [now right|auto].
      - discriminate. }
    destruct (try_prevs C (r_prevs r) m rnd 1) as [[[[p s2]|]|e2|] l] eqn:T; intros H; try discriminate.
    injection H as <- <-. destruct (G _ _ _ _ _ T) as (s & j & s3 & Hin & Hd).
    exists s, j, s3. split; [now right|auto].
  - discriminate.
Qed.

Lemma Load_ser b m : LoadWhisperMessage b = Ok m ->
  wm_ser m = b /\ wm_version m = 3 /\ 0 <= wm_counter m < 2 ^ 32 /\ 9 <= zlen b.
Proof.
  unfold LoadWhisperMessage. destruct (Z.ltb_spec (zlen b - 8) 1); [discriminate|].
  destruct (Z.eqb_spec (highBitsToInt (hd 0 b)) currentVersion) as [E|E]; cbn [negb]; [|discriminate].
  destruct (parse _) as [fs|]; [|discriminate].
  destruct (get_len 4 fs) as [ct|]; [|discriminate]. destruct (get_len 1 fs) as [rk|]; [|discriminate].
  intros H1. apply bind_ok in H1. destruct H1 as (k & _ & H1). injection H1 as <-.
  cbn [wm_ser wm_version wm_counter]. repeat split; auto; try lia.
  - destruct (get_varint 2 fs); [apply Z.mod_pos_bound|]; lia.
  - destruct (get_varint 2 fs); [apply Z.mod_pos_bound|]; lia.
Qed.

(* The state's own view of the key of a position (pos_key) and the plain description of the MAC
   (mac_valid) are in SessionFacts.v. *)
Theorem C07_state_accepts_only_valid_macs : forall C, crypto_ok C -> forall s b m rnd pt s',
  LoadWhisperMessage b = Ok m -> ss_decrypt C s m rnd = (Ok pt, s') ->
  exists mk, pos_key C s (wm_rkey m) (wm_counter m) = Some mk /\
             mac_valid C (mk_mac mk) (s_remote s) (s_local s) b.
Proof.
  intros C OK s b m rnd pt s' L H. destruct (Load_ser _ _ L) as (Lb & Lv & Lc & Ll).
  destruct (ss_decrypt_cases _ _ _ _ _ _ H) as [(_ & Hn & _)|(c & s1 & rc & G1 & F & Hc & _ & H1)].
  { exfalso. now apply (Hn pt). }
  destruct H1 as [(e & _ & H1 & _)|(mk & s2 & G2 & [(H1 & _)|(p & H1 & _ & _ & _ & V & _)])].
  - discriminate.
  - exfalso. now apply (H1 pt).
  - exists mk. split; [eapply pos_key_used; eauto; lia|].
    destruct (gocck_frame _ _ _ _ _ _ G1) as (E1 & E2 & _).
    destruct (gocmk_frame _ _ _ _ _ _ _ G2) as (E3 & E4 & _).
    unfold verifyMAC in V. apply beq_eq in V. rewrite Lb, Lv in V. cbn in V. unfold macLength in V.
    unfold mac_valid. rewrite E3, E1, E4, E2 in V. rewrite <- V.
    unfold ComputeTruncatedMAC. f_equal. f_equal. unfold key_ser. cbn [app]. rewrite <- !app_assoc. reflexivity.
Qed.

(* the bytes that carry the message, the states that may accept it *)
Definition carried (ty : mtype) (b inner : bytes) : Prop :=
  match ty with
  | CIPHERTEXT => inner = b
  | PREKEY_BUNDLE => exists fs, parse (tl b) = Some fs /\ get_len 4 fs = Some inner
  end.
Definition candidate (C : crypto) (w : world) (rid : bytes) (dev : Z) (ty : mtype) (b : bytes) (s : sstate) : Prop :=
  let r := LoadSession w rid dev in
  match ty with
  | CIPHERTEXT => In s (r_cur r :: r_prevs r)
  | PREKEY_BUNDLE => exists m pkid r1 l, LoadPreKeyWhisperMessage b = Ok m /\
      BuildReceiverSession C w rid r m = (Ok (pkid, r1), l) /\ In s (r_cur r1 :: r_prevs r1)
  end.

Theorem C07_accepted_message_has_valid_mac : forall C, crypto_ok C -> forall w rid dev ty b rnd pt l,
  receive C w rid dev ty b rnd = (Ok pt, l) ->
  exists inner m s mk,
    carried ty b inner /\ LoadWhisperMessage inner = Ok m /\ candidate C w rid dev ty b s /\
    pos_key C s (wm_rkey m) (wm_counter m) = Some mk /\
    mac_valid C (mk_mac mk) (s_remote s) (s_local s) inner.
Proof.
  intros C OK w rid dev ty b rnd pt l. destruct ty; unfold receive.
  - destruct (LoadWhisperMessage b) as [m|e|] eqn:L; [|discriminate|discriminate].
    unfold SessionDecryptWhisperMessage.
    destruct (sc_decrypt C (LoadSession w rid dev) m rnd) as [[p|e|] r'] eqn:D; try discriminate.
    intros H. injection H as -> _.
    destruct (sc_decrypt_ok _ _ _ _ _ _ D) as (s & i & s' & Hin & Hd).
    destruct (C07_state_accepts_only_valid_macs C OK _ _ _ _ _ _ L Hd) as (mk & H1 & H2).
    exists b, m, s, mk. repeat split; auto.
  - destruct (LoadPreKeyWhisperMessage b) as [m|e|] eqn:L; [|discriminate|discriminate].
    unfold SessionDecryptPreKeyWhisperMessage.
    destruct (BuildReceiverSession C w rid (LoadSession w rid dev) m) as [[[pkid r1]|e|] l1] eqn:B; try discriminate.
    destruct (sc_decrypt C r1 (pk_msg m) rnd) as [[p|e|] r'] eqn:D; try discriminate.
    intros H. injection H as -> _.
    assert (I : exists inner, carried PREKEY_BUNDLE b inner /\ LoadWhisperMessage inner = Ok (pk_msg m)).
    { unfold LoadPreKeyWhisperMessage in L. destruct b as [|b0 body]; [discriminate|].
      destruct (negb _); [discriminate|]. destruct (parse body) as [fs|] eqn:P; [|discriminate].
      destruct (get_len 2 fs) as [base|]; [|discriminate]. destruct (get_len 3 fs) as [ident|]; [|discriminate].
      destruct (get_len 4 fs) as [msg|] eqn:E4; [|discriminate]. destruct (_ =? 0); [discriminate|].
      apply bind_ok in L. destruct L as (wm & L1 & L). apply bind_ok in L. destruct L as (bk & _ & L).
      apply bind_ok in L. destruct L as (ik & _ & L). injection L as <-. cbn [pk_msg].
      exists msg. split; auto. exists fs. auto. }
    destruct I as (inner & I1 & I2).
    destruct (sc_decrypt_ok _ _ _ _ _ _ D) as (s & i & s' & Hin & Hd).
    destruct (C07_state_accepts_only_valid_macs C OK _ _ _ _ _ _ I2 Hd) as (mk & H1 & H2).
    exists inner, (pk_msg m), s, mk. repeat split; auto.
    exists m, pkid, r1, l1. auto.
Qed.
Print Assumptions C07_accepted_message_has_valid_mac.

(* Two different byte strings accepted by one state for one position differ in the authenticated part,
   and both tags are genuine under the one key of the position: the second string is a forgery
   whenever the sender made only the first. *)
Theorem C07_second_string_is_forgery : forall C, crypto_ok C ->
  forall s b1 b2 m1 m2 rnd1 rnd2 pt1 pt2 s1 s2,
  LoadWhisperMessage b1 = Ok m1 -> LoadWhisperMessage b2 = Ok m2 ->
  wm_rkey m1 = wm_rkey m2 -> wm_counter m1 = wm_counter m2 ->
  ss_decrypt C s m1 rnd1 = (Ok pt1, s1) -> ss_decrypt C s m2 rnd2 = (Ok pt2, s2) ->
  b1 <> b2 ->
  exists key, mac_valid C key (s_remote s) (s_local s) b1 /\ mac_valid C key (s_remote s) (s_local s) b2 /\
    firstn (length b1 - 8) b1 <> firstn (length b2 - 8) b2.
Proof.
  intros C OK s b1 b2 m1 m2 rnd1 rnd2 pt1 pt2 s1 s2 L1 L2 Er Ec D1 D2 Hne.
  destruct (C07_state_accepts_only_valid_macs C OK _ _ _ _ _ _ L1 D1) as (k1 & P1 & V1).
  destruct (C07_state_accepts_only_valid_macs C OK _ _ _ _ _ _ L2 D2) as (k2 & P2 & V2).
  rewrite Er, Ec, P2 in P1. injection P1 as <-. exists (mk_mac k2). split; auto. split; auto.
  intros E. apply Hne. unfold mac_valid in V1, V2.
  rewrite <- (firstn_skipn (length b1 - 8) b1), <- (firstn_skipn (length b2 - 8) b2), V1, V2, E. reflexivity.
Qed.
Print Assumptions C07_second_string_is_forgery.

(* an acceptance that meets the hypotheses *)
Example C07_example : exists l,
  receive toy ex_worldB na 1 PREKEY_BUNDLE ex_first (fun _ => rb 9) = (Ok [1; 2; 3], l) /\ length l = 3%nat.
Proof. eexists. vm_compute. auto. Qed.

(* ------------------------------------------------------------------ C10 *)
(* stored counters are uint32 *)
Definition u32_state (s : sstate) : Prop := forall rk, 0 <= chain_index s rk < 2 ^ 32.

Lemma gocck_index C : crypto_ok C -> forall s rk rnd c s1, getOrCreateChainKey C s rk rnd = Ok (c, s1) ->
  ck_index c = chain_index s rk.
Proof.
  intros OK s rk rnd c s1 G. apply gocck_inv in G. unfold chain_index.
  destruct G as [(rc & F & Hc & _)|(sc & old & F & _ & _ & _ & Ec & _)].
  - now rewrite F, Hc.
  - rewrite F, Ec. destruct (createChain C (s_root s) rk (ch_rpriv sc)) as [r' c'] eqn:E.
    apply (createChain_ok C OK) in E. cbn [snd]. tauto.
Qed.

Theorem C10_too_far_refused : forall C, crypto_ok C -> forall s b m rnd pt s',
  u32_state s -> LoadWhisperMessage b = Ok m ->
  ss_decrypt C s m rnd = (Ok pt, s') -> wm_counter m - chain_index s (wm_rkey m) <= 2000.
Proof.
  intros C OK s b m rnd pt s' U L H. destruct (Load_ser _ _ L) as (_ & _ & Lc & _).
  destruct (ss_decrypt_cases _ _ _ _ _ _ H) as [(_ & Hn & _)|(c & s1 & rc & G1 & F & Hc & _ & H1)].
  { exfalso. now apply (Hn pt). }
  destruct H1 as [(e & _ & H1 & _)|(mk & s2 & G2 & _)]; [discriminate|].
  pose proof (gocck_index C OK _ _ _ _ _ G1) as Ei. specialize (U (wm_rkey m)). rewrite <- Ei in U.
  destruct (gocmk_inv _ _ _ _ _ _ _ _ F Hc G2) as [(e' & E1 & _)|(mk' & f & _ & _ & _ & [(H2 & _)|(H2 & T & _)])].
  - discriminate.
  - lia.
  - rewrite too_far_spec in T by lia. rewrite <- Ei. destruct (Z.gtb_spec (wm_counter m - ck_index c) 2000); [discriminate|lia].
Qed.
Print Assumptions C10_too_far_refused.

Theorem C10_near_not_refused : forall C, crypto_ok C -> forall s b m rnd,
  u32_state s -> LoadWhisperMessage b = Ok m ->
  wm_counter m - chain_index s (wm_rkey m) <= 2000 -> fst (ss_decrypt C s m rnd) <> Err EFuture.
Proof.
  intros C OK s b m rnd U L Hle. destruct (Load_ser _ _ L) as (_ & _ & Lc & _).
  destruct (ss_decrypt C s m rnd) as [r s'] eqn:H. cbn [fst]. intros ->.
  assert (NF : forall o, load_ck o <> Err EFuture).
  { intros o. unfold load_ck. destruct o; [|discriminate]. unfold key32. destruct (Nat.eqb _ _); discriminate. }
  assert (NK : forall k, key32 k <> Err EFuture).
  { intros k. unfold key32. destruct (Nat.eqb _ _); discriminate. }
  destruct (ss_decrypt_cases _ _ _ _ _ _ H) as [(_ & _ & H1)|(c & s1 & rc & G1 & F & Hc & _ & H1)].
  - destruct H1 as [H1|[H1|[H1|(e & H1 & H2)]]]; try discriminate. injection H1 as <-.
    unfold getOrCreateChainKey in H2. destruct (find_chain _ _) as [rc|].
    + destruct (load_ck (ch_ck rc)) as [|e|] eqn:E; cbn [bind] in H2; try discriminate.
      injection H2 as ->. now apply NF in E.
    + destruct (key32 (s_root s)) as [|e|] eqn:E; cbn [bind] in H2; try discriminate.
      2:{ injection H2 as ->. now apply NK in E. }
      destruct (s_sender s) as [sc|]; [|discriminate].
      destruct (key32 (ch_rpriv sc)) as [|e|] eqn:E1; cbn [bind] in H2; try discriminate.
      2:{ injection H2 as ->. now apply NK in E1. }
      destruct (key32 (ch_rpub sc)) as [|e|] eqn:E2; cbn [bind] in H2; try discriminate.
      2:{ injection H2 as ->. now apply NK in E2. }
      destruct (createChain _ _ _ _) as [r1 c1]. destruct (createChain _ _ _ _) as [r2 c2].
      destruct (load_ck (ch_ck sc)) as [|e|] eqn:E3; cbn [bind] in H2; try discriminate.
      injection H2 as ->. now apply NF in E3.
  - destruct H1 as [(e & G2 & H1 & _)|(mk & s2 & G2 & [(_ & _ & H1 & _)|(p & H1 & _)])].
    + injection H1 as <-. pose proof (gocck_index C OK _ _ _ _ _ G1) as Ei.
      specialize (U (wm_rkey m)). rewrite <- Ei in U, Hle.
      unfold getOrCreateMessageKeys in G2. rewrite F in G2.
      destruct (_ >? _). { destruct (take_mk _ _) as [[]|]; discriminate. }
      rewrite too_far_spec in G2 by lia.
      destruct (Z.gtb_spec (wm_counter m - ck_index c) 2000); [lia|].
      destruct (skip_keys _ _ _ _). discriminate.
    + congruence.
    + discriminate.
Qed.
Print Assumptions C10_near_not_refused.

(* Whatever the outcome, at most 2000 keys are added. *)
Lemma ss_decrypt_growth C : crypto_ok C -> forall s m rnd r s',
  u32_state s -> 0 <= wm_counter m < 2 ^ 32 -> ss_decrypt C s m rnd = (r, s') ->
  (nkeys s' <= nkeys s + 2000)%nat.
Proof.
  intros OK s m rnd r s' U Lc H.
  destruct (ss_decrypt_cases _ _ _ _ _ _ H) as [(-> & _)|(c & s1 & rc & G1 & F & Hc & _ & H1)]; [lia|].
  assert (N1 : (nkeys s1 <= nkeys s)%nat).
  { destruct (gocck_inv _ _ _ _ _ _ G1) as [(rc' & _ & _ & ->)|(sc & old & _ & _ & _ & _ & _ & R & _)]; [lia|].
    unfold nkeys. rewrite R. apply nk_add. }
  destruct H1 as [(e & _ & _ & ->)|(mk & s2 & G2 & H1)]; [lia|].
  assert (N2 : (nkeys s2 <= nkeys s1 + 2000)%nat).
  { pose proof (gocck_index C OK _ _ _ _ _ G1) as Ei. specialize (U (wm_rkey m)). rewrite <- Ei in U.
    destruct (gocmk_inv _ _ _ _ _ _ _ _ F Hc G2) as [(e' & E1 & _)|(mk' & f & _ & -> & _ & H2)]; [discriminate|].
    unfold nkeys. cbn [with_recv s_recv].
    apply (nk_upd (wm_rkey m) f (s_recv s1) rc 2000 F).
    destruct H2 as [(_ & _ & T & _)|(_ & T & _ & _ & ->)].
    - apply take_mk_length in T. lia.
    - rewrite app_length, map_length, seq_length. rewrite too_far_spec in T by lia.
      destruct (Z.gtb_spec (wm_counter m - ck_index c) 2000); [discriminate|lia]. }
  destruct H1 as [(_ & -> & _)|(p & _ & -> & _)]; [lia|].
  unfold nkeys in *. cbn [with_pending s_recv] in *. lia.
Qed.

Lemma try_prevs_growth C : crypto_ok C -> forall m rnd, 0 <= wm_counter m < 2 ^ 32 ->
  forall l i r l', Forall u32_state l -> try_prevs C l m rnd i = (r, l') ->
  Forall (fun s' => exists s, In s l /\ (nkeys s' <= nkeys s + 2000)%nat) l' /\
  (forall p s2, r = Ok (Some (p, s2)) -> In s2 l').
Proof.
  intros OK m rnd Lc. induction l as [|s l IH]; intros i r l' U; cbn [try_prevs].
  - intros H; injection H as <- <-. split; [constructor|congruence].
  - inversion U as [|? ? U1 U2]; subst.
    assert (W : forall l', Forall (fun s' => exists s0, In s0 l /\ (nkeys s' <= nkeys s0 + 2000)%nat) l' ->
       Forall (fun s' => exists s0, In s0 (s :: l) /\ (nkeys s' <= nkeys s0 + 2000)%nat) l').
    { intros l2. apply Forall_impl. intros a (s0 & H1 & H2). exists s0. split; [now right|auto]. }
    assert (Wl : Forall (fun s' => exists s0, In s0 (s :: l) /\ (nkeys s' <= nkeys s0 + 2000)%nat) l).
    { apply Forall_forall. intros a Ha. exists a. split; [now right|lia]. }
    destruct (ss_decrypt C s m (rnd i)) as [[q|e|] s3] eqn:E3; pose proof (ss_decrypt_growth C OK _ _ _ _ _ U1 Lc E3) as G.
    + intros H; injection H as <- <-. split.
      * constructor; auto. exists s. split; [now left|auto].
      * intros p s2 X. injection X as _ <-. now left.
    + destruct (try_prevs C l m rnd (S i)) as [q t'] eqn:E4. intros H. injection H as <- <-.
      destruct (IH _ _ _ U2 E4) as [I1 I2]. split.
      * constructor; [exists s; split; [now left|auto]|auto].
      * intros p s2 X. right. eapply I2; eauto.
    + intros H; injection H as <- <-. split; [|congruence].
      constructor; auto. exists s. split; [now left|auto].
Qed.

Lemma removelast_In {A} (l : list A) x : In x (removelast l) -> In x l.
Proof.
  induction l as [|a l IH]; [auto|]. cbn [removelast]. destruct l as [|b l]; [intros []|].
  intros [->|H]; [now left|right; auto].
Qed.

Theorem C10_growth_of_record : forall C, crypto_ok C -> forall r b m rnd res r',
  Forall u32_state (r_cur r :: r_prevs r) -> LoadWhisperMessage b = Ok m ->
  sc_decrypt C r m rnd = (res, r') ->
  forall s', In s' (r_cur r' :: r_prevs r') ->
  exists s, In s (r_cur r :: r_prevs r) /\ (nkeys s' <= nkeys s + 2000)%nat.
Proof.
  intros C OK r b m rnd res r' U L. destruct (Load_ser _ _ L) as (_ & _ & Lc & _).
  inversion U as [|? ? U1 U2]; subst.
  unfold sc_decrypt. destruct (ss_decrypt C (r_cur r) m (rnd 0%nat)) as [[p|e|] s1] eqn:E;
    pose proof (ss_decrypt_growth C OK _ _ _ _ _ U1 Lc E) as G.
  - intros H; injection H as <- <-. intros s' [<-|Hin]; [exists (r_cur r); split; [now left|auto]|].
    exists s'. split; [now right|lia].
  - destruct (try_prevs C (r_prevs r) m rnd 1) as [q l] eqn:T.
    destruct (try_prevs_growth C OK m rnd Lc _ _ _ _ U2 T) as [T1 T2].
    assert (K : forall s', In s' (s1 :: l) -> exists s, In s (r_cur r :: r_prevs r) /\ (nkeys s' <= nkeys s + 2000)%nat).
    { intros s' [<-|Hin]; [exists (r_cur r); split; [now left|auto]|].
      rewrite Forall_forall in T1. destruct (T1 _ Hin) as (s & H1 & H2). exists s. split; [now right|auto]. }
    destruct q as [[[p s2]|]|e2|]; intros H; injection H as <- <-; auto.
    unfold promoteState. cbn [r_cur r_prevs]. intros s' [<-|Hin].
    + apply K. right. eapply T2; eauto.
    + apply K. destruct (Nat.ltb _ _); [now apply removelast_In in Hin|auto].
  - intros H; injection H as <- <-. intros s' [<-|Hin]; [exists (r_cur r); split; [now left|auto]|].
    exists s'. split; [now right|lia].
Qed.
Print Assumptions C10_growth_of_record.

(* On a 32-bit platform Go's int is 32 bits wide and the limit does not hold (session.go 749). *)
Theorem C10_limit_on_32_bit_platform_refuted :
  exists counter index, 0 <= counter < 2 ^ 32 /\ 0 <= index < 2 ^ 32 /\
    counter - index > 2000 /\ too_far 32 counter index = false.
Proof. exists (2 ^ 31 + 5), 0. vm_compute. repeat split; congruence. Qed.

(* a reachable state: B after the first message, with its receiving chain at 1 *)
Definition ex_stateB : sstate :=
  match w_sess (apply_effs ex_worldB (snd (receive toy ex_worldB na 1 PREKEY_BUNDLE ex_first (fun _ => rb 9)))) na 1 with
  | Some (s, _) => s | None => empty_ss end.
Example C10_example : u32_state ex_stateB /\ map (fun c => option_map ck_index (ch_ck c)) (s_recv ex_stateB) = [Some 1].
Proof.
  split; [|vm_compute; reflexivity]. intros rk. unfold chain_index.
  destruct (find_chain rk (s_recv ex_stateB)) as [c|] eqn:F; [|lia].
  assert (Hin : In c (s_recv ex_stateB)).
  { revert F. generalize (s_recv ex_stateB). induction l as [|x l IH]; cbn [find_chain]; [discriminate|].
    destruct (beq rk (ch_rpub x)); [intros H; injection H as ->; now left|right; auto]. }
  assert (A : forallb (fun c => match ch_ck c with Some k => (0 <=? ck_index k) && (ck_index k <? 2 ^ 32) | None => true end)
     (s_recv ex_stateB) = true) by (vm_compute; reflexivity).
  rewrite forallb_forall in A. specialize (A _ Hin). destruct (ch_ck c); [|lia].
  rewrite andb_true_iff, Z.leb_le, Z.ltb_lt in A. exact A.
Qed.

(* ------------------------------------------------------------------ C13 *)
(* The record already knows the base key (for the message's version): the message is processed as the
   ordinary message inside it; no prekey is needed. *)
Definition known_base (w : world) (rid : bytes) (dev : Z) (m : pkmsg) : Prop :=
  let r := LoadSession w rid dev in
  exists s, In s (r_cur r :: r_prevs r) /\ getSessionVersion s = pk_version m /\ s_base s = 5 :: pk_base m.

Lemma known_base_has w rid dev m : known_base w rid dev m ->
  hasSessionState (LoadSession w rid dev) (pk_version m) (key_ser (pk_base m)) = true.
Proof.
  intros (s & H1 & H2 & H3). unfold hasSessionState. apply existsb_exists. exists s. split; auto.
  rewrite H2, Z.eqb_refl, H3. cbn [andb]. apply beq_refl.
Qed.

Theorem C13_known_base_key_is_an_ordinary_message : forall C w rid dev m rnd,
  pk_version m = 3 -> IsTrustedIdentity w rid (pk_ident m) = true -> known_base w rid dev m ->
  let (r1, l1) := SessionDecryptPreKeyWhisperMessage C w rid dev m rnd in
  let (r2, l2) := SessionDecryptWhisperMessage C w rid dev (pk_msg m) rnd in
  r1 = r2 /\ l1 = (match r2 with Ok _ => ERemovePreKey 0 :: l2 | _ => l2 end).
Proof.
  intros C w rid dev m rnd Hv Ht Hk.
  unfold SessionDecryptPreKeyWhisperMessage, BuildReceiverSession. rewrite Hv. cbn [currentVersion Z.eqb Pos.eqb negb].
  rewrite Ht. cbn [negb]. pose proof (known_base_has _ _ _ _ Hk) as Hh. rewrite Hv in Hh. rewrite Hh. cbn iota.
  unfold SessionDecryptWhisperMessage.
  destruct (sc_decrypt C (LoadSession w rid dev) (pk_msg m) rnd) as [[pt|e|] r']; auto.
Qed.
Print Assumptions C13_known_base_key_is_an_ordinary_message.

(* It removes no one-time prekey with an id other than 0, in particular not the one it names, and
   neither its outcome nor the stored session depends on the prekey stores. *)
Theorem C13_known_base_key_uses_no_prekey : forall C w rid dev m rnd r l,
  pk_version m = 3 -> IsTrustedIdentity w rid (pk_ident m) = true -> known_base w rid dev m ->
  SessionDecryptPreKeyWhisperMessage C w rid dev m rnd = (r, l) ->
  (forall id, id <> 0 -> w_pre (apply_effs w l) id = w_pre w id) /\
  forall pre spk, SessionDecryptPreKeyWhisperMessage C
     (mkWorld (w_ident w) (w_reg w) (w_trust_all w) (w_sess w) pre spk (w_ids w)) rid dev m rnd = (r, l).
Proof.
  intros C w rid dev m rnd r l Hv Ht Hk. 
  unfold SessionDecryptPreKeyWhisperMessage, BuildReceiverSession. rewrite Hv. cbn [currentVersion Z.eqb Pos.eqb negb].
  rewrite Ht. cbn [negb].
  change (LoadSession (mkWorld _ _ _ _ _ _ _) rid dev) with (LoadSession w rid dev).
  pose proof (known_base_has _ _ _ _ Hk) as Hh. rewrite Hv in Hh. rewrite Hh. cbn iota.
  destruct (sc_decrypt C (LoadSession w rid dev) (pk_msg m) rnd) as [[pt|e|] r'] eqn:D;
    intros H; injection H as <- <-.
  - split.
    + intros id Hid. cbn [app apply_effs fold_left apply_eff StoreSession set_sess set_pre w_pre Z.eqb].
      destruct (Z.eqb_spec id 0); [congruence|reflexivity].
    + intros pre spk. change (IsTrustedIdentity (mkWorld _ _ _ _ _ _ _) rid (pk_ident m)) with (IsTrustedIdentity w rid (pk_ident m)).
      rewrite Ht. cbn [negb]. now rewrite D.
  - split; [reflexivity|]. intros pre spk.
    change (IsTrustedIdentity (mkWorld _ _ _ _ _ _ _) rid (pk_ident m)) with (IsTrustedIdentity w rid (pk_ident m)).
    rewrite Ht. cbn [negb]. now rewrite D.
  - split; [reflexivity|]. intros pre spk.
    change (IsTrustedIdentity (mkWorld _ _ _ _ _ _ _) rid (pk_ident m)) with (IsTrustedIdentity w rid (pk_ident m)).
    rewrite Ht. cbn [negb]. now rewrite D.
Qed.
Print Assumptions C13_known_base_key_uses_no_prekey.

(* reachable: B has received A's first message and gets A's second one, also a prekey message *)
Definition w_B1 : world := apply_effs ex_worldB (snd (receive toy ex_worldB na 1 PREKEY_BUNDLE ex_first (fun _ => rb 9))).
Definition ex_second : bytes :=
  match nth_error (y_net (run toy ex_setup (start toy ex_setup) [Send SA [1; 2; 3]; Send SA [4]])) 1 with
  | Some (_, PREKEY_BUNDLE, b) => b | _ => [] end.
Example C13_example : exists m,
  LoadPreKeyWhisperMessage ex_second = Ok m /\ known_base w_B1 na 1 m /\ pk_version m = 3 /\
  IsTrustedIdentity w_B1 na (pk_ident m) = true /\ pk_pkid m = 5 /\
  fst (SessionDecryptPreKeyWhisperMessage toy w_B1 na 1 m (fun _ => rb 10)) = Ok [4].
Proof.
  destruct (LoadPreKeyWhisperMessage ex_second) as [m| |] eqn:E; try (vm_compute in E; discriminate).
  exists m. split; auto. vm_compute in E. injection E as <-.
  split; [|vm_compute; auto].
  exists ex_stateB. split; [left; vm_compute; reflexivity|]. split; vm_compute; reflexivity.
Qed.

(* ------------------------------------------------------------------ C14 *)
(* Refuted for id 0: every repeated prekey message, and every one without a one-time prekey, removes
   the prekey with id 0 although it does not name it. randID (prekeys.go 52) can return 0. *)
Definition w_B1_0 : world := set_pre w_B1 0 (Some (ex_kp 99)).
Theorem C14_prekey_zero_removed_refuted :
  exists C w rid dev b rnd pt l m, crypto_ok C /\ LoadPreKeyWhisperMessage b = Ok m /\
    receive C w rid dev PREKEY_BUNDLE b rnd = (Ok pt, l) /\ pk_pkid m = 5 /\
    w_pre w 0 <> None /\ w_pre (apply_effs w l) 0 = None.
Proof.
  destruct (LoadPreKeyWhisperMessage ex_second) as [m| |] eqn:E; try (vm_compute in E; discriminate).
  exists toy, w_B1_0, na, 1, ex_second, (fun _ => rb 10). do 2 eexists. exists m.
  split; [exact toy_ok|]. split; [exact E|]. split; [vm_compute; reflexivity|].
  split; [vm_compute in E; injection E as <-; reflexivity|].
  split; [vm_compute; congruence|]. vm_compute. reflexivity.
Qed.

Lemma step_pkid C w rid r m v l : BuildReceiverSession C w rid r m = (Ok v, l) ->
  (fst v = 0 /\ snd v = r /\ l = [] /\ hasSessionState r (pk_version m) (key_ser (pk_base m)) = true) \/
  (fst v = pk_pkid m /\ l = [ESaveIdentity rid (pk_ident m)] /\
   hasSessionState r (pk_version m) (key_ser (pk_base m)) = false).
Proof.
  unfold BuildReceiverSession. destruct (negb _); [discriminate|]. destruct (negb _); [discriminate|].
  destruct (hasSessionState _ _ _). { intros H; injection H as <- <-. auto. }
  destruct (of_option ENotFound _) as [spk|e|]; cbn [bind]; try discriminate.
  destruct (load_kp spk) as [spk'|e|]; cbn [bind]; try discriminate.
  match goal with |- context [bind ?x _] => destruct x as [otk|e|] end; cbn [bind]; try discriminate.
  intros H; injection H as <- <-. auto.
Qed.

(* For every other id: a prekey disappears only by a successful prekey message with a new base key
   that names it, and never the last-resort key; nothing else changes in the prekey store. *)
Theorem C14_prekey_removed_only_by_use : forall C w rid dev ty b rnd r l id,
  receive C w rid dev ty b rnd = (r, l) ->
  w_pre (apply_effs w l) id <> w_pre w id -> id <> 0 ->
  ty = PREKEY_BUNDLE /\ id <> 16777215 /\ w_pre (apply_effs w l) id = None /\
  (exists pt, r = Ok pt) /\
  exists m, LoadPreKeyWhisperMessage b = Ok m /\ pk_pkid m = id /\
            hasSessionState (LoadSession w rid dev) (pk_version m) (key_ser (pk_base m)) = false.
Proof.
  intros C w rid dev ty b rnd r l id. destruct ty; unfold receive.
  - unfold SessionDecryptWhisperMessage. destruct (LoadWhisperMessage b) as [m|e|].
    + destruct (sc_decrypt _ _ _ _) as [[pt|e|] r']; intros H; injection H as <- <-; cbn; congruence.
    + intros H; injection H as <- <-; cbn; congruence.
    + intros H; injection H as <- <-; cbn; congruence.
  - destruct (LoadPreKeyWhisperMessage b) as [m|e|] eqn:L.
    2:{ intros H; injection H as <- <-; cbn; congruence. }
    2:{ intros H; injection H as <- <-; cbn; congruence. }
    unfold SessionDecryptPreKeyWhisperMessage.
    destruct (BuildReceiverSession C w rid (LoadSession w rid dev) m) as [[[pkid r1]|e|] l1] eqn:B.
    + apply step_pkid in B. cbn [fst snd] in B.
      assert (P1 : forall i, w_pre (apply_effs w l1) i = w_pre w i).
      { destruct B as [(_ & _ & -> & _)|(_ & -> & _)]; reflexivity. }
      destruct (sc_decrypt C r1 (pk_msg m) rnd) as [[pt|e|] r'] eqn:D; intros H; injection H as <- <-.
      * unfold apply_effs. rewrite !fold_left_app. fold (apply_effs w l1).
        cbn [fold_left apply_eff StoreSession set_sess w_pre].
        destruct (Z.eqb_spec pkid 16777215) as [E|E]; cbn [fold_left apply_eff set_pre w_pre].
        { rewrite P1. congruence. }
        destruct (Z.eqb_spec id pkid) as [E2|E2]; [|rewrite P1; congruence].
        intros H1 H2. subst pkid. destruct B as [(B & _)|(B & _ & B2)]; [congruence|].
        repeat split; eauto.
      * rewrite P1. congruence.
      * rewrite P1. congruence.
    + intros H; injection H as <- <-.
      assert (l1 = []) as ->; [|cbn; congruence].
      revert B. unfold BuildReceiverSession. destruct (negb _); [congruence|]. destruct (negb _); [congruence|].
      destruct (hasSessionState _ _ _); [discriminate|]. destruct (bind _ _); congruence.
    + intros H; injection H as <- <-.
      assert (l1 = []) as ->; [|cbn; congruence].
      revert B. unfold BuildReceiverSession. destruct (negb _); [congruence|]. destruct (negb _); [congruence|].
      destruct (hasSessionState _ _ _); [discriminate|]. destruct (bind _ _); congruence.
Qed.
Print Assumptions C14_prekey_removed_only_by_use.

(* and a successful use with a new base key does remove it *)
Theorem C14_used_prekey_is_removed : forall C w rid dev b rnd pt l m,
  receive C w rid dev PREKEY_BUNDLE b rnd = (Ok pt, l) -> LoadPreKeyWhisperMessage b = Ok m ->
  hasSessionState (LoadSession w rid dev) (pk_version m) (key_ser (pk_base m)) = false ->
  pk_pkid m <> 16777215 -> w_pre (apply_effs w l) (pk_pkid m) = None.
Proof.
  intros C w rid dev b rnd pt l m H L Hn Hne. unfold receive in H. rewrite L in H.
  unfold SessionDecryptPreKeyWhisperMessage in H.
  destruct (BuildReceiverSession C w rid (LoadSession w rid dev) m) as [[[pkid r1]|e|] l1] eqn:B; try discriminate.
  apply step_pkid in B. cbn [fst snd] in B. destruct B as [(_ & _ & _ & B)|(-> & -> & _)]; [congruence|].
  destruct (sc_decrypt C r1 (pk_msg m) rnd) as [[p|e|] r']; try discriminate. injection H as _ <-.
  destruct (Z.eqb_spec (pk_pkid m) 16777215); [congruence|]. cbn. now rewrite Z.eqb_refl.
Qed.
Print Assumptions C14_used_prekey_is_removed.

Example C14_example :
  w_pre ex_worldB 5 <> None /\ w_pre w_B1 5 = None /\ w_pre w_B1 6 = w_pre ex_worldB 6.
Proof. vm_compute. repeat split; congruence. Qed.

(* ------------------------------------------------------------------ C17 *)
(* Anything written by BuildSenderSession implies a verified signature of the bundle's identity key on
   the serialized signed prekey. *)
Theorem C17_session_needs_valid_signature : forall C w rid dev b rbase rratchet r l,
  BuildSenderSession C w rid dev b rbase rratchet = (r, l) ->
  apply_effs w l = w \/ exists k, b_spk b = Some k /\ sigok C (b_ident b) (5 :: k) (b_sig b) = true.
Proof.
  intros C w rid dev b rbase rratchet r l. unfold BuildSenderSession.
  destruct (negb (IsTrustedIdentity _ _ _)). { intros H; injection H as <- <-. now left. }
  destruct (b_spk b) as [k|].
  2:{ intros H; injection H as <- <-. now left. }
  destruct (sigok C (b_ident b) (key_ser k) (b_sig b)) eqn:S; cbn [negb].
  - intros _. right. exists k. auto.
  - intros H; injection H as <- <-. now left.
Qed.
Print Assumptions C17_session_needs_valid_signature.

Example C17_example :
  let b := the_bundle toy ex_setup in
  length (snd (BuildSenderSession toy ex_worldA nb 1 b (rb 1) (rb 2))) = 2%nat /\
  BuildSenderSession toy ex_worldA nb 1
    (mkBundle (b_reg b) (b_dev b) (b_pkid b) (b_pk b) (b_spkid b) (b_spk b) (zeros 64) (b_ident b)) (rb 1) (rb 2)
  = (Err ESignature, []).
Proof. vm_compute. auto. Qed.
