(* C04, C08, C09, C11, C12, C15, C16, C61, C62: histories of calls *)
From Coq Require Import ZArith List Lia Bool FinFun.
From Verif Require Import Bytes Res Wire Crypto Cbc Messages Session Builder SessionFacts History
  HistoryProofs Replay CrashReceive Conversation ConversationProofs InOrder Skipped Examples.
Import ListNotations.
Open Scope Z_scope.

(* ------------------------------------------------------------------------------------------ *)
(* A scenario used below. A builds a session with B (prekey 5) and encrypts three texts; then A builds
   another session with B (prekey 6) and encrypts two more. Nothing of B has reached A. *)
Definition ex_bundle2 : bundle :=
  mkBundle (w_reg ex_worldB) 1 6 (Some (snd (ex_kp 66))) 1 (Some (snd (ex_kp 33)))
    (st_sig ex_setup) (snd (ex_kp 22)).
Definition hA : list event :=
  [Done (CBuild nb 1 (the_bundle toy ex_setup) (rb 77) (rb 88)); Done (CEnc nb 1 [1]); Done (CEnc nb 1 [2]);
   Done (CEnc nb 1 [3]); Done (CBuild nb 1 ex_bundle2 (rb 78) (rb 89)); Done (CEnc nb 1 [4]); Done (CEnc nb 1 [5])].
(* the messages A hands out, as computed *)
Definition outA : list sent := Eval vm_compute in snd (history toy ex_worldA hA).
Lemma outA_eq : outA = snd (history toy ex_worldA hA).
Proof. vm_compute. reflexivity. Qed.
Definition worldA1 : world := fst (history toy ex_worldA hA).
(* the n-th of these messages, received by B *)
Definition from_A (n : nat) (r : Z) : call :=
  CRecv na 1 PREKEY_BUNDLE (se_bytes (nth n outA (mkSent [] 0 CIPHERTEXT []))) (fun i => rb (r + Z.of_nat i)).

(* for proofs by computation *)
Lemma pair_eq {A B} (p : A * B) a : fst p = a -> p = (a, snd p).
Proof. destruct p. cbn. now intros ->. Qed.
Definition is_some {A} (o : option A) : bool := match o with Some _ => true | None => false end.
Definition get {A} (d : A) (o : option A) : A := match o with Some x => x | None => d end.
Lemma get_ok {A} (d : A) o : is_some o = true -> o = Some (get d o).
Proof. destruct o; cbn; [reflexivity|discriminate]. Qed.
Lemma get_ok2 {A B} (d : A * B) o : is_some o = true -> o = Some (fst (get d o), snd (get d o)).
Proof. destruct o as [[a b]|]; cbn; [reflexivity|discriminate]. Qed.
Lemma nth2 {A} (d : A) l : length l = 2%nat -> l = [nth 0 l d; nth 1 l d].
Proof. destruct l as [|x [|y [|z l]]]; cbn; try discriminate. reflexivity. Qed.

Definition texts (w : world) (h : list event) : list (option bytes) :=
  (fix go w h := match h with
     | [] => []
     | Done (CRecv rid dev ty b rnd) :: t =>
         (match fst (receive toy w rid dev ty b rnd) with Ok pt => Some pt | _ => None end)
           :: go (fst (estep toy w (Done (CRecv rid dev ty b rnd)))) t
     | e :: t => go (fst (estep toy w e)) t
     end) w h.

(* ------------------------------------------------------------------------------------------ *)
(* C04. Full statement: a message that was decrypted is refused when it is presented again, at any
   later time. It is false: B gets message 0 of the first session, message 3 (of the second session),
   the late message 1 of the first session, message 2, and message 2 again, which is accepted again. *)
Theorem C04_replay_accepted_refuted : exists C w h rid dev ty b rnd rnd' pt,
  crypto_ok C /\ (forall r d, w_sess w r d = None) /\
  let w1 := fst (history C w h) in
  fst (receive C w1 rid dev ty b rnd) = Ok pt /\
  fst (receive C (apply_effs w1 (snd (receive C w1 rid dev ty b rnd))) rid dev ty b rnd') = Ok pt.
Proof.
  exists toy, ex_worldB, (map Done [from_A 0 100; from_A 3 110; from_A 1 120]), na, 1, PREKEY_BUNDLE,
    (se_bytes (nth 2 outA (mkSent [] 0 CIPHERTEXT []))), (fun _ => rb 130), (fun _ => rb 140), [3].
  split; [exact toy_ok|]. split; [reflexivity|]. split; vm_compute; reflexivity.
Qed.
Print Assumptions C04_replay_accepted_refuted.

(* It is true as long as the record of the peer has no archived states and still has the message's
   receiving chain (and no chain comes within 2001 messages of 2^32): for every history h1 from a store
   without a session with the peer, any accepted message, and every history h2 after it (sends,
   receptions of anything, session building attempts, crashes), presenting the same bytes again
   neither succeeds nor writes anything. Missing: records with archived states (refuted above), and
   chains that were dropped because five newer ones exist (the message then meets wrong keys, and
   whether its MAC verifies is a matter of the primitive). *)
Theorem C04_no_replay_partial : forall C, crypto_ok C ->
  forall rid dev w0 h1 ty b rnd pt l rk ctr h2 rnd',
  w_sess w0 rid dev = None ->
  let w1 := fst (history C w0 h1) in
  receive C w1 rid dev ty b rnd = (Ok pt, l) ->
  position ty b = Some (rk, ctr) ->
  along C (single rid dev) w0 (h1 ++ Done (CRecv rid dev ty b rnd) :: h2) ->
  along C (has_chain rid dev rk) (apply_effs w1 l) h2 ->
  let w3 := fst (history C (apply_effs w1 l) h2) in
  (forall pt', fst (receive C w3 rid dev ty b rnd') <> Ok pt') /\
  snd (receive C w3 rid dev ty b rnd') = [].
Proof. exact no_replay. Qed.
Print Assumptions C04_no_replay_partial.

(* B receives messages 1 and 0, sends, gets message 2; then message 1 comes again *)
Definition h1_ex : list event := [].
Definition h2_ex : list event := [Done (from_A 0 110); Done (CEnc na 1 [9]); Crash (from_A 2 120) 1; Done (from_A 2 130)].
Definition b_ex : bytes := se_bytes (nth 1 outA (mkSent [] 0 CIPHERTEXT [])).
Definition singleb (w : world) : bool :=
  match w_sess w na 1 with
  | None => true
  | Some (s, p) => (length p =? 0)%nat && forallb (fun c => match ch_ck c with Some ck => (0 <=? ck_index ck) && (ck_index ck <? 2 ^ 32 - 2001) | None => false end) (s_recv s)
  end.
Definition chainb (rk : bytes) (w : world) : bool :=
  match w_sess w na 1 with None => false | Some (s, _) => existsb (fun c => beq (ch_rpub c) rk) (s_recv s) end.
Lemma singleb_ok w : singleb w = true -> single na 1 w.
Proof.
  unfold singleb, single. intros H s p E. rewrite E in H. apply andb_true_iff in H. destruct H as [H1 H2].
  apply Nat.eqb_eq in H1. destruct p; [|discriminate]. split; auto. apply Forall_forall. intros c Hc.
  rewrite forallb_forall in H2. specialize (H2 c Hc). destruct (ch_ck c) as [ck|] eqn:EC; [|discriminate].
  exists ck. split; auto. apply andb_true_iff in H2. rewrite Z.leb_le, Z.ltb_lt in H2. lia.
Qed.
Lemma chainb_ok rk w : chainb rk w = true -> has_chain na 1 rk w.
Proof.
  unfold chainb, has_chain. destruct (w_sess w na 1) as [[s p]|]; [|discriminate]. intros H.
  exists s, p. split; auto. apply existsb_exists in H. destruct H as (c & H1 & H2). apply beq_eq in H2. subst.
  now apply in_map.
Qed.
Example C04_example : exists pt l rk ctr,
  w_sess ex_worldB na 1 = None /\
  receive toy (fst (history toy ex_worldB h1_ex)) na 1 PREKEY_BUNDLE b_ex (fun _ => rb 100) = (Ok pt, l) /\
  position PREKEY_BUNDLE b_ex = Some (rk, ctr) /\
  along toy (single na 1) ex_worldB (h1_ex ++ Done (CRecv na 1 PREKEY_BUNDLE b_ex (fun _ => rb 100)) :: h2_ex) /\
  along toy (has_chain na 1 rk) (apply_effs (fst (history toy ex_worldB h1_ex)) l) h2_ex /\
  texts (apply_effs (fst (history toy ex_worldB h1_ex)) l) h2_ex = [Some [1]; Some [3]].
Proof.
  exists [2], (snd (receive toy (fst (history toy ex_worldB h1_ex)) na 1 PREKEY_BUNDLE b_ex (fun _ => rb 100))),
    (fst (get ([], 0) (position PREKEY_BUNDLE b_ex))), (snd (get ([], 0) (position PREKEY_BUNDLE b_ex))).
  split; [reflexivity|]. split; [apply pair_eq; vm_compute; reflexivity|].
  split; [apply get_ok2; vm_compute; reflexivity|].
  split; [|split].
  - unfold h1_ex, h2_ex. cbn [app along]. repeat (split; [apply singleb_ok; vm_compute; reflexivity|]). exact I.
  - unfold h1_ex, h2_ex. cbn [along].
    repeat (split; [apply chainb_ok; vm_compute; reflexivity|]). exact I.
  - vm_compute. reflexivity.
Qed.

(* ------------------------------------------------------------------------------------------ *)
(* C08. Full statement: no two messages a party sends to a peer carry the same ratchet key and counter,
   whatever it receives in between. It is false: after the same late message, B sends a text, gets
   message 2 again and sends another text; both texts carry the same ratchet key and counter (and so
   are encrypted with the same keys and initialisation vector). *)
Definition hB8 : list event :=
  [Done (from_A 0 100); Done (from_A 3 110); Done (from_A 1 120); Done (from_A 2 130); Done (CEnc na 1 [7]);
   Done (from_A 2 140); Done (CEnc na 1 [8])].
Theorem C08_position_reused_refuted : exists C w h x y,
  crypto_ok C /\ (forall r d, w_sess w r d = None) /\
  NoDup (flat_map (fun e => fresh_of C (ecall e)) h) /\
  snd (history C w h) = [x; y] /\ se_rid x = se_rid y /\ se_dev x = se_dev y /\
  se_bytes x <> se_bytes y /\
  exists p, position (se_type x) (se_bytes x) = Some p /\ position (se_type y) (se_bytes y) = Some p.
Proof.
  exists toy, ex_worldB, hB8, (nth 0 (snd (history toy ex_worldB hB8)) (mkSent [] 0 CIPHERTEXT [])),
    (nth 1 (snd (history toy ex_worldB hB8)) (mkSent [] 0 CIPHERTEXT [])).
  split; [exact toy_ok|]. split; [reflexivity|].
  split; [apply nodupb_ok; vm_compute; reflexivity|]. split; [apply nth2; vm_compute; reflexivity|].
  split; [vm_compute; reflexivity|]. split; [vm_compute; reflexivity|].
  split; [apply beq_neq; vm_compute; reflexivity|]. eexists. split; vm_compute; reflexivity.
Qed.
Print Assumptions C08_position_reused_refuted.

(* It is true for every history in which messages that are accepted are accepted by the newest state
   of the record (`direct_history`; automatic for ordinary messages when there are no archived
   states): start from a store without a session with the peer, let anything happen (sends to anyone,
   receptions, sessions built by either side, crashes at any point), with fewer than 2^32 steps and
   distinct fresh ratchet keys. Then every message handed out for the peer shows a position, and no
   two show the same. Missing: messages accepted by an archived state (refuted above). *)
Theorem C08_positions_distinct_partial : forall C, crypto_ok C -> forall rid dev w h,
  w_sess w rid dev = None -> 0 <= w_reg w < 2 ^ 32 ->
  Z.of_nat (length h) < 2 ^ 32 ->
  NoDup (flat_map (fun e => fresh_of C (ecall e)) h) ->
  Forall (fun e => call_typed (ecall e)) h ->
  direct_history C w h ->
  exists ps, map (fun x => position (se_type x) (se_bytes x))
               (filter (fun x => beq (se_rid x) rid && (se_dev x =? dev)) (snd (history C w h)))
             = map Some ps /\ NoDup ps.
Proof.
  intros C OK rid dev w h H0 HR HL HN HT HD.
  destruct (positions_distinct C OK rid dev h [] [] 0 w) as (ps & E & N); auto; try lia.
  - constructor; [intros rk ctr []|constructor|exact HR|]. intros s p E. congruence.
  - exists ps. split; [exact E|exact N].
Qed.
Print Assumptions C08_positions_distinct_partial.

(* B receives, sends, receives a message of a new session, sends, crashes while sending, sends *)
Definition hB8ok : list event :=
  [Done (from_A 0 100); Done (CEnc na 1 [7]); Done (CEnc na 1 [7]); Done (from_A 1 120); Done (CEnc na 1 [8]);
   Done (from_A 3 130); Crash (CEnc na 1 [8]) 1; Done (CEnc na 1 [9]); Done (CEnc na 1 [9])].
Lemma direct_case C w rid dev ty b rnd : 
  (forall m r1, opened C w rid dev ty b m r1 -> is_ok (fst (ss_decrypt C (r_cur r1) m (rnd 0%nat))) = true) ->
  direct C w (CRecv rid dev ty b rnd).
Proof.
  intros H pt m r1 R O. specialize (H m r1 O). destruct (ss_decrypt C (r_cur r1) m (rnd 0%nat)) as [[p|e|] s']; cbn in H; try discriminate.
  eauto.
Qed.
Definition openedb (w : world) (c : call) : bool :=
  match c with
  | CRecv rid dev PREKEY_BUNDLE b rnd =>
      match LoadPreKeyWhisperMessage b with
      | Ok pm => match BuildReceiverSession toy w rid (LoadSession w rid dev) pm with
                 | (Ok (_, r1), _) => is_ok (fst (ss_decrypt toy (r_cur r1) (pk_msg pm) (rnd 0%nat)))
                 | _ => true end
      | _ => true
      end
  | CRecv rid dev CIPHERTEXT b rnd => false
  | _ => true
  end.
Lemma openedb_ok w c : openedb w c = true -> direct toy w c.
Proof.
  destruct c as [| r d [] b rnd|]; cbn [openedb]; try discriminate; try (intros; exact I).
  intros H. apply direct_case. intros m r1 (pm & pkid & l & L & -> & B). rewrite L, B in H. exact H.
Qed.
Example C08_example :
  w_sess ex_worldB na 1 = None /\ NoDup (flat_map (fun e => fresh_of toy (ecall e)) hB8ok) /\
  Forall (fun e => call_typed (ecall e)) hB8ok /\ direct_history toy ex_worldB hB8ok /\
  length (snd (history toy ex_worldB hB8ok)) = 5%nat.
Proof.
  split; [reflexivity|]. split; [apply nodupb_ok; vm_compute; reflexivity|]. split.
  - repeat constructor.
  - split; [|vm_compute; reflexivity]. unfold hB8ok. cbn [direct_history ecall].
    repeat (split; [apply openedb_ok; vm_compute; reflexivity|]). exact I.
Qed.

(* ------------------------------------------------------------------------------------------ *)
(* C09. Any well-formed session, any sequence of encrypt calls (to anyone), each of which may be cut
   off after any of its writes, in which case the process goes on from what is stored: no two
   messages handed out for the peer share a position, and none is at a position before the one the
   session started from. *)
Definition only_sends (h : list event) : Prop :=
  Forall (fun e => exists rid dev pt, ecall e = CEnc rid dev pt /\ zlen pt < 2 ^ 60) h.
Record sending_state (s : sstate) (rk : bytes) (i : Z) : Prop := {
  sn_chain : exists priv ck mks, s_sender s = Some (mkChain rk priv (Some ck) mks) /\ ck_index ck = i;
  sn_index : 0 <= i;
  sn_version : s_version s = 3;
  sn_prev : 0 <= s_prev s < 2 ^ 32;
  sn_reg : 0 <= s_lreg s < 2 ^ 32;
  sn_pending : forall p, s_pending s = Some p -> 0 <= pp_pkid p < 2 ^ 32 }.

Theorem C09_crash_while_sending : forall C, crypto_ok C -> forall rid dev w s p rk i h,
  w_sess w rid dev = Some (s, p) -> sending_state s rk i -> 0 <= w_reg w < 2 ^ 32 ->
  only_sends h -> i + Z.of_nat (length h) < 2 ^ 32 ->
  exists ps, map (fun x => position (se_type x) (se_bytes x))
               (filter (fun x => beq (se_rid x) rid && (se_dev x =? dev)) (snd (history C w h)))
             = map Some ps /\ NoDup ps /\ forall j, 0 <= j < i -> ~ In (rk, j) ps.
Proof.
  intros C OK rid dev w s p rk i h HS [Hc Hi Hv Hp Hr Hpp] HR HO HL.
  destruct Hc as (priv & ck & mks & Hc & <-).
  assert (D : forall w', direct_history C w' h).
  { clear - HO. induction HO as [|e h (r & d & pt & E & _) HO IH]; intros w'; cbn [direct_history]; auto.
    split; auto. rewrite E. exact I. }
  assert (FR : flat_map (fun e => fresh_of C (ecall e)) h = []).
  { clear - HO. induction HO as [|e h (r & d & pt & E & _) HO IH]; cbn [flat_map]; auto. rewrite E, IH. reflexivity. }
  set (P := map (fun k => (rk, Z.of_nat k)) (seq 0 (Z.to_nat (ck_index ck)))).
  assert (IP : forall a j, In (a, j) P <-> a = rk /\ 0 <= j < ck_index ck).
  { intros a j. unfold P. rewrite in_map_iff. split.
    - intros (x & X & Hx). apply in_seq in Hx. injection X as <- <-. split; [reflexivity|lia].
    - intros [-> Hj]. exists (Z.to_nat j). rewrite in_seq, Z2Nat.id by lia. split; auto. lia. }
  destruct (positions_distinct C OK rid dev h [rk] P (ck_index ck) w) as (ps & E & N); auto.
  - constructor; [| |exact HR|].
    + intros a b X. apply IP in X. destruct X as [-> _]. now left.
    + unfold P. apply Injective_map_NoDup; [|apply seq_NoDup]. intros x y X. apply (f_equal snd) in X. cbn [snd] in X. lia.
    + intros s0 p0 E. rewrite HS in E. injection E as <- <-. eexists _, _. split; [exact Hc|]. cbn [ch_ck ch_rpub].
      split; [reflexivity|]. split; [now left|]. split; [lia|]. split; [|auto].
      intros ctr X. apply IP in X. lia.
  - clear - HO. induction HO as [|e h (r & d & pt & E & B) HO IH]; constructor; auto. rewrite E. exact B.
  - rewrite FR. repeat constructor. intros [].
  - exists ps. split; [exact E|]. split; [clear - N; induction P; auto; apply IHP; now inversion N|].
    intros j Hj X. assert (Y : In (rk, j) P) by (apply IP; auto). clear - N X Y. induction P as [|q P IH]; [destruct Y|].
    cbn [app] in N. inversion N; subst. destruct Y as [->|Y]; auto. apply H1. apply in_or_app. now right.
Qed.
Print Assumptions C09_crash_while_sending.

Definition w_sending : world :=
  fst (history toy ex_worldA [Done (CBuild nb 1 (the_bundle toy ex_setup) (rb 77) (rb 88)); Done (CEnc nb 1 [1])]).
Example C09_example : exists s p rk, w_sess w_sending nb 1 = Some (s, p) /\ sending_state s rk 1 /\
  map (fun x => option_map snd (position (se_type x) (se_bytes x)))
    (snd (history toy w_sending [Done (CEnc nb 1 [2]); Crash (CEnc nb 1 [3]) 0; Crash (CEnc nb 1 [3]) 1; Done (CEnc nb 1 [3])]))
  = [Some 1; Some 3].
Proof.
  exists (fst (get (empty_ss, []) (w_sess w_sending nb 1))), (snd (get (empty_ss, []) (w_sess w_sending nb 1))),
    (get [] (option_map ch_rpub (s_sender (fst (get (empty_ss, []) (w_sess w_sending nb 1)))))).
  split; [apply get_ok2; vm_compute; reflexivity|]. split; [|vm_compute; reflexivity].
  constructor.
  - do 3 eexists. split; vm_compute; reflexivity.
  - lia.
  - vm_compute. reflexivity.
  - vm_compute. split; congruence.
  - vm_compute. split; congruence.
  - intros q H. vm_compute in H. injection H as <-. vm_compute. split; congruence.
Qed.

(* ------------------------------------------------------------------------------------------ *)
(* C11. Full statement: no session state keeps more than 2000 skipped keys per receiving chain. It is
   false, and no smaller multiple helps: if A sends 2001 k messages and B receives every 2001st, B's
   state has one receiving chain with 2000 k keys (for every k for which the counters suffice). *)
Theorem C11_keys_grow : forall C, crypto_ok C -> forall st, setup_ok C st -> forall rnds pts,
  rnds <> [] -> length pts = (2001 * length rnds)%nat ->
  Forall (fun pt => wfb pt /\ zlen pt < 2 ^ 60) pts ->
  Forall (fun r : nat -> bytes => length (r 0%nat) = 32%nat) rnds ->
  Z.of_nat (2002 * length rnds) < 2 ^ 32 ->
  NoDup (basepub C (st_spk st) :: basepub C (clamp (st_rratchet st))
         :: map (fun r => basepub C (clamp (r 0%nat))) rnds) ->
  exists s p, b_session st (run C st (start C st) (sends pts ++ arrivals (sparse 0 rnds))) = Some (s, p) /\
    length (s_recv s) = 1%nat /\ (nkeys s = 2000 * length rnds)%nat.
Proof. exact keys_grow. Qed.
Print Assumptions C11_keys_grow.

(* More generally, after any arrivals of messages of one chain, the keys kept are exactly those of
   the positions passed over. *)
Theorem C11_keys_kept : forall C, crypto_ok C -> forall st, setup_ok C st -> forall pts (arr : list (nat * (nat -> bytes))),
  Forall (fun pt => wfb pt /\ zlen pt < 2 ^ 60) pts ->
  Forall (fun a => length (snd a 0%nat) = 32%nat) arr -> arr <> [] ->
  order_ok (length pts) (map fst arr) ->
  Z.of_nat (length pts + length arr) < 2 ^ 32 ->
  NoDup (basepub C (st_spk st) :: basepub C (clamp (st_rratchet st))
         :: map (fun a => basepub C (clamp (snd a 0%nat))) arr) ->
  exists s p, b_session st (run C st (start C st) (sends pts ++ arrivals arr)) = Some (s, p) /\
    length (s_recv s) = 1%nat /\ (nkeys s + length arr = reach (map fst arr))%nat.
Proof. exact kept_keys. Qed.
Print Assumptions C11_keys_kept.

Theorem C11_bound_refuted : exists C st acts s p,
  crypto_ok C /\ setup_ok C st /\ admissible C st (start C st) spec0 acts /\
  b_session st (run C st (start C st) acts) = Some (s, p) /\
  length (s_recv s) = 1%nat /\ (nkeys s > 2000 * length (s_recv s))%nat.
Proof.
  set (rnds := [(fun _ : nat => rb 101); (fun _ => rb 102); (fun _ => rb 103)]).
  set (pts := repeat [1] (2001 * length rnds)).
  assert (LP : length pts = (2001 * length rnds)%nat) by (unfold pts; apply repeat_length).
  assert (FP : Forall (fun pt => wfb pt /\ zlen pt < 2 ^ 60) pts).
  { apply Forall_forall. intros x Hx. apply repeat_spec in Hx. subst. split; [apply wfbb_ok|]; reflexivity. }
  assert (FR : Forall (fun r : nat -> bytes => length (r 0%nat) = 32%nat) rnds) by repeat constructor.
  assert (ND : NoDup (basepub toy (st_spk ex_setup) :: basepub toy (clamp (st_rratchet ex_setup))
         :: map (fun r : nat -> bytes => basepub toy (clamp (r 0%nat))) rnds)).
  { apply nodupb_ok. vm_compute. reflexivity. }
  destruct (C11_keys_grow toy toy_ok ex_setup ex_setup_ok rnds pts) as (s & p & H1 & H2 & H3); auto.
  - discriminate.
  - reflexivity.
  - exists toy, ex_setup, (sends pts ++ arrivals (sparse 0 rnds)), s, p.
    split; [exact toy_ok|]. split; [exact ex_setup_ok|]. split; [|split; [exact H1|]].
    + apply admissible_sends; auto. { cbn. lia. }
      intros y'. apply (admissible_arrivals toy ex_setup pts (sparse 0 rnds) []); auto.
      * apply mid0.
      * apply sparse_order. clear - LP. revert LP. generalize (length pts). intros n ->. apply le_n.
      * cbv [sparse rnds]. repeat constructor.
    + split; [exact H2|]. rewrite H2, H3. change (length rnds) with 3%nat. apply Nat.ltb_lt. vm_compute. reflexivity.
Qed.
Print Assumptions C11_bound_refuted.

(* ------------------------------------------------------------------------------------------ *)
(* C12. From a store without sessions, after every history of calls and crashes, every stored record
   has at most forty archived states and each of its states at most five receiving chains. *)
Theorem C12_bounded_records : forall C w h rid dev cur prevs,
  (forall r d, w_sess w r d = None) ->
  w_sess (fst (history C w h)) rid dev = Some (cur, prevs) ->
  (length prevs <= 40)%nat /\ forall s, s = cur \/ In s prevs -> (length (s_recv s) <= 5)%nat.
Proof.
  intros C w h rid dev cur prevs H0 H.
  assert (S0 : small_world w) by (intros r d c p E; rewrite H0 in E; discriminate).
  destruct (small_history C h w S0 _ _ _ _ H) as [H1 H2]. split; auto.
  intros s Hs. rewrite Forall_forall in H1. apply H1. destruct Hs; [now left|now right].
Qed.
Print Assumptions C12_bounded_records.

Example C12_example : exists cur prevs,
  w_sess (fst (history toy ex_worldB hB8)) na 1 = Some (cur, prevs) /\ length prevs = 3%nat /\
  map (fun s => length (s_recv s)) (cur :: prevs) = [1; 1; 2; 1]%nat.
Proof.
  exists (fst (get (empty_ss, []) (w_sess (fst (history toy ex_worldB hB8)) na 1))),
    (snd (get (empty_ss, []) (w_sess (fst (history toy ex_worldB hB8)) na 1))).
  split; [apply get_ok2; vm_compute; reflexivity|]. split; vm_compute; reflexivity.
Qed.

(* ------------------------------------------------------------------------------------------ *)
(* C15. Full statement: if the process stops at any point while a first message is processed, the
   message can be presented again. It is false: when it stops after the prekey was removed and before
   the session was stored, the message can never be decrypted (and neither can the following ones,
   which name the same prekey). *)
Definition is_store (e : eff) : bool := match e with EStoreSession _ _ _ _ => true | _ => false end.
Lemma no_store_none l w r d : existsb is_store l = false -> w_sess w r d = None -> w_sess (apply_effs w l) r d = None.
Proof.
  revert w. induction l as [|e l IH]; intros w H0 HN; [exact HN|]. cbn [existsb] in H0. apply orb_false_iff in H0.
  destruct H0 as [H0 H1]. change (apply_effs w (e :: l)) with (apply_effs (apply_eff w e) l). apply IH; auto.
  destruct e; try discriminate; exact HN.
Qed.
Lemma receive_rnd C w rid dev ty x rnd rnd' :
  fst (receive C w rid dev ty x rnd) = fst (receive C w rid dev ty x rnd').
Proof.
  destruct ty; cbn [receive].
  - destruct (LoadWhisperMessage x) as [m|e|]; [|reflexivity|reflexivity].
    unfold SessionDecryptWhisperMessage. pose proof (sc_decrypt_rnd C (LoadSession w rid dev) m rnd rnd') as X.
    destruct (sc_decrypt C (LoadSession w rid dev) m rnd) as [[q|e|] r2], (sc_decrypt C (LoadSession w rid dev) m rnd') as [[q'|e'|] r3]; exact X.
  - destruct (LoadPreKeyWhisperMessage x) as [m|e|]; [|reflexivity|reflexivity].
    unfold SessionDecryptPreKeyWhisperMessage. destruct (BuildReceiverSession C _ _ _ _) as [[[pk r1]|e|] l1]; try reflexivity.
    pose proof (sc_decrypt_rnd C r1 (pk_msg m) rnd rnd') as X.
    destruct (sc_decrypt C r1 (pk_msg m) rnd) as [[q|e|] r2], (sc_decrypt C r1 (pk_msg m) rnd') as [[q'|e'|] r3]; exact X.
Qed.
Theorem C15_first_message_lost_refuted : exists C w rid dev b rnd pt l k,
  crypto_ok C /\ receive C w rid dev PREKEY_BUNDLE b rnd = (Ok pt, l) /\
  let w' := apply_effs w (firstn k l) in
  (forall r d, w_sess w' r d = None) /\
  (forall rnd', fst (receive C w' rid dev PREKEY_BUNDLE b rnd') = Err EPreKeyNotFound) /\
  exists b2, (forall rnd', fst (receive C w' rid dev PREKEY_BUNDLE b2 rnd') = Err EPreKeyNotFound) /\
             fst (receive C (apply_effs w l) rid dev PREKEY_BUNDLE b2 rnd) = Ok [2].
Proof.
  set (b := se_bytes (nth 0 outA (mkSent [] 0 CIPHERTEXT []))).
  set (b2 := se_bytes (nth 1 outA (mkSent [] 0 CIPHERTEXT []))).
  set (l := snd (receive toy ex_worldB na 1 PREKEY_BUNDLE b (fun _ => rb 9))).
  exists toy, ex_worldB, na, 1, b, (fun _ => rb 9), [1], l, 2%nat. split; [exact toy_ok|].
  split; [unfold l; apply pair_eq; vm_compute; reflexivity|]. cbv zeta.
  assert (IND : forall x rnd', fst (receive toy (apply_effs ex_worldB (firstn 2 l)) na 1 PREKEY_BUNDLE x rnd')
      = fst (receive toy (apply_effs ex_worldB (firstn 2 l)) na 1 PREKEY_BUNDLE x (fun _ => rb 9))).
  { intros x rnd'. apply receive_rnd. }
  split; [|split].
  - assert (NS : existsb is_store (firstn 2 l) = false) by (vm_compute; reflexivity).
    intros r' d. apply (no_store_none (firstn 2 l) ex_worldB); auto.
  - intros rnd'. rewrite IND. vm_compute. reflexivity.
  - exists b2. split; [intros rnd'; rewrite IND; vm_compute; reflexivity|]. vm_compute. reflexivity.
Qed.
Print Assumptions C15_first_message_lost_refuted.

(* It is true as long as the session has not been stored and the prekey named by the message has not
   been removed; in particular for every point before the session is stored when no one-time prekey
   is used. (After the session is stored the message is a repetition: C04.) The retry may use other
   random numbers. *)
Theorem C15_retry_partial : forall C w rid dev b m rnd pt l k rnd',
  LoadPreKeyWhisperMessage b = Ok m ->
  receive C w rid dev PREKEY_BUNDLE b rnd = (Ok pt, l) ->
  (forall r d c p, ~ In (EStoreSession r d c p) (firstn k l)) ->
  (pk_pkid m <> 0 -> ~ In (ERemovePreKey (pk_pkid m)) (firstn k l)) ->
  fst (receive C (apply_effs w (firstn k l)) rid dev PREKEY_BUNDLE b rnd') = Ok pt.
Proof. exact crash_retry. Qed.
Print Assumptions C15_retry_partial.

Example C15_example : exists m l, let b := se_bytes (nth 0 outA (mkSent [] 0 CIPHERTEXT [])) in
  LoadPreKeyWhisperMessage b = Ok m /\ pk_pkid m = 5 /\
  receive toy ex_worldB na 1 PREKEY_BUNDLE b (fun _ => rb 9) = (Ok [1], l) /\
  (forall r d c p, ~ In (EStoreSession r d c p) (firstn 1 l)) /\ ~ In (ERemovePreKey 5) (firstn 1 l) /\ firstn 1 l <> [].
Proof.
  cbv zeta. set (b := se_bytes _). set (l := snd (receive toy ex_worldB na 1 PREKEY_BUNDLE b (fun _ => rb 9))).
  exists (match LoadPreKeyWhisperMessage b with Ok m => m | _ => mkPkmsg 0 0 0 0 [] [] (mkWmsg 0 [] 0 0 [] []) [] end), l.
  split; [vm_compute; reflexivity|]. split; [vm_compute; reflexivity|].
  split; [unfold l; apply pair_eq; vm_compute; reflexivity|].
  assert (FK : existsb (fun e => is_store e || match e with ERemovePreKey _ => true | _ => false end) (firstn 1 l) = false /\
               length (firstn 1 l) = 1%nat) by (split; vm_compute; reflexivity).
  revert FK. generalize (firstn 1 l). intros l1 [F1 F2].
  split; [|split].
  - intros r d c p X. assert (Y : existsb (fun e => is_store e || match e with ERemovePreKey _ => true | _ => false end) l1 = true); [|congruence].
    apply existsb_exists. exists (EStoreSession r d c p). auto.
  - intros X. assert (Y : existsb (fun e => is_store e || match e with ERemovePreKey _ => true | _ => false end) l1 = true); [|congruence].
    apply existsb_exists. exists (ERemovePreKey 5). auto.
  - intros ->. discriminate.
Qed.

(* ------------------------------------------------------------------------------------------ *)
(* C16. Once an identity key is stored for a peer, and unless all identities are trusted: after every
   history of calls and crashes that key is still the stored one, and building a session from a bundle
   with another key, or receiving a prekey message with another key, is an error without any write. *)
Theorem C16_identity_pinned : forall C w rid k h,
  w_trust_all w = false -> w_ids w rid = Some k ->
  let w' := fst (history C w h) in
  w_ids w' rid = Some k /\
  (forall dev b rbase rratchet, b_ident b <> k ->
     exists e, BuildSenderSession C w' rid dev b rbase rratchet = (Err e, [])) /\
  (forall dev b rnd m, LoadPreKeyWhisperMessage b = Ok m -> pk_ident m <> k ->
     exists e, receive C w' rid dev PREKEY_BUNDLE b rnd = (Err e, [])).
Proof.
  intros C w rid k h H1 H2 w'. destruct (pinned_history C rid k h w (conj H1 H2)) as [P1 P2]. fold w' in P1, P2.
  split; auto.
  assert (N : forall x, x <> k -> IsTrustedIdentity w' rid x = false).
  { intros x Hx. unfold IsTrustedIdentity. rewrite P1, P2. cbn [orb]. destruct (beq k x) eqn:B; auto. apply beq_eq in B. congruence. }
  split.
  - intros dev b rbase rratchet Hb. exists ENotTrusted. unfold BuildSenderSession. now rewrite N.
  - intros dev b rnd m L Hm. cbn [receive]. rewrite L. unfold SessionDecryptPreKeyWhisperMessage, BuildReceiverSession.
    destruct (negb (pk_version m =? _)); [eauto|]. rewrite N by auto. cbn [negb]. eauto.
Qed.
Print Assumptions C16_identity_pinned.

Example C16_example :
  let w := fst (history toy ex_worldB [Done (from_A 0 100)]) in
  w_trust_all w = false /\ w_ids w na = Some (snd (ex_kp 11)) /\
  texts w [Done (from_A 1 110)] = [Some [2]] /\ snd (ex_kp 44) <> snd (ex_kp 11).
Proof.
  cbv zeta. split; [vm_compute; reflexivity|]. split; [vm_compute; reflexivity|].
  split; [vm_compute; reflexivity|]. apply beq_neq. vm_compute. reflexivity.
Qed.

(* ------------------------------------------------------------------------------------------ *)
(* C61. Full statement: accepting a late message of an older session does not harm the newer session.
   It is false. B receives message 0 (first session), messages 3 and 4 (second session) and answers;
   A reads the answer. If the late message 1 of the first session arrives before message 4, all
   messages are still decrypted, but A can no longer read the answer. *)
Definition hB61 (late : bool) : list event :=
  [Done (from_A 0 100); Done (from_A 3 110)] ++ (if late then [Done (from_A 1 120)] else []) ++ [Done (from_A 4 130); Done (CEnc na 1 [7])].
Definition answer (late : bool) : bytes :=
  se_bytes (nth 0 (snd (history toy ex_worldB (hB61 late))) (mkSent [] 0 CIPHERTEXT [])).
Theorem C61_late_message_damages_newer_session_refuted :
  texts ex_worldB (hB61 false) = [Some [1]; Some [4]; Some [5]] /\
  texts ex_worldB (hB61 true) = [Some [1]; Some [4]; Some [2]; Some [5]] /\
  map se_type (snd (history toy ex_worldB (hB61 true))) = [CIPHERTEXT] /\
  fst (receive toy worldA1 nb 1 CIPHERTEXT (answer false) (fun _ => rb 150)) = Ok [7] /\
  forall rnd, fst (receive toy worldA1 nb 1 CIPHERTEXT (answer true) rnd) = Err EInvalidMessage.
Proof.
  split; [vm_compute; reflexivity|]. split; [vm_compute; reflexivity|]. split; [vm_compute; reflexivity|].
  split; [vm_compute; reflexivity|]. intros rnd.
  assert (IND : fst (receive toy worldA1 nb 1 CIPHERTEXT (answer true) rnd)
      = fst (receive toy worldA1 nb 1 CIPHERTEXT (answer true) (fun _ => rb 9))) by apply receive_rnd.
  rewrite IND. vm_compute. reflexivity.
Qed.
Print Assumptions C61_late_message_damages_newer_session_refuted.

(* ------------------------------------------------------------------------------------------ *)
(* C62. Full statement: for every prekey ids that B may generate, A's first message built on B's bundle
   is understood. It is false for id 0, which the generator of ids (a random number masked to 24
   bits) produces: with signed prekey id 0 the message is refused by the parser; with one-time prekey
   id 0 the two sides compute different secrets and the message is refused. *)
Definition w_B0 : world :=
  mkWorld (ex_kp 22) 1002 false (fun _ _ => None) (fun i => if i =? 0 then Some (ex_kp 55) else None)
    (fun i => if i =? 0 then Some (ex_kp 33) else if i =? 1 then Some (ex_kp 33) else None) (fun _ => None).
Definition bundle0 (pkid spkid : Z) (otk : option bytes) : bundle :=
  mkBundle 1002 1 pkid otk spkid (Some (snd (ex_kp 33))) (st_sig ex_setup) (snd (ex_kp 22)).
Definition first_to (b : bundle) : list sent :=
  snd (history toy ex_worldA [Done (CBuild nb 1 b (rb 77) (rb 88)); Done (CEnc nb 1 [1])]).
Definition received (b : bundle) : res bytes :=
  match first_to b with
  | [x] => fst (receive toy w_B0 na 1 (se_type x) (se_bytes x) (fun _ => rb 9))
  | _ => Panic
  end.
Theorem C62_prekey_id_zero_refuted :
  received (bundle0 0 1 None) = Ok [1] /\
  received (bundle0 0 0 None) = Err EIncomplete /\
  received (bundle0 0 1 (Some (snd (ex_kp 55)))) = Err EInvalidMessage.
Proof. split; [vm_compute; reflexivity|]. split; vm_compute; reflexivity. Qed.
Print Assumptions C62_prekey_id_zero_refuted.
