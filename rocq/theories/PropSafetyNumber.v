(* What it means that two people see the same safety number: property C211. *)
From Coq Require Import ZArith List Lia Bool.
From Verif Require Import Bytes Res Wire Crypto Messages Session Builder PropNetwork History Active ActiveLink Content Encodings Sending Receiving
  PropActive PropSending PropReceiving Examples Conversation PropHistory PropReceive Lifetime PropLifetime PropPosted Applications PropApplications
  Fingerprint PropFingerprint SafetyNumber.
Import ListNotations.
Open Scope Z_scope.

(* a person as the number is concerned: telephone number and identity key; same_digits: thirty digits that are
   those of both *)
Definition person : Type := bytes * bytes.
Definition same_digits (H : bytes -> bytes) (x y : person) : Prop :=
  exists bl, half_blocks (spec_half H (fst x) (snd x)) bl /\ half_blocks (spec_half H (fst y) (snd y)) bl.
(* no two different ones among these share their digits *)
Definition told_apart (H : bytes -> bytes) (l : list person) : Prop :=
  forall x y, In x l -> In y l -> same_digits H x y -> x = y.

Lemma fingerprint_is H w tel uuid ident rid key : recID uuid = Ok rid -> w_ids w rid = Some key ->
  GetFingerprint H w tel uuid ident = CreateFingerprintSimple H 1 tel (5 :: snd (w_ident w)) ident (5 :: key).
Proof. intros R I0. unfold GetFingerprint, ContactIdentityKey. rewrite R. cbn [bind]. rewrite I0. reflexivity. Qed.
Lemma fingerprint_saved H w tel uuid ident x : GetFingerprint H w tel uuid ident = Ok x ->
  exists rid key, recID uuid = Ok rid /\ w_ids w rid = Some key /\ length key = 32%nat /\ length (snd (w_ident w)) = 32%nat.
Proof.
  unfold GetFingerprint, ContactIdentityKey. destruct (recID uuid) as [rid|e|]; cbn [bind]; try discriminate.
  destruct (w_ids w rid) as [key|] eqn:K; cbn [bind]; try discriminate.
  unfold CreateFingerprintSimple, castKey, MyIdentityKey, key_ser, key32.
  destruct (Nat.eqb_spec (length (snd (w_ident w))) 32); cbn [bind]; try discriminate.
  destruct (Nat.eqb_spec (length key) 32); cbn [bind]; try discriminate. intros _. exists rid, key. auto.
Qed.

(* the key that is given for a contact whose own key is saved is the one that the contact gives as their own *)
Theorem C211_keys : forall wa wb ua ra, recID ua = Ok ra -> w_ids wb ra = Some (snd (w_ident wa)) -> ContactIdentityKey wb ua = Ok (MyIdentityKey wa).
Proof. intros wa wb ua ra R I0. unfold ContactIdentityKey. rewrite R. cbn [bind]. rewrite I0. reflexivity. Qed.
Print Assumptions C211_keys.
(* C211. Two people see the same number exactly if each has the other's own key saved, and they agree about the
   telephone numbers (unless different people share their thirty digits). *)
Theorem C211_number : forall H, hash64 H -> forall wa ta ub tb rb sb wb tb' ua ta' ra sa,
  recID ub = Ok rb -> w_ids wa rb = Some sb -> recID ua = Ok ra -> w_ids wb ra = Some sa ->
  let ka := snd (w_ident wa) in let kb := snd (w_ident wb) in
  length ka = 32%nat -> length kb = 32%nat -> length sa = 32%nat -> length sb = 32%nat -> ka <> kb ->
  told_apart H [(ta, ka); (tb', kb); (ta', sa); (tb, sb)] ->
  ((exists nums qa qb, GetFingerprint H wa ta ub tb = Ok (nums, qa) /\ GetFingerprint H wb tb' ua ta' = Ok (nums, qb)) <->
   (sb = kb /\ sa = ka /\ tb = tb' /\ ta = ta')).
Proof.
  intros H HH wa ta ub tb rb sb wb tb' ua ta' ra sa RB SB RA SA ka kb La Lb Lsa Lsb NE TA.
  rewrite (fingerprint_is H wa ta ub tb rb sb RB SB), (fingerprint_is H wb tb' ua ta' ra sa RA SA). fold ka kb. split.
  - intros (nums & qa & qb & EA & EB).
    destruct (C49_number_determines_halves H 1 ta 5 ka tb 5 sb nums qa tb' 5 kb ta' 5 sa qb HH ltac:(lia) La Lsb Lb Lsa EA EB)
      as (b1 & b2 & (X1 & X2) & [(Y1 & Y2)|(Y1 & Y2)]).
    + exfalso. assert (X : (ta, ka) = (tb', kb)) by (apply TA; [cbn [In]; auto..|exists b1; auto]). apply NE. congruence.
    + assert (X : (ta, ka) = (ta', sa)) by (apply TA; [cbn [In]; auto..|exists b1; auto]).
      assert (Y : (tb', kb) = (tb, sb)) by (apply TA; [cbn [In]; auto..|exists b2; auto]).
      injection X as -> ->. injection Y as -> ->. auto.
  - intros (-> & -> & -> & ->).
    destruct (CreateFingerprintSimple H 1 ta' (5 :: ka) tb' (5 :: kb)) as [[nums qa]|e|] eqn:E.
    + destruct (C49_safety_number H 1 ta' 5 ka tb' 5 kb nums qa HH ltac:(lia) La Lb E) as (qb & EB & _). exists nums, qa, qb. auto.
    + exfalso. revert E. rewrite simple_ok by assumption. unfold CreateFingerprint.
      destruct (fp_hash H ta' [ka] HH) as (Fl & Wl). destruct (fp_hash H tb' [kb] HH) as (Fr & Wr).
      destruct (create_cases _ _ Wl Wr ltac:(lia) ltac:(lia)) as [(_ & P)|(_ & n & E1 & E2 & O)].
      * rewrite P. discriminate.
      * rewrite E1. cbn [bind]. destruct (scan_create 1 (getFingerprint H ITERATIONS ta' [ka]) (getFingerprint H ITERATIONS tb' [kb]) ltac:(lia) ltac:(lia) ltac:(lia)) as (q1 & Q1 & _).
        rewrite Q1. discriminate.
    + exfalso. apply NE. assert (X : (ta', ka) = (tb', kb)).
      { apply TA; [cbn [In]; auto..|]. revert E. rewrite simple_ok by assumption. unfold CreateFingerprint.
        destruct (fp_hash H ta' [ka] HH) as (Fl & Wl). destruct (fp_hash H tb' [kb] HH) as (Fr & Wr).
        destruct (create_cases _ _ Wl Wr ltac:(lia) ltac:(lia)) as [(EQ & P)|(_ & n & E1 & E2 & O)].
        - intros _. exists (blocks_of (getFingerprint H ITERATIONS ta' [ka])). cbn [fst snd]. rewrite <- !fp_half. split; [apply blocks_half|].
          rewrite EQ. apply blocks_half.
        - rewrite E1. cbn [bind]. destruct (scan_create 1 (getFingerprint H ITERATIONS ta' [ka]) (getFingerprint H ITERATIONS tb' [kb]) ltac:(lia) ltac:(lia) ltac:(lia)) as (q1 & Q1 & _).
          rewrite Q1. discriminate. }
      congruence.
Qed.
Print Assumptions C211_number.

(* ---- the number and the conversation ---- *)
Lemma trust_effs l : forall w, w_trust_all (apply_effs w l) = w_trust_all w.
Proof. induction l as [|e l IH]; intros w; [reflexivity|]. cbn [apply_effs fold_left]. unfold apply_effs in IH. rewrite IH. now destruct e. Qed.
Lemma lstep_same C w x : w_ident (lstep C w x) = w_ident w /\ w_trust_all (lstep C w x) = w_trust_all w.
Proof.
  destruct x as [e|r dev|r|r|id kp|id kp]; cbn [lstep]; try (split; reflexivity).
  destruct e as [c|c k]; cbn [estep]; destruct (perform_call C w c) as [[o out] l]; cbn [fst]; split; first [apply ident_effs|apply trust_effs].
Qed.
Lemma lives_same C xs : forall w, w_ident (lives C w xs) = w_ident w /\ w_trust_all (lives C w xs) = w_trust_all w.
Proof.
  induction xs as [|x xs IH]; intros w; [split; reflexivity|]. cbn [lives fold_left].
  destruct (IH (lstep C w x)) as [A B]. destruct (lstep_same C w x) as [A' B']. unfold lives in *. split; congruence.
Qed.
Lemma ubefore_same C R us n : forall k, w_ident (rs_w (ubefore C R us k n)) = w_ident (rs_w (R n)) /\
  w_trust_all (rs_w (ubefore C R us k n)) = w_trust_all (rs_w (R n)).
Proof.
  induction k as [|k [IH1 IH2]]; [split; reflexivity|]. destruct (nth_error us k) as [[m u]|] eqn:E.
  - destruct (Nat.eq_dec n m) as [<-|N].
    + rewrite (ubefore_S _ _ _ _ _ _ E). destruct (event_turns C (ubefore C R us k n) u) as (xs & HW & _). rewrite HW.
      destruct (lives_same C xs (rs_w (ubefore C R us k n))). split; congruence.
    + assert (X : ubefore C R us (S k) n = ubefore C R us k n).
      { unfold ubefore. rewrite (firstn_S_nth _ _ _ E), fold_left_app. cbn [fold_left]. unfold unstep at 1. cbn [fst snd].
        destruct (Nat.eqb_spec n m); [contradiction|reflexivity]. }
      rewrite X. auto.
  - assert (X : ubefore C R us (S k) n = ubefore C R us k n).
    { apply nth_error_None in E. unfold ubefore. rewrite !firstn_all2 by lia. reflexivity. }
    rewrite X. auto.
Qed.

(* At position k0 of the run client n asked for the number of ub, at k0' client n' for that of ua, and both got
   the same digits; nobody else among those concerned has the digits of another one. *)
Record compared (C : crypto) (R : nat -> rstate) (us : list (nat * appev)) (H : bytes -> bytes) (n n' k0 k0' : nat) (rb : bytes) : Prop := mkCompared {
  cp_numbers : exists ta ub tb tb' ua ta' nums qa qb, recID ub = Ok rb /\
    GetFingerprint H (rs_w (ubefore C R us k0 n)) ta ub tb = Ok (nums, qa) /\
    GetFingerprint H (rs_w (ubefore C R us k0' n')) tb' ua ta' = Ok (nums, qb) /\
    (forall ra sa sb, recID ua = Ok ra -> w_ids (rs_w (ubefore C R us k0 n)) rb = Some sb -> w_ids (rs_w (ubefore C R us k0' n')) ra = Some sa ->
       told_apart H [(ta, snd (w_ident (rs_w (R n)))); (tb', snd (w_ident (rs_w (R n')))); (ta', sa); (tb, sb)]);
  cp_others : snd (w_ident (rs_w (R n))) <> snd (w_ident (rs_w (R n')));
  cp_kept : forall j, (k0 <= j)%nat -> nth_error us j <> Some (n, UStep (LForget rb)) }.

(* from then on the key that client n has saved for that name is the identity key of n' *)
Theorem C211_saved : forall C R us H n n' k0 k0' rb, hash64 H -> w_trust_all (rs_w (R n)) = false -> compared C R us H n n' k0 k0' rb ->
  forall k, (k0 <= k)%nat -> w_ids (rs_w (ubefore C R us k n)) rb = Some (snd (w_ident (rs_w (R n')))).
Proof.
  intros C R us H n n' k0 k0' rb HH HT [(ta & ub & tb & tb' & ua & ta' & nums & qa & qb & RB & GA & GB & TA) NE KP] k Hk.
  destruct (fingerprint_saved _ _ _ _ _ _ GA) as (rb' & sb & RB' & SB & Lsb & La).
  destruct (fingerprint_saved _ _ _ _ _ _ GB) as (ra & sa & RA & SA & Lsa & Lb).
  assert (rb' = rb) by congruence. subst rb'.
  destruct (ubefore_same C R us n k0) as [IA IT]. destruct (ubefore_same C R us n' k0') as [IB _].
  specialize (TA ra sa sb RA SB SA). rewrite IA in La. rewrite IB in Lb.
  pose proof (C211_number H HH _ ta ub tb rb sb _ tb' ua ta' ra sa RB SB RA SA) as N. cbv zeta in N. rewrite IA, IB in N.
  destruct (proj1 (N La Lb Lsa Lsb NE TA)) as (E & _); [exists nums, qa, qb; auto|].
  rewrite <- E. replace k with (k0 + (k - k0))%nat by lia.
  apply (C201_kept C R us n rb sb k0); [rewrite IT; exact HT|exact SB|]. intros j Hj. apply KP. lia.
Qed.
Print Assumptions C211_saved.

Lemma ident_honest C priv W : start_ok C priv W -> forall n, honest priv (snd (w_ident (W n))) = true.
Proof. intros SO n. destruct (PropActive.so_ident _ _ _ SO n) as [M E]. unfold honest. rewrite <- E. unfold mine in M. now rewrite M. Qed.

(* what is shown from then on as a message from that name was asked for by the application of n', word for word *)
Theorem C211_shown : forall C, crypto_ok C -> forall priv, (forall k x, priv k = Some x -> basepub C x = k) ->
  forall R us, start_ok C priv (fun i => rs_w (R i)) -> (forall n u, In (n, u) us -> uknown C priv u) ->
  forall evs, plays C R us evs ->
  forall H n n' k0 k0' rb, hash64 H -> w_trust_all (rs_w (R n)) = false -> utidy C R us n -> compared C R us H n n' k0 k0' rb ->
  forall k ou rnd rnd2 env m, (k0 <= k)%nat -> nth_error us k = Some (n, URecv ou rnd rnd2 env None) ->
  In (ACall (HMessage m)) (uacts C (ubefore C R us k n) (URecv ou rnd rnd2 env None)) -> m_source m = rb -> rb <> [] ->
  let me := snd (w_ident (rs_w (R n))) in let id := snd (w_ident (rs_w (R n'))) in
  exists e b ty j a p i wh body, env = Some e /\ e_content e = Some b /\ whisper_of ty b = Some wh /\
    wh = body ++ aeval C priv (a_tag a p i id me body) /\ plays C R (firstn k us) (firstn j evs) /\
    forall leak, lmild C (fun i => rs_w (R i)) evs leak -> ~ leak (APriv id) ->
    aknows (honest priv) leak (lsent_before C priv (fun i => rs_w (R i)) evs j) (a_tag a p i id me body) ->
    exists k' n'' u pk now o, (k' < k)%nat /\ nth_error us k' = Some (n'', u) /\ snd (w_ident (rs_w (R n''))) = id /\
      asked u = Some (pk, now, o) /\ says C ou pk now o m.
Proof.
  intros C OK priv PO R us SO KU evs HP H n n' k0 k0' rb HH HT TD CP k ou rnd rnd2 env m Hk Hn HM HS NE me id.
  destruct (C201_shown C OK priv PO R us SO KU evs HP k n ou rnd rnd2 env m HT TD Hn HM ltac:(now rewrite HS)) as (id' & ID & HX).
  rewrite HS, (C211_saved C R us H n n' k0 k0' rb HH HT CP (S k) ltac:(lia)) in ID.
  assert (E : id' = id) by (unfold id; congruence). subst id'.
  destruct (HX (ident_honest C priv (fun i => rs_w (R i)) SO n')) as (e & b & ty & j & a & p & i & wh & body & A1 & A2 & A3 & A4 & A5 & A6).
  exists e, b, ty, j, a, p, i, wh, body. repeat (split; [assumption|]). intros leak L1 L2 L3.
  destruct (A6 leak L1 L2 L3) as (k' & n'' & u & pk & now & o & B1 & B2 & B3 & B4 & B5 & _). exists k', n'', u, pk, now, o. auto.
Qed.
Print Assumptions C211_shown.

(* what is sent from then on to that name can be read only with the identity key of n' *)
Theorem C211_sent : forall C, crypto_ok C -> forall priv, (forall k x, priv k = Some x -> basepub C x = k) ->
  forall R us, start_ok C priv (fun i => rs_w (R i)) -> (forall n u, In (n, u) us -> uknown C priv u) ->
  forall evs, plays C R us evs ->
  forall H n n' k0 k0' rb, hash64 H -> w_trust_all (rs_w (R n)) = false -> utidy C R us n -> compared C R us H n n' k0 k0' rb ->
  forall k u q j, (k0 <= k)%nat -> nth_error us k = Some (n, u) -> In q (uputs C (ubefore C R us k n) u) -> In j (q_msgs q) ->
  recID (q_dest q) = Ok rb -> let id := snd (w_ident (rs_w (R n'))) in
  exists e b, j_content j = enc64 b /\ em_from e = snd (w_ident (rs_w (R n))) /\ em_to e = id /\ In (q_dest q, em_text e) (sent_texts u) /\
    ActiveLink.carries b (em_body e ++ aeval C priv (tag_of e)) /\
    forall leak, lmild C (fun i => rs_w (R i)) evs leak -> ~ leak (APriv id) ->
     ~ aknows (honest priv) leak (lsent_before C priv (fun i => rs_w (R i)) evs (length evs)) (a_mk (em_ag e) (em_path e) (em_idx e) 0 32).
Proof.
  intros C OK priv PO R us SO KU evs HP H n n' k0 k0' rb HH HT TD CP k u q j Hk Hn HQ HJ HD id.
  destruct (C202_sent C OK priv PO R us SO KU evs HP k n u q j HT TD Hn HQ HJ) as (recid & id' & e & b & A1 & A2 & A3 & A4 & A5 & A6 & A7 & A8).
  assert (recid = rb) by congruence. subst recid. rewrite (C211_saved C R us H n n' k0 k0' rb HH HT CP (S k) ltac:(lia)) in A2.
  assert (E : id' = id) by (unfold id; congruence). rewrite E in A5, A8.
  exists e, b. repeat (split; [assumption|]). apply A8. exact (ident_honest C priv (fun i => rs_w (R i)) SO n').
Qed.
Print Assumptions C211_sent.

(* Example: A has written to B, who has answered; both look at the number before A reads the answer. *)
Lemma digits_blocks H x y : hash64 H -> same_digits H x y ->
  blocks_of (getFingerprint H ITERATIONS (fst x) [snd x]) = blocks_of (getFingerprint H ITERATIONS (fst y) [snd y]).
Proof.
  intros HH (bl & A & B).
  rewrite (half_inj _ _ bl (blocks_half (getFingerprint H ITERATIONS (fst x) [snd x]))); [|rewrite fp_half; exact A].
  rewrite (half_inj _ _ bl (blocks_half (getFingerprint H ITERATIONS (fst y) [snd y]))); [reflexivity|rewrite fp_half; exact B].
Qed.
Definition ex_hash65 (m : bytes) : bytes := repeat (Z.land (hd 0 m + hd 0 (skipn 65 m) + 1) 255) 64.
Lemma ex_hash65_ok : hash64 ex_hash65.
Proof.
  intros m. split; [reflexivity |]. apply Forall_forall. intros x Hx. apply repeat_spec in Hx. subst. unfold isbyte.
  change 255 with (Z.ones 8). rewrite Z.land_ones by lia. apply Z.mod_pos_bound. reflexivity.
Qed.
Definition ex_digits_a := Eval vm_compute in blocks_of (getFingerprint ex_hash65 ITERATIONS alice_id [pub 11]).
Definition ex_digits_b := Eval vm_compute in blocks_of (getFingerprint ex_hash65 ITERATIONS bob_id [pub 22]).
Lemma ex_digits_a_is : blocks_of (getFingerprint ex_hash65 ITERATIONS alice_id [pub 11]) = ex_digits_a.
Proof. vm_compute. reflexivity. Qed.
Lemma ex_digits_b_is : blocks_of (getFingerprint ex_hash65 ITERATIONS bob_id [pub 22]) = ex_digits_b.
Proof. vm_compute. reflexivity. Qed.
Lemma apart_two H (x y : person) : ~ same_digits H x y -> told_apart H [x; y; x; y].
Proof.
  intros X. assert (Y : ~ same_digits H y x) by (intros (bl & A & B); apply X; exists bl; auto).
  intros a b Ha Hb S0. cbn [In] in Ha, Hb.
  destruct Ha as [<-|[<-|[<-|[<-|[]]]]], Hb as [<-|[<-|[<-|[<-|[]]]]]; solve [reflexivity|exfalso; exact (X S0)|exfalso; exact (Y S0)].
Qed.
Lemma ex_apart : told_apart ex_hash65 [(alice_id, pub 11); (bob_id, pub 22); (alice_id, pub 11); (bob_id, pub 22)].
Proof.
  apply apart_two. intros H. apply (digits_blocks _ _ _ ex_hash65_ok) in H. cbn [fst snd] in H. rewrite ex_digits_a_is, ex_digits_b_is in H. discriminate H.
Qed.
Notation ex_wa := (rs_w (ubefore toy app_R app_us 3 0%nat)).
Notation ex_wb := (rs_w (ubefore toy app_R app_us 3 1%nat)).
Lemma ex_saved_a : w_ids ex_wa nb = Some (pub 22).
Proof. vm_compute. reflexivity. Qed.
Lemma ex_saved_b : w_ids ex_wb na = Some (pub 11).
Proof. vm_compute. reflexivity. Qed.
Lemma ex_ident_a : snd (w_ident ex_wa) = pub 11.
Proof. vm_compute. reflexivity. Qed.
Lemma ex_ident_b : snd (w_ident ex_wb) = pub 22.
Proof. vm_compute. reflexivity. Qed.
Lemma ex_same : exists nums qa qb, GetFingerprint ex_hash65 ex_wa alice_id nb bob_id = Ok (nums, qa) /\
  GetFingerprint ex_hash65 ex_wb bob_id na alice_id = Ok (nums, qb).
Proof.
  apply (C211_number ex_hash65 ex_hash65_ok ex_wa alice_id nb bob_id nb (pub 22) ex_wb bob_id na alice_id na (pub 11)).
  - reflexivity.
  - exact ex_saved_a.
  - reflexivity.
  - exact ex_saved_b.
  - rewrite ex_ident_a. reflexivity.
  - rewrite ex_ident_b. reflexivity.
  - reflexivity.
  - reflexivity.
  - rewrite ex_ident_a, ex_ident_b. intros X. apply (f_equal (hd 0)) in X. revert X. vm_compute. discriminate.
  - rewrite ex_ident_a, ex_ident_b. exact ex_apart.
  - rewrite ex_ident_a, ex_ident_b. auto.
Qed.
Example C211_example : compared toy app_R app_us ex_hash65 0 1 3 3 nb /\ app_shown 3 0%nat app_recv2 = [(nb, [120], 0, 1)].
Proof.
  split; [|vm_compute; reflexivity]. destruct ex_same as (nums & qa & qb & A & B). constructor.
  - exists alice_id, nb, bob_id, bob_id, na, alice_id, nums, qa, qb. split; [reflexivity|]. split; [exact A|]. split; [exact B|].
    intros ra sa sb RA SB SA. assert (ra = na) by (change (Ok na = Ok ra) in RA; congruence). subst ra.
    assert (sb = pub 22) by (pose proof ex_saved_a as X; congruence).
    assert (sa = pub 11) by (pose proof ex_saved_b as X; congruence). subst sa sb.
    pose proof (proj1 (ubefore_same toy app_R app_us 0%nat 3)) as I1. pose proof (proj1 (ubefore_same toy app_R app_us 1%nat 3)) as I2.
    pose proof ex_ident_a as J1. pose proof ex_ident_b as J2. rewrite I1 in J1. rewrite I2 in J2.
    rewrite J1, J2. exact ex_apart.
  - pose proof (proj1 (ubefore_same toy app_R app_us 0%nat 3)) as I1. pose proof (proj1 (ubefore_same toy app_R app_us 1%nat 3)) as I2.
    pose proof ex_ident_a as J1. pose proof ex_ident_b as J2. rewrite I1 in J1. rewrite I2 in J2.
    rewrite J1, J2. intros X. apply (f_equal (hd 0)) in X. revert X. vm_compute. discriminate.
  - intros j Hj. do 4 (destruct j as [|j]; [discriminate|]). destruct j; discriminate.
Qed.
