(* C198: what the server accepts is understood by every device of the recipient, also by devices that
   were added or set up anew since the last message; and a message does get through to all of them. *)
From Coq Require Import ZArith List Lia Bool Permutation.
From Verif Require Import Bytes Res Wire WireProofs Crypto Cbc CbcProofs Messages MessagesProofs Session Builder SessionProofs
  SessionFacts HistoryProofs Conversation ConversationProofs RecordCodec RecordCodecProofs Content ContentProofs Encodings PropEncodings Sending SendingProofs InTouch
  PropSending Receiving PropReceiving Delivery Examples.
Import ListNotations.
Open Scope Z_scope.

(* the messages in the requests of a log, and the requests *)
Definition msgs_of (e : event) : list jmsg := match e with EvPut q _ => q_msgs q | EvFetch _ _ _ => [] end.
Definition is_put (e : event) : bool := match e with EvPut _ _ => true | EvFetch _ _ _ => false end.

Section D.
Variable C : crypto.
Variable V : server.
Variable rnd : nat -> bytes.
Variable R : receiver.
Variable uuid recid : bytes.
Hypothesis OK : crypto_ok C.
Hypothesis RI : recID uuid = Ok recid.
Hypothesis KS : keys_served C V rnd R uuid.

(* the last request has one message for each device, which opens it *)
Definition got_through (pt : bytes) (ts : Z) (l : list event) : Prop :=
  exists l' q r, l = l' ++ [EvPut q r] /\ q_dest q = uuid /\ q_ts q = ts /\
    Permutation (map j_dev (q_msgs q)) (rv_devs R) /\ forall j, In j (q_msgs q) -> opens C R j pt.

Lemma got_through_app pt ts l l' : got_through pt ts l' -> got_through pt ts (l ++ l').
Proof. intros (a & q & r & -> & H). exists (l ++ a), q, r. split; [apply app_assoc|exact H]. Qed.

Lemma fetch_msgs f : Forall (fetch_of uuid) f -> flat_map msgs_of f = [] /\ filter is_put f = [].
Proof. induction 1 as [|e f H F [IH1 IH2]]; [auto|]. destruct e; [cbn; auto|destruct H]. Qed.

Lemma suits_opens pt q devs : suits R q -> map j_dev (q_msgs q) = devs ->
  (forall j, In j (q_msgs q) -> In (j_dev j) (rv_devs R) -> j_reg j = w_reg (rv_w R (j_dev j)) -> opens C R j pt) ->
  forall j, In j (q_msgs q) -> opens C R j pt.
Proof.
  intros [P S] _ H j I. apply H; [exact I| |exact (S j I)]. apply (Permutation_in (j_dev j) P). apply in_map, I.
Qed.

Lemma accepted pt ts (W : wfb pt) (Z : zlen pt < 2 ^ 60) (CF : careful V R uuid) fuel : forall n st v st', (n <= 2001)%nat ->
  acquainted C rnd R recid (cs_w V st) -> current C R recid n (cs_w V st) pt ->
  buildAndSend C V rnd fuel uuid pt ts st = (Some (Ok v), st') ->
  exists l, cs_log V st' = cs_log V st ++ l /\ ((length (flat_map msgs_of l) <= n)%nat -> got_through pt ts l).
Proof.
  induction fuel as [|fuel IH]; intros n st v st' N A CU; cbn [buildAndSend]; [discriminate|].
  unfold buildMessage. rewrite RI.
  destruct (build_devices C V rnd uuid recid pt (devs_of V st uuid) st) as [r1 st1] eqn:E1.
  destruct r1 as [js|e|]; [|discriminate|discriminate].
  destruct (build_log C V rnd _ _ _ _ _ _ _ E1) as (D1 & (f & L1 & F1) & J1). destruct (J1 js eq_refl) as [J2 _].
  destruct (fetch_msgs f F1) as [FM _].
  pose proof (all_devices C V rnd R uuid recid OK KS pt W Z (devs_of V st uuid)) as AD.
  set (q := mkReq uuid ts js).
  destruct (sv_put V (cs_srv V st1) q) as [reply s'] eqn:EP.
  assert (LJ : length (devs_of V st uuid) = length js) by (rewrite <- J2; apply map_length).
  assert (FL : forall t, flat_map msgs_of (f ++ EvPut q reply :: t) = js ++ flat_map msgs_of t).
  { intros t. rewrite flat_map_app, FM. reflexivity. }
  (* what is left to show for a further attempt *)
  assert (NX : forall st2 st'', cs_log V st2 = cs_log V st1 ++ [EvPut q reply] ->
     ((length js <= n)%nat -> acquainted C rnd R recid (cs_w V st2) /\ current C R recid (n - length js) (cs_w V st2) pt) ->
     (exists x, buildAndSend C V rnd fuel uuid pt ts st2 = (Some (Ok x), st'')) ->
     exists l, cs_log V st'' = cs_log V st ++ l /\ ((length (flat_map msgs_of l) <= n)%nat -> got_through pt ts l)).
  { intros st2 st'' L2 H2 (x & HB).
    destruct (le_lt_dec (length js) n) as [LE|GT].
    - destruct (H2 LE) as [A2 C2]. destruct (IH (n - length js)%nat st2 x st'' ltac:(lia) A2 C2 HB) as (l & L3 & G).
      exists (f ++ EvPut q reply :: l). split; [rewrite L3, L2, L1, <- !app_assoc; reflexivity|].
      rewrite FL, app_length. intros T. apply (got_through_app pt ts (f ++ [EvPut q reply])) in G; [|lia].
      rewrite <- app_assoc in G. exact G.
    - assert (X : exists l, cs_log V st'' = cs_log V st2 ++ l).
      { clear - HB RI. revert st2 x HB. induction fuel as [|fuel IHf]; intros st2 x; cbn [buildAndSend]; [discriminate|].
        unfold buildMessage. rewrite RI.
        destruct (build_devices C V rnd uuid recid pt (devs_of V st2 uuid) st2) as [r1 st1] eqn:E1.
        destruct (build_log C V rnd _ _ _ _ _ _ _ E1) as (_ & (f & L1 & _) & _).
        destruct r1 as [js|e|]; [|discriminate|discriminate].
        destruct (sv_put V (cs_srv V st1) (mkReq uuid ts js)) as [reply s'].
        destruct reply as [|status m e st0 ns]; [discriminate|].
        assert (K : forall sa x', cs_log V sa = cs_log V st1 ++ [EvPut (mkReq uuid ts js) (PutStatus status m e st0 ns)] ->
           buildAndSend C V rnd fuel uuid pt ts sa = (Some (Ok x'), st'') -> exists l, cs_log V st'' = cs_log V st2 ++ l).
        { intros sa x' La Hb. destruct (IHf _ _ Hb) as (l & L). exists (f ++ EvPut (mkReq uuid ts js) (PutStatus status m e st0 ns) :: l).
          rewrite L, La, L1, <- !app_assoc. reflexivity. }
        destruct (status =? 409); [apply K; reflexivity|].
        destruct (status =? 410); [destruct st0; apply K; reflexivity|].
        destruct (isError status); [discriminate|]. intros [= <- <-]. cbn [cs_log]. rewrite L1, <- app_assoc. eexists. reflexivity. }
      destruct X as (l & L3). exists (f ++ EvPut q reply :: l). split; [rewrite L3, L2, L1, <- !app_assoc; reflexivity|].
      rewrite FL, app_length. lia. }
  destruct reply as [|status mi ex sl ns]; [discriminate|].
  destruct (Z.eqb_spec status 409) as [->|N9].
  { intros HB. apply (NX (set_devs V (mkCs V (cs_w V st1) (cs_devs V st1) (cs_rnd V st1) s' (cs_log V st1 ++ [EvPut q (PutStatus 409 mi ex sl ns)])) uuid
      (correct_devices (devs_of V (mkCs V (cs_w V st1) (cs_devs V st1) (cs_rnd V st1) s' (cs_log V st1 ++ [EvPut q (PutStatus 409 mi ex sl ns)])) uuid) mi ex)) st'); [reflexivity| |eauto].
    intros LE. destruct (AD n st js st1 ltac:(lia) N A CU E1) as (A1 & C1 & _). rewrite LJ in C1. split; assumption. }
  destruct (Z.eqb_spec status 410) as [->|N10].
  { intros HB. assert (HB' : buildAndSend C V rnd fuel uuid pt ts (set_w V (mkCs V (cs_w V st1) (cs_devs V st1) (cs_rnd V st1) s' (cs_log V st1 ++ [EvPut q (PutStatus 410 mi ex sl ns)])) (delete_sessions (cs_w V st1) recid sl)) = (Some (Ok v), st')) by (destruct sl; exact HB).
    match type of HB' with buildAndSend _ _ _ _ _ _ _ ?s2 = _ => apply (NX s2 st'); [reflexivity| |exists v; exact HB'] end.
    intros LE. destruct (AD n st js st1 ltac:(lia) N A CU E1) as (A1 & C1 & _). rewrite LJ in C1. cbn [set_w cs_w].
    split; [apply delete_acquainted, A1|apply delete_current, C1]. }
  destruct (isError status) eqn:IE; [discriminate|].
  intros [= <- <-]. cbn [cs_log]. exists (f ++ [EvPut q (PutStatus status mi ex sl ns)]). split; [rewrite L1, <- app_assoc; reflexivity|].
  rewrite FL. cbn [flat_map]. rewrite app_nil_r. intros LE.
  assert (SU : suits R q).
  { eapply (CF (cs_srv V st1) q); [reflexivity|rewrite EP; reflexivity|exact N9|exact N10|exact IE]. }
  exists f, q, (PutStatus status mi ex sl ns). split; [reflexivity|]. split; [reflexivity|]. split; [reflexivity|].
  split; [apply SU|]. destruct (AD n st js st1 ltac:(lia) N A CU E1) as (_ & _ & _ & _ & _ & P & _).
  eapply suits_opens; [exact SU|reflexivity|exact P].
Qed.

(* ---- with a server that names what is wrong ---- *)
Lemma NoDup_app_intro {A} (a b : list A) : NoDup a -> NoDup b -> (forall x, In x a -> In x b -> False) -> NoDup (a ++ b).
Proof.
  induction 1 as [|x a N H IH]; intros B D; [exact B|]. cbn [app]. constructor.
  - rewrite in_app_iff. intros [I|I]; [exact (N I)|]. exact (D x (or_introl eq_refl) I).
  - apply IH; [exact B|]. intros y I1 I2. exact (D y (or_intror I1) I2).
Qed.
Lemma mem_in d l : mem d l = true <-> In d l.
Proof.
  unfold mem. rewrite existsb_exists. split.
  - intros (x & I & E). apply Z.eqb_eq in E. now subst.
  - intros I. exists d. split; [exact I|apply Z.eqb_refl].
Qed.
Lemma filter_nil {A} (f : A -> bool) l : filter f l = [] <-> forall x, In x l -> f x = false.
Proof.
  split.
  - intros H x I. destruct (f x) eqn:E; [|reflexivity]. assert (J : In x (filter f l)) by (apply filter_In; auto). rewrite H in J. destruct J.
  - intros H. induction l as [|a l IH]; [reflexivity|]. cbn [filter]. rewrite (H a (or_introl eq_refl)). apply IH. intros x I. apply H. now right.
Qed.

Section H.
Variable pt : bytes.
Variable ts : Z.
Hypothesis W : wfb pt.
Hypothesis Z60 : zlen pt < 2 ^ 60.
Hypothesis HP : helpful V R uuid.

Let k := length (rv_devs R).
Definition ready (n : nat) (st : cstate V) : Prop := (n <= 2001)%nat /\
  acquainted C rnd R recid (cs_w V st) /\ current C R recid n (cs_w V st) pt /\ all_usable recid (cs_w V st).
(* accepted after at most so many requests *)
Definition finishes (tries : nat) (fuel : nat) (st : cstate V) : Prop :=
  exists ns st' l, buildAndSend C V rnd fuel uuid pt ts st = (Some (Ok (ns, ts)), st') /\ cs_log V st' = cs_log V st ++ l /\
    (length (filter is_put l) <= tries)%nat /\ got_through pt ts l.

(* one attempt *)
Lemma attempt n st : ready n st -> (length (devs_of V st uuid) <= n)%nat -> NoDup (devs_of V st uuid) ->
  (forall d, In d (devs_of V st uuid) -> In d (rv_devs R) \/ exists v, w_sess (cs_w V st) recid d = Some v) ->
  exists js st1 f ns, build_devices C V rnd uuid recid pt (devs_of V st uuid) st = (Ok js, st1) /\
    cs_log V st1 = cs_log V st ++ f /\ filter is_put f = [] /\ cs_devs V st1 = cs_devs V st /\
    ready (n - length (devs_of V st uuid)) st1 /\ map j_dev js = devs_of V st uuid /\
    fst (sv_put V (cs_srv V st1) (mkReq uuid ts js)) = verdict R (mkReq uuid ts js) ns /\
    (forall j, In j js -> In (j_dev j) (rv_devs R) -> j_reg j = w_reg (rv_w R (j_dev j)) -> opens C R j pt) /\
    (all_current R recid (cs_w V st) -> forall j, In j js -> In (j_dev j) (rv_devs R) -> j_reg j = w_reg (rv_w R (j_dev j))) /\
    (forall w, (forall d, w_sess w recid d = if mem d (stale_of R (mkReq uuid ts js)) then None else w_sess (cs_w V st1) recid d) ->
       Permutation (devs_of V st uuid) (rv_devs R) -> all_current R recid w).
Proof.
  intros (N & A & CU & US) L ND HD.
  destruct (builds C V rnd R uuid recid OK KS pt W Z60 (devs_of V st uuid) n st L N A CU US HD) as (js & st1 & E1).
  destruct (build_log C V rnd _ _ _ _ _ _ _ E1) as (D1 & (f & L1 & F1) & J1).
  destruct (all_devices C V rnd R uuid recid OK KS pt W Z60 (devs_of V st uuid) n st js st1 L N A CU E1) as (A1 & C1 & J2 & _ & U1 & P1 & Q1 & R1 & _).
  destruct (HP (cs_srv V st1) (mkReq uuid ts js) eq_refl) as (ns & PV); [cbn [q_msgs]; rewrite J2; exact ND|].
  exists js, st1, f, ns. split; [exact E1|]. split; [exact L1|]. split; [apply fetch_msgs, F1|]. split; [exact D1|].
  split; [split; [lia|]; split; [exact A1|]; split; [exact C1|exact (U1 US)]|]. split; [exact J2|]. split; [exact PV|].
  split; [exact P1|]. split; [intros AC; apply (Q1 AC)|].
  (* a message for each device carries the registration of the session *)
  intros w HW PM d c p D S. rewrite HW in S. destruct (mem d (stale_of R (mkReq uuid ts js))) eqn:M; [discriminate|].
  assert (IJ : exists j, In j js /\ j_dev j = d).
  { assert (I' : In d (map j_dev js)) by (rewrite J2; apply (Permutation_in d (Permutation_sym PM) D)).
    apply in_map_iff in I'. destruct I' as (j & X & Y). eauto. }
  destruct IJ as (j & IJ & DJ).
  assert (RG : j_reg j = w_reg (rv_w R d)).
  { destruct (Z.eq_dec (j_reg j) (w_reg (rv_w R d))) as [E|E]; [exact E|]. exfalso.
    assert (M' : mem d (stale_of R (mkReq uuid ts js)) = true); [|congruence].
    apply mem_in. unfold stale_of. apply in_map_iff. exists j. split; [exact DJ|]. apply filter_In. split; [exact IJ|].
    rewrite DJ. apply negb_true_iff, Z.eqb_neq, E. }
  destruct (R1 ND j IJ) as (c' & p' & S' & R'). rewrite DJ in S'. congruence.
Qed.

(* the verdict on a request for exactly the devices *)
Lemma no_mismatch js devs : map j_dev js = devs -> Permutation devs (rv_devs R) ->
  missing_of R (mkReq uuid ts js) = [] /\ extra_of R (mkReq uuid ts js) = [].
Proof.
  intros J P. unfold missing_of, extra_of. cbn [q_msgs]. rewrite J. split; apply filter_nil; intros d I; apply negb_false_iff, mem_in.
  - exact (Permutation_in d (Permutation_sym P) I).
  - exact (Permutation_in d P I).
Qed.
Lemma corrected js devs : map j_dev js = devs -> NoDup devs -> NoDup (rv_devs R) ->
  Permutation (correct_devices devs (missing_of R (mkReq uuid ts js)) (extra_of R (mkReq uuid ts js))) (rv_devs R).
Proof.
  intros J N1 N2. unfold correct_devices, missing_of, extra_of. cbn [q_msgs]. rewrite J.
  assert (HX : forall d, In d devs -> (negb (existsb (Z.eqb d) (filter (fun x => negb (mem x (rv_devs R))) devs)) = true <-> In d (rv_devs R))).
  { intros d I. rewrite negb_true_iff, <- not_true_iff_false. change (existsb (Z.eqb d)) with (mem d). rewrite mem_in, filter_In.
    rewrite negb_true_iff, <- not_true_iff_false, mem_in. destruct (in_dec Z.eq_dec d (rv_devs R)); tauto. }
  apply NoDup_Permutation; [|exact N2|].
  - apply NoDup_app_intro.
    + apply NoDup_filter, N1.
    + apply NoDup_filter, N2.
    + intros d I1 I2. apply filter_In in I1. apply filter_In in I2. destruct I1 as [I1 _]. destruct I2 as [_ I2].
      apply negb_true_iff in I2. apply mem_in in I1. congruence.
  - intros d. rewrite in_app_iff, !filter_In. split.
    + intros [[I1 I2]|[I1 _]]; [now apply (HX d I1)|exact I1].
    + intros I. destruct (in_dec Z.eq_dec d devs) as [I'|I']; [left; split; [exact I'|now apply HX]|right; split; [exact I|]].
      apply negb_true_iff, not_true_iff_false. rewrite mem_in. exact I'.
Qed.
Lemma no_mismatch_perm js devs : map j_dev js = devs -> NoDup devs -> NoDup (rv_devs R) ->
  missing_of R (mkReq uuid ts js) = [] -> extra_of R (mkReq uuid ts js) = [] -> Permutation devs (rv_devs R).
Proof.
  intros J N1 N2 M E. pose proof (corrected js devs J N1 N2) as P. rewrite M, E in P. unfold correct_devices in P. rewrite app_nil_r in P.
  assert (F : filter (fun d => negb (existsb (Z.eqb d) [])) devs = devs).
  { clear. induction devs as [|d l IH]; [reflexivity|]. cbn [filter existsb negb]. f_equal. exact IH. }
  now rewrite F in P.
Qed.

(* all sessions are current and the devices are the right ones: accepted at once *)
Lemma third fuel n st : ready n st -> (length (devs_of V st uuid) <= n)%nat -> Permutation (devs_of V st uuid) (rv_devs R) ->
  all_current R recid (cs_w V st) -> finishes 1 (S fuel) st.
Proof.
  intros RD L P AC.
  destruct (attempt n st RD L (Permutation_NoDup (Permutation_sym P) (aq_nodup _ _ _ _ _ (proj1 (proj2 RD))))) as (js & st1 & f & ns & E1 & L1 & F1 & D1 & RD1 & J1 & PV & O1 & A1 & _).
  { intros d I. left. exact (Permutation_in d P I). }
  destruct (no_mismatch js _ J1 P) as [M E].
  assert (ST : stale_of R (mkReq uuid ts js) = []).
  { unfold stale_of. cbn [q_msgs]. assert (FN : filter (fun j => negb (j_reg j =? w_reg (rv_w R (j_dev j)))) js = []); [|now rewrite FN].
    apply filter_nil. intros j I. apply negb_false_iff, Z.eqb_eq, (A1 AC j I).
    apply (Permutation_in (j_dev j) P). rewrite <- J1. apply in_map, I. }
  unfold verdict in PV. rewrite M, E, ST in PV.
  unfold finishes. cbn [buildAndSend]. unfold buildMessage. rewrite RI, E1.
  destruct (sv_put V (cs_srv V st1) (mkReq uuid ts js)) as [reply s'] eqn:EP. cbn [fst] in PV. subst reply.
  change (200 =? 409) with false. change (200 =? 410) with false. change (isError 200) with false. cbv iota.
  eexists _, _, (f ++ [EvPut (mkReq uuid ts js) (PutStatus 200 [] [] [] ns)]). split; [reflexivity|].
  split; [cbn [cs_log]; rewrite L1, <- app_assoc; reflexivity|].
  split; [rewrite filter_app, F1; cbn; lia|].
  eexists f, _, _. split; [reflexivity|]. split; [reflexivity|]. split; [reflexivity|]. cbn [q_msgs]. rewrite J1. split; [exact P|].
  intros j I. assert (D : In (j_dev j) (rv_devs R)) by (apply (Permutation_in (j_dev j) P); rewrite <- J1; apply in_map, I).
  apply O1; [exact I|exact D|exact (A1 AC j I D)].
Qed.

(* a request for exactly the devices *)
Lemma second fuel n st : ready n st -> (2 * length (rv_devs R) <= n)%nat -> Permutation (devs_of V st uuid) (rv_devs R) ->
  finishes 2 (S (S fuel)) st.
Proof.
  intros RD L P. pose proof (Permutation_length P) as PL.
  destruct (attempt n st RD ltac:(lia) (Permutation_NoDup (Permutation_sym P) (aq_nodup _ _ _ _ _ (proj1 (proj2 RD))))) as (js & st1 & f & ns & E1 & L1 & F1 & D1 & RD1 & J1 & PV & O1 & A1 & K1).
  { intros d I. left. exact (Permutation_in d P I). }
  destruct (no_mismatch js _ J1 P) as [M E].
  unfold verdict in PV. rewrite M, E in PV.
  destruct (stale_of R (mkReq uuid ts js)) as [|x l0] eqn:ST.
  - (* accepted *)
    assert (AC : forall j, In j js -> j_reg j = w_reg (rv_w R (j_dev j))).
    { intros j I. unfold stale_of in ST. cbn [q_msgs] in ST. apply map_eq_nil in ST.
      pose proof (proj1 (filter_nil _ _) ST j I) as H. cbv beta in H. apply negb_false_iff, Z.eqb_eq in H. exact H. }
    unfold finishes. cbn [buildAndSend]. unfold buildMessage. rewrite RI, E1.
    destruct (sv_put V (cs_srv V st1) (mkReq uuid ts js)) as [reply s'] eqn:EP. cbn [fst] in PV. subst reply.
    change (200 =? 409) with false. change (200 =? 410) with false. change (isError 200) with false. cbv iota.
    eexists _, _, (f ++ [EvPut (mkReq uuid ts js) (PutStatus 200 [] [] [] ns)]). split; [reflexivity|].
    split; [cbn [cs_log]; rewrite L1, <- app_assoc; reflexivity|].
    split; [rewrite filter_app, F1; cbn; lia|].
    eexists f, _, _. split; [reflexivity|]. split; [reflexivity|]. split; [reflexivity|]. cbn [q_msgs]. rewrite J1. split; [exact P|].
    intros j I. apply O1; [exact I|apply (Permutation_in (j_dev j) P); rewrite <- J1; apply in_map, I|exact (AC j I)].
  - (* some sessions are of earlier registrations *)
    rewrite <- ST in PV, K1.
    destruct (sv_put V (cs_srv V st1) (mkReq uuid ts js)) as [reply s'] eqn:EP. cbn [fst] in PV. subst reply.
    set (sl := stale_of R (mkReq uuid ts js)) in *.
    set (st2 := mkCs V (cs_w V st1) (cs_devs V st1) (cs_rnd V st1) s' (cs_log V st1 ++ [EvPut (mkReq uuid ts js) (PutStatus 410 [] [] sl false)])).
    set (st3 := set_w V st2 (delete_sessions (cs_w V st2) recid sl)).
    assert (DV : devs_of V st3 uuid = devs_of V st uuid) by (unfold devs_of, st3, st2; cbn [set_w cs_devs]; now rewrite D1).
    destruct RD1 as (Q1 & Q2 & Q3 & Q4).
    assert (T : finishes 1 (S fuel) st3).
    { apply (third fuel (n - length (devs_of V st uuid))).
      - split; [exact Q1|]. unfold st3, st2. cbn [set_w cs_w].
        split; [apply delete_acquainted, Q2|]. split; [apply delete_current, Q3|apply delete_usable, Q4].
      - rewrite DV. lia.
      - rewrite DV. exact P.
      - apply (K1 (cs_w V st3)); [|exact P]. intros d. unfold st3, st2. cbn [set_w cs_w]. apply delete_sess. }
    destruct T as (ns' & st' & l & B & LL & NP & G).
    exists ns', st', ((f ++ [EvPut (mkReq uuid ts js) (PutStatus 410 [] [] sl false)]) ++ l).
    split.
    + remember (S fuel) as fu. cbn [buildAndSend]. unfold buildMessage at 1. rewrite RI, E1, EP. fold st2.
      change (410 =? 409) with false. change (410 =? 410) with true. cbv iota.
      fold st3. clear - B. clearbody st3. destruct sl; exact B.
    + split; [rewrite LL; unfold st3, st2; cbn [set_w cs_log]; rewrite L1, <- !app_assoc; reflexivity|].
      split; [rewrite !filter_app, F1, !app_length; cbn [app filter is_put length]; lia|]. apply got_through_app, G.
Qed.

Lemma first fuel n st : ready n st -> (length (devs_of V st uuid) + 2 * length (rv_devs R) <= n)%nat -> NoDup (devs_of V st uuid) ->
  (forall d, In d (devs_of V st uuid) -> In d (rv_devs R) \/ exists v, w_sess (cs_w V st) recid d = Some v) ->
  finishes 3 (S (S (S fuel))) st.
Proof.
  intros RD L ND HD. assert (N2 : NoDup (rv_devs R)) by (apply (aq_nodup _ _ _ _ _ (proj1 (proj2 RD)))).
  destruct (attempt n st RD ltac:(lia) ND HD) as (js & st1 & f & ns & E1 & L1 & F1 & D1 & RD1 & J1 & PV & O1 & A1 & K1).
  set (q := mkReq uuid ts js) in *.
  assert (CS : (missing_of R q = [] /\ extra_of R q = []) \/ verdict R q ns = PutStatus 409 (missing_of R q) (extra_of R q) [] false).
  { unfold verdict. destruct (missing_of R q), (extra_of R q); auto. }
  destruct CS as [[M E]|V9].
  - (* no mismatch: as before *)
    pose proof (no_mismatch_perm js _ J1 ND N2 M E) as P.
    destruct (second (S fuel) n st RD ltac:(lia) P) as (ns' & st' & l & B & LL & NP & G).
    exists ns', st', l. split; [exact B|]. split; [exact LL|]. split; [lia|exact G].
  - rewrite V9 in PV.
    destruct (sv_put V (cs_srv V st1) q) as [reply s'] eqn:EP. cbn [fst] in PV. subst reply.
    set (st2 := mkCs V (cs_w V st1) (cs_devs V st1) (cs_rnd V st1) s' (cs_log V st1 ++ [EvPut q (PutStatus 409 (missing_of R q) (extra_of R q) [] false)])).
    set (ds := correct_devices (devs_of V st2 uuid) (missing_of R q) (extra_of R q)).
    set (st3 := set_devs V st2 uuid ds).
    assert (D2 : devs_of V st2 uuid = devs_of V st uuid) by (unfold devs_of, st2; cbn [cs_devs]; now rewrite D1).
    assert (DV : devs_of V st3 uuid = ds) by (unfold devs_of, st3, set_devs; cbn [cs_devs]; now rewrite beq_refl).
    assert (P : Permutation ds (rv_devs R)) by (unfold ds; rewrite D2; exact (corrected js _ J1 ND N2)).
    destruct (second fuel (n - length (devs_of V st uuid)) st3) as (ns' & st' & l & B & LL & NP & G).
    + exact RD1.
    + lia.
    + rewrite DV. exact P.
    + exists ns', st', ((f ++ [EvPut q (PutStatus 409 (missing_of R q) (extra_of R q) [] false)]) ++ l). split.
      * remember (S (S fuel)) as fu. cbn [buildAndSend]. unfold buildMessage at 1. rewrite RI, E1. fold q. rewrite EP. fold st2.
        change (409 =? 409) with true. cbv iota. fold ds. fold st3. exact B.
      * split; [rewrite LL; unfold st3, st2; cbn [set_devs cs_log]; rewrite L1, <- !app_assoc; reflexivity|].
        split; [rewrite !filter_app, F1, !app_length; cbn [app filter is_put length]; lia|]. apply got_through_app, G.
Qed.
End H.
End D.

(* ---- what the device shows ---- *)
(* device j_dev j, on being handed the message by its server, gives it to its message handler, once, as
   coming from the sender and with the text, the expiry timer and the timestamp of the caller *)
Definition shows (C : crypto) (R : receiver) (pk : option bytes) (now : Z) (text : bytes) (timer : Z) (j : jmsg) : Prop :=
  forall ou pkeys rnd2 ets sts, exists b l m, dec64 (j_content j) = Ok b /\
    handleReceivedMessage C ou (mkRs (rv_w R (j_dev j)) pkeys) (rv_rnd R (j_dev j)) rnd2
      (Some (mkEnv (Some (match j_type j with CIPHERTEXT => 1 | PREKEY_BUNDLE => 3 end)) (Some (rv_src R))
         (Some (rv_sdev R)) None ets (Some b) sts)) = (Ok tt, l) /\
    calls l = [HMessage m] /\ m_uuid m = rv_src R /\ m_text m = text /\ m_ts m = now /\
    m_expire m = timer /\ m_pkey m = pk /\ m_flags m = 0 /\ m_atts m = [] /\ m_group m = None.

Definition the_out (uuid text : bytes) (timer : Z) : outgoing := mkOut uuid text None None None 0 timer None.
Definition the_text (pk : option bytes) (now : Z) (uuid text : bytes) (timer : Z) : bytes :=
  padMessage (marshal_data (createMessage pk now (the_out uuid text timer))).

Lemma opens_shows C R pk now uuid text timer j : wfb text -> u32 timer -> u64 now -> opt wfb pk ->
  zlen (marshal_data (createMessage pk now (the_out uuid text timer))) < 2 ^ 59 ->
  opens C R j (the_text pk now uuid text timer) -> shows C R pk now text timer j.
Proof.
  intros Wt Ut Un Wp Sz (b & l & B64 & RC) ou pkeys rnd2 ets sts.
  set (o := the_out uuid text timer) in *.
  assert (OO : out_ok pk now o).
  { constructor; cbn [o the_out o_text o_att o_flags o_expire o_time o_gv2]; auto; try discriminate. unfold u32; lia. }
  destruct (C35_content pk now o OO) as (d & UM & RA); [unfold fits; lia|].
  destruct RA as (RA1 & RA2 & RA3 & RA4 & RA5 & RA6 & RA7). cbn [o the_out o_text o_time o_expire o_flags o_gv2 o_att] in *.
  set (e := mkEnv (Some (match j_type j with CIPHERTEXT => 1 | PREKEY_BUNDLE => 3 end)) (Some (rv_src R))
         (Some (rv_sdev R)) None ets (Some b) sts).
  assert (DE : decrypts C (mkRs (rv_w R (j_dev j)) pkeys) e (rv_rnd R (j_dev j)) (the_text pk now uuid text timer) l).
  { exists (match j_type j with CIPHERTEXT => 1 | PREKEY_BUNDLE => 3 end), (j_type j), b.
    split; [reflexivity|]. split; [destruct (j_type j); reflexivity|]. split; [reflexivity|exact RC]. }
  pose proof (handle_decrypted C ou (mkRs (rv_w R (j_dev j)) pkeys) (rv_rnd R (j_dev j)) rnd2 e _ l DE) as H.
  assert (TB : g_bytes (d_body d) = text) by (rewrite RA1; destruct text; reflexivity).
  assert (HD : deliver C ou e (the_text pk now uuid text timer) = (Ok tt, [ACall (HMessage (mkMsg (source e) (source e) text [] None 0 timer pk now
      (d_quote d) (d_contact d) (d_sticker d) (d_reaction d)))])).
  { unfold deliver, handleMessage, the_text. fold o. rewrite UM. cbn [c_data]. unfold handleDataMessage, handleFlags, andthen, pure.
    rewrite RA4. cbn [g_num Z.eqb]. rewrite RA7, RA2, RA6, TB, RA3, RA5. reflexivity. }
  rewrite HD in H. cbn [fst snd] in H.
  eexists b, _, _. split; [exact B64|]. split; [exact H|]. rewrite calls_app, calls_stores. split; [reflexivity|].
  cbn [m_uuid m_text m_ts m_expire m_pkey m_flags m_atts m_group]. repeat split; reflexivity.
Qed.

Lemma text_size pk now uuid text timer : wfb text -> u32 timer -> u64 now -> opt wfb pk ->
  zlen (marshal_data (createMessage pk now (the_out uuid text timer))) < 2 ^ 59 ->
  wfb (the_text pk now uuid text timer) /\ zlen (the_text pk now uuid text timer) < 2 ^ 60.
Proof.
  intros Wt Ut Un Wp Sz. split.
  - apply pad_wf, create_wf. constructor; cbn [the_out o_text o_att o_flags o_expire o_time o_gv2]; auto; try discriminate. unfold u32; lia.
  - unfold the_text. rewrite pad_length.
    set (z := zlen _) in *. assert (0 <= z) by (unfold z, zlen; lia).
    pose proof (Z.mul_div_le z 160 ltac:(lia)). lia.
Qed.

Lemma log_grows C V rnd fuel uuid padded ts st out st' : buildAndSend C V rnd fuel uuid padded ts st = (out, st') ->
  exists l, cs_log V st' = cs_log V st ++ l.
Proof.
  destruct (recID uuid) as [recid|e|] eqn:R.
  - intros H. destruct (C31_exchange _ _ _ _ _ _ _ _ _ _ _ R H) as (l & L & _). eauto.
  - destruct fuel; cbn [buildAndSend]; [|unfold buildMessage; rewrite R]; intros [= <- <-]; exists []; now rewrite app_nil_r.
  - destruct fuel; cbn [buildAndSend]; [|unfold buildMessage; rewrite R]; intros [= <- <-]; exists []; now rewrite app_nil_r.
Qed.

(* C198. SendMessage reports success only if the last request for the recipient, whatever was answered to
   earlier ones, has one message for each device the recipient has now, and each of the devices shows the
   text. Assumed of the server: the keys it hands out are those of the devices, and it accepts only
   requests for the present devices and registrations. Assumed of the sender: a session with the present
   registration of a device is understood by it. *)
Theorem C198_accepted_is_shown : forall C, crypto_ok C -> forall V rnd R uuid recid, recID uuid = Ok recid ->
  keys_served C V rnd R uuid -> careful V R uuid ->
  forall fuel self pk now text timer st t st' n, (n <= 2001)%nat ->
  wfb text -> u32 timer -> u64 now -> opt wfb pk ->
  zlen (marshal_data (createMessage pk now (the_out uuid text timer))) < 2 ^ 59 ->
  acquainted C rnd R recid (cs_w V st) -> current C R recid n (cs_w V st) (the_text pk now uuid text timer) ->
  SendMessage C V rnd fuel self pk now uuid text timer st = (Some (Ok t), st') ->
  exists l, cs_log V st' = cs_log V st ++ l /\ ((length (flat_map msgs_of l) <= n)%nat ->
    exists l1 q r l2, l = l1 ++ EvPut q r :: l2 /\ q_dest q = uuid /\ q_ts q = now /\
      Permutation (map j_dev (q_msgs q)) (rv_devs R) /\ forall j, In j (q_msgs q) -> shows C R pk now text timer j).
Proof.
  intros C OK V rnd R uuid recid RI KS CF fuel self pk now text timer st t st' n N Wt Ut Un Wp Sz A CU.
  destruct (text_size pk now uuid text timer Wt Ut Un Wp Sz) as [W Z].
  unfold SendMessage, sendMessage. fold (the_out uuid text timer).
  change (o_dest (the_out uuid text timer)) with uuid. change (o_time (the_out uuid text timer)) with (@None BinNums.Z). cbv iota zeta.
  fold (the_text pk now uuid text timer).
  destruct (buildAndSend C V rnd fuel uuid (the_text pk now uuid text timer) now (default_devs V st uuid)) as [out st1] eqn:E1.
  destruct out as [[[ns t']|e|]|]; [|discriminate|discriminate|discriminate].
  assert (DW : cs_w V (default_devs V st uuid) = cs_w V st /\ cs_log V (default_devs V st uuid) = cs_log V st)
    by (unfold default_devs; destruct (cs_devs V st uuid); auto). destruct DW as [DW DL].
  destruct (accepted C V rnd R uuid recid OK RI KS (the_text pk now uuid text timer) now W Z CF fuel n (default_devs V st uuid) (ns, t') st1 N) as (l & L & G).
  { rewrite DW. exact A. } { rewrite DW. exact CU. } { exact E1. }
  rewrite DL in L.
  assert (F : forall l2, cs_log V st' = cs_log V st1 ++ l2 -> exists l, cs_log V st' = cs_log V st ++ l /\ ((length (flat_map msgs_of l) <= n)%nat ->
    exists l1 q r l2, l = l1 ++ EvPut q r :: l2 /\ q_dest q = uuid /\ q_ts q = now /\
      Permutation (map j_dev (q_msgs q)) (rv_devs R) /\ forall j, In j (q_msgs q) -> shows C R pk now text timer j)).
  { intros l2 L2. exists (l ++ l2). split; [rewrite L2, L, app_assoc; reflexivity|]. rewrite flat_map_app, app_length. intros LE.
    destruct (G ltac:(lia)) as (l1 & q & r & -> & Q1 & Q2 & Q3 & Q4). exists l1, q, r, l2. split; [now rewrite <- app_assoc|].
    split; [exact Q1|]. split; [exact Q2|]. split; [exact Q3|]. intros j J. apply (opens_shows C R pk now uuid); auto. }
  destruct ns.
  - match goal with |- context [sendSyncMessage C V rnd fuel self ?sm now st1] =>
      unfold sendSyncMessage; destruct (buildAndSend C V rnd fuel self (padMessage (marshal_sync sm)) now (default_devs V st1 self)) as [out2 st2] eqn:E2 end.
    destruct (log_grows _ _ _ _ _ _ _ _ _ _ E2) as (l2 & L2).
    assert (DL2 : cs_log V (default_devs V st1 self) = cs_log V st1) by (unfold default_devs; destruct (cs_devs V st1 self); reflexivity).
    rewrite DL2 in L2.
    destruct out2 as [[[ns2 t2]|e|]|]; try discriminate. intros H. injection H as _ <-. exact (F l2 L2).
  - intros H. injection H as _ <-. apply (F []). now rewrite app_nil_r.
Qed.
Print Assumptions C198_accepted_is_shown.

(* With a server that names the missing, superfluous and stale devices, the message does get through,
   after at most three requests, whatever sessions the sender has. *)
Theorem C198_gets_through : forall C, crypto_ok C -> forall V rnd R uuid recid, recID uuid = Ok recid ->
  keys_served C V rnd R uuid -> helpful V R uuid ->
  (forall s q status m e x ns, fst (sv_put V s q) = PutStatus status m e x ns -> ns = false) ->
  forall fuel self pk now text timer st n, (3 <= fuel)%nat -> (n <= 2001)%nat ->
  wfb text -> u32 timer -> u64 now -> opt wfb pk ->
  zlen (marshal_data (createMessage pk now (the_out uuid text timer))) < 2 ^ 59 ->
  acquainted C rnd R recid (cs_w V st) -> current C R recid n (cs_w V st) (the_text pk now uuid text timer) ->
  all_usable recid (cs_w V st) ->
  let devs := devs_of V (default_devs V st uuid) uuid in
  (length devs + 2 * length (rv_devs R) <= n)%nat -> NoDup devs ->
  (forall d, In d devs -> In d (rv_devs R) \/ exists v, w_sess (cs_w V st) recid d = Some v) ->
  exists st' l q r,
    SendMessage C V rnd fuel self pk now uuid text timer st = (Some (Ok now), st') /\
    cs_log V st' = cs_log V st ++ l ++ [EvPut q r] /\ (length (filter is_put l) <= 2)%nat /\
    q_dest q = uuid /\ q_ts q = now /\ Permutation (map j_dev (q_msgs q)) (rv_devs R) /\
    forall j, In j (q_msgs q) -> shows C R pk now text timer j.
Proof.
  intros C OK V rnd R uuid recid RI KS HP NS fuel self pk now text timer st n F3 N Wt Ut Un Wp Sz A CU US devs L ND HD.
  destruct (text_size pk now uuid text timer Wt Ut Un Wp Sz) as [W Z].
  assert (DW : cs_w V (default_devs V st uuid) = cs_w V st /\ cs_log V (default_devs V st uuid) = cs_log V st)
    by (unfold default_devs; destruct (cs_devs V st uuid); auto). destruct DW as [DW DL].
  destruct fuel as [|[|[|fuel]]]; [lia|lia|lia|].
  destruct (first C V rnd R uuid recid OK RI KS (the_text pk now uuid text timer) now W Z HP fuel n (default_devs V st uuid))
    as (ns & st' & l & B & LL & NP & G).
  - split; [exact N|]. rewrite DW. split; [exact A|]. split; [exact CU|exact US].
  - exact L.
  - exact ND.
  - rewrite DW. exact HD.
  - destruct G as (l1 & q & r & -> & Q1 & Q2 & Q3 & Q4). rewrite DL in LL.
    assert (E : ns = false).
    { destruct (C31_exchange _ _ _ _ _ _ _ _ _ _ _ RI B) as (l' & L' & _ & EN).
      destruct (EN _ _ eq_refl) as (_ & EW). destruct EW as (f & q' & status & m & e & x & EL & _).
      rewrite DL in L'. assert (l1 ++ [EvPut q r] = l') as E1 by (apply (app_inv_head (cs_log V st)); congruence).
      rewrite EL in E1. apply app_inj_tail in E1. destruct E1 as [_ E1].
      destruct ns; [exfalso|reflexivity].
      (* the answer was given by the server *)
      clear - B NS. revert B. generalize (default_devs V st uuid) as s0. generalize (S (S (S fuel))) as fu. clear fuel.
      induction fu as [|fu IH]; intros s0; cbn [buildAndSend]; [discriminate|].
      destruct (buildMessage C V rnd uuid (the_text pk now uuid text timer) (devs_of V s0 uuid) s0) as [r1 s1].
      destruct r1 as [js|e|]; [|discriminate|discriminate].
      destruct (sv_put V (cs_srv V s1) (mkReq uuid now js)) as [reply s'] eqn:EP.
      destruct reply as [|status m e x ns]; [discriminate|].
      pose proof (NS (cs_srv V s1) (mkReq uuid now js) status m e x ns) as NF. rewrite EP in NF. specialize (NF eq_refl). subst ns.
      destruct (status =? 409); [apply IH|]. destruct (status =? 410).
      { destruct x; destruct (recID uuid); try apply IH. discriminate. }
      destruct (isError status); discriminate. }
    subst ns. exists st', l1, q, r.
    split.
    + unfold SendMessage, sendMessage. fold (the_out uuid text timer).
      change (o_dest (the_out uuid text timer)) with uuid. change (o_time (the_out uuid text timer)) with (@None BinNums.Z). cbv iota zeta.
      fold (the_text pk now uuid text timer). rewrite B. reflexivity.
    + split; [exact LL|]. split; [rewrite filter_app, app_length in NP; cbn [filter is_put length] in NP; lia|].
      split; [exact Q1|]. split; [exact Q2|]. split; [exact Q3|]. intros j J. apply (opens_shows C R pk now uuid); auto.
Qed.
Print Assumptions C198_gets_through.

(* The assumption on sessions holds after any conversation: the next messages of either party are
   understood by the other, up to the number of messages that may be skipped. *)
Theorem C198_sessions_in_use : forall C, crypto_ok C -> forall st, setup_ok C st -> forall acts n x pt rnd,
  good_schedule C st (acts ++ repeat (Send x pt) n ++ [Deliver 0 rnd]) -> admissible C st (start C st) spec0 acts ->
  wfb pt -> zlen pt < 2 ^ 60 -> length (rnd 0%nat) = 32%nat ->
  let y := run C st (start C st) acts in let sp := spec_run spec0 acts in
  sp_epoch sp x <> 0%nat -> (sp_count sp x + n <= sp_next sp (sp_epoch sp x) + 2001)%nat ->
  understood C n (y_w y x) (fst (st_peer st x)) (snd (st_peer st x)) pt
    (y_w y (other x)) (fst (st_peer st (other x))) (snd (st_peer st (other x))) rnd.
Proof.
  intros C OK st SO acts n x pt rnd G A W Z L y sp E Q.
  destruct (start_inv C OK st SO _ G) as (eps & IV).
  assert (IV' : exists eps', Inv C st eps' y sp (repeat (Send x pt) n ++ [Deliver 0 rnd])).
  { unfold y, sp. clear - IV A OK SO. revert IV A. generalize (start C st) as y0. generalize spec0 as sp0. revert eps.
    induction acts as [|a acts IH]; intros eps sp0 y0 IV A; [eauto|]. destruct A as [A1 A2]. cbn [app] in IV.
    destruct (any_step C OK st SO _ _ _ _ _ IV A1) as [_ (eps' & IV')]. cbn [run spec_run fold_left]. exact (IH eps' _ _ IV' A2). }
  destruct IV' as (eps' & IV'). exact (in_touch C OK st SO n eps' y sp x pt rnd 0%nat IV' E W Z L Q).
Qed.
Print Assumptions C198_sessions_in_use.

(* ---- example ---- *)
(* B has the devices 1, 2 and 4. A has a session with an earlier registration of device 1, one with the
   present registration of device 2, none with device 4, and one with device 3, which is gone. *)
Definition ex_dev (d : Z) : world :=
  mkWorld (ex_kp 22) (1000 + d) false (fun _ _ => None) (w_pre ex_worldB) (w_spk ex_worldB) (fun _ => None).
Definition ex_receiver : receiver :=
  mkReceiver [1; 2; 4] ex_dev (snd (ex_kp 22)) na 1 (fun _ _ => rb 9).
Definition ex_setup_dev (d : Z) : setup :=
  mkSetup (fun x => match x with SA => (nb, d) | SB => (na, 1) end)
    (fun x => match x with SA => ex_worldA | SB => ex_dev d end)
    (ex_priv 33) 1 (Some (ex_priv 55)) 5 (st_sig ex_setup) (rb 77) (rb 88).
Definition ex_built (d : Z) : sstate :=
  match snd (BuildSenderSession toy ex_worldA nb d (the_bundle toy (ex_setup_dev d)) (rb 77) (rb 88)) with
  | [EStoreSession _ _ s _; _] => s | _ => empty_ss end.
Definition ex_before := Eval vm_compute in ex_built 900.     (* registration 1900 *)
Definition ex_present := Eval vm_compute in ex_built 2.
Definition ex_sender_world : world :=
  mkWorld (ex_kp 11) 1001 false
    (fun r d => if beq r nb then (if (d =? 1) || (d =? 3) then Some (ex_before, []) else if d =? 2 then Some (ex_present, []) else None) else None)
    (fun _ => None) (fun _ => None) (fun r => if beq r nb then Some (snd (ex_kp 22)) else None).
Definition ex_offer (d : Z) : pkreply :=
  match ex_pub with PkResp i [p] => PkResp i [mkPkdev d (1000 + d) (pd_spk p) (pd_pk p)] | r => r end.
Fixpoint nodupz (l : list Z) : bool := match l with [] => true | x :: t => negb (mem x t) && nodupz t end.
Lemma nodupz_ok l : nodupz l = true <-> NoDup l.
Proof.
  induction l as [|x l IH]; cbn [nodupz]; [split; [constructor|reflexivity]|].
  rewrite andb_true_iff, negb_true_iff, <- not_true_iff_false, mem_in, IH. split; [intros [A B]; now constructor|].
  intros H. inversion H; auto.
Qed.
Definition ex_helpful : server :=
  mkServer nat (fun s _ d => ((if mem d [1; 2; 4] then ex_offer d else PkErr (EServer 404)), s))
    (fun s q => ((if nodupz (map j_dev (q_msgs q)) then verdict ex_receiver q false else PutStatus 422 [] [] [] false), S s)).
Definition ex_state : cstate ex_helpful :=
  mkCs ex_helpful ex_sender_world (fun u => if beq u nb then Some [1; 3; 2] else None) 0 O [].

Lemma ex_rnd_two (P : bytes -> Prop) : P (rb 77) -> P (rb 88) -> forall i, P (ex_rnd i).
Proof. intros H1 H2 i. unfold ex_rnd. destruct (Nat.even i); assumption. Qed.
Lemma ex_setup_dev_ok : setup_ok toy (ex_setup_dev 2).
Proof.
  constructor.
  - intros []; vm_compute; split; reflexivity.
  - intros []; vm_compute; split; congruence.
  - intros []; vm_compute; reflexivity.
  - vm_compute. reflexivity.
  - vm_compute. split; congruence.
  - vm_compute. reflexivity.
  - vm_compute. repeat split; congruence.
  - vm_compute. reflexivity.
  - split; reflexivity.
  - vm_compute. reflexivity.
Qed.
Lemma ex_neq a b : beq a b = false -> a <> b.
Proof. intros H ->. rewrite beq_refl in H. discriminate. Qed.

Example C198_example :
  crypto_ok toy /\ recID nb = Ok nb /\ keys_served toy ex_helpful ex_rnd ex_receiver nb /\
  helpful ex_helpful ex_receiver nb /\ careful ex_helpful ex_receiver nb /\
  acquainted toy ex_rnd ex_receiver nb (cs_w _ ex_state) /\
  (forall pt, wfb pt -> zlen pt < 2 ^ 60 -> current toy ex_receiver nb 9 (cs_w _ ex_state) pt) /\
  all_usable nb (cs_w _ ex_state) /\
  devs_of _ (default_devs _ ex_state nb) nb = [1; 3; 2] /\
  (forall d, In d [1; 3; 2] -> In d (rv_devs ex_receiver) \/ exists v, w_sess (cs_w _ ex_state) nb d = Some v).
Proof.
  split; [exact toy_ok|]. split; [reflexivity|]. split.
  { intros s d. cbn [ex_helpful sv_prekeys fst ex_receiver rv_devs].
    destruct (mem d [1; 2; 4]) eqn:M.
    - split; [|intros N; exfalso; apply N; now apply mem_in]. intros _.
      exists (ex_priv 33), 1, (Some (5, ex_priv 55)), (st_sig ex_setup). cbv zeta.
      split; [vm_compute; reflexivity|]. split; [lia|]. split; [vm_compute; reflexivity|]. split; [vm_compute; reflexivity|].
      split; [apply wfbb_ok; vm_compute; reflexivity|]. split; [vm_compute; reflexivity|].
      split; [split; [lia|split; vm_compute; reflexivity]|].
      split; [apply ex_neq; vm_compute; reflexivity|].
      split; [apply (ex_rnd_two (fun r => basepub toy (ex_priv 33) <> basepub toy (clamp r))); apply ex_neq; vm_compute; reflexivity|].
      unfold ex_offer, ex_pub. cbn [ex_receiver rv_ident rv_w ex_dev w_reg pd_spk pd_pk].
      assert (K1 : encodeKey (snd (ex_kp 22)) = match ex_pub with PkResp i _ => i | _ => [] end) by (vm_compute; reflexivity).
      assert (K2 : Some (1, encodeKey (basepub toy (ex_priv 33)), Base64EncWithoutPadding (st_sig ex_setup)) = match ex_pub with PkResp _ [p] => pd_spk p | _ => None end) by (vm_compute; reflexivity).
      assert (K3 : Some (5, encodeKey (basepub toy (ex_priv 55))) = match ex_pub with PkResp _ [p] => pd_pk p | _ => None end) by (vm_compute; reflexivity).
      rewrite K1, K2, K3. reflexivity.
    - split; [intros I'; apply mem_in in I'; congruence|]. intros _. eexists. reflexivity. }
  split.
  { intros s q _ ND. exists false. cbn [ex_helpful sv_put fst]. apply nodupz_ok in ND. now rewrite ND. }
  split.
  { intros s q status m e x ns _. cbn [ex_helpful sv_put fst]. destruct (nodupz (map j_dev (q_msgs q))) eqn:ND.
    2:{ intros H _ _ H'. injection H as <- _ _ _ _. discriminate H'. }
    apply nodupz_ok in ND. unfold verdict.
    destruct (missing_of ex_receiver q) as [|a la] eqn:M; [destruct (extra_of ex_receiver q) as [|b lb] eqn:E|]; [|congruence|destruct (extra_of ex_receiver q); congruence].
    destruct (stale_of ex_receiver q) as [|c lc] eqn:T; [|congruence].
    intros _ _ _ _. split.
    - destruct q as [qd qt qm]. apply (no_mismatch_perm ex_receiver qd qt qm); auto. apply nodupz_ok. reflexivity.
    - intros j I'. unfold stale_of in T. apply map_eq_nil in T. pose proof (proj1 (filter_nil _ _) T j I') as H. cbv beta in H.
      apply negb_false_iff, Z.eqb_eq in H. exact H. }
  split.
  { constructor.
    - apply nodupz_ok. reflexivity.
    - split; [vm_compute; reflexivity|]. split; [vm_compute; reflexivity|]. split; cbn; lia.
    - vm_compute. reflexivity.
    - intros i. unfold ex_rnd. destruct (Nat.even i); reflexivity.
    - intros d I'. cbn [ex_receiver rv_w rv_ident rv_src rv_sdev rv_rnd]. split; [reflexivity|]. split; [vm_compute; reflexivity|].
      split; [vm_compute; reflexivity|].
      split; [cbn [ex_dev w_reg]; cbn [ex_receiver rv_devs In] in I'; lia|]. split; [vm_compute; reflexivity|]. split; [reflexivity|].
      intros i. split; [|reflexivity].
      apply (ex_rnd_two (fun r => basepub toy (clamp r) <> basepub toy (clamp (rb 9)))); apply ex_neq; vm_compute; reflexivity. }
  split.
  { intros pt W Z d c p I' S RG. cbn [ex_receiver rv_devs In] in I'.
    destruct I' as [<-|[<-|[<-|[]]]].
    - exfalso. assert (c = ex_before) as -> by (cbn in S; congruence). vm_compute in RG. discriminate RG.
    - destruct (new_in_touch toy toy_ok (ex_setup_dev 2) ex_setup_dev_ok 9 pt (fun _ => rb 9) W Z eq_refl) as (l & B & U); [lia| |].
      { apply nodupb_ok. vm_compute. reflexivity. }
      cbn [ex_setup_dev st_w st_peer fst snd] in U.
      apply (understood_local toy 9 (apply_effs ex_worldA l)); [|exact U].
      assert (l = snd (BuildSenderSession toy ex_worldA nb 2 (the_bundle toy (ex_setup_dev 2)) (rb 77) (rb 88))) as ->.
      { cbn [ex_setup_dev st_w st_peer st_rbase st_rratchet fst snd] in B. fold (ex_setup_dev 2) in B. now rewrite B. }
      vm_compute. reflexivity.
    - exfalso. cbn in S. discriminate S. }
  split.
  { intros d c p S.
    assert (H : c = ex_before \/ c = ex_present).
    { cbn [ex_state cs_w ex_sender_world w_sess] in S. rewrite beq_refl in S. destruct ((d =? 1) || (d =? 3)); [left; congruence|].
      destruct (d =? 2); [right; congruence|discriminate]. }
    destruct H as [-> | ->].
    - constructor; [eexists _, _; split; [reflexivity|]; split; [reflexivity|]; split; reflexivity|reflexivity|reflexivity|].
      intros x [= <-]. eexists. vm_compute. reflexivity.
    - constructor; [eexists _, _; split; [reflexivity|]; split; [reflexivity|]; split; reflexivity|reflexivity|reflexivity|].
      intros x [= <-]. eexists. vm_compute. reflexivity. }
  split; [reflexivity|].
  intros d I'. cbn [ex_receiver rv_devs]. destruct I' as [<-|[<-|[<-|[]]]]; [left; cbn; lia|right; eexists; reflexivity|left; cbn; lia].
Qed.
(* what is exchanged in the example *)
Example C198_example_run :
  map (fun e => match e with EvFetch _ d _ => (d, []) | EvPut q (PutStatus s _ _ _ _) => (s, map j_dev (q_msgs q)) | EvPut _ PutNet => (0, []) end)
    (cs_log _ (snd (SendMessage toy ex_helpful ex_rnd 3 na None 1000 nb [104; 105] 0 ex_state))) =
  [(409, [1; 3; 2]); (4, []); (410, [1; 2; 4]); (1, []); (200, [1; 2; 4])].
Proof. vm_compute. reflexivity. Qed.
