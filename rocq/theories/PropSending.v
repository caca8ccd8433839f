(* C30-C36, C66, C67: sending. *)
From Coq Require Import ZArith List Lia Bool.
From Verif Require Import Bytes Res Wire WireProofs Crypto Cbc CbcProofs Messages MessagesProofs Session Builder SessionProofs
  SessionFacts HistoryProofs Conversation ConversationProofs FirstMessage RecordCodec RecordCodecProofs Content ContentProofs
  Encodings PropEncodings Sending SendingProofs Examples.
Import ListNotations.
Open Scope Z_scope.
Ltac Zify.zify_post_hook ::= Z.to_euclidean_division_equations.

(* C30 *)
Theorem C30_padding : forall m,
  stripPadding (padMessage m) = m /\ zlen (padMessage m) mod 160 = 0 /\ zlen m < zlen (padMessage m) <= zlen m + 160 /\
  exists z, padMessage m = m ++ 128 :: zeros z.
Proof.
  intros m. split; [apply strip_pad|]. rewrite pad_length. pose proof (Zle_0_nat (length m)) as P. fold (zlen m) in P.
  split; [lia|]. split; [lia|]. eexists. apply padMessage_eq.
Qed.
Theorem C30_padding_hides_length : forall m m',
  zlen (padMessage m) = zlen (padMessage m') <-> zlen m / 160 = zlen m' / 160.
Proof. intros. rewrite !pad_length. lia. Qed.
Print Assumptions C30_padding.
Print Assumptions C30_padding_hides_length.
Example C30_example : padMessage (repeat 128 159) = repeat 128 160 /\ stripPadding (repeat 128 160) = repeat 128 159.
Proof. split; reflexivity. Qed.

(* C31. The exchange as the server sees it. ds: the devices to address; stale: devices reported stale
   by the reply before; seen: prekey replies since the last request. *)
Fixpoint attempts (carry : jmsg -> Prop) (dest : bytes) (ts : Z) (ds stale : list Z) (seen l : list event) {struct l} : Prop :=
  match l with
  | [] => True
  | EvFetch u d r :: t => u = dest /\ attempts carry dest ts ds stale (seen ++ [EvFetch u d r]) t
  | EvPut q r :: t =>
      q_dest q = dest /\ q_ts q = ts /\ map j_dev (q_msgs q) = ds /\ Forall carry (q_msgs q) /\
      (forall j, In j (q_msgs q) -> In (j_dev j) stale ->
         j_type j = PREKEY_BUNDLE /\
         exists dev ident pk, In (EvFetch dest dev (PkResp ident [pk])) seen /\ pd_dev pk = j_dev j) /\
      match r with
      | PutStatus s missing extra stale' _ =>
          if s =? 409 then
            exists kept, (forall d, In d kept <-> In d ds /\ ~ In d extra) /\ kept = filter (fun d => negb (existsb (Z.eqb d) extra)) ds /\
              attempts carry dest ts (kept ++ missing) [] [] t
          else if s =? 410 then attempts carry dest ts ds stale' [] t
          else t = []
      | PutNet => t = []
      end
  end.

(* the answer that ended the sending *)
Definition ends_with (l : list event) (ds : list Z) (needsSync : bool) : Prop :=
  exists l0 q s m e x, l = l0 ++ [EvPut q (PutStatus s m e x needsSync)] /\ 200 <= s < 300 /\ map j_dev (q_msgs q) = ds.

Section E.
Variable C : crypto.
Variable V : server.
Variable rnd : nat -> bytes.

Lemma attempts_fetches cy dest ts ds stale seen f l : Forall (fetch_of dest) f ->
  attempts cy dest ts ds stale (seen ++ f) l -> attempts cy dest ts ds stale seen (f ++ l).
Proof.
  intros F. revert seen. induction F as [|[u d r|q r] f H F IH]; intros seen A.
  - rewrite app_nil_r in A. exact A.
  - cbn in H. cbn [app attempts]. split; [exact H|]. apply IH. rewrite <- app_assoc. exact A.
  - destruct H.
Qed.

Lemma fetched_of uuid f l d : Forall (fetch_of uuid) f -> f = l -> fetched l d ->
  exists dev ident pk, In (EvFetch uuid dev (PkResp ident [pk])) l /\ pd_dev pk = d.
Proof.
  intros F <- (u & dev & ident & pk & I & E). rewrite Forall_forall in F. pose proof (F _ I) as X. cbn in X. subst u. eauto.
Qed.

Lemma deleted_sess recid stale r d : forall w, w_sess (delete_sessions w recid stale) r d =
  if beq r recid && existsb (Z.eqb d) stale then None else w_sess w r d.
Proof.
  induction stale as [|x t IH]; intros w; [cbn; now rewrite andb_false_r|].
  change (delete_sessions w recid (x :: t)) with (delete_sessions (set_sess w recid x None) recid t).
  rewrite IH. cbn [set_sess w_sess existsb]. destruct (beq r recid); cbn [andb]; [|reflexivity].
  destruct (d =? x); cbn [orb]; [|reflexivity]. now destruct (existsb (Z.eqb d) t).
Qed.
Lemma in_existsb d l : In d l -> existsb (Z.eqb d) l = true.
Proof. intros I. apply existsb_exists. exists d. split; [exact I|apply Z.eqb_refl]. Qed.
Lemma filter_extra ds extra d : In d (filter (fun d => negb (existsb (Z.eqb d) extra)) ds) <-> In d ds /\ ~ In d extra.
Proof.
  rewrite filter_In, negb_true_iff. split; intros [A B]; (split; [exact A|]).
  - intros I. apply in_existsb in I. congruence.
  - apply not_true_iff_false. intros E. apply B. apply existsb_exists in E. destruct E as (x & I & E). apply Z.eqb_eq in E. now subst.
Qed.

Lemma exchange recid uuid padded ts (R : recID uuid = Ok recid) fuel : forall stale st out st',
  renewed V recid stale (cs_log V st) st ->
  buildAndSend C V rnd fuel uuid padded ts st = (out, st') ->
  exists l, cs_log V st' = cs_log V st ++ l /\
    attempts (carries C recid padded) uuid ts (devs_of V st uuid) stale [] l /\
    forall ns t, out = Some (Ok (ns, t)) -> t = ts /\ ends_with l (devs_of V st' uuid) ns.
Proof.
  induction fuel as [|fuel IH]; intros stale st out st' RN.
  { cbn [buildAndSend]. intros [= <- <-]. exists []. rewrite app_nil_r. split; [reflexivity|]. split; [exact I|discriminate]. }
  cbn [buildAndSend]. unfold buildMessage. rewrite R.
  destruct (build_devices C V rnd uuid recid padded (devs_of V st uuid) st) as [r st1] eqn:EB.
  pose proof (build_log C V rnd _ _ _ _ _ _ _ EB) as (D1 & (f & L1 & F1) & J).
  assert (AF : attempts (carries C recid padded) uuid ts (devs_of V st uuid) stale [] f).
  { rewrite <- (app_nil_r f). apply attempts_fetches; [exact F1|exact I]. }
  destruct r as [js|e|].
  2,3: intros [= <- <-]; exists f; split; [exact L1|]; split; [exact AF|discriminate].
  destruct (J js eq_refl) as [J1 J2]. clear J.
  pose proof (build_renewed C V rnd _ _ _ _ _ _ _ _ _ RN EB) as (l' & L1' & RN1).
  rewrite L1 in L1'. apply app_inv_head in L1'. subst l'.
  destruct (sv_put V (cs_srv V st1) (mkReq uuid ts js)) as [reply s'] eqn:EP.
  set (q := mkReq uuid ts js) in *.
  set (st2 := mkCs V (cs_w V st1) (cs_devs V st1) (cs_rnd V st1) s' (cs_log V st1 ++ [EvPut q reply])) in *.
  assert (L2 : cs_log V st2 = cs_log V st ++ f ++ [EvPut q reply]) by (unfold st2; cbn [cs_log]; rewrite L1; now rewrite app_assoc).
  assert (D2 : devs_of V st2 uuid = devs_of V st uuid) by (unfold devs_of, st2; cbn [cs_devs]; now rewrite D1).
  (* the head of the exchange *)
  assert (HEAD : forall rest, match reply with
      | PutStatus s missing extra stale' _ =>
          if s =? 409 then
            exists kept, (forall d, In d kept <-> In d (devs_of V st uuid) /\ ~ In d extra) /\
              kept = filter (fun d => negb (existsb (Z.eqb d) extra)) (devs_of V st uuid) /\
              attempts (carries C recid padded) uuid ts (kept ++ missing) [] [] rest
          else if s =? 410 then attempts (carries C recid padded) uuid ts (devs_of V st uuid) stale' [] rest
          else rest = []
      | PutNet => rest = []
      end -> attempts (carries C recid padded) uuid ts (devs_of V st uuid) stale [] (f ++ EvPut q reply :: rest)).
  { intros rest H. apply attempts_fetches; [exact F1|]. cbn [app attempts]. split; [reflexivity|]. split; [reflexivity|].
    split; [exact J1|]. split; [exact J2|]. split; [|exact H]. intros j Ij IS. cbn [q q_msgs] in Ij.
    destruct (RN1 j Ij IS) as [A B]. split; [exact A|]. now apply (fetched_of uuid f). }
  destruct reply as [|status missing extra stale' ns].
  { intros [= <- <-]. exists (f ++ [EvPut q PutNet]). split; [exact L2|]. split; [apply (HEAD [] eq_refl)|discriminate]. }
  destruct (status =? 409) eqn:S9.
  { intros E.
    assert (RN2 : renewed V recid [] (cs_log V (set_devs V st2 uuid (correct_devices (devs_of V st2 uuid) missing extra)))
             (set_devs V st2 uuid (correct_devices (devs_of V st2 uuid) missing extra))).
    { exists []. rewrite app_nil_r. split; [reflexivity|]. intros ? ? ? []. }
    destruct (IH _ _ _ _ RN2 E) as (l & L3 & A & O). cbn [set_devs cs_log] in L3.
    exists (f ++ EvPut q (PutStatus status missing extra stale' ns) :: l). split.
    { rewrite L3, L2. rewrite <- !app_assoc. reflexivity. }
    split.
    { apply HEAD. exists (filter (fun d => negb (existsb (Z.eqb d) extra)) (devs_of V st uuid)).
      split; [apply filter_extra|]. split; [reflexivity|].
      unfold devs_of at 1 in A. cbn [set_devs cs_devs] in A. rewrite beq_refl in A. unfold correct_devices in A. rewrite D2 in A. exact A. }
    intros ns' t Ot. destruct (O ns' t Ot) as [Et (l0 & q0 & s0 & m0 & e0 & x0 & El & Rg & Dv)]. split; [exact Et|].
    eexists (f ++ EvPut q _ :: l0), q0, s0, m0, e0, x0. split; [rewrite El; rewrite <- app_assoc; reflexivity|]. split; [exact Rg|exact Dv]. }
  destruct (status =? 410) eqn:S10.
  { intros E.
    assert (E' : buildAndSend C V rnd fuel uuid padded ts (set_w V st2 (delete_sessions (cs_w V st2) recid stale')) = (out, st')).
    { destruct stale'; exact E. }
    clear E.
    assert (RN2 : renewed V recid stale' (cs_log V (set_w V st2 (delete_sessions (cs_w V st2) recid stale')))
             (set_w V st2 (delete_sessions (cs_w V st2) recid stale'))).
    { exists []. rewrite app_nil_r. split; [reflexivity|]. intros d c p Id W. cbn [set_w cs_w] in W.
      rewrite deleted_sess, beq_refl, (in_existsb _ _ Id) in W. discriminate W. }
    destruct (IH _ _ _ _ RN2 E') as (l & L3 & A & O). cbn [set_w cs_log] in L3.
    exists (f ++ EvPut q (PutStatus status missing extra stale' ns) :: l). split.
    { rewrite L3, L2. rewrite <- !app_assoc. reflexivity. }
    split.
    { apply HEAD. replace (devs_of V (set_w V st2 (delete_sessions (cs_w V st2) recid stale')) uuid) with (devs_of V st uuid) in A by (symmetry; exact D2).
      exact A. }
    intros ns' t Ot. destruct (O ns' t Ot) as [Et (l0 & q0 & s0 & m0 & e0 & x0 & El & Rg & Dv)]. split; [exact Et|].
    eexists (f ++ EvPut q _ :: l0), q0, s0, m0, e0, x0. split; [rewrite El; rewrite <- app_assoc; reflexivity|]. split; [exact Rg|exact Dv]. }
  destruct (isError status) eqn:IE.
  - intros [= <- <-]. exists (f ++ [EvPut q (PutStatus status missing extra stale' ns)]). split; [exact L2|].
    split; [apply (HEAD [] eq_refl)|discriminate].
  - intros [= <- <-]. exists (f ++ [EvPut q (PutStatus status missing extra stale' ns)]). split; [exact L2|].
    split; [apply (HEAD [] eq_refl)|]. intros ns' t [= <- <-]. split; [reflexivity|].
    exists f, q, status, missing, extra, stale'. split; [reflexivity|].
    unfold isError in IE. apply orb_false_iff in IE. split; [lia|]. rewrite D2. exact J1.
Qed.
End E.

Theorem C31_exchange : forall C V rnd fuel uuid recid padded ts st out st',
  recID uuid = Ok recid ->
  buildAndSend C V rnd fuel uuid padded ts st = (out, st') ->
  exists l, cs_log V st' = cs_log V st ++ l /\
    attempts (carries C recid padded) uuid ts (devs_of V st uuid) [] [] l /\
    forall needsSync t, out = Some (Ok (needsSync, t)) -> t = ts /\ ends_with l (devs_of V st' uuid) needsSync.
Proof.
  intros C V rnd fuel uuid recid padded ts st out st' R E. apply (exchange C V rnd recid uuid padded ts R fuel [] st out st'); [|exact E].
  exists []. rewrite app_nil_r. split; [reflexivity|]. intros ? ? ? [].
Qed.
Print Assumptions C31_exchange.

(* A server for examples: publishes B's keys for whatever device is asked for and answers requests
   from a list, the last answer repeated. *)
Definition ex_published (d : Z) : pkreply :=
  PkResp (encodeKey (snd (ex_kp 22)))
    [mkPkdev d 1002 (Some (1, encodeKey (snd (ex_kp 33)), Base64EncWithoutPadding (st_sig ex_setup)))
       (Some (5, encodeKey (snd (ex_kp 55))))].
Definition ex_server (pub : Z -> pkreply) (answers : nat -> putreply) : server :=
  mkServer nat (fun s _ d => (pub d, s)) (fun s _ => (answers s, S s)).
Definition ex_pub := Eval vm_compute in ex_published 1.
Definition ex_pub_of (d : Z) : pkreply :=
  match ex_pub with PkResp i [p] => PkResp i [mkPkdev d (pd_reg p) (pd_spk p) (pd_pk p)] | r => r end.
Definition ex_rnd (n : nat) : bytes := if Nat.even n then rb 77 else rb 88.
Definition ex_cs (V : server) (s : sv_state V) : cstate V := mkCs V ex_worldA (fun _ => None) 0 s [].
Definition ok200 : putreply := PutStatus 200 [] [] [] false.

Definition ex_script (n : nat) : putreply :=
  match n with
  | O => PutStatus 409 [2] [] [] false
  | S O => PutStatus 410 [] [] [1] false
  | _ => ok200
  end.
Definition ev_summary (e : event) : Z * list (Z * bool) :=
  match e with
  | EvFetch _ d _ => (d, [])
  | EvPut q r => (match r with PutStatus s _ _ _ _ => s | PutNet => 0 end,
                  map (fun j => (j_dev j, match j_type j with PREKEY_BUNDLE => true | _ => false end)) (q_msgs q))
  end.
(* prekeys for device 1, request refused (2 is missing), prekeys for 2, request refused (1 is stale),
   prekeys for 1 again, request accepted *)
Example C31_example :
  (let (out, st) := SendMessage toy (ex_server ex_pub_of ex_script) ex_rnd 5 na None 1000 nb [104; 105] 0 (ex_cs (ex_server ex_pub_of ex_script) O) in
   (out, map ev_summary (cs_log _ st))) =
  (Some (Ok 1000), [(1, []); (409, [(1, true)]); (2, []); (410, [(1, true); (2, true)]); (1, []); (200, [(1, true); (2, true)])]).
Proof. vm_compute. reflexivity. Qed.

(* C32. FALSE of the code: a server that keeps answering 409 keeps the client sending forever. *)
Lemma all_409_loops C V rnd uuid padded ts : (forall s q, exists m e x n, fst (sv_put V s q) = PutStatus 409 m e x n /\ m = [] /\ e = [1]) ->
  forall fuel st, (exists js st1, buildMessage C V rnd uuid padded (devs_of V st uuid) st = (Ok js, st1)) ->
    (forall recid, recID uuid = Ok recid -> (forall d, In d (devs_of V st uuid) -> d = 1)) ->
  recID uuid <> Panic -> (exists recid, recID uuid = Ok recid) ->
  fst (buildAndSend C V rnd fuel uuid padded ts st) = None.
Proof.
  intros H fuel. induction fuel as [|fuel IH]; intros st (js & st1 & B) D _ (recid & R); [reflexivity|].
  cbn [buildAndSend]. rewrite B. pose proof (H (cs_srv V st1) (mkReq uuid ts js)) as (m & e & x & n & E & -> & ->).
  destruct (sv_put V (cs_srv V st1) (mkReq uuid ts js)) as [reply s']. cbn [fst] in E. subst reply. cbn [Z.eqb Pos.eqb].
  match goal with |- fst (buildAndSend _ _ _ _ _ _ _ ?s) = _ => set (st3 := s) end.
  assert (DV : devs_of V st3 uuid = []).
  { unfold st3, devs_of at 1, set_devs. cbn [cs_devs]. rewrite beq_refl. unfold correct_devices. rewrite app_nil_r.
    unfold buildMessage in B. rewrite R in B. apply build_log in B. destruct B as (B & _).
    unfold devs_of at 1. cbn [cs_devs]. rewrite B. fold (devs_of V st uuid). specialize (D recid R).
    induction (devs_of V st uuid) as [|d t IHd]; [reflexivity|]. cbn [filter]. rewrite (D d (or_introl eq_refl)). cbn [existsb Z.eqb Pos.eqb orb negb].
    apply IHd. intros d' I. apply D. right. exact I. }
  apply IH.
  - rewrite DV. unfold buildMessage. rewrite R. cbn [build_devices]. eexists _, _. reflexivity.
  - intros _ _. rewrite DV. intros d [].
  - congruence.
  - exists recid. exact R.
Qed.

Definition ex_mismatch := ex_server ex_pub_of (fun _ => PutStatus 409 [] [1] [] false).
Theorem C32_sending_never_ends_refuted : exists C V rnd self pk now uuid text timer st,
  crypto_ok C /\ forall fuel, fst (SendMessage C V rnd fuel self pk now uuid text timer st) = None.
Proof.
  exists toy, ex_mismatch, ex_rnd, na, None, 1000, nb, [104; 105], 0, (ex_cs ex_mismatch O). split; [exact toy_ok|]. intros fuel.
  unfold SendMessage, sendMessage. cbn [o_dest o_time].
  match goal with |- context [buildAndSend toy ex_mismatch ex_rnd fuel nb ?p 1000 ?s] =>
    assert (E : fst (buildAndSend toy ex_mismatch ex_rnd fuel nb p 1000 s) = None) end.
  { apply all_409_loops.
    - intros s q. eexists _, _, _, _. split; [reflexivity|]. split; reflexivity.
    - eexists _, _. vm_compute. reflexivity.
    - intros recid _ d. vm_compute. intros [<-|[]]. reflexivity.
    - discriminate.
    - eexists. reflexivity. }
  match goal with |- context [buildAndSend toy ex_mismatch ex_rnd fuel nb ?p 1000 ?s] =>
    destruct (buildAndSend toy ex_mismatch ex_rnd fuel nb p 1000 s) as [o st'] end.
  cbn [fst] in E. subst o. reflexivity.
Qed.
Print Assumptions C32_sending_never_ends_refuted.

(* It ends when the server gives such answers only finitely often: with a measure of its state that
   falls with every 409 or 410 and does not rise otherwise. *)
Theorem C32_sending_ends : forall C V rnd (rank : sv_state V -> nat),
  (forall s u d, (rank (snd (sv_prekeys V s u d)) <= rank s)%nat) ->
  (forall s q, match sv_put V s q with
     | (PutStatus c _ _ _ _, s') => c = 409 \/ c = 410 -> (rank s' < rank s)%nat
     | _ => True end) ->
  forall uuid padded ts st fuel, (rank (cs_srv V st) < fuel)%nat ->
  fst (buildAndSend C V rnd fuel uuid padded ts st) <> None.
Proof.
  intros C V rnd rank HP HQ uuid padded ts st fuel. revert st. induction fuel as [|fuel IH]; intros st L; [lia|].
  cbn [buildAndSend].
  assert (BS : forall recid devs st r st', build_devices C V rnd uuid recid padded devs st = (r, st') ->
             (rank (cs_srv V st') <= rank (cs_srv V st))%nat).
  { intros recid devs. induction devs as [|d devs IHd]; intros s0 r s1; cbn [build_devices]; [intros [= <- <-]; lia|].
    destruct (ensure_session C V rnd s0 uuid recid d) as [r1 s2] eqn:E1.
    assert (L1 : (rank (cs_srv V s2) <= rank (cs_srv V s0))%nat).
    { apply ensure_inv in E1. destruct E1 as (_ & [(_ & _ & ->)|(_ & reply & _ & -> & _)]); [lia|apply HP]. }
    destruct r1; [|intros [= <- <-]; exact L1..].
    destruct (device_message C V s2 recid padded d) as [r2 s3] eqn:E2. apply device_inv in E2. destruct E2 as (_ & _ & E2 & _).
    destruct r2; [|intros [= <- <-]; rewrite E2; exact L1..].
    destruct (build_devices C V rnd uuid recid padded devs s3) as [r3 s4] eqn:E3. specialize (IHd _ _ _ E3).
    destruct r3; intros [= <- <-]; rewrite E2 in IHd; lia. }
  unfold buildMessage. destruct (recID uuid) as [recid|e|]; [|discriminate..].
  destruct (build_devices C V rnd uuid recid padded (devs_of V st uuid) st) as [r st1] eqn:EB. specialize (BS _ _ _ _ _ EB).
  destruct r as [js|e|]; [|discriminate..].
  pose proof (HQ (cs_srv V st1) (mkReq uuid ts js)) as H. destruct (sv_put V (cs_srv V st1) (mkReq uuid ts js)) as [reply s'].
  destruct reply as [|c m e x n]; [discriminate|].
  destruct (Z.eqb_spec c 409) as [E9|N9]; [apply IH; cbn; lia|].
  destruct (Z.eqb_spec c 410) as [E0|N0]; [|destruct (isError c); discriminate].
  destruct x; apply IH; cbn; lia.
Qed.
Print Assumptions C32_sending_ends.
(* the server of C31_example is such a server *)
Example C32_example : let V := ex_server ex_pub_of ex_script in
  let rank := fun s : nat => (2 - s)%nat in
  (forall s u d, (rank (snd (sv_prekeys V s u d)) <= rank s)%nat) /\
  (forall s q, match sv_put V s q with
     | (PutStatus c _ _ _ _, s') => c = 409 \/ c = 410 -> (rank s' < rank s)%nat
     | _ => True end).
Proof.
  cbv zeta. split; [intros; cbn; lia|]. intros [|[|n]] q; cbn; try lia.
Qed.

(* C33. FALSE of the code: a device named as missing while it is addressed is addressed twice. *)
Definition ex_twice := ex_server ex_pub_of (fun n => match n with O => PutStatus 409 [1] [] [] false | _ => ok200 end).
Theorem C33_device_addressed_twice_refuted : exists C V rnd self pk now uuid text timer st fuel q r,
  crypto_ok C /\ In (EvPut q r) (cs_log V (snd (SendMessage C V rnd fuel self pk now uuid text timer st))) /\
  map j_dev (q_msgs q) = [1; 1].
Proof.
  set (log := cs_log ex_twice (snd (SendMessage toy ex_twice ex_rnd 3 na None 1000 nb [104; 105] 0 (ex_cs ex_twice O)))).
  assert (E : map ev_summary log = [(1, []); (409, [(1, true)]); (200, [(1, true); (1, true)])]) by (vm_compute; reflexivity).
  exists toy, ex_twice, ex_rnd, na, None, 1000, nb, [104; 105], 0, (ex_cs ex_twice O), 3%nat. fold log.
  destruct log as [|e1 [|e2 [|[u d r|q r] t]]]; try discriminate E.
  exists q, r. split; [exact toy_ok|]. split; [right; right; left; reflexivity|].
  injection E as _ _ _ E. destruct (q_msgs q) as [|j1 [|j2 [|]]]; try discriminate E.
  injection E as E1 _ E2 _. cbn [map]. congruence.
Qed.
Print Assumptions C33_device_addressed_twice_refuted.

(* It holds if the server never calls a device missing that was just addressed, nor one twice. *)
Lemma nodup_app {A} (a b : list A) : NoDup a -> NoDup b -> (forall x, In x a -> ~ In x b) -> NoDup (a ++ b).
Proof.
  induction a as [|x a IH]; intros Na Nb D; [exact Nb|]. inversion Na as [|? ? N1 N2]; subst. cbn [app]. constructor.
  - rewrite in_app_iff. intros [I|I]; [exact (N1 I)|exact (D x (or_introl eq_refl) I)].
  - apply IH; [exact N2|exact Nb|]. intros y I. apply D. right. exact I.
Qed.
Lemma attempts_nodup cy dest ts l : forall ds stale seen, attempts cy dest ts ds stale seen l -> NoDup ds ->
  (forall q m e x n, In (EvPut q (PutStatus 409 m e x n)) l -> NoDup m /\ forall d, In d m -> ~ In d (map j_dev (q_msgs q))) ->
  forall q r, In (EvPut q r) l -> NoDup (map j_dev (q_msgs q)).
Proof.
  induction l as [|[u d0 r0|q0 r0] l IH]; intros ds stale seen A N H q r I; [destruct I| |].
  - destruct A as [_ A]. destruct I as [I|I]; [discriminate I|]. apply (IH _ _ _ A N) with (r := r); [|exact I].
    intros q1 m e x n I1. apply (H q1 m e x n). right. exact I1.
  - destruct A as (_ & _ & Ed & _ & _ & A). destruct I as [I|I]; [injection I as <- _; now rewrite Ed|].
    assert (H' : forall q m e x n, In (EvPut q (PutStatus 409 m e x n)) l -> NoDup m /\ forall d, In d m -> ~ In d (map j_dev (q_msgs q))).
    { intros q1 m e x n I1. apply (H q1 m e x n). right. exact I1. }
    destruct r0 as [|s m e x n]; [subst l; destruct I|].
    destruct (Z.eqb_spec s 409) as [->|_].
    + destruct A as (kept & K1 & K2 & A). destruct (H q0 m e x n (or_introl eq_refl)) as [M1 M2].
      apply (IH _ _ _ A) with (r := r); [|exact H'|exact I].
      assert (NK : NoDup kept) by (rewrite K2; now apply NoDup_filter).
      apply nodup_app; [exact NK|exact M1|]. intros d Ik Im. apply (M2 d Im). rewrite Ed. apply K1, Ik.
    + destruct (Z.eqb_spec s 410) as [->|_]; [|subst l; destruct I]. apply (IH _ _ _ A N) with (r := r); [exact H'|exact I].
Qed.
Theorem C33_device_addressed_once : forall C V rnd fuel uuid recid padded ts st out st',
  recID uuid = Ok recid -> buildAndSend C V rnd fuel uuid padded ts st = (out, st') ->
  NoDup (devs_of V st uuid) ->
  exists l, cs_log V st' = cs_log V st ++ l /\ ((forall q m e x n, In (EvPut q (PutStatus 409 m e x n)) l -> NoDup m /\ forall d, In d m -> ~ In d (map j_dev (q_msgs q))) ->
   forall q r, In (EvPut q r) l -> NoDup (map j_dev (q_msgs q))).
Proof.
  intros C V rnd fuel uuid recid padded ts st out st' R E N.
  destruct (C31_exchange _ _ _ _ _ _ _ _ _ _ _ R E) as (l & L & A & _). exists l. split; [exact L|].
  intros H q r I. exact (attempts_nodup _ _ _ _ _ _ _ A N H q r I).
Qed.
Print Assumptions C33_device_addressed_once.

Example C33_example : let V := ex_server ex_pub_of ex_script in
  NoDup (devs_of V (default_devs V (ex_cs V O) nb) nb) /\ recID nb = Ok nb.
Proof. split; [repeat constructor; intros []|reflexivity]. Qed.

(* C34. FALSE of the code, in two ways: a one-time prekey that does not decode, and a reply naming
   another device than the one asked for. *)
Definition ex_bad_prekey (d : Z) : pkreply :=
  match ex_pub with PkResp i [p] => PkResp i [mkPkdev d (pd_reg p) (pd_spk p) (Some (5, [63]))] | r => r end.
Definition ex_other_device (d : Z) : pkreply := ex_pub_of 2.
Theorem C34_build_panics_refuted : exists C rnd uuid padded V V' st st',
  crypto_ok C /\
  (* the first server's prekey text is not base64 *)
  fst (buildMessage C V rnd uuid padded [1] st) = Panic /\
  (* all texts of the second decode, but the reply is about device 2 *)
  (forall s d, exists b, bundle_of (fst (sv_prekeys V' s uuid d)) = Ok b /\ b_dev b = 2) /\
  fst (buildMessage C V' rnd uuid padded [1] st') = Panic.
Proof.
  exists toy, ex_rnd, nb, [1; 2; 3], (ex_server ex_bad_prekey (fun _ => ok200)), (ex_server ex_other_device (fun _ => ok200)).
  exists (ex_cs (ex_server ex_bad_prekey (fun _ => ok200)) O), (ex_cs (ex_server ex_other_device (fun _ => ok200)) O). split; [exact toy_ok|]. split; [vm_compute; reflexivity|]. split.
  - intros s d. eexists. split; [vm_compute; reflexivity|]. reflexivity.
  - vm_compute. reflexivity.
Qed.
Print Assumptions C34_build_panics_refuted.

(* Otherwise it does not crash: every reply names the device asked for, its one-time prekey, if any,
   decodes, and the stored sessions can be used (which BuildSenderSession ensures for new ones). *)
Definition sane_reply (d : Z) (r : pkreply) : Prop :=
  match r with
  | PkResp _ [p] => pd_dev p = d /\ match pd_pk p with Some (_, t) => exists k, decodeKey t = Ok k | None => True end
  | _ => True
  end.
Lemma decodes_ok s : decodeKey s <> Panic /\ decodeSignature s <> Panic.
Proof.
  assert (Q : forall n t, (length t <= n)%nat -> dec64_quanta t <> Panic).
  { induction n as [|n IH]; intros t L; [destruct t; [discriminate|cbn in L; lia]|].
    destruct t as [|a [|b [|c [|d t]]]]; try discriminate. cbn [dec64_quanta]. cbn [length] in L.
    destruct (d64 a), (d64 b); try discriminate. destruct (c =? 61).
    - destruct ((d =? 61) && match t with [] => true | _ => false end); discriminate.
    - destruct (d64 c); try discriminate. destruct (d =? 61); [destruct t; discriminate|]. destruct (d64 d); try discriminate.
      specialize (IH t ltac:(lia)). destruct (dec64_quanta t); cbn [bind]; congruence. }
  assert (B : forall t, Base64DecodeNonPadded t <> Panic).
  { intros t. unfold Base64DecodeNonPadded, dec64. apply (Q _ _ (Nat.le_refl _)). }
  specialize (B s). unfold decodeKey, decodeSignature. destruct (Base64DecodeNonPadded s) as [b| |]; cbn [bind]; [|split; discriminate|contradiction].
  split; [destruct (negb (Nat.eqb (length b) 33) || negb (nth 0 b 0 =? 5))|destruct (negb (Nat.eqb (length b) 64))]; discriminate.
Qed.
Lemma sane_bundle d r : sane_reply d r -> bundle_of r <> Panic /\ forall b, bundle_of r = Ok b -> b_dev b = d /\ length (b_ident b) = 32%nat.
Proof.
  unfold sane_reply, bundle_of. destruct r as [e|ident [|p [|x t]]]; try (intros _; split; [discriminate|intros b E; discriminate E]).
  intros [D K].
  assert (P : exists v, match pd_pk p with None => Ok (0, None) | Some (id, text) => match decodeKey text with Ok k => Ok (id, Some k) | _ => Panic end end = Ok v).
  { destruct (pd_pk p) as [[id text]|]; [destruct K as (k & ->)|]; eexists; reflexivity. }
  destruct P as (v & ->). cbn [bind]. destruct (pd_spk p) as [[[sid stext] sigtext]|]; [|split; [discriminate|intros b E; discriminate E]].
  pose proof (decodes_ok stext) as [A1 _]. pose proof (decodes_ok sigtext) as [_ A2]. pose proof (decodes_ok ident) as [A3 _].
  destruct (decodeKey stext); cbn [bind]; [|split; congruence..].
  destruct (decodeSignature sigtext); cbn [bind]; [|split; congruence..].
  destruct (decodeKey ident) as [ik| |] eqn:EI; cbn [bind]; [|split; congruence..].
  split; [discriminate|]. intros b [= <-]. cbn [b_dev b_ident]. split; [exact D|]. apply (C51_key_never_short ident ik EI).
Qed.

Definition all_usable (w : world) (recid : bytes) : Prop := forall d c p, w_sess w recid d = Some (c, p) -> usable c.
Theorem C34_build_never_panics : forall C, crypto_ok C -> forall V rnd uuid recid padded devs st,
  recID uuid = Ok recid ->
  (forall s d, sane_reply d (fst (sv_prekeys V s uuid d))) ->
  length (snd (w_ident (cs_w V st))) = 32%nat ->
  all_usable (cs_w V st) recid ->
  fst (buildMessage C V rnd uuid padded devs st) <> Panic.
Proof.
  intros C OK V rnd uuid recid padded devs st R HS. unfold buildMessage. rewrite R. revert st.
  induction devs as [|d devs IH]; intros st LI U; cbn [build_devices]; [discriminate|].
  destruct (ensure_session C V rnd st uuid recid d) as [r1 st1] eqn:E1. apply ensure_inv in E1. destruct E1 as (_ & E1).
  assert (P : r1 <> Panic /\ (r1 = Ok tt -> length (snd (w_ident (cs_w V st1))) = 32%nat /\ all_usable (cs_w V st1) recid /\
            exists c p, w_sess (cs_w V st1) recid d = Some (c, p))).
  { destruct E1 as [(W & -> & ->)|(_ & reply & Er & _ & _ & E1)]; [split; [discriminate|]; intros _; auto|].
    pose proof (HS (cs_srv V st) d) as S. rewrite <- Er in S. apply sane_bundle in S. destruct S as [S1 S2].
    destruct E1 as [(_ & N & Q)|(ident & pk & b & s & p & -> & Eb & _ & -> & -> & _ & Us)].
    - split; [exact (Q S1)|contradiction].
    - split; [discriminate|]. intros _. destruct (S2 b Eb) as [Db Lb]. specialize (Us OK LI Lb).
      cbn [apply_effs fold_left apply_eff set_id set_sess w_ident]. split; [exact LI|]. split.
      + intros d' c p'. cbn [set_id set_sess w_sess]. rewrite beq_refl. cbn [andb]. destruct (d' =? b_dev b); [intros [= <- <-]; exact Us|apply U].
      + cbn [set_id set_sess w_sess]. rewrite beq_refl, Db, Z.eqb_refl. cbn [andb]. eexists _, _. reflexivity. }
  destruct P as [P1 P2]. destruct r1 as [[]|e|]; [|discriminate|contradiction]. destruct (P2 eq_refl) as (LI1 & U1 & c & p & W).
  destruct (device_message C V st1 recid padded d) as [r2 st2] eqn:E2.
  assert (N2 : r2 <> Panic).
  { destruct (encrypt_usable C OK (cs_w V st1) recid d padded c p W (U1 _ _ _ W)) as (m & ty & l & E). unfold device_message in E2. rewrite E in E2. injection E2 as <- _. discriminate. }
  apply device_inv in E2. destruct E2 as (_ & _ & _ & E2). destruct r2 as [j|e|]; [|discriminate|contradiction].
  assert (K : length (snd (w_ident (cs_w V st2))) = 32%nat /\ all_usable (cs_w V st2) recid).
  { destruct E2 as [(-> & _)|(j' & c' & p' & s' & _ & _ & W' & -> & _ & Us & _)]; [auto|]. cbn [apply_effs fold_left apply_eff set_sess w_ident].
    split; [exact LI1|]. intros d' c0 p0. cbn [set_sess w_sess]. rewrite beq_refl. cbn [andb]. destruct (d' =? d); [intros [= <- <-]; exact (Us OK)|apply U1]. }
  destruct K as [K1 K2]. specialize (IH st2 K1 K2). destruct (build_devices C V rnd uuid recid padded devs st2) as [r3 st3].
  cbn [fst] in IH. destruct r3; cbn [fst]; congruence.
Qed.
Print Assumptions C34_build_never_panics.
Example C34_example : let V := ex_server ex_pub_of ex_script in
  (forall s d, sane_reply d (fst (sv_prekeys V s nb d))) /\ length (snd (w_ident (cs_w V (ex_cs V O)))) = 32%nat /\
  all_usable (cs_w V (ex_cs V O)) nb.
Proof.
  cbv zeta. split; [|split; [vm_compute; reflexivity|intros d c p H; discriminate H]].
  intros s d. split; [reflexivity|]. cbn. eexists. vm_compute. reflexivity.
Qed.

(* C35. What createMessage puts in, the receiver's parser gets out. *)
Definition att_wf (a : attptr) : Prop :=
  match ap_id a with Some (inr k) => wfb k | _ => True end /\
  opt wfb (ap_type a) /\ opt wfb (ap_key a) /\ opt wfb (ap_digest a) /\ opt wfb (ap_name a).
Record out_ok (pk : option bytes) (now : Z) (o : outgoing) : Prop := {
  oo_text : wfb (o_text o);
  oo_att : forall p, o_att o = Some p -> wfb (pt_cdnkey p) /\ wfb (pt_ct p) /\ wfb (pt_keys p) /\ wfb (pt_digest p) /\
             u32 (pt_size p) /\ u32 (pt_cdn p);
  oo_flags : u32 (o_flags o);
  oo_expire : u32 (o_expire o);
  oo_time : u64 (match o_time o with Some t => t | None => now end);
  oo_gv2 : forall g, o_gv2 o = Some g -> opt u32 (gc_rev g) /\ opt wfb (gc_master g) /\ opt wfb (gc_change g);
  oo_pk : opt wfb pk }.

(* the message found by the receiver, in terms of what was given to the sender *)
Definition received_as (pk : option bytes) (now : Z) (o : outgoing) (d : datamsg) : Prop :=
  d_body d = match o_text o with [] => None | t => Some t end /\
  d_ts d = Some (match o_time o with Some t => t | None => now end) /\
  d_expire d = Some (o_expire o) /\ d_flags d = Some (o_flags o) /\ d_pkey d = pk /\ d_gv2 d = o_gv2 o /\
  match o_att o with
  | None => d_atts d = []
  | Some p => exists a, d_atts d = [a] /\ ap_id a = Some (inr (pt_cdnkey p)) /\ ap_cdn a = Some (pt_cdn p) /\
      ap_type a = Some (pt_ct p) /\ ap_key a = Some (pt_keys p) /\ ap_digest a = Some (pt_digest p) /\
      ap_size a = Some (pt_size p) /\ (ap_flags a = Some 1 <-> pt_voice p = true)
  end.

Lemma created_as pk now o : received_as pk now o (createMessage pk now o).
Proof.
  unfold received_as, createMessage. cbn [d_body d_ts d_expire d_flags d_pkey d_gv2 d_atts].
  do 6 (split; [reflexivity|]). destruct (o_att o) as [p|]; [|reflexivity]. eexists. split; [reflexivity|].
  cbn [ap_id ap_cdn ap_type ap_key ap_digest ap_size ap_flags]. do 6 (split; [reflexivity|]). destruct (pt_voice p); split; congruence.
Qed.

Lemma create_ok pk now o : out_ok pk now o -> data_ok (createMessage pk now o).
Proof.
  intros []. constructor; cbn [createMessage d_atts d_flags d_expire d_ts d_gv2 d_quote d_contact d_sticker d_reaction opt]; auto.
  - destruct (o_att o) as [p|]; constructor; [|constructor]. destruct (oo_att0 p eq_refl) as (_ & _ & _ & _ & S & N).
    split; [exact I|]. split; [exact S|]. split; [cbn; destruct (pt_voice p); cbn; [unfold u32; lia|exact I]|exact N].
  - destruct (o_gv2 o) as [g|]; [|exact I]. apply (oo_gv3 g eq_refl).
Qed.

Lemma o_len_wf v : opt wfb v -> Forall wf_val (o_len v).
Proof. destruct v; cbn; intros; repeat constructor; assumption. Qed.
Lemma o_varint_wf v : opt u64 v -> Forall wf_val (o_varint v).
Proof. destruct v as [v|]; cbn [opt o_varint]; intros H; constructor; [|constructor]. cbn [wf_val]. unfold u64 in H. lia. Qed.
Lemma u32_u64 v : opt u32 v -> opt u64 v.
Proof. destruct v; cbn; [unfold u32, u64; lia|auto]. Qed.
Lemma f_msg_wf s : Forall (fun p => 0 <= fst p /\ Forall wf_val (snd p)) s -> Forall wf_val (f_msg s).
Proof. intros H. constructor; [|constructor]. cbn [wf_val]. apply marshal_wf, H. Qed.
Ltac wf_slots := repeat (apply Forall_cons; [split; [cbn [fst]; lia|cbn [snd]]|]); [..|apply Forall_nil].

Lemma create_wf pk now o : out_ok pk now o -> wfb (marshal_data (createMessage pk now o)).
Proof.
  intros []. unfold marshal_data. apply marshal_wf. wf_slots. apply f_msg_wf. unfold data_slots.
  cbn [createMessage d_body d_atts d_flags d_expire d_pkey d_ts d_gv2].
  wf_slots.
  - apply o_len_wf. destruct (o_text o); [exact I|exact oo_text0].
  - destruct (o_att o) as [p|]; cbn [flat_map]; [|constructor]. rewrite app_nil_r. destruct (oo_att0 p eq_refl) as (W1 & W2 & W3 & W4 & W5 & W6).
    apply f_msg_wf. unfold att_slots. cbn [ap_id ap_type ap_key ap_size ap_digest ap_name ap_flags ap_cdn].
    wf_slots; try (apply o_len_wf; assumption); try (apply o_varint_wf, u32_u64; assumption); try (constructor; fail).
    + apply o_len_wf. cbn. destruct (pt_voice p); [|constructor]. unfold voice_mp3. repeat constructor; unfold isbyte; lia.
    + apply o_varint_wf. destruct (pt_voice p); cbn; [unfold u64; lia|exact I].
    + repeat constructor. exact W1.
  - apply o_varint_wf, u32_u64. assumption.
  - apply o_varint_wf, u32_u64. assumption.
  - apply o_len_wf. assumption.
  - apply o_varint_wf. assumption.
  - destruct (o_gv2 o) as [g|]; cbn [o_msg]; [|constructor]. destruct (oo_gv3 g eq_refl) as (A & B & D).
    apply f_msg_wf. unfold gctx2_slots. wf_slots; [apply o_len_wf|apply o_varint_wf, u32_u64|apply o_len_wf]; assumption.
Qed.

(* every request for this message carries, for each device, an encryption of exactly this content *)
Theorem C35_content : forall pk now o, out_ok pk now o -> fits (createMessage pk now o) ->
  exists d, unmarshal_content (stripPadding (padMessage (marshal_data (createMessage pk now o))))
    = Some (mkContent (Some d) None None false None false) /\ received_as pk now o d.
Proof.
  intros pk now o H F. exists (createMessage pk now o). split; [|apply created_as].
  rewrite strip_pad. apply unmarshal_marshal_data; [apply create_ok, H|exact F].
Qed.
Print Assumptions C35_content.

(* what the server hands out for B *)
Definition published (C : crypto) (st : setup) : pkreply :=
  PkResp (encodeKey (idpub st SB))
    [mkPkdev (snd (st_peer st SA)) (w_reg (st_w st SB))
       (Some (st_spkid st, encodeKey (basepub C (st_spk st)), Base64EncWithoutPadding (st_sig st)))
       (match st_otk st with Some k => Some (st_pkid st, encodeKey (basepub C k)) | None => None end)].
Lemma published_bundle C (OK : crypto_ok C) st : setup_ok C st -> wfb (st_sig st) -> length (st_sig st) = 64%nat ->
  bundle_of (published C st) = Ok (the_bundle C st).
Proof.
  intros SO W L. unfold bundle_of, published. cbn [pd_pk pd_spk pd_reg pd_dev].
  destruct (so_ident _ _ SO SB) as [EI _]. pose proof (so_otk _ _ SO) as O. pose proof (so_spkid _ _ SO) as SI.
  rewrite (C51_key_round_trip (basepub C (st_spk st))), (C51_key_round_trip (idpub st SB)); try rewrite EI;
    [|apply (basepub_wf C OK)|apply (basepub_length C OK)|apply (basepub_wf C OK)|apply (basepub_length C OK)].
  rewrite (proj2 (C51_signature_accepted_iff (st_sig st) (st_sig st) W) (conj eq_refl L)).
  unfold the_bundle. rewrite <- EI. assert (T : to_i32 (st_spkid st) = st_spkid st) by (unfold to_i32; destruct (Z.ltb_spec (st_spkid st mod 2 ^ 32) (2 ^ 31)); rewrite Z.mod_small in * by lia; lia).
  destruct (st_otk st) as [k|].
  - rewrite C51_key_round_trip by (apply (basepub_wf C OK) || apply (basepub_length C OK)). cbn [bind fst snd]. now rewrite T.
  - cbn [bind fst snd option_map]. rewrite T, O. reflexivity.
Qed.

Theorem C35_end_to_end : forall C, crypto_ok C -> forall st, setup_ok C st ->
  wfb (st_sig st) -> length (st_sig st) = 64%nat -> snd (st_peer st SA) = 1 ->
  w_sess (st_w st SA) (fst (st_peer st SA)) 1 = None ->
  forall V rnd cs self pk now o fuel,
  recID (o_dest o) = Ok (fst (st_peer st SA)) ->
  cs_w V cs = st_w st SA -> cs_devs V cs (o_dest o) = None ->
  rnd (cs_rnd V cs) = st_rbase st -> rnd (S (cs_rnd V cs)) = st_rratchet st ->
  fst (sv_prekeys V (cs_srv V cs) (o_dest o) 1) = published C st ->
  (forall s q, exists m e x, fst (sv_put V s q) = PutStatus 200 m e x false) ->
  out_ok pk now o -> zlen (marshal_data (createMessage pk now o)) < 2 ^ 59 ->
  forall rnd', length (rnd' 0%nat) = 32%nat ->
  let ts := match o_time o with Some t => t | None => now end in
  exists cs' q r j,
    sendMessage C V rnd (S fuel) self pk now o cs = (Some (Ok ts), cs') /\
    cs_log V cs' = cs_log V cs ++ [EvFetch (o_dest o) 1 (published C st); EvPut q r] /\
    q_dest q = o_dest o /\ q_ts q = ts /\ q_msgs q = [j] /\ j_dev j = 1 /\
    exists b pt l d, dec64 (j_content j) = Ok b /\
      receive C (st_w st SB) (fst (st_peer st SB)) (snd (st_peer st SB)) (j_type j) b rnd' = (Ok pt, l) /\
      unmarshal_content (stripPadding pt) = Some (mkContent (Some d) None None false None false) /\
      received_as pk now o d.
Proof.
  intros C OK st SO Wsig Lsig Dev None1 V rnd cs self pk now o fuel R CW CD R1 R2 HP HQ OO Sz rnd' Lr ts.
  set (padded := padMessage (marshal_data (createMessage pk now o))).
  assert (Wp : wfb padded) by apply pad_wf, create_wf, OO.
  assert (Zp : zlen padded < 2 ^ 60) by (unfold padded; rewrite pad_length; lia).
  destruct (first_message C OK st SO padded rnd' Wp Zp Lr) as (l1 & l2 & l3 & b & ty & HB & HE & HR).
  rewrite Dev in HB, HE.
  assert (WB : wfb b /\ ty = PREKEY_BUNDLE).
  { apply (built_message_wf C OK _ _ _ _ _ _ _ _ _ _ _ HB HE); auto.
    - destruct (so_ident _ _ SO SA) as [E _]. unfold idpub in E. rewrite E. apply (basepub_wf C OK).
    - apply (so_reg _ _ SO).
    - cbn [the_bundle b_pkid]. pose proof (so_otk _ _ SO) as O. destruct (st_otk st); lia. }
  destruct WB as [WB Ety].
  set (rid := fst (st_peer st SA)) in *.
  unfold sendMessage. fold padded. fold ts.
  cbn [buildAndSend].
  assert (DV : devs_of V (default_devs V cs (o_dest o)) (o_dest o) = [1]).
  { unfold default_devs. rewrite CD. unfold devs_of, set_devs. cbn [cs_devs]. now rewrite beq_refl. }
  assert (DS : default_devs V cs (o_dest o) = set_devs V cs (o_dest o) [1]) by (unfold default_devs; now rewrite CD).
  set (cs0 := set_devs V cs (o_dest o) [1]) in *.
  (* building *)
  set (s1 := snd (sv_prekeys V (cs_srv V cs) (o_dest o) 1)).
  set (w1 := apply_effs (st_w st SA) l1). set (w2 := apply_effs w1 l2).
  set (j := mkJ ty 1 (s_rreg (r_cur (LoadSession w2 rid 1))) (enc64 b)).
  set (st1 := mkCs V w2 (cs_devs V cs0) (cs_rnd V cs + 2) s1 (cs_log V cs ++ [EvFetch (o_dest o) 1 (published C st)])).
  assert (BM : buildMessage C V rnd (o_dest o) padded [1] cs0 = (Ok [j], st1)).
  { unfold buildMessage. rewrite R. cbn [build_devices]. unfold ensure_session.
    replace (cs_w V cs0) with (st_w st SA) by (symmetry; exact CW). fold rid. rewrite None1.
    unfold makePreKeyBundle. change (cs_srv V cs0) with (cs_srv V cs).
    destruct (sv_prekeys V (cs_srv V cs) (o_dest o) 1) as [reply s1'] eqn:EP. cbn [fst] in HP. subst reply.
    rewrite (published_bundle C OK st SO Wsig Lsig). cbn [cs_w cs_rnd cs_devs cs_srv cs_log].
    replace (cs_w V cs0) with (st_w st SA) by (symmetry; exact CW). change (cs_rnd V cs0) with (cs_rnd V cs).
    change (b_dev (the_bundle C st)) with (snd (st_peer st SA)). rewrite Dev, R1, R2, HB.
    unfold device_message. cbn [cs_w cs_devs cs_rnd cs_srv cs_log]. fold w1. fold rid in HE. unfold w1 at 1. rewrite HE. reflexivity. }
  rewrite DS. change (devs_of V cs0 (o_dest o)) with (devs_of V cs0 (o_dest o)). rewrite DS in DV. rewrite DV, BM.
  destruct (HQ (cs_srv V st1) (mkReq (o_dest o) ts [j])) as (m & e & x & E).
  destruct (sv_put V (cs_srv V st1) (mkReq (o_dest o) ts [j])) as [reply s'] eqn:EPut. cbn [fst] in E. subst reply.
  cbn [Z.eqb Pos.eqb isError Z.ltb Z.leb Z.compare Pos.compare Pos.compare_cont orb].
  eexists _, (mkReq (o_dest o) ts [j]), (PutStatus 200 m e x false), j.
  split; [reflexivity|]. split; [unfold st1; cbn [cs_log]; rewrite <- app_assoc; reflexivity|].
  do 4 (split; [reflexivity|]).
  destruct (C35_content pk now o OO) as (d & Hd & Rd); [unfold fits; lia|].
  exists b, padded, l3, d. split.
  - cbn [j j_content]. apply dec64_enc64, WB.
  - split; [exact HR|]. split; [exact Hd|exact Rd].
Qed.
Print Assumptions C35_end_to_end.
Definition ex_out : outgoing :=
  mkOut nb [104; 105] None (Some (mkGctx2 (Some (rb 9)) (Some 3) None))
    (Some (mkPtr [107; 101; 121] 2 [105; 109; 103] (rb 7) (rb 8) 77 true)) 0 60 (Some 1600000000000).
Example C35_example : let V := ex_server ex_pub_of (fun _ => ok200) in let cs := ex_cs V O in
  setup_ok toy ex_setup /\ wfb (st_sig ex_setup) /\ length (st_sig ex_setup) = 64%nat /\ snd (st_peer ex_setup SA) = 1 /\
  w_sess (st_w ex_setup SA) (fst (st_peer ex_setup SA)) 1 = None /\
  recID (o_dest ex_out) = Ok (fst (st_peer ex_setup SA)) /\ cs_w V cs = st_w ex_setup SA /\ cs_devs V cs (o_dest ex_out) = None /\
  ex_rnd (cs_rnd V cs) = st_rbase ex_setup /\ ex_rnd (S (cs_rnd V cs)) = st_rratchet ex_setup /\
  fst (sv_prekeys V (cs_srv V cs) (o_dest ex_out) 1) = published toy ex_setup /\
  (forall s q, exists m e x, fst (sv_put V s q) = PutStatus 200 m e x false) /\
  out_ok (Some (rb 5)) 1 ex_out /\ zlen (marshal_data (createMessage (Some (rb 5)) 1 ex_out)) < 2 ^ 59.
Proof.
  cbv zeta. split; [exact ex_setup_ok|]. split; [apply wfbb_ok; vm_compute; reflexivity|]. split; [vm_compute; reflexivity|].
  do 7 (split; [reflexivity|]). split; [vm_compute; reflexivity|]. split; [intros s q; eexists _, _, _; reflexivity|].
  split; [|vm_compute; reflexivity].
  constructor.
  - apply wfbb_ok; vm_compute; reflexivity.
  - intros p [= <-]. repeat split; try (apply wfbb_ok; vm_compute; reflexivity); vm_compute; congruence.
  - vm_compute. split; congruence.
  - vm_compute. split; congruence.
  - vm_compute. split; congruence.
  - intros g [= <-]. repeat split; try (apply wfbb_ok; vm_compute; reflexivity); vm_compute; congruence.
  - apply wfbb_ok; vm_compute; reflexivity.
Qed.

(* C36. FALSE of the code: the group given to the sender has no influence on anything sent, so the
   member who gets the message cannot tell it from a direct one. *)
Definition with_group (o : outgoing) (g : option groupmsg) : outgoing :=
  mkOut (o_dest o) (o_text o) g (o_gv2 o) (o_att o) (o_flags o) (o_expire o) (o_time o).
Theorem C36_group_context_lost_refuted :
  (forall C V rnd fuel self pk now o g st,
     sendMessage C V rnd fuel self pk now (with_group o g) st = sendMessage C V rnd fuel self pk now (with_group o None) st) /\
  exists o g, o_group (with_group o (Some g)) <> o_group (with_group o None) /\ gm_id g = [1; 2; 3; 4].
Proof.
  split; [reflexivity|]. exists ex_out, (mkGm [1; 2; 3; 4] [103] [na; nb] 1). split; [discriminate|reflexivity].
Qed.
Print Assumptions C36_group_context_lost_refuted.

(* C66. FALSE of the code: when the message has been accepted but the copy for the own devices is
   refused, the caller's process panics. *)
Definition ex_sync_refused := ex_server ex_pub_of (fun n => match n with O => PutStatus 200 [] [] [] true | _ => PutStatus 500 [] [] [] false end).
Theorem C66_refused_sync_copy_panics_refuted : exists C V rnd fuel self pk now uuid text timer st,
  crypto_ok C /\
  let r := SendMessage C V rnd fuel self pk now uuid text timer st in
  fst r = Some Panic /\ map (fun e => match e with EvPut _ (PutStatus s _ _ _ _) => s | _ => 0 end) (cs_log V (snd r)) = [0; 200; 0; 500].
Proof.
  exists toy, ex_sync_refused, ex_rnd, 2%nat, na, None, 1000, nb, [104; 105], 0, (ex_cs ex_sync_refused O).
  split; [exact toy_ok|]. vm_compute. split; reflexivity.
Qed.
Print Assumptions C66_refused_sync_copy_panics_refuted.
(* every refusal of the copy has this effect *)
Theorem C66_every_refusal : forall C V rnd fuel self sm ts st e st',
  buildAndSend C V rnd fuel self (padMessage (marshal_sync sm)) ts (default_devs V st self) = (Some (Err e), st') ->
  sendSyncMessage C V rnd fuel self sm ts st = (Some Panic, st').
Proof. intros C V rnd fuel self sm ts st e st' H. unfold sendSyncMessage. now rewrite H. Qed.
Print Assumptions C66_every_refusal.

(* C67. Sending to one recipient touches nothing kept for others: sessions, pinned identities, device
   lists; own keys and prekeys are never touched. *)
Definition frame (recid uuid : bytes) (V : server) (a b : cstate V) : Prop :=
  w_ident (cs_w V b) = w_ident (cs_w V a) /\ w_reg (cs_w V b) = w_reg (cs_w V a) /\ w_trust_all (cs_w V b) = w_trust_all (cs_w V a) /\
  w_pre (cs_w V b) = w_pre (cs_w V a) /\ w_spk (cs_w V b) = w_spk (cs_w V a) /\
  (forall r d, r <> recid -> w_sess (cs_w V b) r d = w_sess (cs_w V a) r d) /\
  (forall r, r <> recid -> w_ids (cs_w V b) r = w_ids (cs_w V a) r) /\
  (forall u, u <> uuid -> cs_devs V b u = cs_devs V a u).
Lemma frame_refl recid uuid V a : frame recid uuid V a a.
Proof. unfold frame. repeat split; auto. Qed.
Lemma frame_trans recid uuid V a b c : frame recid uuid V a b -> frame recid uuid V b c -> frame recid uuid V a c.
Proof.
  intros (A1 & A2 & A3 & A4 & A5 & A6 & A7 & A8) (B1 & B2 & B3 & B4 & B5 & B6 & B7 & B8). unfold frame.
  split; [congruence|]. split; [congruence|]. split; [congruence|]. split; [congruence|]. split; [congruence|].
  split; [intros; rewrite B6 by assumption; auto|]. split; [intros; rewrite B7 by assumption; auto|]. intros; rewrite B8 by assumption; auto.
Qed.
Lemma neq_beq a b : a <> b -> beq a b = false.
Proof. intros N. apply not_true_iff_false. intros E. apply N, beq_eq, E. Qed.
Lemma frame_w recid uuid V a b l : cs_devs V b = cs_devs V a -> cs_w V b = apply_effs (cs_w V a) l ->
  Forall (fun e => match e with EStoreSession r _ _ _ => r = recid | ESaveIdentity r _ => r = recid | ERemovePreKey _ => False end) l ->
  frame recid uuid V a b.
Proof.
  intros D W F. unfold frame. rewrite W, D.
  assert (G : forall w, let w' := apply_effs w l in
     w_ident w' = w_ident w /\ w_reg w' = w_reg w /\ w_trust_all w' = w_trust_all w /\ w_pre w' = w_pre w /\ w_spk w' = w_spk w /\
     (forall r d, r <> recid -> w_sess w' r d = w_sess w r d) /\ (forall r, r <> recid -> w_ids w' r = w_ids w r)).
  { clear W. induction F as [|e l He F IH]; intros w; cbv zeta; [unfold apply_effs; cbn [fold_left]; repeat split; auto|].
    change (apply_effs w (e :: l)) with (apply_effs (apply_eff w e) l). specialize (IH (apply_eff w e)). cbv zeta in IH.
    destruct IH as (I1 & I2 & I3 & I4 & I5 & I6 & I7). destruct e as [r0 d0 c0 p0|i0|r0 k0]; [subst r0| destruct He|subst r0];
      cbn [apply_eff set_sess set_id w_ident w_reg w_trust_all w_pre w_spk w_sess w_ids] in *;
      (split; [exact I1|]; split; [exact I2|]; split; [exact I3|]; split; [exact I4|]; split; [exact I5|]; split).
    - intros r d N. rewrite I6 by exact N. rewrite (neq_beq _ _ N). reflexivity.
    - exact I7.
    - exact I6.
    - intros r N. rewrite I7 by exact N. now rewrite (neq_beq _ _ N). }
  specialize (G (cs_w V a)). cbv zeta in G. destruct G as (I1 & I2 & I3 & I4 & I5 & I6 & I7). repeat split; auto.
Qed.
Lemma build_frame C V rnd uuid recid padded devs st r st' :
  build_devices C V rnd uuid recid padded devs st = (r, st') -> frame recid uuid V st st'.
Proof.
  revert st r st'. induction devs as [|d devs IH]; intros st r st'; cbn [build_devices].
  { intros [= <- <-]. apply frame_refl. }
  destruct (ensure_session C V rnd st uuid recid d) as [r1 st1] eqn:E1. apply ensure_inv in E1. destruct E1 as (D1 & E1).
  assert (F1 : frame recid uuid V st st1).
  { destruct E1 as [(_ & _ & ->)|(_ & reply & _ & _ & _ & [(W & _)|(ident & pk & b & s & p & _ & _ & _ & _ & W & _)])]; [apply frame_refl| |].
    - apply (frame_w recid uuid V st st1 [] D1 W). constructor.
    - apply (frame_w recid uuid V st st1 _ D1 W). repeat constructor. }
  destruct r1; [|intros [= <- <-]; exact F1..].
  destruct (device_message C V st1 recid padded d) as [r2 st2] eqn:E2. apply device_inv in E2. destruct E2 as (D2 & _ & _ & E2).
  assert (F2 : frame recid uuid V st st2).
  { apply (frame_trans _ _ _ _ _ _ F1). destruct E2 as [(W & _)|(j & c & p & s' & _ & _ & _ & W & _)].
    - apply (frame_w recid uuid V st1 st2 [] D2 W). constructor.
    - apply (frame_w recid uuid V st1 st2 _ D2 W). repeat constructor. }
  destruct r2; [|intros [= <- <-]; exact F2..].
  destruct (build_devices C V rnd uuid recid padded devs st2) as [r3 st3] eqn:E3. specialize (IH _ _ _ E3).
  destruct r3; intros [= <- <-]; exact (frame_trans _ _ _ _ _ _ F2 IH).
Qed.
Theorem C67_sending_leaves_others_alone : forall C V rnd fuel uuid recid padded ts st out st',
  recID uuid = Ok recid -> buildAndSend C V rnd fuel uuid padded ts st = (out, st') -> frame recid uuid V st st'.
Proof.
  intros C V rnd fuel uuid recid padded ts st out st' R. revert st out st'.
  induction fuel as [|fuel IH]; intros st out st'; cbn [buildAndSend]; [intros [= <- <-]; apply frame_refl|].
  unfold buildMessage. rewrite R.
  destruct (build_devices C V rnd uuid recid padded (devs_of V st uuid) st) as [r st1] eqn:EB. apply build_frame in EB.
  destruct r as [js|e|]; [|intros [= <- <-]; exact EB..].
  destruct (sv_put V (cs_srv V st1) (mkReq uuid ts js)) as [reply s'].
  set (st2 := mkCs V (cs_w V st1) (cs_devs V st1) (cs_rnd V st1) s' (cs_log V st1 ++ [EvPut (mkReq uuid ts js) reply])).
  assert (F2 : frame recid uuid V st st2) by (apply (frame_trans _ _ _ _ _ _ EB); unfold frame; repeat split; auto).
  destruct reply as [|c m e x n]; [intros [= <- <-]; exact F2|].
  destruct (c =? 409).
  { intros E. apply IH in E. apply (frame_trans _ _ _ _ _ _ F2). refine (frame_trans _ _ _ _ _ _ _ E).
    unfold frame, set_devs. cbn [cs_w cs_devs]. repeat split; auto. intros u N. now rewrite (neq_beq _ _ N). }
  destruct (c =? 410).
  { intros E. assert (E' : buildAndSend C V rnd fuel uuid padded ts (set_w V st2 (delete_sessions (cs_w V st2) recid x)) = (out, st')) by (destruct x; exact E).
    clear E. apply IH in E'. apply (frame_trans _ _ _ _ _ _ F2). refine (frame_trans _ _ _ _ _ _ _ E').
    assert (G : forall w, let w' := delete_sessions w recid x in w_ident w' = w_ident w /\ w_reg w' = w_reg w /\
        w_trust_all w' = w_trust_all w /\ w_pre w' = w_pre w /\ w_spk w' = w_spk w /\ w_ids w' = w_ids w).
    { clear. induction x as [|d x IHx]; intros w; cbv zeta; [repeat split|].
      change (delete_sessions w recid (d :: x)) with (delete_sessions (set_sess w recid d None) recid x). apply (IHx (set_sess w recid d None)). }
    specialize (G (cs_w V st2)). cbv zeta in G. destruct G as (G1 & G2 & G3 & G4 & G5 & G6).
    unfold frame, set_w. cbn [cs_w cs_devs]. repeat split; auto.
    - intros r d N. rewrite deleted_sess, (neq_beq _ _ N). reflexivity.
    - intros r N. now rewrite G6. }
  destruct (isError c); intros [= <- <-]; exact F2.
Qed.
Print Assumptions C67_sending_leaves_others_alone.
Example C67_example : recID [43; 49; 50] = Ok [49; 50] /\ recID nb = Ok nb.
Proof. split; reflexivity. Qed.
