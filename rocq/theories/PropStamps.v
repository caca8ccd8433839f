(* C219: the number by which a message is known — to the application that sent it, to the server, to the recipient, to
   the other own devices and in the receipts (/repo/server.go 749-756, 883-956, /repo/sender.go 13-84,
   /repo/textsecure.go 134-142, /repo/sync.go 86-135, /repo/handler.go 54-72). *)
From Coq Require Import ZArith List Lia Bool.
From Verif Require Import Bytes Res Wire WireProofs Crypto Cbc Messages Session Builder Conversation RecordCodec Content ContentProofs
  Encodings PropEncodings Sending SendingProofs Examples PropHistory PropSending Receiving PropReceiving PropMarks.
Import ListNotations.
Open Scope Z_scope.

(* every request among the events carries the number t *)
Definition numbered (t : Z) (l : list event) : Prop := forall q r, In (EvPut q r) l -> q_ts q = t.
(* a request for somebody was accepted, whose every part is the encryption of the given text for one device *)
Definition accepted (C : crypto) (dest padded : bytes) (l : list event) : Prop :=
  exists q status m e x ns, In (EvPut q (PutStatus status m e x ns)) l /\ q_dest q = dest /\ 200 <= status < 300 /\
    exists recid, recID dest = Ok recid /\ Forall (carries C recid padded) (q_msgs q).

Lemma numbered_app t l1 l2 : numbered t l1 -> numbered t l2 -> numbered t (l1 ++ l2).
Proof. intros H1 H2 q r Hin. apply in_app_or in Hin. destruct Hin as [Hin|Hin]; [exact (H1 q r Hin)|exact (H2 q r Hin)]. Qed.
Lemma numbered_fetch t uuid f : Forall (fetch_of uuid) f -> numbered t f.
Proof. intros H q r Hin. rewrite Forall_forall in H. destruct (H _ Hin). Qed.

Section N.
Variables (C : crypto) (V : server) (rnd : nat -> bytes).
Lemma post_numbered uuid padded ts : forall fuel st out st', buildAndSend C V rnd fuel uuid padded ts st = (out, st') ->
  exists l, cs_log V st' = cs_log V st ++ l /\ numbered ts l /\
    forall ns t, out = Some (Ok (ns, t)) -> t = ts /\ accepted C uuid padded l.
Proof.
  induction fuel as [|fuel IH]; intros st out st'; cbn [buildAndSend].
  { intros [= <- <-]. exists []. rewrite app_nil_r. split; [reflexivity|]. split; [intros ? ? []|discriminate]. }
  destruct (buildMessage C V rnd uuid padded (devs_of V st uuid) st) as [rb st1] eqn:B.
  assert (L1 : (exists f, cs_log V st1 = cs_log V st ++ f /\ numbered ts f) /\
    forall js, rb = Ok js -> exists recid, recID uuid = Ok recid /\ Forall (carries C recid padded) js).
  { unfold buildMessage in B. destruct (recID uuid) as [recid|e|].
    - apply build_log in B. destruct B as (_ & (f & Lf & Ff) & J).
      split; [exists f; split; [exact Lf|exact (numbered_fetch ts uuid f Ff)]|].
      intros js E. exists recid. split; [reflexivity|apply (J js E)].
    - injection B as <- <-. split; [|discriminate]. exists []. rewrite app_nil_r. split; [reflexivity|intros ? ? []].
    - injection B as <- <-. split; [|discriminate]. exists []. rewrite app_nil_r. split; [reflexivity|intros ? ? []]. }
  destruct L1 as ((f & L1 & N1) & J).
  destruct rb as [js|e|].
  2:{ intros [= <- <-]. exists f. split; [exact L1|]. split; [exact N1|discriminate]. }
  2:{ intros [= <- <-]. exists f. split; [exact L1|]. split; [exact N1|discriminate]. }
  set (q := mkReq uuid ts js). destruct (sv_put V (cs_srv V st1) q) as [reply s'].
  set (st2 := mkCs V (cs_w V st1) (cs_devs V st1) (cs_rnd V st1) s' (cs_log V st1 ++ [EvPut q reply])).
  assert (N2 : numbered ts (f ++ [EvPut q reply])).
  { apply numbered_app; [exact N1|]. intros q' r' [E|[]]. injection E as <- <-. reflexivity. }
  assert (L2 : cs_log V st2 = cs_log V st ++ (f ++ [EvPut q reply])) by (unfold st2; cbn [cs_log]; rewrite L1, <- app_assoc; reflexivity).
  assert (REC : forall st3, cs_log V st3 = cs_log V st2 -> buildAndSend C V rnd fuel uuid padded ts st3 = (out, st') ->
    exists l, cs_log V st' = cs_log V st ++ l /\ numbered ts l /\ forall ns t, out = Some (Ok (ns, t)) -> t = ts /\ accepted C uuid padded l).
  { intros st3 L3 E. destruct (IH _ _ _ E) as (l & Ll & Nl & A). exists ((f ++ [EvPut q reply]) ++ l). split.
    { rewrite Ll, L3, L2, <- app_assoc. reflexivity. }
    split; [apply numbered_app; assumption|]. intros ns t Eo. destruct (A ns t Eo) as (Et & q0 & s0 & m0 & e0 & x0 & n0 & Hin & R).
    split; [exact Et|]. exists q0, s0, m0, e0, x0, n0. split; [apply in_or_app; right; exact Hin|exact R]. }
  destruct reply as [|status missing extra stale ns].
  { intros [= <- <-]. exists (f ++ [EvPut q PutNet]). split; [exact L2|]. split; [exact N2|discriminate]. }
  destruct (status =? 409).
  { intros E. (eapply REC; [|exact E]; reflexivity). }
  destruct (status =? 410).
  { destruct stale as [|d stale].
    - destruct (recID uuid) as [recid|e|]; intros E; (eapply REC; [|exact E]; reflexivity).
    - destruct (recID uuid) as [recid|e|].
      + intros E; (eapply REC; [|exact E]; reflexivity).
      + intros [= <- <-]. eexists. split; [exact L2|]. split; [exact N2|discriminate].
      + intros E; (eapply REC; [|exact E]; reflexivity). }
  destruct (isError status) eqn:IE.
  - intros [= <- <-]. eexists. split; [exact L2|]. split; [exact N2|discriminate].
  - intros [= <- <-]. eexists. split; [exact L2|]. split; [exact N2|]. intros ns' t [= <- <-]. split; [reflexivity|].
    exists q, status, missing, extra, stale, ns. split; [apply in_or_app; right; left; reflexivity|]. split; [reflexivity|].
    split; [unfold isError in IE; apply orb_false_iff in IE; lia|]. exact (J js eq_refl).
Qed.
End N.

(* the number a message should go by: the one the caller gave, or else the time of the call *)
Definition number_of (now : Z) (o : outgoing) : Z := match o_time o with Some t => t | None => now end.

(* A number that is returned is that of the message; every request of this call — repeated ones and those for the own
   devices too — carried it, and one for the recipient was accepted that holds nothing but encryptions of the message. *)
Theorem C219_returned : forall C V rnd fuel self pk now o st t st',
  sendMessage C V rnd fuel self pk now o st = (Some (Ok t), st') ->
  t = number_of now o /\
  exists l, cs_log V st' = cs_log V st ++ l /\ numbered t l /\
    accepted C (o_dest o) (padMessage (marshal_data (createMessage pk now o))) l.
Proof.
  intros C V rnd fuel self pk now o st t st'. unfold sendMessage. fold (number_of now o).
  destruct (buildAndSend C V rnd fuel (o_dest o) (padMessage (marshal_data (createMessage pk now o))) (number_of now o)
    (default_devs V st (o_dest o))) as [out st1] eqn:B.
  apply post_numbered in B. destruct B as (l & L & N & A).
  assert (DL : forall s u, cs_log V (default_devs V s u) = cs_log V s)
    by (intros s u; unfold default_devs; destruct (cs_devs V s u); reflexivity).
  rewrite DL in L.
  destruct out as [[[ns t0]|e|]|]; try discriminate. destruct (A ns t0 eq_refl) as (-> & Acc).
  destruct ns.
  2:{ intros [= <- <-]. split; [reflexivity|]. exists l. split; [exact L|]. split; [exact N|exact Acc]. }
  unfold sendSyncMessage.
  match goal with |- context [buildAndSend C V rnd fuel self ?p ?n ?s] => destruct (buildAndSend C V rnd fuel self p n s) as [o2 st2] eqn:B2 end.
  apply post_numbered in B2. destruct B2 as (l2 & L2 & N2 & _). rewrite DL in L2.
  assert (G : t = number_of now o /\ st2 = st' -> t = number_of now o /\
    exists l0, cs_log V st' = cs_log V st ++ l0 /\ numbered t l0 /\
      accepted C (o_dest o) (padMessage (marshal_data (createMessage pk now o))) l0).
  { intros (-> & <-). split; [reflexivity|]. exists (l ++ l2). split; [rewrite L2, L, <- app_assoc; reflexivity|].
    split; [apply numbered_app; assumption|]. destruct Acc as (q & s0 & m & e & x & n & Hin & R).
    exists q, s0, m, e, x, n. split; [apply in_or_app; left; exact Hin|exact R]. }
  destruct o2 as [[[ns2 t2]|e2|]|]; try discriminate; intros [= <- <-]; apply G; split; reflexivity.
Qed.
Print Assumptions C219_returned.

(* What the application of the recipient is told of that content names the message by the same number. *)
Theorem C219_received : forall C ou src uuid ets pk now o m, out_ok pk now o -> fits (createMessage pk now o) ->
  In (ACall (HMessage m)) (snd (handleMessage C ou src uuid ets (stripPadding (padMessage (marshal_data (createMessage pk now o)))))) ->
  m_ts m = number_of now o.
Proof.
  intros C ou src uuid ets pk now o m OK F. unfold handleMessage.
  destruct (C35_content pk now o OK F) as (d & -> & RA). cbn [c_data]. destruct RA as (_ & T & _). unfold handleDataMessage, andthen, pure.
  destruct (handleFlags ou uuid d) as [rf lf] eqn:HF.
  assert (NF : ~ In (ACall (HMessage m)) lf).
  { clear -HF. unfold handleFlags in HF. revert HF.
    repeat (match goal with |- context [if ?x then _ else _] => destruct x | |- context [match ?x with _ => _ end] => destruct x end);
      intros [= <- <-]; cbn [In]; intuition discriminate. }
  destruct rf as [fl| |]; [|intros Hin; contradiction..].
  destruct (handleAttachments C ou (d_atts d)) as [at_| |]; cbn [fst snd]; rewrite ?app_nil_l, ?app_nil_r; [|intros Hin; contradiction..].
  rewrite T. destruct (match d_gv2 d with Some g => ou_group ou g | None => Ok None end) as [gr| |]; cbn [fst snd app];
    rewrite ?app_nil_r; [|intros Hin; contradiction..].
  intros Hin. apply in_app_or in Hin. destruct Hin as [Hin|[E|[]]]; [contradiction|]. injection E as <-. reflexivity.
Qed.
Print Assumptions C219_received.

(* The copy for the own devices, as sendMessage makes it: it names the message by the same number, in both places. *)
Definition copy_for (pk : option bytes) (now : Z) (o : outgoing) (e164 uuid : option bytes) : syncmsg :=
  sync_of (mkSent e164 uuid (Some (number_of now o)) (Some (createMessage pk now o))).
Theorem C219_copy : forall C ou src me ets pk now o e164 uuid m sts, out_ok pk now o ->
  zlen (marshal_sync (copy_for pk now o e164 uuid)) < 2 ^ 63 ->
  In (ACall (HSyncSent m sts)) (snd (handleMessage C ou src me ets (stripPadding (padMessage (marshal_sync (copy_for pk now o e164 uuid)))))) ->
  m_ts m = number_of now o.
Proof.
  intros C ou src me ets pk now o e164 uuid m sts OK F. unfold handleMessage. rewrite strip_pad.
  unfold copy_for. rewrite unmarshal_marshal_sync; [|split; [exact (oo_time _ _ _ OK)|apply create_ok; exact OK]|exact F].
  cbn [c_data c_sync]. unfold handleSyncMessage. cbn [sync_of sy_sent]. unfold handleSyncSent. cbn [sn_msg]. cbv zeta.
  set (d := createMessage pk now o). assert (T : d_ts d = Some (number_of now o)) by reflexivity. clearbody d. unfold andthen, pure.
  match goal with |- context [handleFlags ou ?u d] => destruct (handleFlags ou u d) as [rf lf] eqn:HF end.
  assert (NF : ~ In (ACall (HSyncSent m sts)) lf).
  { clear -HF. unfold handleFlags in HF. revert HF.
    repeat (match goal with |- context [if ?x then _ else _] => destruct x | |- context [match ?x with _ => _ end] => destruct x end);
      intros [= <- <-]; cbn [In]; intuition discriminate. }
  destruct rf as [fl| |]; [|intros Hin; contradiction..].
  destruct (handleAttachments C ou (d_atts d)) as [at_| |]; cbn [fst snd]; rewrite ?app_nil_l, ?app_nil_r; [|intros Hin; contradiction..].
  rewrite T. cbn [fst snd app]. intros Hin. apply in_app_or in Hin. destruct Hin as [Hin|[E|[]]]; [contradiction|]. injection E as <- _. reflexivity.
Qed.
Print Assumptions C219_copy.
Theorem C219_copy_posted : forall C V rnd fuel self pk now o st t st1,
  buildAndSend C V rnd fuel (o_dest o) (padMessage (marshal_data (createMessage pk now o))) (number_of now o) (default_devs V st (o_dest o))
  = (Some (Ok (true, t)), st1) ->
  exists e164 uuid, snd (sendMessage C V rnd fuel self pk now o st) =
    snd (buildAndSend C V rnd fuel self (padMessage (marshal_sync (copy_for pk now o e164 uuid))) (number_of now o) (default_devs V st1 self)).
Proof.
  intros C V rnd fuel self pk now o st t st1 B. unfold sendMessage. fold (number_of now o). rewrite B. unfold sendSyncMessage, copy_for, sync_of.
  exists (match o_dest o with c :: _ => if c =? 43 then Some (o_dest o) else None | [] => None end),
    (match o_dest o with c :: _ => if c =? 43 then None else Some (o_dest o) | [] => None end).
  match goal with |- context [buildAndSend C V rnd fuel self ?p (number_of now o) ?s] =>
    destruct (buildAndSend C V rnd fuel self p (number_of now o) s) as [[[[b t0]|er|]|] st2] end; reflexivity.
Qed.
Print Assumptions C219_copy_posted.

(* A receipt for what was received comes back with the number that was returned to the sender. *)
Theorem C219_receipt : forall C V rnd fuel self pk now o st t st' ou src uuid ets m C' ou' src' uuid' ets' kind,
  sendMessage C V rnd fuel self pk now o st = (Some (Ok t), st') -> out_ok pk now o -> fits (createMessage pk now o) ->
  In (ACall (HMessage m)) (snd (handleMessage C' ou' src' uuid' ets' (stripPadding (padMessage (marshal_data (createMessage pk now o)))))) ->
  0 <= kind <= 2 -> zlen (receipt kind [m_ts m]) < 2 ^ 63 ->
  exists n, handleMessage C ou src uuid ets (receipt kind [m_ts m]) = (Ok tt, [ACall (HReceiptMessage n)]) /\ m_ts n = t.
Proof.
  intros C V rnd fuel self pk now o st t st' ou src uuid ets m C' ou' src' uuid' ets' kind S OK F Hin K Z.
  apply C219_returned in S. destruct S as (-> & _). pose proof (C219_received _ _ _ _ _ _ _ _ _ OK F Hin) as E. rewrite E in *.
  eexists. split; [apply (C196_receipt C ou src uuid ets kind (number_of now o) []); [exact K| |exact Z]|reflexivity].
  constructor; [exact (oo_time _ _ _ OK)|constructor].
Qed.
Print Assumptions C219_receipt.

(* Messages sent at different times are told apart by their numbers … *)
Theorem C219_apart_partial : forall C V rnd fuel self pk now now' o o' st st1 st2 st3 t t',
  sendMessage C V rnd fuel self pk now o st = (Some (Ok t), st1) ->
  sendMessage C V rnd fuel self pk now' o' st2 = (Some (Ok t'), st3) ->
  o_time o = None -> o_time o' = None -> (t = t' <-> now = now').
Proof.
  intros C V rnd fuel self pk now now' o o' st st1 st2 st3 t t' S1 S2 N1 N2.
  apply C219_returned in S1. apply C219_returned in S2. destruct S1 as (-> & _). destruct S2 as (-> & _). unfold number_of.
  rewrite N1, N2. reflexivity.
Qed.
Print Assumptions C219_apart_partial.

(* … but nothing keeps two messages of the same millisecond apart: they get one number. *)
Definition ex_always := ex_server ex_pub_of (fun _ => ok200).
Lemma one_number C V rnd fuel self pk now dest text1 text2 st t :
  crypto_ok C -> text1 <> text2 ->
  fst (SendMessage C V rnd fuel self pk now dest text1 0 st) = Some (Ok t) ->
  fst (SendMessage C V rnd fuel self pk now dest text2 0 (snd (SendMessage C V rnd fuel self pk now dest text1 0 st))) = Some (Ok t) ->
  exists st1 st2, crypto_ok C /\ text1 <> text2 /\
    SendMessage C V rnd fuel self pk now dest text1 0 st = (Some (Ok t), st1) /\
    SendMessage C V rnd fuel self pk now dest text2 0 st1 = (Some (Ok t), st2).
Proof.
  intros K D E1 E2. destruct (SendMessage C V rnd fuel self pk now dest text1 0 st) as [o1 st1]. cbn [fst snd] in *. subst o1.
  destruct (SendMessage C V rnd fuel self pk now dest text2 0 st1) as [o2 st2] eqn:E. cbn [fst] in E2. subst o2.
  exists st1, st2. split; [exact K|]. split; [exact D|]. split; [reflexivity|exact E].
Qed.
Theorem C219_apart_refuted : exists C V rnd fuel self pk now dest text1 text2 st t st1 st2,
  crypto_ok C /\ text1 <> text2 /\
  SendMessage C V rnd fuel self pk now dest text1 0 st = (Some (Ok t), st1) /\
  SendMessage C V rnd fuel self pk now dest text2 0 st1 = (Some (Ok t), st2).
Proof.
  exists toy, ex_always, ex_rnd, 2%nat, na, None, 1600000000000, nb, [104; 105], [121; 111], (ex_cs ex_always O), 1600000000000.
  apply one_number; [exact toy_ok|discriminate|vm_compute; reflexivity|vm_compute; reflexivity].
Qed.
Print Assumptions C219_apart_refuted.

(* a call whose first request is refused and which posts a copy for the own devices: three requests, one number *)
Example C219_example :
  let V := ex_server ex_pub_of (fun n => match n with O => PutStatus 409 [2] [] [] false | S O => PutStatus 200 [] [] [] true | _ => ok200 end) in
  let (out, st) := SendMessage toy V ex_rnd 3 na None 1600000000000 nb [104; 105] 0 (ex_cs V O) in
  out = Some (Ok 1600000000000) /\
  flat_map (fun e => match e with EvPut q _ => [(beq (q_dest q) nb, q_ts q)] | _ => [] end) (cs_log V st)
  = [(true, 1600000000000); (true, 1600000000000); (false, 1600000000000)].
Proof. vm_compute. split; reflexivity. Qed.
Example C219_receipt_example :
  map (fun a => match a with ACall (HReceiptMessage n) => m_ts n | _ => 0 end)
    (snd (handleMessage toy (ex_outside no_fetch) nb nb 7 (receipt 1 [1600000000000]))) = [1600000000000].
Proof. vm_compute. reflexivity. Qed.
