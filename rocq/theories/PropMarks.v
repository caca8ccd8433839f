(* C196: what other clients send besides texts: read marks, receipts, typing notices, from the bytes to the application *)
From Coq Require Import String Ascii ZArith List Lia Bool.
From Verif Require Import Bytes Res Wire WireProofs Messages Session RecordCodec RecordCodecProofs Content ContentProofs Receiving PropProtocol.
Import ListNotations.
Open Scope Z_scope.
Local Notation text := PropProtocol.text.

(* ---------- the messages as /repo/protobuf/SignalService.proto has them ---------- *)
(* SyncMessage.Read (479-483): timestamp 2, senderUuid 3; field 5 of SyncMessage, field 2 of Content *)
Definition read_slots (m : bytes * Z) : slots := [(2, [WVarint (snd m)]); (3, [WLen (fst m)])].
Definition read_marks (l : list (bytes * Z)) : bytes := marshal [(2, f_msg [(5, flat_map (fun m => f_msg (read_slots m)) l)])].
(* ReceiptMessage (344-353): type 1, timestamp 2 (repeated); field 5 of Content *)
Definition receipt (kind : Z) (ts : list Z) : bytes := marshal [(5, f_msg [(1, [WVarint kind]); (2, map WVarint ts)])].
(* TypingMessage (355-364): timestamp 1, action 2 (started 0, stopped 1); field 6 of Content *)
Definition typing (t action : Z) : bytes := marshal [(6, f_msg [(1, [WVarint t]); (2, [WVarint action])])].
(* the notice the application gets *)
Definition notice (src uuid words : bytes) (t : Z) : message := mkMsg src uuid words [] None 0 0 None t None [] None None.

Lemma content_one n i P : 0 < n <= max_field -> slots_ok [(n, f_msg i)] -> zlen (marshal [(n, f_msg i)]) < 2 ^ 63 ->
  (parse (marshal [(n, f_msg i)]) = Some (flat [(n, f_msg i)]) -> small i -> P) -> P.
Proof.
  intros Hn HO HS K. apply K; [apply parse_marshal; [exact HO|exact HS]|].
  apply (small_sub [(n, f_msg i)] n (f_msg i) i HS); left; reflexivity.
Qed.
Lemma slots_one n i : 0 < n <= max_field -> slots_ok [(n, f_msg i)].
Proof. intros H. unfold slots_ok. constructor; [split; [cbn [fst]; lia|apply val_f_msg]|constructor]. Qed.

(* C196. Every read mark of another own device reaches the application, in order, with the sender and the time stamp of
   the message that was read. *)
Theorem C196_read_marks : forall C ou src uuid t l, l <> [] -> Forall (fun m => 0 <= snd m < 2 ^ 64) l ->
  zlen (read_marks l) < 2 ^ 63 ->
  handleMessage C ou src uuid t (read_marks l) = (Ok tt, map (fun m => ACall (HSyncRead (fst m) (snd m))) l).
Proof.
  intros C ou src uuid t l NE HU HS. unfold handleMessage, unmarshal_content, read_marks in *.
  set (i := [(5, flat_map (fun m => f_msg (read_slots m)) l)]) in *.
  apply (content_one 2 i); [unfold max_field; lia|apply slots_one; unfold max_field; lia|exact HS|]. intros -> Si.
  assert (D : distinct (map fst [(2, f_msg i)]) = true) by reflexivity.
  assert (Di : distinct (map fst i) = true) by reflexivity.
  unfold content_dec. set (rs := map (fun m => mkRead (Some (fst m)) (Some (snd m))) l).
  rewrite (g_msg_some _ D 2 sync_dec i (mkSync None false false None rs false None)).
  - unfold present. rewrite (g_msg_none _ D 1), (g_msg_none _ D 3), (g_msg_none _ D 5), (g_msg_none _ D 4), (g_msg_none _ D 6) by reflexivity.
    cbn [c_data c_sync handleSyncMessage sy_sent sy_contacts sy_groups sy_request sy_read]. unfold handleSyncMessage.
    cbn [sy_sent sy_contacts sy_groups sy_request sy_read]. unfold rs. destruct l as [|m l]; [now elim NE|]. cbn [map]. unfold handleSyncRead. cbn [map].
    rewrite map_map. reflexivity.
  - reflexivity.
  - apply parse_marshal; [|exact Si]. unfold i. slots_tac. apply val_rep.
  - unfold sync_dec, present. rewrite (g_msg_none _ Di 1), (g_msg_none _ Di 2), (g_msg_none _ Di 3), (g_msg_none _ Di 4), (g_msg_none _ Di 6), (g_msg_none _ Di 7) by reflexivity.
    rewrite (g_rep_flat _ Di 5 read_dec (fun r => [(2, o_varint (rd_ts r)); (3, o_len (rd_uuid r))]) rs); [reflexivity| |].
    + transitivity (flat_map (fun m => f_msg (read_slots m)) l); [reflexivity|]. unfold rs. clear. induction l as [|m l IH]; [reflexivity|]. cbn [map flat_map]. rewrite IH. reflexivity.
    + unfold rs. apply Forall_forall. intros x Hx. apply in_map_iff in Hx. destruct Hx as (m & <- & Hm). cbn [rd_ts rd_uuid o_varint o_len].
      rewrite Forall_forall in HU. specialize (HU m Hm). split; [|reflexivity].
      apply parse_marshal; [unfold slots_ok; repeat constructor; cbn [fst snd]; unfold max_field, val_ok; lia|].
      apply (small_sub i 5 (flat_map (fun m => f_msg (read_slots m)) l)); [exact Si|now left|]. apply in_flat_map. exists m. split; [exact Hm|now left].
Qed.
Print Assumptions C196_read_marks.

(* Receipts: the application is told once, of the first time stamp; whatever further messages the receipt is for is
   lost. A receipt that the message was viewed is announced with the words for one that it was sent. *)
Lemma rep_varints n ts : g_rep_u64 n (map (pair n) (map WVarint ts)) = Some ts.
Proof. induction ts as [|t ts IH]; [reflexivity|]. cbn [map g_rep_u64]. rewrite IH, Z.eqb_refl. reflexivity. Qed.
Lemma enum_varints n known ts m : m <> n -> get_enum n known (map (pair m) (map WVarint ts)) = None.
Proof. intros N. induction ts as [|t ts IH]; [reflexivity|]. cbn [map get_enum]. rewrite IH. destruct (Z.eqb_spec m n); [contradiction|reflexivity]. Qed.
Definition receipt_words (kind : Z) : bytes :=
  text (if kind =? 0 then "deliveryReceiptMessage" else if kind =? 1 then "readReceiptMessage" else "sentReceiptMessage").
Theorem C196_receipt : forall C ou src uuid t kind t0 more, 0 <= kind <= 2 -> Forall (fun x => 0 <= x < 2 ^ 64) (t0 :: more) ->
  zlen (receipt kind (t0 :: more)) < 2 ^ 63 ->
  handleMessage C ou src uuid t (receipt kind (t0 :: more)) = (Ok tt, [ACall (HReceiptMessage (notice src uuid (receipt_words kind) t0))]).
Proof.
  intros C ou src uuid t kind t0 more HK HU HS. unfold handleMessage, unmarshal_content, receipt in *.
  set (i := [(1, [WVarint kind]); (2, map WVarint (t0 :: more))]) in *.
  apply (content_one 5 i); [unfold max_field; lia|apply slots_one; unfold max_field; lia|exact HS|]. intros -> Si.
  assert (D : distinct (map fst [(5, f_msg i)]) = true) by reflexivity.
  unfold content_dec. rewrite (g_msg_some _ D 5 receipt_dec i (mkReceipt (Some kind) (t0 :: more))).
  - unfold present. rewrite (g_msg_none _ D 1), (g_msg_none _ D 2), (g_msg_none _ D 3), (g_msg_none _ D 4), (g_msg_none _ D 6) by reflexivity.
    cbn [c_data c_sync c_call c_receipt]. unfold handleReceiptMessage. cbn [rc_ts rc_type]. unfold notice, plain_msg, receipt_words.
    assert (X : kind = 0 \/ kind = 1 \/ kind = 2) by lia. destruct X as [-> | [-> | ->]]; reflexivity.
  - reflexivity.
  - apply parse_marshal; [|exact Si]. unfold i. unfold slots_ok. constructor; [|constructor; [|constructor]]; cbn [fst snd]; unfold max_field.
    + split; [lia|]. constructor; [cbn; lia|constructor].
    + split; [lia|]. clear - HU. induction HU as [|x l H HU IH]; [constructor|]. cbn [map]. constructor; [cbn; lia|exact IH].
  - unfold receipt_dec, i. unfold flat. cbn [flat_map fst snd]. rewrite app_nil_r. cbn [map app].
    change ((2, WVarint t0) :: map (pair 2) (map WVarint more)) with (map (pair 2) (map WVarint (t0 :: more))).
    cbn [g_rep_u64]. rewrite rep_varints. change (1 =? 2) with false. cbv iota. cbn [get_enum]. rewrite enum_varints by lia.
    assert (X : kind = 0 \/ kind = 1 \/ kind = 2) by lia. destruct X as [-> | [-> | ->]]; reflexivity.
Qed.
Print Assumptions C196_receipt.

(* Typing: the application cannot tell whether the other side started or stopped, nor when. *)
Theorem C196_typing : forall C ou src uuid t ts action, 0 <= ts < 2 ^ 64 -> 0 <= action <= 1 -> zlen (typing ts action) < 2 ^ 63 ->
  handleMessage C ou src uuid t (typing ts action) = (Ok tt, [ACall (HTyping (notice src uuid (text "typingMessage") t))]).
Proof.
  intros C ou src uuid t ts action HT HA HS. unfold handleMessage, unmarshal_content, typing in *.
  set (i := [(1, [WVarint ts]); (2, [WVarint action])]) in *.
  apply (content_one 6 i); [unfold max_field; lia|apply slots_one; unfold max_field; lia|exact HS|]. intros -> Si.
  assert (D : distinct (map fst [(6, f_msg i)]) = true) by reflexivity.
  unfold content_dec, present. erewrite (g_msg_some _ D 6 (@Some _) i).
  - rewrite (g_msg_none _ D 1), (g_msg_none _ D 2), (g_msg_none _ D 3), (g_msg_none _ D 4), (g_msg_none _ D 5) by reflexivity.
    cbn [c_data c_sync c_call c_receipt c_typing]. reflexivity.
  - reflexivity.
  - apply parse_marshal; [|exact Si]. unfold i. unfold slots_ok. constructor; [|constructor; [|constructor]]; cbn [fst snd]; unfold max_field; (split; [lia|]; constructor; [cbn; lia|constructor]).
  - reflexivity.
Qed.
Print Assumptions C196_typing.

(* "A receipt reports every message it is for" and "the application can tell starting to type from stopping" are false. *)
Theorem C196_all_told_refuted :
  (exists src uuid t kind ts x, In x ts /\ Forall (fun y => 0 <= y < 2 ^ 64) ts /\ forall C ou m,
     In (ACall (HReceiptMessage m)) (snd (handleMessage C ou src uuid t (receipt kind ts))) -> m_ts m <> x) /\
  (exists src uuid t, forall C ou, handleMessage C ou src uuid t (typing 5 0) = handleMessage C ou src uuid t (typing 9 1)) /\
  (exists src uuid t, forall C ou, handleMessage C ou src uuid t (receipt 2 [5]) =
     (Ok tt, [ACall (HReceiptMessage (notice src uuid (text "sentReceiptMessage") 5))])).
Proof.
  split; [|split].
  - exists [1], [2], 3, 1, [5; 9], 9. split; [right; left; reflexivity|]. split; [repeat constructor; lia|]. intros C ou m.
    rewrite C196_receipt; [|lia|repeat constructor; lia|vm_compute; reflexivity]. cbn [snd In]. intros [H|[]]. injection H as <-. cbn [notice m_ts]. lia.
  - exists [1], [2], 3. intros C ou. rewrite (C196_typing C ou [1] [2] 3 5 0), (C196_typing C ou [1] [2] 3 9 1); try lia; try (vm_compute; reflexivity).
  - exists [1], [2], 3. intros C ou. rewrite C196_receipt; [reflexivity|lia|repeat constructor; lia|vm_compute; reflexivity].
Qed.
Print Assumptions C196_all_told_refuted.

(* three read marks, a receipt for three messages, and a typing notice *)
Example C196_example :
  (forall C ou, handleMessage C ou [43; 49] [] 900 (read_marks [([97], 300); ([98; 98], 2 ^ 40); ([97], 0)]) =
     (Ok tt, [ACall (HSyncRead [97] 300); ACall (HSyncRead [98; 98] (2 ^ 40)); ACall (HSyncRead [97] 0)])) /\
  (forall C ou, handleMessage C ou [43; 49] [] 900 (receipt 1 [300; 301; 302]) =
     (Ok tt, [ACall (HReceiptMessage (notice [43; 49] [] (text "readReceiptMessage") 300))])) /\
  (forall C ou, handleMessage C ou [43; 49] [] 900 (typing 899 1) = (Ok tt, [ACall (HTyping (notice [43; 49] [] (text "typingMessage") 900))])).
Proof.
  split; [|split]; intros C ou.
  - rewrite C196_read_marks; [reflexivity|discriminate|repeat constructor; cbn; lia|vm_compute; reflexivity].
  - rewrite C196_receipt; [reflexivity|lia|repeat constructor; lia|vm_compute; reflexivity].
  - rewrite C196_typing; [reflexivity|lia|lia|vm_compute; reflexivity].
Qed.
