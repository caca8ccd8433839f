(* C222: what was decided on another own device (/repo/sync.go 18-84). All that handling a content does — to the store, to
   the contacts, to the application — is in the list of acts, so that an empty list means that nothing was done. *)
From Coq Require Import ZArith List Lia Bool.
From Verif Require Import Bytes Res Wire WireProofs Crypto Cbc Messages Session Builder Conversation RecordCodec RecordCodecProofs Content
  ContentProofs Encodings PropEncodings Sending Examples PropSending Receiving PropReceiving PropUnread.
Import ListNotations.
Open Scope Z_scope.

(* the list of those who are blocked: SyncMessage.Blocked, /repo/protobuf/SignalService.proto 459-463, 585 *)
Definition block_slots (numbers uuids groups : list bytes) : slots :=
  [(1, map WLen numbers); (2, map WLen groups); (3, map WLen uuids)].
Definition block_list (numbers uuids groups : list bytes) : bytes :=
  marshal [(2, f_msg [(6, f_msg (block_slots numbers uuids groups))])].
(* any other decision: 8 to 18 in the same message *)
Definition decision (more : slots) : bytes := marshal [(2, f_msg more)].

Lemma wlen_ok l : Forall val_ok (map WLen l).
Proof. induction l; constructor; [exact Logic.I|assumption]. Qed.
Theorem C222_block_list : forall C ou src me ts numbers uuids groups, zlen (block_list numbers uuids groups) < 2 ^ 63 ->
  handleMessage C ou src me ts (block_list numbers uuids groups) = (Ok tt, []).
Proof.
  intros C ou src me ts numbers uuids groups F. unfold handleMessage, unmarshal_content, block_list in *.
  set (b := block_slots numbers uuids groups) in *. set (i := [(6, f_msg b)]) in *.
  assert (Sm : small [(2, f_msg i)]) by exact F.
  assert (D : distinct (map fst [(2, f_msg i)]) = true) by reflexivity.
  assert (Si : small i) by (apply (small_sub _ 2 (f_msg i) i Sm); left; reflexivity).
  assert (Di : distinct (map fst i) = true) by reflexivity.
  assert (Sb : small b) by (apply (small_sub i 6 (f_msg b) b Si); left; reflexivity).
  rewrite parse_marshal; [|slots_tac; apply val_f_msg|exact Sm].
  unfold content_dec. rewrite (g_msg_some _ D 2 sync_dec i (mkSync None false false None [] true None)).
  - unfold present. rewrite (g_msg_none _ D 1), (g_msg_none _ D 3), (g_msg_none _ D 5), (g_msg_none _ D 4), (g_msg_none _ D 6) by reflexivity.
    reflexivity.
  - reflexivity.
  - apply parse_marshal; [unfold i; slots_tac; apply val_f_msg|exact Si].
  - unfold sync_dec, present.
    rewrite (g_msg_none _ Di 1), (g_msg_none _ Di 2), (g_msg_none _ Di 3), (g_msg_none _ Di 4), (g_msg_none _ Di 7) by reflexivity.
    rewrite (g_rep_flat _ Di 5 read_dec (fun _ => []) []) by (reflexivity || constructor).
    rewrite (g_msg_some _ Di 6 (@Some _) b (flat b)); [reflexivity|reflexivity| |reflexivity].
    apply parse_marshal; [unfold b, block_slots; slots_tac; apply wlen_ok|exact Sb].
Qed.
Print Assumptions C222_block_list.

(* Nor does anything else have an effect: settings, viewed messages, answers to message requests, keys, … *)
Theorem C222_other_decisions : forall C ou src me ts more, slots_ok more -> NoDup (map fst more) ->
  Forall (fun x => 8 <= fst x) more -> zlen (decision more) < 2 ^ 63 ->
  handleMessage C ou src me ts (decision more) = (Ok tt, []).
Proof.
  intros C ou src me ts i K N G F. unfold handleMessage, unmarshal_content, decision in *.
  assert (Sm : small [(2, f_msg i)]) by exact F.
  assert (D : distinct (map fst [(2, f_msg i)]) = true) by reflexivity.
  assert (Si : small i) by (apply (small_sub _ 2 (f_msg i) i Sm); left; reflexivity).
  assert (Di : distinct (map fst i) = true) by (apply distinct_nodup; exact N).
  assert (L : forall n, n < 8 -> lookup n i = []).
  { intros n Hn. clear -G Hn. induction G as [|[m v] i H G IH]; [reflexivity|]. cbn [lookup fst] in *. destruct (Z.eqb_spec m n); [lia|exact IH]. }
  rewrite parse_marshal; [|slots_tac; apply val_f_msg|exact Sm].
  unfold content_dec. rewrite (g_msg_some _ D 2 sync_dec i (mkSync None false false None [] false None)).
  - unfold present. rewrite (g_msg_none _ D 1), (g_msg_none _ D 3), (g_msg_none _ D 5), (g_msg_none _ D 4), (g_msg_none _ D 6) by reflexivity.
    reflexivity.
  - reflexivity.
  - apply parse_marshal; [exact K|exact Si].
  - unfold sync_dec, present.
    rewrite (g_msg_none _ Di 1), (g_msg_none _ Di 2), (g_msg_none _ Di 3), (g_msg_none _ Di 4), (g_msg_none _ Di 6), (g_msg_none _ Di 7) by (apply L; lia).
    rewrite (g_rep_flat _ Di 5 read_dec (fun _ => []) []); [reflexivity|apply L; lia|constructor].
Qed.
Print Assumptions C222_other_decisions.

(* Somebody who is blocked goes on being heard. *)
Definition plain_text (text : bytes) (t : Z) : datamsg := mkData (Some text) [] None None None (Some t) None None [] None None.
Theorem C222_blocked_refuted : forall C ou me ts ts' uuid text t numbers uuids groups, In uuid uuids -> u64 t ->
  zlen (block_list numbers uuids groups) < 2 ^ 63 -> zlen (posted (plain_text text t) []) < 2 ^ 63 ->
  handleMessage C ou me me ts (block_list numbers uuids groups) = (Ok tt, []) /\
  exists m, handleMessage C ou uuid uuid ts' (posted (plain_text text t) []) = (Ok tt, [ACall (HMessage m)]) /\
    m_uuid m = uuid /\ m_text m = text.
Proof.
  intros C ou me ts ts' uuid text t numbers uuids groups _ U F1 F2. split; [apply C222_block_list; exact F1|].
  rewrite C221_read; [|constructor; cbn [plain_text d_atts d_flags d_expire d_ts d_gv2 d_quote d_contact d_sticker d_reaction opt]; auto
    |split; [constructor|split; constructor]|exact F2].
  eexists. split; [unfold handleDataMessage, handleFlags, andthen, pure; cbn [plain_text d_flags g_num Z.eqb Pos.eqb d_atts handleAttachments d_ts d_gv2 app]; reflexivity|].
  split; reflexivity.
Qed.
Print Assumptions C222_blocked_refuted.

Example C222_example :
  zlen (block_list [[43; 49]] [nb] []) < 2 ^ 63 /\
  handleMessage toy (ex_outside no_fetch) na na 7 (block_list [[43; 49]] [nb] []) = (Ok tt, []) /\
  length (snd (handleMessage toy (ex_outside no_fetch) nb nb 8 (posted (plain_text [104; 105] 5) []))) = 1%nat /\
  (* the answer "block" to a message request *)
  handleMessage toy (ex_outside no_fetch) na na 7 (decision [(14, f_msg [(2, [WLen nb]); (4, [WVarint 3])])]) = (Ok tt, []).
Proof. split; [vm_compute; reflexivity|]. split; [vm_compute; reflexivity|]. split; vm_compute; reflexivity. Qed.
