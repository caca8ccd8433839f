(* C221: what the sender of a message says about it besides its text (/repo/handler.go 75-111,
   /repo/protobuf/SignalService.proto 316-339, /repo/message.go 8-97). Fields the code never reads are not looked into by
   the parser of the model; the theorems are about well-formed ones. *)
From Coq Require Import ZArith List Lia Bool.
From Verif Require Import Bytes Res Wire WireProofs Crypto Cbc Messages Session Builder Conversation RecordCodec RecordCodecProofs Content
  ContentProofs Encodings PropEncodings Sending Examples PropSending Receiving PropReceiving.
Import ListNotations.
Open Scope Z_scope.

(* a message of a peer: the parts this library can send itself (d), the parts it hands on — quote, shared contacts, sticker,
   reaction, as they are — and further fields *)
Definition fields := list wfield.
Definition singles (f : fields) : slots := map (fun x => (fst x, [snd x])) f.
Definition fields_ok (f : fields) : Prop := Forall (fun x => 1 <= fst x <= max_field /\ val_ok (snd x)) f.
Definition o_fields (o : option fields) : list wval := match o with Some f => f_msg (singles f) | None => [] end.
Definition written (d : datamsg) (more : slots) : slots :=
  data_slots d ++ [(8, o_fields (d_quote d)); (9, flat_map (fun f => f_msg (singles f)) (d_contact d));
    (11, o_fields (d_sticker d)); (16, o_fields (d_reaction d))] ++ more.
Definition posted (d : datamsg) (more : slots) : bytes := marshal [(1, f_msg (written d more))].

Record peer_ok (d : datamsg) : Prop := {
  po_atts : Forall att_ok (d_atts d);
  po_flags : opt u32 (d_flags d);
  po_expire : opt u32 (d_expire d);
  po_ts : opt u64 (d_ts d);
  po_gv2 : opt gctx2_ok (d_gv2 d);
  po_rest : opt fields_ok (d_quote d) /\ Forall fields_ok (d_contact d) /\ opt fields_ok (d_sticker d) /\ opt fields_ok (d_reaction d) }.
(* fields of other numbers than those that are read, each number once *)
Definition read_numbers : list Z := [1; 2; 4; 5; 6; 7; 15; 8; 9; 11; 16].
Definition further (more : slots) : Prop :=
  slots_ok more /\ NoDup (map fst more) /\ Forall (fun x => ~ In (fst x) read_numbers) more.

Lemma singles_flat f : flat (singles f) = f.
Proof. unfold flat, singles. induction f as [|[n v] f IH]; [reflexivity|]. cbn [map flat_map fst snd app]. rewrite IH. reflexivity. Qed.
Lemma singles_ok f : fields_ok f -> slots_ok (singles f).
Proof.
  intros H. unfold slots_ok, singles. apply Forall_forall. intros x Hx. apply in_map_iff in Hx. destruct Hx as (y & <- & Hy).
  unfold fields_ok in H. rewrite Forall_forall in H. destruct (H y Hy) as (H1 & H2). cbn [fst snd]. split; [exact H1|]. constructor; [exact H2|constructor].
Qed.
Lemma distinct_nodup l : NoDup l -> distinct l = true.
Proof.
  induction 1 as [|x l N _ IH]; [reflexivity|]. cbn [distinct]. rewrite IH, andb_true_r. apply negb_true_iff.
  apply not_true_iff_false. intros E. apply existsb_exists in E. destruct E as (y & Hy & E). apply Z.eqb_eq in E. subst y. contradiction.
Qed.
Lemma numbers_distinct d more : further more -> distinct (map fst (written d more)) = true.
Proof.
  intros (_ & N & F). apply distinct_nodup. unfold written. rewrite !map_app.
  replace (map fst (data_slots d)) with [1; 2; 4; 5; 6; 7; 15] by reflexivity. cbn [map fst].
  change (NoDup (read_numbers ++ map fst more)).
  assert (G : forall a, NoDup a -> (forall x, In x a -> In x read_numbers) -> NoDup (a ++ map fst more)).
  { induction 1 as [|x a Nx _ IH]; intros Sub; [exact N|]. cbn [app]. constructor.
    - intros Hin. apply in_app_or in Hin. destruct Hin as [Hin|Hin]; [contradiction|]. apply in_map_iff in Hin. destruct Hin as (y & E & Hy).
      rewrite Forall_forall in F. apply (F y Hy). rewrite E. apply Sub. left. reflexivity.
    - apply IH. intros y Hy. apply Sub. right. exact Hy. }
  apply G; [|auto]. unfold read_numbers. repeat (apply NoDup_cons; [cbn [In]; lia|]). apply NoDup_nil.
Qed.
Lemma val_fields o : Forall val_ok (o_fields o).
Proof. destruct o; repeat constructor. Qed.
Lemma written_ok d more : peer_ok d -> further more -> slots_ok (written d more).
Proof.
  intros [] (M & _). unfold written, slots_ok. apply Forall_app. split; [|apply Forall_app; split; [|exact M]].
  - unfold data_slots. slots_tac; auto using val_o_u32, val_o_len, val_rep, val_o_msg, val_o_varint.
  - slots_tac; auto using val_fields, val_rep.
Qed.
Lemma o_fields_read d more n (D : distinct (map fst (written d more)) = true) o : lookup n (written d more) = o_fields o ->
  In (n, o_fields o) (written d more) -> small (written d more) -> opt fields_ok o ->
  g_msg n (@Some _) (flat (written d more)) = Some o.
Proof.
  intros L Hin Sm K. destruct o as [f|]; [|apply (g_msg_none _ D); exact L].
  apply (g_msg_some _ D n (@Some _) (singles f)); [exact L| |rewrite singles_flat; reflexivity].
  apply parse_marshal; [apply singles_ok; exact K|]. apply (small_sub _ n _ _ Sm Hin). left. reflexivity.
Qed.
Lemma written_read d more : peer_ok d -> further more -> small (written d more) -> data_dec (flat (written d more)) = Some d.
Proof.
  intros K FU Sm. pose proof (numbers_distinct d more FU) as D. destruct K as [H1 H2 H3 H4 H5 (R1 & R2 & R3 & R4)]. unfold data_dec.
  rewrite (g_rep_flat _ D 2 att_dec att_slots (d_atts d)).
  2:{ reflexivity. }
  2:{ apply Forall_forall. intros a Ha. rewrite Forall_forall in H1. specialize (H1 a Ha).
      split; [|apply att_dec_flat, H1]. apply parse_marshal; [apply att_slots_ok, H1|].
      apply (small_sub (written d more) 2 (flat_map (fun a => f_msg (att_slots a)) (d_atts d))); [exact Sm| |].
      - unfold written. apply in_or_app. left. cbn [data_slots In]. tauto.
      - apply in_flat_map. exists a. split; [exact Ha|left; reflexivity]. }
  assert (G : g_msg 15 gctx2_dec (flat (written d more)) = Some (d_gv2 d)).
  { destruct (d_gv2 d) as [g|] eqn:E.
    - apply (g_msg_some _ D 15 gctx2_dec (gctx2_slots g)).
      + unfold written, data_slots. rewrite E. reflexivity.
      + apply parse_marshal; [apply gctx2_slots_ok, H5|]. apply (small_sub (written d more) 15 (f_msg (gctx2_slots g))); [exact Sm| |].
        * unfold written, data_slots. rewrite E. apply in_or_app. left. cbn [In o_msg]. tauto.
        * left. reflexivity.
      + apply gctx2_dec_flat, H5.
    - apply (g_msg_none _ D). unfold written, data_slots. rewrite E. reflexivity. }
  rewrite G. clear G.
  assert (IN : forall x, In x [(8, o_fields (d_quote d)); (9, flat_map (fun f => f_msg (singles f)) (d_contact d));
    (11, o_fields (d_sticker d)); (16, o_fields (d_reaction d))] -> In x (written d more)).
  { intros x Hx. unfold written. apply in_or_app. right. apply in_or_app. left. exact Hx. }
  rewrite (o_fields_read d more 8 D (d_quote d)) by (reflexivity || (apply IN; cbn [In]; tauto) || assumption).
  rewrite (o_fields_read d more 11 D (d_sticker d)) by (reflexivity || (apply IN; cbn [In]; tauto) || assumption).
  rewrite (o_fields_read d more 16 D (d_reaction d)) by (reflexivity || (apply IN; cbn [In]; tauto) || assumption).
  rewrite (g_rep_flat _ D 9 (@Some _) singles (d_contact d)).
  2:{ reflexivity. }
  2:{ apply Forall_forall. intros f Hf. rewrite Forall_forall in R2. rewrite singles_flat. split; [|reflexivity].
      rewrite parse_marshal; [rewrite singles_flat; reflexivity|apply singles_ok, R2, Hf|].
      apply (small_sub (written d more) 9 (flat_map (fun f => f_msg (singles f)) (d_contact d))); [exact Sm|apply IN; cbn [In]; tauto|].
      apply in_flat_map. exists f. split; [exact Hf|left; reflexivity]. }
  rewrite (q_len_flat _ 1 (d_body d) D), (q_u32_flat _ 4 (d_flags d) D), (q_u32_flat _ 5 (d_expire d) D), (q_len_flat _ 6 (d_pkey d) D),
    (q_u64_flat _ 7 (d_ts d) D) by (reflexivity || assumption).
  destruct d. reflexivity.
Qed.

(* What is done with a message of a peer is what is done with the parts that are read. *)
Theorem C221_read : forall C ou src uuid ts d more, peer_ok d -> further more -> zlen (posted d more) < 2 ^ 63 ->
  handleMessage C ou src uuid ts (posted d more) = handleDataMessage C ou src uuid d.
Proof.
  intros C ou src uuid ts d more K FU F. unfold handleMessage, unmarshal_content, posted in *.
  assert (Sm : small [(1, f_msg (written d more))]) by exact F.
  assert (D : distinct (map fst [(1, f_msg (written d more))]) = true) by reflexivity.
  assert (Sd : small (written d more)).
  { apply (small_sub _ 1 (f_msg (written d more)) (written d more) Sm); left; reflexivity. }
  rewrite parse_marshal; [|slots_tac; apply val_f_msg|exact Sm].
  unfold content_dec. rewrite (g_msg_some _ D 1 data_dec (written d more) d).
  - unfold present. rewrite (g_msg_none _ D 2), (g_msg_none _ D 3), (g_msg_none _ D 5), (g_msg_none _ D 4), (g_msg_none _ D 6) by reflexivity.
    reflexivity.
  - reflexivity.
  - apply parse_marshal; [apply written_ok; assumption|exact Sd].
  - apply written_read; assumption.
Qed.
Print Assumptions C221_read.

(* Quotes, shared contacts, stickers and reactions are handed on as they were sent, whatever else is there. *)
Theorem C221_handed_on : forall C ou src uuid ts d more m, peer_ok d -> further more -> zlen (posted d more) < 2 ^ 63 ->
  In (ACall (HMessage m)) (snd (handleMessage C ou src uuid ts (posted d more))) ->
  m_quote m = d_quote d /\ m_contact m = d_contact d /\ m_sticker m = d_sticker d /\ m_reaction m = d_reaction d /\
  Some (m_ts m) = d_ts d /\ m_pkey m = d_pkey d /\ m_text m = match d_body d with Some b => b | None => [] end /\
  m_expire m = match d_expire d with Some e => e | None => 0 end.
Proof.
  intros C ou src uuid ts d more m K FU F. rewrite C221_read by assumption. unfold handleDataMessage, andthen, pure.
  destruct (handleFlags ou uuid d) as [rf lf] eqn:HF.
  assert (NF : ~ In (ACall (HMessage m)) lf).
  { clear -HF. unfold handleFlags in HF. revert HF.
    repeat (match goal with |- context [if ?x then _ else _] => destruct x | |- context [match ?x with _ => _ end] => destruct x end);
      intros [= <- <-]; cbn [In]; intuition discriminate. }
  destruct rf as [fl| |]; [|intros Hin; contradiction..].
  destruct (handleAttachments C ou (d_atts d)) as [at_| |]; cbn [fst snd]; rewrite ?app_nil_l, ?app_nil_r; [|intros Hin; contradiction..].
  destruct (d_ts d) as [t|]; cbn [snd]; rewrite ?app_nil_r; [|intros Hin; contradiction].
  destruct (match d_gv2 d with Some g => ou_group ou g | None => Ok None end) as [gr| |]; cbn [fst snd app];
    rewrite ?app_nil_r; [|intros Hin; contradiction..].
  intros Hin. apply in_app_or in Hin. destruct Hin as [Hin|[E|[]]]; [contradiction|]. injection E as <-.
  cbn [m_quote m_contact m_sticker m_reaction m_ts m_pkey m_text m_expire]. repeat split; reflexivity.
Qed.
Print Assumptions C221_handed_on.

(* The same of a copy another own device made of what it sent, but shared contacts are lost. *)
Definition copy_slots (e164 uuid : option bytes) (t : Z) (d : datamsg) (more : slots) : slots :=
  [(1, o_len e164); (2, [WVarint t]); (3, f_msg (written d more)); (7, o_len uuid)].
Definition copied (e164 uuid : option bytes) (t : Z) (d : datamsg) (more : slots) : bytes :=
  marshal [(2, f_msg [(1, f_msg (copy_slots e164 uuid t d more))])].
Theorem C221_copy_read : forall C ou src me ts e164 uuid t d more, peer_ok d -> further more -> u64 t ->
  zlen (copied e164 uuid t d more) < 2 ^ 63 ->
  handleMessage C ou src me ts (copied e164 uuid t d more) = handleSyncSent C ou (mkSent e164 uuid (Some t) (Some d)) ts.
Proof.
  intros C ou src me ts e164 uuid t d more K FU U F. unfold handleMessage, unmarshal_content, copied in *.
  set (i := [(1, f_msg (copy_slots e164 uuid t d more))]) in *.
  assert (Sm : small [(2, f_msg i)]) by exact F.
  assert (D : distinct (map fst [(2, f_msg i)]) = true) by reflexivity.
  assert (Si : small i) by (apply (small_sub _ 2 (f_msg i) i Sm); left; reflexivity).
  assert (Di : distinct (map fst i) = true) by reflexivity.
  assert (Sc : small (copy_slots e164 uuid t d more)) by (apply (small_sub i 1 (f_msg (copy_slots e164 uuid t d more)) _ Si); left; reflexivity).
  assert (Dc : distinct (map fst (copy_slots e164 uuid t d more)) = true) by reflexivity.
  assert (Sw : small (written d more)).
  { apply (small_sub (copy_slots e164 uuid t d more) 3 (f_msg (written d more)) _ Sc); [right; right; left; reflexivity|left; reflexivity]. }
  rewrite parse_marshal; [|slots_tac; apply val_f_msg|exact Sm].
  unfold content_dec. rewrite (g_msg_some _ D 2 sync_dec i (sync_of (mkSent e164 uuid (Some t) (Some d)))).
  - unfold present. rewrite (g_msg_none _ D 1), (g_msg_none _ D 3), (g_msg_none _ D 5), (g_msg_none _ D 4), (g_msg_none _ D 6) by reflexivity.
    reflexivity.
  - reflexivity.
  - apply parse_marshal; [unfold i; slots_tac; apply val_f_msg|exact Si].
  - unfold sync_dec, present.
    rewrite (g_msg_some _ Di 1 sent_dec (copy_slots e164 uuid t d more) (mkSent e164 uuid (Some t) (Some d))).
    + rewrite (g_msg_none _ Di 2), (g_msg_none _ Di 3), (g_msg_none _ Di 4), (g_msg_none _ Di 6), (g_msg_none _ Di 7) by reflexivity.
      rewrite (g_rep_flat _ Di 5 read_dec (fun _ => []) []) by (reflexivity || constructor). reflexivity.
    + reflexivity.
    + apply parse_marshal; [|exact Sc]. unfold copy_slots. slots_tac; auto using val_o_len, val_f_msg.
    + unfold sent_dec. rewrite (g_msg_some _ Dc 3 data_dec (written d more) d).
      * rewrite (q_len_flat _ 1 e164 Dc), (q_len_flat _ 7 uuid Dc), (q_u64_flat _ 2 (Some t) Dc) by reflexivity. reflexivity.
      * reflexivity.
      * apply parse_marshal; [apply written_ok; assumption|exact Sw].
      * apply written_read; assumption.
Qed.
Print Assumptions C221_copy_read.
Theorem C221_copy_handed_on : forall C ou src me ts e164 uuid t d more m sts, peer_ok d -> further more -> u64 t ->
  zlen (copied e164 uuid t d more) < 2 ^ 63 ->
  In (ACall (HSyncSent m sts)) (snd (handleMessage C ou src me ts (copied e164 uuid t d more))) ->
  m_quote m = d_quote d /\ m_contact m = [] /\ m_sticker m = d_sticker d /\ m_reaction m = d_reaction d /\
  Some (m_ts m) = d_ts d /\ m_pkey m = d_pkey d /\ m_text m = match d_body d with Some b => b | None => [] end /\
  m_expire m = match d_expire d with Some e => e | None => 0 end /\ sts = ts /\
  m_source m = match e164 with Some b => b | None => [] end /\ m_uuid m = match uuid with Some b => b | None => [] end.
Proof.
  intros C ou src me ts e164 uuid t d more m sts K FU U F. rewrite C221_copy_read by assumption.
  unfold handleSyncSent, andthen, pure. cbn [sn_msg sn_e164 sn_uuid]. cbv zeta.
  match goal with |- context [handleFlags ou ?u d] => destruct (handleFlags ou u d) as [rf lf] eqn:HF end.
  assert (NF : ~ In (ACall (HSyncSent m sts)) lf).
  { clear -HF. unfold handleFlags in HF. revert HF.
    repeat (match goal with |- context [if ?x then _ else _] => destruct x | |- context [match ?x with _ => _ end] => destruct x end);
      intros [= <- <-]; cbn [In]; intuition discriminate. }
  destruct rf as [fl| |]; [|intros Hin; contradiction..].
  destruct (handleAttachments C ou (d_atts d)) as [at_| |]; cbn [fst snd]; rewrite ?app_nil_l, ?app_nil_r; [|intros Hin; contradiction..].
  destruct (d_ts d) as [dt|]; cbn [snd app]; rewrite ?app_nil_r; [|intros Hin; contradiction].
  intros Hin. apply in_app_or in Hin. destruct Hin as [Hin|[E|[]]]; [contradiction|]. injection E as <- <-.
  cbn [m_quote m_contact m_sticker m_reaction m_ts m_pkey m_text m_expire m_source m_uuid g_bytes]. repeat split; reflexivity.
Qed.
Print Assumptions C221_copy_handed_on.

(* Everything else is lost: nothing the application is told depends on it. *)
Theorem C221_unread : forall C ou src uuid ts d more more', peer_ok d -> further more -> further more' ->
  zlen (posted d more) < 2 ^ 63 -> zlen (posted d more') < 2 ^ 63 ->
  handleMessage C ou src uuid ts (posted d more) = handleMessage C ou src uuid ts (posted d more').
Proof. intros. rewrite !C221_read by assumption. reflexivity. Qed.
Print Assumptions C221_unread.

(* In particular: a message that is to be viewed once (field 14), one that needs a newer program to be understood (12), and
   the request to delete a message (17) look like ordinary messages. *)
Definition view_once : slots := [(14, [WVarint 1])].
Definition needs_version (v : Z) : slots := [(12, [WVarint v])].
Definition delete_message (sent : Z) : slots := [(17, f_msg [(1, [WVarint sent])])].
Lemma one_further n v : 1 <= n <= max_field -> val_ok v -> ~ In n read_numbers -> further [(n, [v])].
Proof.
  intros H1 H2 H3. split; [|split].
  - constructor; [|constructor]. cbn [fst snd]. split; [exact H1|]. constructor; [exact H2|constructor].
  - cbn [map fst]. constructor; [intros []|constructor].
  - constructor; [exact H3|constructor].
Qed.
Theorem C221_marks_refuted : forall C ou src uuid ts d v sent, peer_ok d -> 0 <= v < 2 ^ 32 -> u64 sent ->
  zlen (posted d []) < 2 ^ 63 -> zlen (posted d view_once) < 2 ^ 63 -> zlen (posted d (needs_version v)) < 2 ^ 63 ->
  zlen (posted d (delete_message sent)) < 2 ^ 63 ->
  let told b := handleMessage C ou src uuid ts b in
  told (posted d view_once) = told (posted d []) /\ told (posted d (needs_version v)) = told (posted d []) /\
  told (posted d (delete_message sent)) = told (posted d []).
Proof.
  intros C ou src uuid ts d v sent K V Us F0 F1 F2 F3. cbv zeta.
  assert (E : further []) by (split; [constructor|split; constructor]).
  split; [|split]; apply C221_unread; try assumption; apply one_further; unfold max_field, read_numbers; cbn [val_ok In]; try lia; exact Logic.I.
Qed.
Print Assumptions C221_marks_refuted.

(* a picture-less message with a quote and a reaction, to be viewed once *)
Definition ex_peer : datamsg := mkData (Some [104; 105]) [] None None None (Some 1600000000000) None
  (Some [(1, WVarint 1500000000000); (2, WLen [97])]) [] None (Some [(1, WLen [120]); (5, WVarint 1500000000000)]).
Example C221_example : peer_ok ex_peer /\ zlen (posted ex_peer view_once) < 2 ^ 63 /\
  (forall m, snd (handleMessage toy (ex_outside no_fetch) nb nb 7 (posted ex_peer view_once)) = [ACall (HMessage m)] ->
     m_text m = [104; 105] /\ m_reaction m = Some [(1, WLen [120]); (5, WVarint 1500000000000)]) /\
  length (snd (handleMessage toy (ex_outside no_fetch) nb nb 7 (posted ex_peer view_once))) = 1%nat /\
  handleMessage toy (ex_outside no_fetch) nb nb 7 (posted ex_peer (delete_message 5)) = handleMessage toy (ex_outside no_fetch) nb nb 7 (posted ex_peer []).
Proof.
  assert (K : peer_ok ex_peer).
  { constructor; cbn [ex_peer d_atts d_flags d_expire d_ts d_gv2 d_quote d_contact d_sticker d_reaction opt]; try constructor; auto;
      try (unfold u64; lia); repeat split; repeat constructor; cbn [fst snd]; unfold max_field; cbn [val_ok]; try lia; try constructor. }
  split; [exact K|]. split; [vm_compute; reflexivity|]. split; [|split; vm_compute; reflexivity].
  intros m. vm_compute. intros [= <-]. split; reflexivity.
Qed.
