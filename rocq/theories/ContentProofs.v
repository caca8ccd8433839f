(* Marshalling a data message or a sync-sent message and unmarshalling it gives it back. *)
From Coq Require Import ZArith List Lia Bool.
From Verif Require Import Bytes Res Wire WireProofs Messages Session RecordCodec RecordCodecProofs Content.
Import ListNotations.
Open Scope Z_scope.

Definition u64 (v : Z) : Prop := 0 <= v < 2 ^ 64.
Definition opt {A} (P : A -> Prop) (o : option A) : Prop := match o with Some a => P a | None => True end.

Lemma q_u32_flat s n v : distinct (map fst s) = true -> lookup n s = o_varint v -> opt u32 v -> q_u32 n (flat s) = v.
Proof.
  intros D L H. unfold q_u32. rewrite (get_varint_flat s D), L. destruct v as [v|]; [|reflexivity].
  cbn [o_varint last_varint option_map]. f_equal. now apply to_u32_id.
Qed.
Lemma q_u64_flat s n v : distinct (map fst s) = true -> lookup n s = o_varint v -> q_u64 n (flat s) = v.
Proof. intros D L. unfold q_u64. rewrite (get_varint_flat s D), L. now destruct v. Qed.
Lemma q_len_flat s n v : distinct (map fst s) = true -> lookup n s = o_len v -> get_len n (flat s) = v.
Proof. intros D L. rewrite (get_len_flat s D), L. now destruct v. Qed.

Lemma get_att_id_app a b : get_att_id (a ++ b) = match get_att_id b with Some x => Some x | None => get_att_id a end.
Proof.
  induction a as [|[m v] a IH]; [cbn [app]; destruct (get_att_id b); reflexivity|].
  cbn [app get_att_id]. rewrite IH. destruct (get_att_id b); reflexivity.
Qed.
Lemma get_att_id_other m vs : (m =? 1) = false -> (m =? 15) = false -> get_att_id (map (pair m) vs) = None.
Proof. intros A B. induction vs as [|v vs IH]; [reflexivity|]. cbn [map get_att_id]. rewrite IH, A, B. now destruct v. Qed.

Definition att_ok (a : attptr) : Prop :=
  match ap_id a with Some (inl i) => u64 i | _ => True end /\ opt u32 (ap_size a) /\ opt u32 (ap_flags a) /\ opt u32 (ap_cdn a).

Lemma val_o_varint v : opt u64 v -> Forall val_ok (o_varint v).
Proof. destruct v; cbn; intros; repeat constructor; unfold u64 in *; lia. Qed.
Lemma val_o_u32 v : opt u32 v -> Forall val_ok (o_varint v).
Proof. destruct v as [v|]; cbn [opt o_varint]; intros H; constructor; [|constructor]. cbn [val_ok]. unfold u32 in H. lia. Qed.
Lemma val_o_len v : Forall val_ok (o_len v).
Proof. destruct v; cbn; repeat constructor. Qed.
Lemma val_f_msg s : Forall val_ok (f_msg s).
Proof. repeat constructor. Qed.
Lemma val_o_msg {A} (enc : A -> slots) v : Forall val_ok (o_msg enc v).
Proof. destruct v; cbn; repeat constructor. Qed.
Lemma val_rep {A} (enc : A -> slots) l : Forall val_ok (flat_map (fun a => f_msg (enc a)) l).
Proof. induction l; cbn [flat_map]; [constructor|]. apply Forall_app. split; [apply val_f_msg|auto]. Qed.

Ltac slots_tac :=
  unfold slots_ok; repeat (apply Forall_cons; [split; [cbn [fst]; unfold max_field; lia|cbn [snd]]|]); [..|apply Forall_nil].

Lemma att_slots_ok a : att_ok a -> slots_ok (att_slots a).
Proof.
  intros (H1 & H2 & H3 & H4). unfold att_slots. slots_tac;
    auto using val_o_u32, val_o_len.
  - destruct (ap_id a) as [[i|k]|]; repeat constructor; exact H1 || apply H1.
  - destruct (ap_id a) as [[i|k]|]; repeat constructor.
Qed.

Lemma att_dec_flat a : att_ok a -> att_dec (flat (att_slots a)) = Some a.
Proof.
  intros (H1 & H2 & H3 & H4). unfold att_dec.
  rewrite (q_len_flat _ 2 (ap_type a)), (q_len_flat _ 3 (ap_key a)), (q_u32_flat _ 4 (ap_size a)),
    (q_len_flat _ 6 (ap_digest a)), (q_len_flat _ 7 (ap_name a)), (q_u32_flat _ 8 (ap_flags a)),
    (q_u32_flat _ 14 (ap_cdn a)) by (reflexivity || assumption).
  replace (get_att_id (flat (att_slots a))) with (ap_id a); [now destruct a|].
  unfold flat, att_slots. cbn [flat_map fst snd]. rewrite !get_att_id_app.
  rewrite (get_att_id_other 2), (get_att_id_other 3), (get_att_id_other 4), (get_att_id_other 6), (get_att_id_other 7),
    (get_att_id_other 8), (get_att_id_other 14) by reflexivity.
  destruct (ap_id a) as [[i|k]|]; reflexivity.
Qed.

Definition gctx2_ok (g : gctx2) : Prop := opt u32 (gc_rev g).
Lemma gctx2_slots_ok g : gctx2_ok g -> slots_ok (gctx2_slots g).
Proof. intros H. unfold gctx2_slots. slots_tac; auto using val_o_u32, val_o_len. Qed.
Lemma gctx2_dec_flat g : gctx2_ok g -> gctx2_dec (flat (gctx2_slots g)) = Some g.
Proof.
  intros H. unfold gctx2_dec.
  rewrite (q_len_flat _ 1 (gc_master g)), (q_u32_flat _ 2 (gc_rev g)), (q_len_flat _ 3 (gc_change g)) by (reflexivity || assumption).
  now destruct g.
Qed.

(* a data message with only the parts createMessage makes *)
Record data_ok (d : datamsg) : Prop := {
  do_atts : Forall att_ok (d_atts d);
  do_flags : opt u32 (d_flags d);
  do_expire : opt u32 (d_expire d);
  do_ts : opt u64 (d_ts d);
  do_gv2 : opt gctx2_ok (d_gv2 d);
  do_rest : d_quote d = None /\ d_contact d = [] /\ d_sticker d = None /\ d_reaction d = None }.

Lemma data_slots_ok d : data_ok d -> slots_ok (data_slots d).
Proof.
  intros []. unfold data_slots. slots_tac; auto using val_o_u32, val_o_len, val_rep, val_o_msg, val_o_varint.
Qed.

Lemma data_dec_flat d : data_ok d -> small (data_slots d) -> data_dec (flat (data_slots d)) = Some d.
Proof.
  intros K S. destruct K as [H1 H2 H3 H4 H5 (R1 & R2 & R3 & R4)]. unfold data_dec.
  assert (D : distinct (map fst (data_slots d)) = true) by reflexivity.
  rewrite (g_rep_flat _ D 2 att_dec att_slots (d_atts d)).
  2:{ reflexivity. }
  2:{ apply Forall_forall. intros a Ha. rewrite Forall_forall in H1. specialize (H1 a Ha).
      split; [|apply att_dec_flat, H1]. apply parse_marshal; [apply att_slots_ok, H1|].
      apply (small_sub (data_slots d) 2 (flat_map (fun a => f_msg (att_slots a)) (d_atts d))); auto.
      - cbn [data_slots In]. tauto.
      - apply in_flat_map. exists a. split; [exact Ha|left; reflexivity]. }
  assert (G : g_msg 15 gctx2_dec (flat (data_slots d)) = Some (d_gv2 d)).
  { destruct (d_gv2 d) as [g|] eqn:E.
    - apply (g_msg_some _ D 15 gctx2_dec (gctx2_slots g)).
      + unfold data_slots. rewrite E. reflexivity.
      + apply parse_marshal; [apply gctx2_slots_ok, H5|]. apply (small_sub (data_slots d) 15 (f_msg (gctx2_slots g))); auto.
        * unfold data_slots. rewrite E. cbn [In o_msg]. tauto.
        * left. reflexivity.
      + apply gctx2_dec_flat, H5.
    - apply (g_msg_none _ D). unfold data_slots. rewrite E. reflexivity. }
  rewrite G. rewrite (g_msg_none _ D 8), (g_msg_none _ D 11), (g_msg_none _ D 16) by reflexivity.
  rewrite (g_rep_flat _ D 9 (@Some _) (fun _ => []) []) by (reflexivity || constructor).
  rewrite (q_len_flat _ 1 (d_body d)), (q_u32_flat _ 4 (d_flags d)), (q_u32_flat _ 5 (d_expire d)), (q_len_flat _ 6 (d_pkey d)),
    (q_u64_flat _ 7 (d_ts d)) by (reflexivity || assumption).
  destruct d. cbn in *. now subst.
Qed.

Definition fits (d : datamsg) : Prop := zlen (marshal_data d) < 2 ^ 63.

Theorem unmarshal_marshal_data d : data_ok d -> fits d ->
  unmarshal_content (marshal_data d) = Some (mkContent (Some d) None None false None false).
Proof.
  intros K F. unfold unmarshal_content, marshal_data.
  assert (S : small [(1, f_msg (data_slots d))]) by exact F.
  assert (D : distinct (map fst [(1, f_msg (data_slots d))]) = true) by reflexivity.
  assert (Sd : small (data_slots d)).
  { apply (small_sub _ 1 (f_msg (data_slots d)) (data_slots d) S); left; reflexivity. }
  rewrite parse_marshal; [|slots_tac; apply val_f_msg|exact S].
  unfold content_dec. rewrite (g_msg_some _ D 1 data_dec (data_slots d) d).
  - unfold present. rewrite (g_msg_none _ D 2), (g_msg_none _ D 3), (g_msg_none _ D 5), (g_msg_none _ D 4), (g_msg_none _ D 6) by reflexivity.
    reflexivity.
  - reflexivity.
  - apply parse_marshal; [apply data_slots_ok, K|exact Sd].
  - apply data_dec_flat; assumption.
Qed.

(* the copy for the own devices *)
Definition sent_ok (s : sentmsg) : Prop := opt u64 (sn_ts s) /\ opt data_ok (sn_msg s).
Lemma sent_slots_ok s : sent_ok s -> slots_ok (sent_slots s).
Proof. intros [H1 H2]. unfold sent_slots. slots_tac; auto using val_o_len, val_o_varint, val_o_msg. Qed.
Lemma sent_dec_flat s : sent_ok s -> small (sent_slots s) -> sent_dec (flat (sent_slots s)) = Some s.
Proof.
  intros [H1 H2] S. unfold sent_dec. assert (D : distinct (map fst (sent_slots s)) = true) by reflexivity.
  assert (G : g_msg 3 data_dec (flat (sent_slots s)) = Some (sn_msg s)).
  { destruct (sn_msg s) as [d|] eqn:E.
    - assert (Sd : small (data_slots d)).
      { apply (small_sub (sent_slots s) 3 (f_msg (data_slots d))); auto.
        - unfold sent_slots. rewrite E. cbn [In o_msg]. tauto.
        - left. reflexivity. }
      apply (g_msg_some _ D 3 data_dec (data_slots d)).
      + unfold sent_slots. rewrite E. reflexivity.
      + apply parse_marshal; [apply data_slots_ok, H2|exact Sd].
      + apply data_dec_flat; assumption.
    - apply (g_msg_none _ D). unfold sent_slots. rewrite E. reflexivity. }
  rewrite G. rewrite (q_len_flat _ 1 (sn_e164 s)), (q_len_flat _ 7 (sn_uuid s)), (q_u64_flat _ 2 (sn_ts s)) by reflexivity.
  now destruct s.
Qed.

Definition sync_of (s : sentmsg) : syncmsg := mkSync (Some s) false false None [] false None.
Theorem unmarshal_marshal_sync s : sent_ok s -> zlen (marshal_sync (sync_of s)) < 2 ^ 63 ->
  unmarshal_content (marshal_sync (sync_of s)) = Some (mkContent None (Some (sync_of s)) None false None false).
Proof.
  intros K F. unfold unmarshal_content, marshal_sync.
  set (i := sync_slots (sync_of s)).
  assert (S : small [(2, f_msg i)]) by exact F.
  assert (D : distinct (map fst [(2, f_msg i)]) = true) by reflexivity.
  assert (Si : small i) by (apply (small_sub _ 2 (f_msg i) i S); left; reflexivity).
  assert (Ss : small (sent_slots s)) by (apply (small_sub _ 1 (f_msg (sent_slots s)) (sent_slots s) Si); left; reflexivity).
  rewrite parse_marshal; [|slots_tac; apply val_f_msg|exact S].
  assert (Di : distinct (map fst i) = true) by reflexivity.
  unfold content_dec. rewrite (g_msg_some _ D 2 sync_dec i (sync_of s)).
  - unfold present. rewrite (g_msg_none _ D 1), (g_msg_none _ D 3), (g_msg_none _ D 5), (g_msg_none _ D 4), (g_msg_none _ D 6) by reflexivity.
    reflexivity.
  - reflexivity.
  - apply parse_marshal; [|exact Si]. unfold i. slots_tac. apply val_f_msg.
  - unfold sync_dec. rewrite (g_msg_some _ Di 1 sent_dec (sent_slots s) s).
    + unfold present. rewrite (g_msg_none _ Di 2), (g_msg_none _ Di 3), (g_msg_none _ Di 4), (g_msg_none _ Di 6), (g_msg_none _ Di 7) by reflexivity.
      rewrite (g_rep_flat _ Di 5 read_dec (fun _ => []) []) by (reflexivity || constructor). reflexivity.
    + reflexivity.
    + apply parse_marshal; [apply sent_slots_ok, K|exact Ss].
    + apply sent_dec_flat; assumption.
Qed.
