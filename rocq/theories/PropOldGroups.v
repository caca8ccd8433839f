(* C229: who knows a group of the old kind. updateGroup, quitGroup and newPartlyGroup (/repo/groups.go 124-168, 337-351) have no
   caller, handleDataMessage (/repo/handler.go 75-112) does not look at the group of a message, and createMessage
   (/repo/server.go 749-793) does not write it. *)
From Coq Require Import ZArith List Lia Bool.
From Verif Require Import Bytes Res Wire WireProofs Crypto Cbc Messages Session Builder Conversation RecordCodec RecordCodecProofs Content
  ContentProofs Encodings PropEncodings Sending Examples PropSending Receiving PropReceiving PropUnread Contacts GroupsV1 PropGroupsV1.
Import ListNotations.
Open Scope Z_scope.

(* all that happens to the groups of an installation: what its user does, with files that can or cannot be written and
   sendings that succeed or fail, messages that come, and restarts *)
Inductive gdo :=
| DNew (w : bool) (out : nat -> res Z) (id name : bytes) (ms : list bytes)
| DUpdate (w : bool) (out : nat -> res Z) (k name : bytes) (ms : list bytes)
| DLeave (out : nat -> res Z) (k : bytes)
| DSend (cs : list person) (out : nat -> res Z) (v2 : res Z) (k msg : bytes)
| DGot (ou : outside) (src uuid : bytes) (ts : Z) (b : bytes)    (* handleMessage changes no group, see above *)
| DRestart.
Definition gdone (dir tel : bytes) (s : gstate) (o : gdo) : gstate :=
  match o with
  | DNew w out id name ms => fst (fst (NewGroup tel w out id name ms s))
  | DUpdate w out k name ms => fst (fst (UpdateGroup tel w out k name ms s))
  | DLeave out k => fst (fst (LeaveGroup tel out k s))
  | DSend cs out v2 k msg => fst (fst (sendGroupHelper dir tel cs out v2 k msg s))
  | DGot _ _ _ _ _ => s
  | DRestart => grestart dir s
  end.
Definition made (os : list gdo) (k : bytes) : Prop := exists w out id name ms, In (DNew w out id name ms) os /\ hex id = k.

Definition only (P : bytes -> Prop) (t : gtable) : Prop := forall k, gfind k t <> None -> P k.
Lemma only_put (P : bytes -> Prop) k g t : only P t -> P k -> only P (gput k g t).
Proof. intros H K x X. rewrite gfind_put in X. destruct (beq x k) eqn:E; [apply beq_eq in E; now subst|apply H, X]. Qed.
Lemma only_del (P : bytes -> Prop) k t : only P t -> only P (gdel k t).
Proof. intros H x X. rewrite gfind_del in X. destruct (beq x k); [contradiction|apply H, X]. Qed.
Lemma only_load (P : bytes -> Prop) dir fs : only P fs -> uniq fs -> forall t, only P t ->
  only P (fold_left (fun t kg => if contains avatar_text (idToPath dir (fst kg)) then t else gput (fst kg) (snd kg) t) fs t).
Proof.
  intros H U t T k X. rewrite load_find in X by exact U. destruct (contains _ _); [apply T, X|].
  destruct (gfind k fs) as [g|] eqn:E; [|apply T, X]. apply H. rewrite E. discriminate.
Qed.
Lemma known_inv dir tel os : let s := fold_left (gdone dir tel) os (mkGs [] []) in
  only (made os) (gs_map s) /\ only (made os) (gs_files s) /\ uniq (gs_files s).
Proof.
  cbv zeta. induction os as [|o os IH] using rev_ind.
  { split; [|split]; [intros k X; elim X; reflexivity|intros k X; elim X; reflexivity|constructor]. }
  rewrite fold_left_app. cbn [fold_left]. set (s := fold_left (gdone dir tel) os (mkGs [] [])) in *. clearbody s. destruct IH as (A & B & U).
  assert (MON : forall k, made os k -> made (os ++ [o]) k).
  { intros k (w & out & id & name & ms & X & E). exists w, out, id, name, ms. split; [apply in_or_app; now left|exact E]. }
  assert (A' : only (made (os ++ [o])) (gs_map s)) by (intros k X; apply MON, A, X).
  assert (B' : only (made (os ++ [o])) (gs_files s)) by (intros k X; apply MON, B, X). clear MON.
  destruct o as [w out id name ms|w out k name ms|out k|cs out v2 k msg|ou src uuid ts b|]; cbn [gdone].
  - assert (M : made (os ++ [DNew w out id name ms]) (hex id)).
    { exists w, out, id, name, ms. split; [apply in_or_app; right; now left|reflexivity]. }
    unfold NewGroup, saveGroup. destruct w; [destruct (sendUpdate tel out _) as [x tr]|]; cbn [fst gs_map gs_files]; auto using only_put, uniq_put.
  - unfold UpdateGroup. destruct (gfind k (gs_map s)) as [g|] eqn:F; [|auto].
    assert (M : made (os ++ [DUpdate w out k name ms]) k) by (apply A'; rewrite F; discriminate).
    unfold saveGroup. destruct w; destruct (sendUpdate tel out _) as [x tr]; cbn [fst gs_map gs_files]; auto using only_put, uniq_put.
  - unfold LeaveGroup. destruct (gfind k (gs_map s)) as [g|] eqn:F; [|auto].
    destruct (sendall _ _ _ _) as [[t|e|] tr]; cbn [fst gs_map gs_files]; auto using only_del, uniq_del.
  - unfold sendGroupHelper. destruct (gfind k (gs_map s)) as [g|] eqn:F; [|auto].
    destruct (g_members g); [|destruct (sendall _ _ _ _) as [r tr]; auto].
    cbn [fst]. unfold setupGroups. cbn [gs_map gs_files]. split; [|split]; auto using only_del, uniq_del.
    apply only_load; auto using only_del, uniq_del.
  - auto.
  - unfold grestart, setupGroups. cbn [gs_map gs_files]. split; [|split]; auto. apply only_load; auto. intros x X. elim X. reflexivity.
Qed.

(* A client knows the groups it made itself, and no others, whatever it is told. *)
Theorem C229_known : forall dir tel os k g, GetGroupById k (fold_left (gdone dir tel) os (mkGs [] [])) = Ok g ->
  exists w out id name ms, In (DNew w out id name ms) os /\ hex id = k.
Proof.
  intros dir tel os k g H. destruct (known_inv dir tel os) as (A & _). apply A. unfold GetGroupById in H.
  destruct (gfind k _); [discriminate|discriminate H].
Qed.
Print Assumptions C229_known.
(* So those who were made members by somebody else cannot write to the group: nothing is sent. *)
Theorem C229_cannot_write : forall dir tel os k, ~ (exists w out id name ms, In (DNew w out id name ms) os /\ hex id = k) ->
  forall cs out e msg, let s := fold_left (gdone dir tel) os (mkGs [] []) in
  sendGroupHelper dir tel cs out (Err e) k msg s = (s, Err ENotFound, []).
Proof.
  intros dir tel os k N cs out e msg. cbv zeta. destruct (known_inv dir tel os) as (A & _). unfold sendGroupHelper.
  destruct (gfind k (gs_map (fold_left (gdone dir tel) os (mkGs [] [])))) as [g|] eqn:F; [|reflexivity].
  exfalso. apply N. apply A. rewrite F. discriminate.
Qed.
Print Assumptions C229_cannot_write.

(* What members are shown of an invitation or a text to the group: a message of a person, without any group. *)
Theorem C229_shown : forall C ou src uuid ets pk now dest text g expire, wfb text -> u32 expire -> u64 now -> opt wfb pk ->
  let b := marshal_data (createMessage pk now (mkOut dest text g None None 0 expire None)) in zlen b < 2 ^ 63 ->
  handleMessage C ou src uuid ets b =
    (Ok tt, [ACall (HMessage (mkMsg src uuid text [] None 0 expire pk now None [] None None))]).
Proof.
  intros C ou src uuid ets pk now dest text g expire W1 W2 W3 W4 b F.
  assert (K : out_ok pk now (mkOut dest text g None None 0 expire None)).
  { constructor; cbn [o_text o_att o_flags o_expire o_time o_gv2]; auto; try (intros ? X; discriminate X). unfold u32. lia. }
  unfold handleMessage. unfold b.
  rewrite unmarshal_marshal_data; [|apply create_ok, K|exact F]. cbn [c_data]. unfold handleDataMessage, handleFlags, andthen, pure, createMessage.
  cbn [d_flags d_atts d_ts d_gv2 d_body d_expire d_pkey d_quote d_contact d_sticker d_reaction o_text o_att o_flags o_expire o_time o_gv2
    g_num handleAttachments g_bytes fst snd app]. destruct text; reflexivity.
Qed.
Print Assumptions C229_shown.
(* And if another program does say which group it is (field 3 of the message), it is not looked at. *)
Theorem C229_context_unread : forall C ou src uuid ts d ctx, peer_ok d ->
  zlen (posted d []) < 2 ^ 63 -> zlen (posted d [(3, f_msg ctx)]) < 2 ^ 63 ->
  handleMessage C ou src uuid ts (posted d [(3, f_msg ctx)]) = handleMessage C ou src uuid ts (posted d []).
Proof.
  intros C ou src uuid ts d ctx K F0 F1. apply C221_unread; try assumption; [|split; [constructor|split; constructor]].
  apply one_further; unfold max_field, read_numbers; cbn [val_ok In]; try lia; exact Logic.I.
Qed.
Print Assumptions C229_context_unread.

(* One person makes a group with another and writes to it, both successfully; the other gets both messages and cannot tell
   the second from a personal one; asking for the group and writing to it fail. *)
Definition ex_say (g : Sending.groupmsg) (text : bytes) : outgoing := mkOut vx_a text (Some g) None None 0 0 None.
Theorem C229_members_refuted : exists id name msg s1 g sent s2 t sent2 b0 b1 b2,
  NewGroup vx_me true vx_ok id name [vx_a] (mkGs [] []) = (s1, Ok g, sent) /\ map gm_dest sent = [vx_a] /\
  sendGroupHelper [47] vx_me [] vx_ok (Err ENotFound) (hex id) msg s1 = (s2, Ok t, sent2) /\ map gm_dest sent2 = [vx_a] /\
  b0 = marshal_data (createMessage None 7 (ex_say (Sending.mkGm id name (g_members g) 1) [])) /\
  b1 = marshal_data (createMessage None 7 (ex_say (Sending.mkGm id [] [] 2) msg)) /\
  b2 = marshal_data (createMessage None 7 (mkOut vx_a msg None None None 0 0 None)) /\ b1 = b2 /\
  let s := fold_left (gdone [47] vx_a) [DGot (ex_outside no_fetch) nb nb 7 b0; DGot (ex_outside no_fetch) nb nb 7 b1; DRestart] (mkGs [] []) in
  GetGroupById (hex id) s = Err ENotFound /\
  sendGroupHelper [47] vx_a [] vx_ok (Err ENotFound) (hex id) [104; 105] s = (s, Err ENotFound, []).
Proof.
  exists vx_id, [71], [104; 105]. do 9 eexists. split; [vm_compute; reflexivity|]. split; [reflexivity|]. split; [vm_compute; reflexivity|].
  split; [reflexivity|]. do 3 (split; [reflexivity|]). split; [reflexivity|]. split; vm_compute; reflexivity.
Qed.
Print Assumptions C229_members_refuted.
Example C229_example : let s := fold_left (gdone [47] vx_me) [DNew true vx_ok vx_id [71] [vx_a]; DRestart; DUpdate true vx_ok vx_key [72] [vx_b]] (mkGs [] []) in
  exists g, GetGroupById vx_key s = Ok g /\ g_name g = [72] /\
  handleMessage toy (ex_outside no_fetch) nb nb 7 (posted ex_peer [(3, f_msg [(1, [WLen vx_id])])]) =
  handleMessage toy (ex_outside no_fetch) nb nb 7 (posted ex_peer []).
Proof. eexists. split; [vm_compute; reflexivity|]. split; [reflexivity|]. vm_compute. reflexivity. Qed.
