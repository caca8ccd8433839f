(* Details of properties stated elsewhere that changes of the model had shown to be left open: words and paths that the
   other side or the user sees, and fields that are copied. The words are written as text. *)
From Coq Require Import String Ascii ZArith List Lia Bool.
From Verif Require Import Bytes Res Decimal Crypto Gcm Encodings PropEncodings Regex Contacts PropDiscovery Storage Content Receiving
  Access Avatars PropAvatars Gateway Transport Helper Profile PropProfile PropGroupsV1 GroupsV1 Groups2Store Attachments CurveSign Linking Startup
  Cbc Builder Sending PropProtocol.
Import ListNotations.
Open Scope Z_scope.
Local Notation text := PropProtocol.text.

(* ---- C131: what a client is said to be capable of when it registers (server.go 225-231) ---- *)
Theorem C131_announced_at_first : forall G priv s st, 200 <= st < 300 ->
  let s' := fst (acall_step G priv (VerifyCode (Some st)) s) in
  let now := mkCaps true false true false false false false false in
  a_caps s' = now /\ exists a, a_sent s' = a_sent s ++ [(a, Some st)] /\ aa_caps a = now.
Proof.
  intros G priv s st H s' now. subst s' now. cbn [acall_step]. unfold put_result.
  destruct (bad_status st) eqn:E; [exfalso; unfold bad_status in E; lia|].
  cbn [fst a_caps a_sent]. split; [reflexivity|]. eexists. split; reflexivity.
Qed.
Print Assumptions C131_announced_at_first.

(* ---- C144: where an image is, and what a write that failed half way leaves ---- *)
Theorem C144_where : forall o uuid s, uuid <> [] -> av_path s = None -> io_mkdir o = true ->
  snd (GetLocalAvatarPath o uuid s) = Ok (Join (Join (io_storage o) (text "avatars")) uuid).
Proof.
  intros o uuid s U P M. destruct uuid as [|c u]; [now elim U|]. unfold GetLocalAvatarPath, avatar_file. rewrite P.
  unfold setupAvatarsPath. rewrite M. reflexivity.
Qed.
Print Assumptions C144_where.
Theorem C144_half_written : forall o uuid avatar s p n, uuid <> [] -> avatar <> [] ->
  snd (GetLocalAvatarPath o uuid s) = Ok p -> io_create o p = true -> io_short o = Some n ->
  exists s', saveLocalAvatar o uuid avatar s = (s', Err EOther) /\
    exists rest, Avatars.read p (av_files s') = Some (firstn n avatar) /\ avatar = firstn n avatar ++ rest.
Proof.
  intros o uuid avatar s p n U A P Cr Sh. unfold GetLocalAvatarPath in P. unfold saveLocalAvatar.
  destruct uuid as [|c u]; [now elim U|]. destruct avatar as [|x av]; [now elim A|].
  destruct (avatar_file o (c :: u) s) as [s' q]. cbn [snd] in P. subst q. rewrite Cr, Sh.
  eexists. split; [reflexivity|]. exists (skipn n (x :: av)). cbn [av_files]. split; [|now rewrite firstn_skipn].
  induction (av_files s') as [|[r b] t IH]; cbn [Avatars.write Avatars.read].
  - rewrite PropAvatars.path_eqb_refl. reflexivity.
  - destruct (Avatars.path_eqb p r) eqn:E; cbn [Avatars.read]; [rewrite PropAvatars.path_eqb_refl; reflexivity|]. rewrite E. exact IH.
Qed.
Print Assumptions C144_half_written.

(* ---- C157: the file that is removed ---- *)
Theorem C157_file : forall id, (forall c, In c id -> In c (text "0123456789")) ->
  RekeyHandler true id = Some (text ".storage/identity/remote_" ++ id).
Proof.
  intros id H. unfold RekeyHandler. rewrite (proj2 (forallb_forall _ id)); [reflexivity|].
  intros c I. specialize (H c I). cbn in H. unfold digit10. lia.
Qed.
Theorem C157_only_digits : forall d id f c, RekeyHandler d id = Some f -> In c id -> In c (text "0123456789").
Proof.
  intros d id f c H I. unfold RekeyHandler in H. destruct d; [|discriminate]. cbn [andb] in H.
  destruct (forallb digit10 id) eqn:E; [|discriminate]. rewrite forallb_forall in E. specialize (E c I). unfold digit10 in E.
  change (In c [48; 49; 50; 51; 52; 53; 54; 55; 56; 57]). cbn [In]. lia.
Qed.
Print Assumptions C157_file.
Print Assumptions C157_only_digits.

(* ---- C140: the header (RFC 7617) ---- *)
Theorem C140_header : forall u p, basicAuth u p = text "Basic " ++ enc64 (u ++ text ":" ++ p).
Proof. reflexivity. Qed.
Print Assumptions C140_header.

(* ---- C175: the fields of the answer of the helper (crayfish/messages.go 20-23) ---- *)
Theorem C175_answer : forall u b, Forall isbyte u -> length u = 16%nat ->
  dec_verify (JObj [(text "uuid", JArr (map JNum u)); (text "storage_capable", JBool b)]) = Ok u /\
  dec_verify (JObj [(text "storage_capable", JBool b); (text "uuid", JArr (map JNum u))]) = Ok u /\
  dec_verify (JObj [(text "uuid", JArr (map JNum u)); (text "storage_capable", JStr [])]) = Err EOther.
Proof.
  intros u b W L.
  assert (E : forall n v, Forall isbyte v -> length v = n -> dec_array n (map JNum v) = Ok v).
  { induction n as [|n IH]; intros [|x v] Wv Lv; cbn [length] in Lv; try discriminate; [reflexivity|].
    cbn [map dec_array]. inversion Wv as [|? ? Hx Hv]; subst. unfold isbyte in Hx. unfold dec_u8.
    destruct ((0 <=? x) && (x <? 256)) eqn:B; [|exfalso; lia]. cbn [bind]. rewrite IH; [reflexivity|exact Hv|lia]. }
  specialize (E _ u W L).
  split; [|split]; unfold dec_verify.
  - change (member n_uuid _) with (Some (JArr (map JNum u))). cbv iota beta. rewrite E. reflexivity.
  - change (member n_uuid _) with (Some (JArr (map JNum u))). cbv iota beta. rewrite E. reflexivity.
  - change (member n_uuid _) with (Some (JArr (map JNum u))). cbv iota beta. rewrite E. reflexivity.
Qed.
(* an answer without an identifier counts as one with sixteen zeros *)
Theorem C175_no_answer : dec_verify JNull = Ok (repeat 0 16) /\ dec_verify (JObj []) = Ok (repeat 0 16).
Proof. split; reflexivity. Qed.
Print Assumptions C175_answer.

(* ---- C79: all fields of a profile ---- *)
Theorem C79_fields : forall G key i n a e i' n' a' e', key <> [] ->
  dec64 i = Ok i' -> n <> [] -> decryptString G key n = Ok n' -> a <> [] -> decryptString G key a = Ok a' ->
  e <> [] -> decryptString G key e = Ok e' ->
  let j := Profile.mkJ (Some i) (Some n) (Some a) (Some e) in
  GetProfile G key (Ok j) (fun _ => Ok (Profile.mkJ None None None None)) = Ok (mkProfile i' n' a' e') /\
  GetProfileAndCredential_profile G key (Ok j) = Ok (mkProfile i' n' a' e').
Proof.
  intros G key i n a e i' n' a' e' K Hi Nn Hn Na Ha Ne He. cbv zeta.
  assert (D : decryptProfile G key (unmarshal_profile (Profile.mkJ (Some i) (Some n) (Some a) (Some e)) no_profile) =
              (mkProfile i' n' a' e', Ok tt)).
  { destruct key as [|k0 key]; [now elim K|]. destruct n as [|n0 n]; [now elim Nn|]. destruct a as [|a0 a]; [now elim Na|].
    destruct e as [|e0 e]; [now elim Ne|].
    cbv beta iota zeta delta [decryptProfile unmarshal_profile over j_identity j_name j_about j_emoji pf_identity pf_name pf_about
      pf_emoji nonempty]. rewrite Hn. cbv iota. rewrite Ha. cbv iota. rewrite He. cbv iota. rewrite Hi. reflexivity. }
  split.
  - unfold GetProfile. cbn [bind]. rewrite D. reflexivity.
  - unfold GetProfileAndCredential_profile. cbn [bind]. rewrite D. reflexivity.
Qed.
(* what the second answer does not mention stays *)
Theorem C79_unmentioned : forall G key i n a e p,
  GetProfile G key (Ok (Profile.mkJ (Some i) (Some n) (Some a) (Some e))) (fun _ => Ok (Profile.mkJ None None None None)) = Ok p ->
  dec64 i = Err EBadFormat -> decryptString G key n = Err EBadFormat -> n <> [] -> p = mkProfile i n a e.
Proof.
  intros G key i n a e p H Hi Hn Nn. unfold GetProfile in H. cbn [bind] in H.
  destruct key as [|k0 key]; [injection H as <-; reflexivity|]. destruct n as [|n0 n]; [now elim Nn|].
  cbv beta iota zeta delta [decryptProfile unmarshal_profile over j_identity j_name j_about j_emoji pf_identity pf_name pf_about
      pf_emoji nonempty] in H. rewrite Hn in H. cbn [bind] in H. injection H as <-. reflexivity.
Qed.
Print Assumptions C79_fields.
Print Assumptions C79_unmentioned.

(* ---- C87: a group whose members are not known: they are asked for, under the id of the group ---- *)
(* what is kept afterwards: the file of the group is gone, the others stay; the running client still has the group,
   and has the other groups as the files say *)
Lemma setup_find dir k fs : forall t, (forall g, In (k, g) fs -> False) ->
  GroupsV1.gfind k (fold_left (fun t kg => if contains avatar_text (idToPath dir (fst kg)) then t else GroupsV1.gput (fst kg) (snd kg) t) fs t) = GroupsV1.gfind k t.
Proof.
  induction fs as [|[j g] fs IH]; intros t H; [reflexivity|]. cbn [fold_left fst snd]. rewrite IH by (intros h Hh; apply (H h); now right).
  destruct (contains avatar_text (idToPath dir j)); [reflexivity|]. rewrite PropGroupsV1.gfind_put. destruct (beq k j) eqn:E; [|reflexivity].
  apply beq_eq in E. subst j. exfalso. apply (H g). now left.
Qed.
Lemma gdel_out k t : forall g, In (k, g) (GroupsV1.gdel k t) -> False.
Proof.
  induction t as [|[j h] t IH]; intros g H; cbn [GroupsV1.gdel] in H; [destruct H|].
  destruct (beq k j) eqn:E; [exact (IH g H)|]. destruct H as [H|H]; [|exact (IH g H)]. injection H as -> _. rewrite beq_refl in E. discriminate.
Qed.
Theorem C87_no_members : forall dir tel cs out v2 k msg s g, GroupsV1.gfind k (GroupsV1.gs_map s) = Some g -> GroupsV1.g_members g = [] ->
  exists s', sendGroupHelper dir tel cs out v2 k msg s = (s', Err EOther, [GroupsV1.mkGm tel (GroupsV1.g_id g) SayRequest]) /\
    GroupsV1.gfind k (GroupsV1.gs_files s') = None /\ (forall j, j <> k -> GroupsV1.gfind j (GroupsV1.gs_files s') = GroupsV1.gfind j (GroupsV1.gs_files s)) /\
    GroupsV1.gfind k (GroupsV1.gs_map s') = Some g /\
    (forall j, (forall h, ~ In (j, h) (GroupsV1.gs_files s)) -> GroupsV1.gfind j (GroupsV1.gs_map s') = GroupsV1.gfind j (GroupsV1.gs_map s)).
Proof.
  intros dir tel cs out v2 k msg s g F M. unfold sendGroupHelper. rewrite F, M.
  eexists. split; [f_equal; unfold request_empty; cbn [sendall]; destruct (out 0%nat); reflexivity|].
  unfold setupGroups. cbn [GroupsV1.gs_files GroupsV1.gs_map]. split; [rewrite PropGroupsV1.gfind_del, beq_refl; reflexivity|].
  split. { intros j N. rewrite PropGroupsV1.gfind_del. destruct (beq j k) eqn:E; [apply beq_eq in E; contradiction|reflexivity]. }
  split; [rewrite setup_find; [exact F|apply gdel_out]|].
  intros j N. apply setup_find. intros h Hh. apply PropGroupsV1.in_gdel in Hh. exact (N h Hh).
Qed.
Print Assumptions C87_no_members.
Theorem C90_skipped : avatar_text = text "avatar".
Proof. reflexivity. Qed.

(* ---- C77, C55: where an attachment is fetched, and the size that is told ---- *)
Theorem C77_where : forall id key cdn, 0 < id ->
  getAttachmentLocation id key cdn = (if cdn =? 2 then text "https://cdn2.signal.org" else text "https://cdn.signal.org") ++
    text "/attachments/" ++ udec id /\
  getAttachmentLocation 0 key cdn = (if cdn =? 2 then text "https://cdn2.signal.org" else text "https://cdn.signal.org") ++
    text "/attachments/" ++ key.
Proof.
  intros id key cdn H. unfold getAttachmentLocation. destruct (Z.eqb_spec id 0) as [->|]; [lia|]. split; reflexivity.
Qed.
Theorem C55_size : forall C sha sv keys iv b ct voice p r,
  uploadAttachmentV3 C sha sv keys iv b ct voice = Ok (p, r) ->
  pt_size p = zlen b - 4294967296 * (zlen b / 4294967296).
Proof.
  intros C sha sv keys iv b ct voice p [loc m] U. unfold uploadAttachmentV3 in U.
  destruct (aesEncrypt C (firstn 32 keys) iv b) as [x| |]; cbn [bind] in U; try discriminate.
  destruct (allocateAttachmentV3 sv) as [[l a]| |]; cbn [bind] in U; try discriminate.
  destruct (putAttachmentV3 sha sv l _) as [d| |]; cbn [bind] in U; try discriminate.
  injection U as <- _ _. cbn [pt_size]. change (2 ^ 32) with 4294967296. apply Z.mod_eq. lia.
Qed.
Print Assumptions C77_where.
Print Assumptions C55_size.

(* ---- C85: the nonce of a signature is the hash of XEdDSA, whose prefix is the little-endian number 2^256 - 2 ---- *)
Lemma upd_first f (l : bytes) : length l = 64%nat -> firstn 32 (upd 63 f l) = firstn 32 l.
Proof.
  intros L. unfold upd. rewrite firstn_app, firstn_firstn, firstn_length, L. change (32 - Nat.min 63 64)%nat with 0%nat.
  rewrite firstn_O. apply app_nil_r.
Qed.
Theorem C85_nonce : forall E priv msg random, edwards_ok E -> wfb priv -> length priv = 32%nat ->
  firstn 32 (Sign E priv msg random) =
  penc E (smul E (le_dec (sha512 E (le_enc 32 (2 ^ 256 - 2) ++ priv ++ msg ++ random)) mod ordL E) (base E)).
Proof.
  intros E priv msg random OK _ _. unfold Sign. change (le_enc 32 (2 ^ 256 - 2)) with sign_div.
  set (R := penc E (smul E (le_dec (sha512 E (sign_div ++ priv ++ msg ++ random)) mod ordL E) (base E))).
  assert (L : length R = 32%nat) by apply (penc_length E OK). rewrite upd_first by (rewrite app_length, le_enc_length; lia).
  rewrite firstn_app, L, firstn_all2 by lia. cbn [Nat.sub firstn]. apply app_nil_r.
Qed.
Print Assumptions C85_nonce.

(* ---- C72, C40: the words the application is given ---- *)
Definition when (b : bool) (s : string) : bytes := if b then text s else [].
Theorem C72_words : forall src uuid ts c, handleCallMessage src uuid ts c =
  (Ok tt, [ACall (HMessage (mkMsg src uuid (text "Call " ++ when (cl_answer c) "answer" ++ when (cl_offer c) "offer" ++
     when (cl_hangup c) "hangup" ++ when (cl_busy c) "busy" ++ when (cl_legacy c) "hangup" ++ when (cl_ice c) "ring") [] None 0 0 None ts None [] None None))]).
Proof. intros src uuid ts [a o h b l i]. destruct a, o, h, b, l, i; reflexivity. Qed.
(* the kinds of call on the wire: field 3 of the content, and in it 1 offer, 2 answer, 3 ICE, 4 hangup of old
   clients, 5 busy, 7 hangup (protobuf/signalservice.proto, CallMessage) *)
Definition call_shown (src uuid : bytes) (ts : Z) (s : string) : res unit * list Receiving.act :=
  (Ok tt, [ACall (HMessage (mkMsg src uuid (text s) [] None 0 0 None ts None [] None None))]).
Theorem C72_numbers : forall C ou src uuid ts,
  handleMessage C ou src uuid ts [26; 2; 10; 0] = call_shown src uuid ts "Call offer" /\
  handleMessage C ou src uuid ts [26; 2; 18; 0] = call_shown src uuid ts "Call answer" /\
  handleMessage C ou src uuid ts [26; 2; 26; 0] = call_shown src uuid ts "Call ring" /\
  handleMessage C ou src uuid ts [26; 2; 34; 0] = call_shown src uuid ts "Call hangup" /\
  handleMessage C ou src uuid ts [26; 2; 42; 0] = call_shown src uuid ts "Call busy" /\
  handleMessage C ou src uuid ts [26; 2; 58; 0] = call_shown src uuid ts "Call hangup".
Proof. intros. repeat split; vm_compute; reflexivity. Qed.
Print Assumptions C72_numbers.

(* ---- C39, C69: the types of envelopes that are known; any other one ends the process ---- *)
Theorem C69_types : forall C ou st rnd rnd2 t, 0 <= t < 128 -> ~ In t [1; 3; 6] ->
  fst (handleReceivedMessage C ou st rnd rnd2 (createEnvelope [8; t])) =
  if t =? 5 then Ok tt else if existsb (Z.eqb t) [0; 2; 8] then Err EOther else Panic.
Proof.
  intros C ou st rnd rnd2 t H N.
  assert (X : forall n, (n < 128)%nat -> createEnvelope [8; Z.of_nat n] =
    Some (mkEnv (if existsb (Z.eqb (Z.of_nat n)) [0; 1; 2; 3; 5; 6; 8] then Some (Z.of_nat n) else None) None None None None None None)).
  { intros n Hn. do 128 (destruct n as [|n]; [vm_compute; reflexivity|]). exfalso. lia. }
  specialize (X (Z.to_nat t) ltac:(lia)). rewrite Z2Nat.id in X by lia. rewrite X. unfold handleReceivedMessage. cbn [e_type].
  cbn [existsb]. cbn [In] in N. unfold handleReceipt.
  destruct (Z.eqb_spec t 0) as [->|N0]; [reflexivity|]. destruct (Z.eqb_spec t 1); [lia|]. destruct (Z.eqb_spec t 2) as [->|N2]; [reflexivity|].
  destruct (Z.eqb_spec t 3); [lia|]. destruct (Z.eqb_spec t 5) as [->|N5]; [reflexivity|]. destruct (Z.eqb_spec t 6); [lia|].
  destruct (Z.eqb_spec t 8) as [->|N8]; reflexivity.
Qed.
Print Assumptions C69_types.
Theorem C40_words : forall src uuid ts t0 more,
  handleReceiptMessage src uuid (mkReceipt (Some 0) (t0 :: more)) =
    (Ok tt, [ACall (HReceiptMessage (mkMsg src uuid (text "deliveryReceiptMessage") [] None 0 0 None t0 None [] None None))]) /\
  handleReceiptMessage src uuid (mkReceipt (Some 1) (t0 :: more)) =
    (Ok tt, [ACall (HReceiptMessage (mkMsg src uuid (text "readReceiptMessage") [] None 0 0 None t0 None [] None None))]) /\
  handleReceiptMessage src uuid (mkReceipt (Some 2) (t0 :: more)) =
    (Ok tt, [ACall (HReceiptMessage (mkMsg src uuid (text "sentReceiptMessage") [] None 0 0 None t0 None [] None None))]) /\
  handleTypingMessage src uuid ts = (Ok tt, [ACall (HTyping (mkMsg src uuid (text "typingMessage") [] None 0 0 None ts None [] None None))]).
Proof. intros. repeat split. Qed.
Print Assumptions C72_words.

(* ---- C119: the key of the message to a new device ---- *)
Theorem C119_info : provisioning_info = text "TextSecure Provisioning Message".
Proof. reflexivity. Qed.

(* ---- C26, C28, C109: the files of the store (store.go 183-256, 371-390) ---- *)
Theorem C26_names : forall rid,
  regidPath = (DIdentity, text "regid") /\ identPath = (DIdentity, text "identity_key") /\
  remotePath rid = (DIdentity, text "remote_" ++ rid) /\
  passPath = (DIdentity, text "http_password") /\ sigPath = (DIdentity, text "http_signaling_key").
Proof. intros rid. repeat split. Qed.

(* ---- C111: no credential is asked for without an account ---- *)
Theorem C111_no_account : forall i key, getCredential i (text "00000000-0000-0000-0000-000000000000") key = Err EOther /\
  getCredential i [] key = Err EOther.
Proof. intros i key. unfold getCredential. destruct (length key =? 0)%nat; split; reflexivity. Qed.
(* ---- C108: the statuses that count as success (transport.go 66-68) ---- *)
Theorem C108_statuses : forall st, is_error st = false <-> 200 <= st <= 299.
Proof. intros st. unfold is_error. lia. Qed.
Print Assumptions C111_no_account.
Print Assumptions C108_statuses.

(* ---- C51: what is skipped and what is refused in base64 ---- *)
Definition alphabet64 : bytes := text "ABCDEFGHIJKLMNOPQRSTUVWXYZabcdefghijklmnopqrstuvwxyz0123456789+/=".
Lemma d64_in c v : d64 c = Some v -> In c alphabet64.
Proof.
  unfold d64. intros H.
  assert (X : 65 <= c <= 90 \/ 97 <= c <= 122 \/ 48 <= c <= 57 \/ c = 43 \/ c = 47).
  { repeat match type of H with (if ?b then _ else _) = _ => destruct b eqn:?; [lia|] end. discriminate. }
  unfold alphabet64. assert (Y : existsb (Z.eqb c) alphabet64 = true).
  { assert (Z : forallb (fun c => existsb (Z.eqb c) alphabet64)
       (map Z.of_nat (seq 65 26 ++ seq 97 26 ++ seq 48 10 ++ [43; 47]%nat)) = true) by (vm_compute; reflexivity).
    rewrite forallb_forall in Z. apply Z. apply in_map_iff. exists (Z.to_nat c). split; [lia|].
    repeat rewrite in_app_iff. repeat rewrite in_seq. cbn [In]. lia. }
  apply existsb_exists in Y as (y & I & E). apply Z.eqb_eq in E. subst. exact I.
Qed.
Theorem C51_alphabet : forall s b c, dec64 s = Ok b -> In c s -> In c alphabet64 \/ c = 10 \/ c = 13.
Proof.
  intros s b c H I. destruct (is_newline c) eqn:N; [unfold is_newline in N; right; lia|]. left.
  assert (J : In c (filter (fun c => negb (is_newline c)) s)) by (apply filter_In; rewrite N; auto).
  unfold dec64 in H. clear I N. revert b H J. generalize (filter (fun c => negb (is_newline c)) s). clear s.
  assert (G : forall n s b, (length s <= n)%nat -> dec64_quanta s = Ok b -> In c s -> In c alphabet64).
  { assert (P61 : In 61 alphabet64) by (apply in_or_app with (l := firstn 64 alphabet64) (m := [61]); right; now left).
    induction n as [|n IH]; intros s b L H I.
    - destruct s; [destruct I|cbn in L; lia].
    - destruct s as [|x1 [|x2 [|x3 [|x4 t]]]]; try (cbn [dec64_quanta] in H; discriminate); [destruct I|].
      cbn [dec64_quanta] in H. destruct (d64 x1) as [v1|] eqn:D1; [|discriminate]. destruct (d64 x2) as [v2|] eqn:D2; [|discriminate].
      apply d64_in in D1. apply d64_in in D2.
      destruct (Z.eqb_spec x3 61) as [->|].
      + destruct (Z.eqb_spec x4 61) as [->|]; cbn [andb] in H; [|discriminate]. destruct t; [|discriminate].
        cbn [In] in I. intuition (subst; auto).
      + destruct (d64 x3) as [v3|] eqn:D3; [|discriminate]. apply d64_in in D3. destruct (Z.eqb_spec x4 61) as [->|].
        * destruct t; [|discriminate]. cbn [In] in I. intuition (subst; auto).
        * destruct (d64 x4) as [v4|] eqn:D4; [|discriminate]. apply d64_in in D4.
          destruct (dec64_quanta t) as [r| |] eqn:Q; cbn [bind] in H; try discriminate.
          destruct I as [<-|[<-|[<-|[<-|I]]]]; auto. eapply IH; [|exact Q|exact I]. cbn [length] in L. lia. }
  intros s b H I. exact (G _ s b (le_n _) H I).
Qed.
Print Assumptions C51_alphabet.

(* ---- C57: a number written in groups of digits, each perhaps in parentheses and followed by one of - . \ / or a space,
   is asked for ---- *)
Definition is_group (s : bytes) : Prop := exists o d c e, s = o ++ d ++ c ++ e /\
  (o = [] \/ o = text "(") /\ (c = [] \/ c = text ")") /\ d <> [] /\ (forall x, In x d -> In x (text "0123456789")) /\
  (e = [] \/ exists x, In x (text "-. \/") /\ e = [x]).
Lemma digit_range x : In x (text "0123456789") -> 48 <= x <= 57.
Proof. change (In x [48; 49; 50; 51; 52; 53; 54; 55; 56; 57] -> 48 <= x <= 57). cbn [In]. lia. Qed.
Lemma group_matches s : is_group s -> lang r_group s.
Proof.
  intros (o & d & c & e & -> & O & Cl & D0 & D & E). unfold r_group. apply LCat.
  { destruct O as [->| ->]; [apply LAltR; constructor|apply LAltL; constructor; reflexivity]. }
  apply LCat.
  { destruct d as [|x d]; [now elim D0|]. unfold plus. change (x :: d) with ([x] ++ d).
    apply LCat; [constructor; cbn [in_cls existsb fst snd]; specialize (D x (or_introl eq_refl)); apply digit_range in D; lia|].
    apply star_digits. apply Forall_forall. intros y I. apply digit_range. apply D. now right. }
  apply LCat.
  { destruct Cl as [->| ->]; [apply LAltR; constructor|apply LAltL; constructor; reflexivity]. }
  destruct E as [->|(x & I & ->)]; [apply LAltR; constructor|apply LAltL; constructor].
  change (In x [45; 46; 32; 92; 47]) in I. cbn [in_cls existsb fst snd]. cbn [In] in I. lia.
Qed.
Theorem C57_written_numbers : forall l c, l <> [] -> Forall is_group l -> p_tel c = concat l -> tokens_of [] [c] = [p_tel c].
Proof.
  intros l c N F T.
  assert (NE : beq (p_tel c) [] = false).
  { destruct l as [|s l]; [now elim N|]. inversion F as [|? ? (o & d & cl & e & -> & _ & _ & D0 & _) _]; subst.
    rewrite T. cbn [concat]. destruct o; [|reflexivity]. destruct d; [now elim D0|reflexivity]. }
  assert (M : rmatch phone_re (p_tel c) = true).
  { apply rmatch_ok. rewrite T. unfold phone_re. change (concat l) with ([] ++ concat l). apply LCat; [apply LAltR; constructor|].
    rewrite <- (app_nil_r (concat l)). apply LCat; [|apply LAltR; constructor]. clear T N NE.
    induction F as [|s l G _ IH]; [constructor|]. cbn [concat]. apply LStarS; [apply group_matches; exact G|exact IH]. }
  cbn [tokens_of]. rewrite NE, M. reflexivity.
Qed.
Print Assumptions C57_written_numbers.
Example C57_written_example : Forall is_group [text "(030)"; text "123-"; text "45 "; text "6"].
Proof.
  repeat apply Forall_cons; [exists (text "("), (text "030"), (text ")"), []|exists [], (text "123"), [], (text "-")
    |exists [], (text "45"), [], (text " ")|exists [], (text "6"), [], []|constructor];
  (split; [reflexivity|]; split; [auto|]; split; [auto|]; split; [discriminate|]; split;
    [cbn; intuition|]); auto; right; eexists; (split; [|reflexivity]); cbn; intuition.
Qed.

(* and nothing that has any other character than these is asked for *)
Fixpoint classes (a : re) : list (Z * Z) :=
  match a with Emp | Eps => [] | Cls c => c | Cat a b | Alt a b => classes a ++ classes b | Star a => classes a end.
Lemma lang_classes a s : lang a s -> forall x, In x s -> exists lo hi, In (lo, hi) (classes a) /\ lo <= x <= hi.
Proof.
  induction 1 as [|c y H|a b s t _ IA _ IB|a b s _ IA|a b s _ IB|a|a s t _ IA _ IB]; intros x X; cbn [classes] in *.
  - destruct X.
  - destruct X as [<-|[]]. unfold in_cls in H. apply existsb_exists in H as ([lo hi] & I1 & I2). cbn [fst snd] in I2. exists lo, hi. split; [exact I1|lia].
  - apply in_app_or in X as [X|X]; [destruct (IA x X) as (lo & hi & I1 & I2)|destruct (IB x X) as (lo & hi & I1 & I2)]; exists lo, hi; (split; [apply in_or_app; auto|exact I2]).
  - destruct (IA x X) as (lo & hi & I1 & I2). exists lo, hi. split; [apply in_or_app; auto|exact I2].
  - destruct (IB x X) as (lo & hi & I1 & I2). exists lo, hi. split; [apply in_or_app; auto|exact I2].
  - destruct X.
  - apply in_app_or in X as [X|X]; [exact (IA x X)|exact (IB x X)].
Qed.
Theorem C57_only_numbers : forall local t x, In t (tokens_of [] local) -> In x t -> In x (text "0123456789+()-. \/#extnsio").
Proof.
  intros local t x T X.
  assert (M : rmatch phone_re t = true).
  { revert T. generalize (@nil bytes) as seen. induction local as [|c r IH]; intros seen T; [destruct T|]. cbn [tokens_of] in T.
    destruct (negb (beq (p_tel c) []) && rmatch phone_re (p_tel c) && negb (memb (p_tel c) seen)) eqn:E; [|exact (IH _ T)].
    destruct T as [<-|T]; [|exact (IH _ T)]. apply andb_prop in E as [E _]. now apply andb_prop in E as [_ E]. }
  apply rmatch_ok in M. destruct (lang_classes _ _ M x X) as (lo & hi & I1 & I2).
  change (In x [48;49;50;51;52;53;54;55;56;57;43;40;41;45;46;32;92;47;35;101;120;116;110;115;105;111]).
  let l := eval vm_compute in (classes phone_re) in change (In (lo, hi) l) in I1. cbn [In] in I1. cbn [In].
  repeat (destruct I1 as [I1|I1]; [injection I1 as <- <-; lia|]). destruct I1.
Qed.
Print Assumptions C57_only_numbers.

(* ---- C28: a number that does not fit into 32 bits is cut down (store.go 141-151) ---- *)
Theorem C28_cut_down : forall C cf fs p v, readFile C cf fs p = Ok (itoa v) -> 0 <= v < 2 ^ 63 ->
  readNum C cf fs p = Ok (v mod 2 ^ 32).
Proof. intros C cf fs p v R H. unfold readNum. rewrite R. cbn [bind]. rewrite atoi_itoa by lia. reflexivity. Qed.
Print Assumptions C28_cut_down.

(* ---- C105, C102, C98, C96: what is kept of a group ---- *)
Theorem C105_numbers : J_MEMBER = 0 /\ J_INVITE = 1.
Proof. split; reflexivity. Qed.
Lemma find_put2 k g t : find2 k (put2 k g t) = Some g.
Proof. induction t as [|[k' g'] t IH]; cbn [put2 find2]; [rewrite beq_refl; reflexivity|].
  destruct (beq k k') eqn:E; cbn [find2]; [rewrite beq_refl; reflexivity|rewrite E; exact IH]. Qed.
Theorem C102_update_keeps : forall z me a w key s s' g, find2 (hex key) (s2_map s) = Some g ->
  UpdateGroupFromServer z me a w key s = (s', Ok tt) ->
  exists g', find2 (hex key) (s2_map s') = Some g' /\ g2_key g' = g2_key g /\ g2_act g' = g2_act g /\ g2_rev g' = g2_rev g.
Proof.
  intros z me a w key s s' g F U. unfold UpdateGroupFromServer in U. rewrite F in U.
  destruct (query z (g2_key g) a) as [e| |]; try discriminate.
  destruct (decryptGroupFromServer z me e g) as [g' ok] eqn:D. destruct ok; [|discriminate].
  assert (X : find2 (hex key) (s2_map s') = Some g').
  { injection U as <-. unfold saveGroupV2. cbn [s2_map]. rewrite find_put2. destruct w; cbn [s2_map]; apply find_put2. }
  exists g'. split; [exact X|]. unfold decryptGroupFromServer in D.
  assert (E : g' = fst (decryptGroupFromServer z me e g)) by (unfold decryptGroupFromServer; now rewrite D).
  rewrite E. unfold decryptGroupFromServer. cbn [fst]. unfold CheckJoinStatus. cbn [g2_dec g2_key g2_ctx].
  destruct (decryptGroup z (g2_key g) e); [now repeat split|]. destruct (listed _ _ _ _); now repeat split.
Qed.
Print Assumptions C102_update_keeps.
Theorem C98_invited : forall z key a d i p m, decryptActions z key a = Some d ->
  nth_error (ea_invite a) i = Some p -> ep_member p = Some m ->
  exists q, nth_error (dc_invited d) i = Some q /\ dp_role q = e_role m /\ dp_time q = ep_time p /\ dp_cipher q = e_uid m /\
    (forall u, zk_uuid z key (e_uid m) = Some u -> dp_uuid q = u) /\
    (forall u, zk_uuid z key (ep_by p) = Some u -> dp_by q = u).
Proof.
  intros z key a d i p m D N M. unfold decryptActions in D. destruct (zk_params z key); [|discriminate]. cbn [negb] in D.
  injection D as <-. cbn [dc_invited]. exists (decryptPending z key p). split; [now apply map_nth_error|].
  unfold decryptPending. rewrite M. cbn [dp_role dp_time dp_cipher dp_uuid dp_by].
  repeat split; intros u ->; reflexivity.
Qed.
Print Assumptions C98_invited.
Theorem C96_what_is_left : forall z me src c e a2 w0 w1 w2 s key,
  gc_master c = Some key -> (gc_change c = None \/ gc_change c = Some []) -> find2 (hex key) (s2_files s) = None ->
  exists s', HandleGroupsV2 z me src c (Refused e) a2 w0 w1 w2 s = (s', Panic) /\
    find2 (hex key) (s2_map s') = Some (mkGr2 key (mkEg [] [] None 0 [] []) None None 0 (match gc_rev c with Some r => r | None => 0 end)).
Proof.
  intros z me src c e a2 w0 w1 w2 s key K Ch F. unfold HandleGroupsV2. rewrite K. cbn [orempty]. unfold loadGroupV2. rewrite F.
  cbv iota beta zeta. set (g := g2_new key _). set (n := saveGroupV2 w0 (hex key) _).
  assert (Fn : find2 (hex key) (s2_map n) = Some g).
  { unfold n, saveGroupV2. cbn [s2_map]. rewrite find_put2. destruct w0; cbn [s2_map]; apply find_put2. }
  assert (U : fst (UpdateGroupFromServer z me (Refused e) w1 key n) = n).
  { unfold UpdateGroupFromServer. unfold query. destruct (negb _); reflexivity. }
  rewrite U, Fn.
  assert (X : is_nil (orempty (gc_change c)) = true) by (destruct Ch as [-> | ->]; reflexivity).
  rewrite X. cbn [negb g2_dec g g2_new]. exists n. split; [reflexivity|exact Fn].
Qed.
Print Assumptions C96_what_is_left.

(* ---- C41: whatever is received, also an end of session, leaves the own keys, the registration id and the signed
   prekeys as they are, and no identity key that is saved for a peer is lost ---- *)
Lemma acts_keep l : forall st, let w := rs_w st in let w' := rs_w (apply_acts st l) in
  w_ident w' = w_ident w /\ w_reg w' = w_reg w /\ w_spk w' = w_spk w /\
  (forall rid, w_ids w rid <> None -> w_ids w' rid <> None) /\ (forall id kp, w_pre w' id = Some kp -> w_pre w id = Some kp).
Proof.
  induction l as [|a l IH]; intros st; [cbn; auto|]. cbv zeta. change (apply_acts st (a :: l)) with (apply_acts (apply_act st a) l).
  destruct (IH (apply_act st a)) as (-> & -> & -> & H1 & H2).
  destruct a as [e|rid|u k|h]; cbn [apply_act rs_w] in *; try (now auto).
  destruct e as [r d c p|i|r k]; cbn [apply_eff set_sess set_pre set_id w_ident w_reg w_spk w_ids w_pre] in *; (split; [reflexivity|]);
    (split; [reflexivity|]); (split; [reflexivity|]); (split; [|try assumption]); try assumption.
  - intros id kp H. specialize (H2 _ _ H). destruct (id =? i); [discriminate H2|exact H2].
  - intros rid H. apply H1. destruct (beq rid r); [discriminate|exact H].
Qed.
Theorem C41_keys_stay : forall C ou st rnd rnd2 e r l, handleReceivedMessage C ou st rnd rnd2 e = (r, l) ->
  let w := rs_w st in let w' := rs_w (apply_acts st l) in
  w_ident w' = w_ident w /\ w_reg w' = w_reg w /\ w_spk w' = w_spk w /\
  (forall rid, w_ids w rid <> None -> w_ids w' rid <> None) /\ (forall id kp, w_pre w' id = Some kp -> w_pre w id = Some kp).
Proof. intros C ou st rnd rnd2 e r l _. apply acts_keep. Qed.
Print Assumptions C41_keys_stay.

(* ---- C35: the name of a voice note ---- *)
Theorem C35_voice_name : forall pk now o p a, o_att o = Some p -> d_atts (createMessage pk now o) = [a] ->
  ap_name a = Some (if pt_voice p then text "voice.mp3" else []).
Proof. intros pk now o p a H. unfold createMessage. rewrite H. cbn [d_atts]. intros E. injection E as <-. reflexivity. Qed.
Print Assumptions C35_voice_name.

(* ---- C154, C158: whatever the gateway calls a success was handed to the library and sent, also when the file of an
   upload has gone from /tmp in the meantime ---- *)
Theorem C154_success_is_sent : forall out removable to body file t t' h, GatewaySend out removable to body file t = (t', h, true) ->
  exists x, h = Some x /\ (exists u, out x = Ok u) /\ h_to x = to /\ h_text x = body.
Proof.
  intros out removable to body file t t' h H. unfold GatewaySend in H.
  assert (G : forall (x : handed) b, b = true -> b = match out x with Ok _ => true | _ => false end -> exists u, out x = Ok u)
    by (intros x b -> E; destruct (out x) as [u| |]; [now exists u|discriminate E..]).
  destruct file as [n|]; [destruct (tread n t); [|discriminate H]|]; injection H as _ <- E; eexists;
    (split; [reflexivity|]); (split; [|split; reflexivity]); exact (G _ _ eq_refl (eq_sym E)).
Qed.
Print Assumptions C154_success_is_sent.
Theorem C158_success_is_sent : forall out body to h, JSONHandler out body to = Ok (h, true) ->
  exists x s, body = Some (JText s) /\ h = Some x /\ (exists u, out x = Ok u) /\ h_to x = to /\ h_text x = s.
Proof.
  intros out body to h H. unfold JSONHandler in H. destruct body as [[| |s|]|]; try discriminate H.
  destruct (GatewaySend out true to s None []) as [[t' h'] ok] eqn:E. injection H as <- ->.
  destruct (C154_success_is_sent _ _ _ _ _ _ _ _ E) as (x & H1 & H2 & H3 & H4). exists x, s. auto.
Qed.
Print Assumptions C158_success_is_sent.

(* ---- C102: an answer of the server of which nothing can be read leaves the status of the user as it was ---- *)
Theorem C102_status_stays : forall z me e g, decryptGroup z (g2_key g) e = None ->
  (exists m, In m (eg_members e) /\ zk_uuid z (g2_key g) (e_uid m) = None) ->
  g2_join (fst (decryptGroupFromServer z me e g)) = g2_join g.
Proof.
  intros z me e g D (m & Hm & Hn). unfold decryptGroupFromServer. rewrite D. cbn [fst]. unfold CheckJoinStatus. cbn [g2_dec g2_key g2_ctx].
  assert (L : Groups2Store.listed z (g2_key g) me (eg_members e) = None).
  { induction (eg_members e) as [|x l IH]; [destruct Hm|]. cbn [Groups2Store.listed]. destruct (zk_params z (g2_key g)); [|reflexivity]. cbn [negb].
    destruct Hm as [->|Hm]; [now rewrite Hn|]. destruct (zk_uuid z (g2_key g) (e_uid x)); [|reflexivity]. now rewrite (IH Hm). }
  rewrite L. reflexivity.
Qed.
Print Assumptions C102_status_stays.

(* ---- C55: a pointer that names no CDN, or another than the second, is fetched from the first ---- *)
Theorem C55_where : forall a key, ap_id a = Some (inr key) ->
  attachment_location a = text (match ap_cdn a with Some 2 => "https://cdn2.signal.org/attachments/" | _ => "https://cdn.signal.org/attachments/" end) ++ key.
Proof.
  intros a key E. unfold attachment_location. rewrite E. destruct (ap_cdn a) as [c|]; [|reflexivity].
  unfold getAttachmentLocation. destruct (Z.eqb_spec c 2) as [->|N]; [reflexivity|].
  destruct c as [|c|c]; try reflexivity. destruct c as [c|c|]; try reflexivity. destruct c; try reflexivity. now elim N.
Qed.
Print Assumptions C55_where.

(* ---- C106, C98: what is shown of a group besides title and members, and of a change ---- *)
Theorem C106_rest : forall z key e d, decryptGroup z key e = Some d ->
  dg_avatar d = eg_avatar e /\ dg_acc d = eg_acc e /\ dg_rev d = eg_rev e.
Proof.
  intros z key e d. unfold decryptGroup. destruct (negb _); [discriminate|]. destruct (zk_blob z key (eg_title e)); [|discriminate].
  intros [= <-]. split; [reflexivity|]. split; reflexivity.
Qed.
Print Assumptions C106_rest.
Lemma somes_in {A B} (f : A -> option B) l y : In y (somes f l) <-> exists x, In x l /\ f x = Some y.
Proof.
  induction l as [|x l IH]; cbn [somes]; [split; [intros []|intros (x & [] & _)]|].
  destruct (f x) as [y'|] eqn:E.
  - cbn [In]. rewrite IH. split.
    + intros [->|(x' & H1 & H2)]; [exists x; auto|exists x'; auto].
    + intros (x' & [->|H1] & H2); [left; congruence|right; exists x'; auto].
  - rewrite IH. split; [intros (x' & H1 & H2); exists x'; cbn [In]; auto|].
    intros (x' & [->|H1] & H2); [congruence|exists x'; auto].
Qed.
Theorem C98_roles : forall z key a d, decryptActions z key a = Some d -> dc_rev d = ea_rev a /\
  (forall u, In u (dc_del d) <-> exists c, In c (ea_del a) /\ zk_uuid z key c = Some u) /\
  (forall u r, In (u, r) (dc_roles d) <-> exists c, In (c, r) (ea_roles a) /\ zk_uuid z key c = Some u).
Proof.
  intros z key a d. unfold decryptActions. destruct (negb _); [discriminate|]. intros [= <-]. cbn [dc_rev dc_del dc_roles].
  split; [reflexivity|]. split; [intros u; apply somes_in|]. intros u r. rewrite somes_in. split.
  - intros ([c r'] & H1 & H2). cbn [fst snd] in H2. destruct (zk_uuid z key c) as [u'|] eqn:E; [|discriminate H2].
    injection H2 as <- <-. exists c. auto.
  - intros (c & H1 & H2). exists (c, r). cbn [fst snd]. rewrite H2. auto.
Qed.
Print Assumptions C98_roles.
Lemma update_same_rev z me a w key s k g g' :
  find2 k (s2_map s) = Some g -> find2 k (s2_map (fst (UpdateGroupFromServer z me a w key s))) = Some g' -> g2_rev g' = g2_rev g.
Proof.
  intros F F'. unfold UpdateGroupFromServer in F'.
  set (h := match find2 (hex key) (s2_map s) with Some g => g | None => g2_new key 0 end) in F'.
  destruct (query z (g2_key h) a) as [e|e|]; [|cbn [fst] in F'; congruence|cbn [fst] in F'; congruence].
  assert (K : g2_rev (fst (decryptGroupFromServer z me e h)) = g2_rev h).
  { unfold decryptGroupFromServer. cbn [fst]. unfold CheckJoinStatus. cbn [g2_dec].
    destruct (decryptGroup _ _ _); [reflexivity|]. destruct (Groups2Store.listed _ _ _ _); reflexivity. }
  destruct (decryptGroupFromServer z me e h) as [h' ok]. cbn [fst] in K.
  assert (FP : forall t, find2 k (put2 (hex key) h' t) = Some g' -> find2 k t = Some g -> (beq k (hex key) = true -> g = h) -> g2_rev g' = g2_rev g).
  { intros t. induction t as [|[k' x] t IH]; cbn [put2 find2].
    - intros _ X; discriminate X.
    - destruct (beq (hex key) k') eqn:B.
      + apply beq_eq in B. subst k'. cbn [find2]. destruct (beq k (hex key)); [|congruence]. intros [= <-] [= ->] G. now rewrite (G eq_refl).
      + cbn [find2]. destruct (beq k k') eqn:B2; [congruence|exact IH]. }
  assert (G : beq k (hex key) = true -> g = h).
  { intros B. apply beq_eq in B. subst k. unfold h. now rewrite F. }
  assert (X : find2 k (s2_map (mkSt2 (put2 (hex key) h' (s2_map s)) (s2_files s))) = Some g' -> g2_rev g' = g2_rev g)
    by (intros X; exact (FP _ X F G)).
  destruct ok; cbn [fst] in F'.
  - apply X. unfold saveGroupV2 in F'. cbn [s2_map] in F' |- *. rewrite find_put2 in F'. destruct w; exact F'.
  - destruct (find2 (hex key) (s2_map s)); [exact (X F')|congruence].
Qed.
(* the revision that is kept with a group from the message it was made by is not changed by messages *)
Theorem C98_rev_stays : forall z me src c a1 a2 w0 w1 w2 s s' g0 g,
  find2 (hex (orempty (gc_master c))) (s2_files s) = Some g0 -> HandleGroupsV2 z me src c a1 a2 w0 w1 w2 s = (s', Ok g) -> g2_rev g = g2_rev g0.
Proof.
  intros z me src c a1 a2 w0 w1 w2 s s' g0 g F. unfold HandleGroupsV2. set (k := hex _) in *. unfold loadGroupV2. rewrite F. cbv zeta iota.
  set (s1 := mkSt2 (put2 k g0 (s2_map s)) (s2_files s)). assert (F1 : find2 k (s2_map s1) = Some g0) by apply find_put2.
  set (s2 := if is_nil _ then _ else s1).
  assert (F2 : forall x, find2 k (s2_map s2) = Some x -> g2_rev x = g2_rev g0).
  { intros x. unfold s2. destruct (is_nil _); [apply (update_same_rev _ _ _ _ _ _ _ _ _ F1)|congruence]. }
  clearbody s2. destruct (find2 k (s2_map s2)) as [g1|] eqn:E; [|discriminate]. specialize (F2 _ eq_refl).
  set (s3 := fst (UpdateGroupFromServer z me a2 w2 (g2_key g1) s2)).
  assert (F3 : forall x, find2 k (s2_map s3) = Some x -> g2_rev x = g2_rev g1) by (intros x; apply (update_same_rev _ _ _ _ _ _ _ _ _ E)).
  clearbody s3. destruct (negb (is_nil _)).
  - destruct (pb_change z _) as [acts sig]. destruct (_ && _); [discriminate|].
    destruct (find2 k (s2_map s3)) as [g2|]; [|discriminate]. intros [= _ <-]. cbn [set_act g2_rev]. rewrite (F3 _ eq_refl). exact F2.
  - destruct (g2_dec g1) as [d|]; [|discriminate]. destruct (dg_rev d =? _); [intros [= _ <-]; exact F2|].
    destruct (find2 k (s2_map s3)) as [g2|]; [|discriminate]. intros [= _ <-]. rewrite (F3 _ eq_refl). exact F2.
Qed.
Print Assumptions C98_rev_stays.
