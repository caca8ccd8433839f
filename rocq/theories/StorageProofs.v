(* Facts about the files: round trips, names, and the refinement of the abstract stores by files. *)
From Coq Require Import ZArith List Lia Bool.
From Verif Require Import Bytes Res Wire WireProofs Crypto Cbc CbcProofs Messages MessagesProofs Session Builder
  RecordCodec RecordCodecProofs Decimal Storage.
Import ListNotations.
Open Scope Z_scope.

Lemma dir_eqb_refl d : dir_eqb d d = true. Proof. now destruct d. Qed.
Lemma dir_eqb_eq a b : dir_eqb a b = true <-> a = b.
Proof. destruct a, b; cbn; split; congruence. Qed.
Lemma path_eqb_eq a b : path_eqb a b = true <-> a = b.
Proof.
  unfold path_eqb. destruct a as [d n], b as [e m]. cbn [fst snd]. rewrite andb_true_iff, dir_eqb_eq, beq_eq.
  split; [intros [-> ->]; reflexivity|intros H; injection H as -> ->; auto].
Qed.
Lemma path_eqb_refl a : path_eqb a a = true. Proof. now apply path_eqb_eq. Qed.
Lemma path_eqb_neq a b : a <> b -> path_eqb a b = false.
Proof. intros H. destruct (path_eqb a b) eqn:E; auto. apply path_eqb_eq in E. congruence. Qed.

Lemma read_remove_same fs p : raw_read (raw_remove fs p) p = None.
Proof.
  induction fs as [|[q b] fs IH]; [reflexivity|]. cbn [raw_remove filter fst]. destruct (path_eqb q p) eqn:E; cbn [negb]; auto.
  cbn [raw_read]. now rewrite E.
Qed.
Lemma read_remove_other fs p q : q <> p -> raw_read (raw_remove fs p) q = raw_read fs q.
Proof.
  intros N. induction fs as [|[r b] fs IH]; [reflexivity|]. cbn [raw_remove filter fst raw_read].
  destruct (path_eqb r p) eqn:E; cbn [negb raw_read].
  - apply path_eqb_eq in E. subst. rewrite (path_eqb_neq p q) by congruence. exact IH.
  - destruct (path_eqb r q); auto.
Qed.
Lemma read_write_same fs p b : raw_read (raw_write fs p b) p = Some b.
Proof. cbn [raw_write raw_read]. now rewrite path_eqb_refl. Qed.
Lemma read_write_other fs p b q : q <> p -> raw_read (raw_write fs p b) q = raw_read fs q.
Proof. intros N. cbn [raw_write raw_read]. rewrite path_eqb_neq by congruence. now apply read_remove_other. Qed.

(* ---- names ---- *)
Lemma split_unique (s : Z) a b x y : ~ In s x -> ~ In s y -> a ++ s :: x = b ++ s :: y -> a = b /\ x = y.
Proof.
  revert b. induction a as [|c a IH]; intros [|d b] Hx Hy H; cbn [app] in H.
  - injection H as ->. auto.
  - injection H as -> ->. exfalso. apply Hx. apply in_or_app. right. now left.
  - injection H as -> <-. exfalso. apply Hy. apply in_or_app. right. now left.
  - injection H as -> H. destruct (IH b Hx Hy H) as [-> ->]. auto.
Qed.
Lemma udec_no_underscore v : 0 <= v -> ~ In 95 (udec v).
Proof.
  intros H Hi. pose proof (udec_digits v H) as D. rewrite Forall_forall in D. specialize (D _ Hi). discriminate.
Qed.
Lemma session_name_inj r d r' d' : u32 d -> u32 d' -> session_name r d = session_name r' d' -> r = r' /\ d = d'.
Proof.
  unfold session_name, u32. intros H H' E. apply split_unique in E; try (apply udec_no_underscore; lia).
  destruct E as [-> E]. split; auto. apply udec_inj in E; lia.
Qed.
Lemma sessionPath_inj r d r' d' : u32 d -> u32 d' -> sessionPath r d = sessionPath r' d' -> r = r' /\ d = d'.
Proof. unfold sessionPath. intros H H' E. injection E as E. now apply session_name_inj. Qed.
Lemma remotePath_inj r r' : remotePath r = remotePath r' -> r = r'.
Proof. unfold remotePath. intros E. injection E as E. exact E. Qed.
Lemma preKeyPath_inj i j : u32 i -> u32 j -> preKeyPath i = preKeyPath j -> i = j.
Proof. unfold preKeyPath. intros Hi Hj E. apply (f_equal snd) in E. now apply pad9_inj. Qed.
Lemma signedPath_inj i j : u32 i -> u32 j -> signedPath i = signedPath j -> i = j.
Proof. unfold signedPath. intros Hi Hj E. apply (f_equal snd) in E. now apply pad9_inj. Qed.

Lemma after_underscore_name rid d : 0 <= d -> after_underscore (session_name rid d) = udec d.
Proof.
  intros H. pose proof (udec_no_underscore d H) as N. unfold session_name.
  assert (E0 : existsb (Z.eqb 95) (udec d) = false).
  { destruct (existsb (Z.eqb 95) (udec d)) eqn:E; auto. apply existsb_exists in E. destruct E as (x & Hx & E).
    apply Z.eqb_eq in E. subst. contradiction. }
  induction rid as [|c rid IH]; cbn [app after_underscore].
  - now rewrite E0.
  - assert (E1 : existsb (Z.eqb 95) (rid ++ 95 :: udec d) = true).
    { apply existsb_exists. exists 95. split; [apply in_or_app; right; now left|reflexivity]. }
    now rewrite E1.
Qed.

Lemma insert_name_in n m l : In n (insert_name m l) <-> n = m \/ In n l.
Proof.
  induction l as [|x l IH]; cbn [insert_name].
  - cbn. intuition.
  - destruct (blt x m); cbn [In]; [rewrite IH|]; intuition.
Qed.
Lemma in_names fs d n : In n (names fs d) <-> exists b, In ((d, n), b) fs.
Proof.
  unfold names. split.
  - assert (G : forall l, In n (fold_right insert_name [] l) -> In n l).
    { induction l as [|x l IH]; cbn [fold_right]; auto. rewrite insert_name_in. intros [->|H]; [now left|right; auto]. }
    intros H. apply G in H. apply in_map_iff in H. destruct H as ([[d' n'] b] & E & H). cbn [fst snd] in E. subst.
    apply filter_In in H. destruct H as [H1 H2]. cbn [fst] in H2. apply dir_eqb_eq in H2. subst. eauto.
  - intros (b & H). assert (G : forall l, In n l -> In n (fold_right insert_name [] l)).
    { induction l as [|x l IH]; cbn [fold_right]; [auto|]. rewrite insert_name_in. intros [->|H']; auto. }
    apply G. apply in_map_iff. exists ((d, n), b). split; auto. apply filter_In. split; auto. cbn. apply dir_eqb_refl.
Qed.

Lemma raw_read_in fs p b : raw_read fs p = Some b -> In (p, b) fs.
Proof.
  induction fs as [|[q c] fs IH]; cbn [raw_read]; [discriminate|]. destruct (path_eqb q p) eqn:E.
  - intros H. injection H as ->. apply path_eqb_eq in E. subst. now left.
  - intros H. right. auto.
Qed.

Lemma fold_remove ps fs q : raw_read (fold_left raw_remove ps fs) q = (if existsb (path_eqb q) ps then None else raw_read fs q).
Proof.
  revert fs. induction ps as [|p ps IH]; intros fs; [reflexivity|]. cbn [fold_left existsb]. rewrite IH.
  destruct (path_eqb q p) eqn:E; cbn [orb].
  - apply path_eqb_eq in E. subst. rewrite read_remove_same. now destruct (existsb _ ps).
  - rewrite read_remove_other; auto. intros ->. now rewrite path_eqb_refl in E.
Qed.

(* every file among the sessions was written by StoreSession *)
Definition session_files (fs : files) : Prop :=
  forall n b, In ((DSessions, n), b) fs -> exists rid dev, u32 dev /\ n = session_name rid dev.

Theorem delete_all fs rid : session_files fs ->
  (forall dev, u32 dev -> raw_read (DeleteAllSessions fs rid) (sessionPath rid dev) = None) /\
  (forall q, (forall dev, u32 dev -> q <> sessionPath rid dev) -> raw_read (DeleteAllSessions fs rid) q = raw_read fs q).
Proof.
  intros HS. unfold DeleteAllSessions. set (devs := GetSubDeviceSessions fs rid).
  assert (F : forall l f, fold_left (fun f dev => raw_remove f (sessionPath rid dev)) l f
     = fold_left raw_remove (map (sessionPath rid) l) f).
  { induction l as [|x l IH]; intros f; [reflexivity|]. cbn [fold_left map]. apply IH. }
  assert (U : forall dev, In dev devs -> u32 dev).
  { intros dev H. unfold devs, GetSubDeviceSessions in H. apply in_map_iff in H. destruct H as (n & <- & _). unfold u32.
    destruct (atoi _); [apply Z.mod_pos_bound; lia|lia]. }
  split.
  - intros dev Hd. rewrite F, fold_remove. destruct (existsb _ _) eqn:E; auto.
    destruct (raw_read fs (sessionPath rid dev)) as [b|] eqn:R; auto. exfalso.
    rewrite <- not_true_iff_false in E. apply E. apply existsb_exists. exists (sessionPath rid dev).
    split; [|apply path_eqb_refl]. apply in_map. apply raw_read_in in R. unfold devs, GetSubDeviceSessions.
    apply in_map_iff. exists (session_name rid dev). unfold u32 in Hd. rewrite after_underscore_name, atoi_udec by lia.
    split; [apply Z.mod_small; lia|]. apply in_names. eauto.
  - intros q Hq. rewrite F, fold_remove. destruct (existsb (path_eqb q) (map (sessionPath rid) devs)) eqn:E; auto. exfalso.
    apply existsb_exists in E. destruct E as (p & Hp & E). apply path_eqb_eq in E. subst. apply in_map_iff in Hp.
    destruct Hp as (dev & <- & Hd). now apply (Hq dev (U dev Hd)).
Qed.

(* ---- contents ---- *)
Section P.
Variable C : crypto.
Hypothesis OK : crypto_ok C.
Variable cf : sconf.
Definition conf_ok : Prop := c_plain cf = true \/ aes_key_ok (c_aes cf) = true.
Hypothesis CF : conf_ok.
Definition iv_ok (iv : bytes) : Prop := length iv = 16%nat /\ wfb iv.

Lemma encrypt_total iv pt : iv_ok iv -> exists ct, st_encrypt C cf iv pt = Ok ct.
Proof.
  intros [H1 H2]. unfold st_encrypt. destruct CF as [->|K]; [eauto|]. destruct (c_plain cf); [eauto|].
  unfold aesEncrypt, Encrypt. rewrite K, H1. cbn. eauto.
Qed.
Lemma decrypt_encrypt iv pt ct : wfb pt -> iv_ok iv -> st_encrypt C cf iv pt = Ok ct -> st_decrypt C cf ct = Ok pt.
Proof.
  intros Hp [H1 H2] E. unfold st_encrypt, st_decrypt in *. destruct (c_plain cf); [now injection E as <-|].
  destruct (aesEncrypt C (c_aes cf) iv pt) as [e|x|] eqn:A; cbn [bind] in E; try discriminate. injection E as <-.
  unfold appendMAC. pose proof (hmac_length C OK (c_mac cf) e) as L.
  assert (Z.ltb (zlen (e ++ hmac C (c_mac cf) e)) 32 = false) as ->.
  { apply Z.ltb_ge. rewrite zlen_app. pose proof (zlen_nonneg e). unfold zlen in *. lia. }
  rewrite app_length, L, Nat.add_sub, firstn_app_exact, skipn_app_exact by reflexivity.
  unfold Cbc.verifyMAC. rewrite beq_refl.
  unfold aesEncrypt in A. destruct (Encrypt C (c_aes cf) iv pt) as [c|x|] eqn:B; cbn [bind] in A; try discriminate.
  injection A as <-. unfold aesDecrypt. apply (Decrypt_Encrypt C OK); auto.
Qed.

Lemma readFile_write iv fs p b fs' : wfb b -> iv_ok iv -> writeFile C cf iv fs p b = Ok fs' ->
  readFile C cf fs' p = Ok b /\ (forall q, q <> p -> raw_read fs' q = raw_read fs q) /\ exists_file fs' p = true.
Proof.
  intros Hb Hi E. unfold writeFile in E. destruct (st_encrypt C cf iv b) as [e|x|] eqn:A; cbn [bind] in E; try discriminate.
  injection E as <-. unfold readFile, exists_file. rewrite read_write_same. split; [|split; auto].
  - eapply decrypt_encrypt; eauto.
  - intros q Hq. now apply read_write_other.
Qed.
Lemma writeFile_total iv fs p b : iv_ok iv -> exists fs', writeFile C cf iv fs p b = Ok fs'.
Proof. intros H. destruct (encrypt_total iv b H) as (e & E). unfold writeFile. rewrite E. cbn [bind]. eauto. Qed.

Lemma udec_wf v : 0 <= v -> wfb (udec v).
Proof.
  intros H. pose proof (udec_digits v H) as D. eapply Forall_impl; [|exact D]. cbn. intros c Hc. unfold is_digit in Hc.
  apply andb_true_iff in Hc. rewrite !Z.leb_le in Hc. unfold isbyte. lia.
Qed.
Lemma num_round_trip iv fs p v fs' : u32 v -> iv_ok iv -> writeNum C cf iv fs p v = Ok fs' -> readNum C cf fs' p = Ok v.
Proof.
  intros H Hi E. unfold u32 in H. unfold writeNum in E. apply readFile_write in E; auto.
  - destruct E as (E & _). unfold readNum. rewrite E. cbn [bind]. rewrite atoi_itoa by lia. f_equal. apply Z.mod_small. lia.
  - unfold itoa. destruct (v <? 0) eqn:L; [apply Z.ltb_lt in L; lia|]. apply udec_wf. lia.
Qed.
End P.

(* ---- bytes of what is serialised ---- *)
Lemma enc_varint_wf n v : 0 <= v -> wfb (enc_varint n v).
Proof.
  revert v. induction n as [|n IH]; intros v H; cbn [enc_varint]; [constructor|]. destruct (v <? 128) eqn:E.
  - apply Z.ltb_lt in E. repeat constructor; unfold isbyte; lia.
  - constructor; [|apply IH; apply Z.div_pos; lia]. pose proof (Z.mod_pos_bound v 128 ltac:(lia)). unfold isbyte. lia.
Qed.
Definition wf_bytes_val (v : wval) : Prop :=
  match v with WVarint n => 0 <= n | WLen b => wfb b | _ => True end.
Lemma enc_val_wf v : wf_bytes_val v -> wfb (enc_val v).
Proof.
  destruct v; cbn [wf_bytes_val enc_val]; intros H; try apply le_enc_wf.
  - now apply enc_varint_wf.
  - apply wfb_app. split; auto. apply enc_varint_wf. apply zlen_nonneg.
Qed.
Lemma marshal_wf s : Forall (fun p => 0 <= fst p /\ Forall wf_bytes_val (snd p)) s -> wfb (marshal s).
Proof.
  unfold marshal, flat. induction 1 as [|[n vs] s [H1 H2] _ IH]; [constructor|]. cbn [flat_map fst snd] in *.
  rewrite encode_app. apply wfb_app. split; auto. clear IH. induction H2 as [|v vs Hv _ IH]; [constructor|].
  cbn [map]. change (encode ((n, v) :: map (pair n) vs)) with (enc_field (n, v) ++ encode (map (pair n) vs)).
  apply wfb_app. split; auto. unfold enc_field. cbn [fst snd]. apply wfb_app. split; [|now apply enc_val_wf].
  apply enc_varint_wf. pose proof (wtype_range v). lia.
Qed.

Lemma wb_u32 v : u32 v -> Forall wf_bytes_val (f_u32 v).
Proof. intros H. unfold f_u32, u32 in *. destruct (v =? 0); repeat constructor; cbn; lia. Qed.
Lemma wb_i32 v : Forall wf_bytes_val (f_i32 v).
Proof. unfold f_i32. destruct (v =? 0); repeat constructor. cbn. apply of_i32_range. Qed.
Lemma wb_f64 v : Forall wf_bytes_val (f_f64 v).
Proof. unfold f_f64. destruct (v =? 0); repeat constructor. Qed.
Lemma wb_bool v : Forall wf_bytes_val (f_bool v).
Proof. unfold f_bool. destruct v; repeat constructor. cbn. lia. Qed.
Lemma wb_bytes v : wfb v -> Forall wf_bytes_val (f_bytes v).
Proof. intros H. destruct v; constructor; [exact H|constructor]. Qed.

Lemma wb_msg m : wfb (marshal m) -> Forall wf_bytes_val (f_msg m).
Proof. intros H. constructor; [exact H|constructor]. Qed.
Lemma wb_opt {A} (enc : A -> slots) (o : option A) : match o with Some a => wfb (marshal (enc a)) | None => True end ->
  Forall wf_bytes_val (match o with Some a => f_msg (enc a) | None => [] end).
Proof. destruct o; intros H; [|constructor]. constructor; [exact H|constructor]. Qed.
Lemma wb_rep {A} (enc : A -> slots) (l : list A) : Forall (fun a => wfb (marshal (enc a))) l ->
  Forall wf_bytes_val (flat_map (fun a => f_msg (enc a)) l).
Proof. induction 1; cbn [flat_map]; [constructor|]. apply Forall_app. split; auto. now apply wb_msg. Qed.

(* states as Go can hold them: fields in the range of their types, bytes that are bytes *)
Definition good_ck (k : ckey) : Prop := u32 (ck_index k) /\ wfb (ck_key k).
Definition good_mk (k : mkey) : Prop := u32 (mk_index k) /\ wfb (mk_cipher k) /\ wfb (mk_mac k) /\ wfb (mk_iv k).
Definition good_chain (c : chain) : Prop :=
  wfb (ch_rpub c) /\ wfb (ch_rpriv c) /\ match ch_ck c with Some k => good_ck k | None => True end /\ Forall good_mk (ch_mks c).
Definition good_pending (p : pending) : Prop := u32 (pp_pkid p) /\ - 2 ^ 31 <= pp_spkid p < 2 ^ 31 /\ wfb (pp_base p).
Record good_state (s : sstate) : Prop := {
  go_version : u32 (s_version s);
  go_prev : u32 (s_prev s);
  go_rreg : u32 (s_rreg s);
  go_lreg : u32 (s_lreg s);
  go_local : wfb (s_local s);
  go_remote : wfb (s_remote s);
  go_root : wfb (s_root s);
  go_base : wfb (s_base s);
  go_sender : match s_sender s with Some c => good_chain c | None => True end;
  go_recv : Forall good_chain (s_recv s);
  go_pending : match s_pending s with Some p => good_pending p | None => True end }.

Ltac wb_tac :=
  repeat (constructor; [split; [cbn [fst]; lia|cbn [snd]; auto using wb_u32, wb_i32, wb_f64, wb_bool, wb_bytes, wb_msg, wb_opt, wb_rep]|]); constructor.

Lemma wfb_ck k : good_ck k -> wfb (marshal (ck_slots k)).
Proof. intros [H1 H2]. apply marshal_wf. unfold ck_slots. wb_tac. Qed.
Lemma wfb_mk k : good_mk k -> wfb (marshal (mk_slots k)).
Proof. intros (H1 & H2 & H3 & H4). apply marshal_wf. unfold mk_slots. wb_tac. Qed.
Lemma wfb_pending k : good_pending k -> wfb (marshal (pending_slots k)).
Proof. intros (H1 & H2 & H3). apply marshal_wf. unfold pending_slots. wb_tac. Qed.
Lemma wfb_chain c : good_chain c -> wfb (marshal (chain_slots c)).
Proof.
  intros (H1 & H2 & H3 & H4). apply marshal_wf. unfold chain_slots.
  assert (match ch_ck c with Some a => wfb (marshal (ck_slots a)) | None => True end) by (destruct (ch_ck c); auto using wfb_ck).
  assert (Forall (fun a => wfb (marshal (mk_slots a))) (ch_mks c)) by (eapply Forall_impl; [|exact H4]; apply wfb_mk).
  wb_tac.
Qed.
Lemma wfb_state s : good_state s -> wfb (marshal (ss_slots s)).
Proof.
  intros [H1 H2 H3 H4 H5 H6 H7 H8 H9 H10 H11]. apply marshal_wf. unfold ss_slots.
  assert (match s_sender s with Some a => wfb (marshal (chain_slots a)) | None => True end) by (destruct (s_sender s); auto using wfb_chain).
  assert (match s_pending s with Some a => wfb (marshal (pending_slots a)) | None => True end) by (destruct (s_pending s); auto using wfb_pending).
  assert (Forall (fun a => wfb (marshal (chain_slots a))) (s_recv s)) by (eapply Forall_impl; [|exact H10]; apply wfb_chain).
  wb_tac.
Qed.
Lemma wfb_record r : Forall good_state (r_cur r :: r_prevs r) -> wfb (Serialize r).
Proof.
  intros H. inversion H as [|? ? H1 H2]; subst. apply marshal_wf. unfold record_slots.
  assert (wfb (marshal (ss_slots (r_cur r)))) by now apply wfb_state.
  assert (Forall (fun a => wfb (marshal (ss_slots a))) (r_prevs r)) by (eapply Forall_impl; [|exact H2]; apply wfb_state).
  wb_tac.
Qed.
Lemma good_typed s : good_state s -> typed_state s.
Proof.
  intros [H1 H2 H3 H4 H5 H6 H7 H8 H9 H10 H11]. unfold typed_state.
  assert (T : forall c, good_chain c -> typed_chain c).
  { intros c (G1 & G2 & G3 & G4). split.
    - destruct (ch_ck c); [apply G3|auto].
    - eapply Forall_impl; [|exact G4]. intros k Hk. apply Hk. }
  repeat (split; [assumption|]). split; [|split].
  - destruct (s_sender s); auto.
  - eapply Forall_impl; [|exact H10]. exact T.
  - destruct (s_pending s) as [p|]; auto. destruct H11 as (G1 & G2 & _). auto.
Qed.

(* ---- refinement: files representing the abstract stores ---- *)
Section R.
Variable C : crypto.
Hypothesis OK : crypto_ok C.
Variable cf : sconf.
Hypothesis CF : conf_ok cf.

Record represents (fs : files) (w : world) : Prop := {
  rp_sess : forall rid dev, u32 dev -> F_LoadSession C cf fs rid dev = Ok (LoadSession w rid dev);
  rp_ids : forall rid k, IsTrusted C cf (w_trust_all w) fs rid k = Ok (IsTrustedIdentity w rid k);
  rp_pre : forall id, u32 id ->
    match w_pre w id with
    | None => exists_file fs (preKeyPath id) = false
    | Some kp => LoadPreKey C cf fs id = Ok (mkPkr id (snd kp) (fst kp))
    end;
  rp_spk : forall id, u32 id ->
    match w_spk w id with
    | None => exists_file fs (signedPath id) = false
    | Some kp => exists sig t, LoadSignedPreKey C cf fs id = Ok (mkSpkr id (snd kp) (fst kp) sig t)
    end;
  rp_ident : GetIdentityKeyPair C cf fs = Ok (w_ident w);
  rp_reg : readNum C cf fs regidPath = Ok (w_reg w) }.

(* one store write on the files *)
Definition F_eff (iv : bytes) (fs : files) (e : eff) : res files :=
  match e with
  | EStoreSession rid dev c p => F_StoreSession C cf iv fs rid dev (mkSr c p false)
  | ERemovePreKey id => Ok (RemovePreKey fs id)
  | ESaveIdentity rid k => SaveIdentity C cf iv fs rid k
  end.
Definition good_eff (e : eff) : Prop :=
  match e with
  | EStoreSession rid dev c p => u32 dev /\ Forall good_state (c :: p) /\ zlen (Serialize (mkSr c p false)) < 2 ^ 63
  | ERemovePreKey id => u32 id
  | ESaveIdentity rid k => wfb k
  end.

Lemma readFile_frame fs fs' p : raw_read fs' p = raw_read fs p -> readFile C cf fs' p = readFile C cf fs p.
Proof. intros E. unfold readFile. now rewrite E. Qed.

Ltac other_dir := let X := fresh in intros X; apply (f_equal fst) in X; discriminate.

Lemma eff_total iv fs e : iv_ok iv -> exists fs', F_eff iv fs e = Ok fs'.
Proof.
  intros H. destruct e; cbn [F_eff]; try (now apply writeFile_total); eauto.
Qed.

Theorem eff_refines iv fs w e fs' : represents fs w -> good_eff e -> iv_ok iv -> F_eff iv fs e = Ok fs' ->
  represents fs' (apply_eff w e).
Proof.
  intros [R1 R2 R3 R4 R5 R6] G Hi E. destruct e as [rid dev c p|id|rid k]; cbn [F_eff apply_eff good_eff] in *.
  - destruct G as (Hd & Hg & Hz). unfold F_StoreSession in E.
    assert (W : wfb (Serialize (mkSr c p false))) by now apply wfb_record.
    destruct (readFile_write C OK cf iv fs _ _ fs' W Hi E) as (E1 & E2 & E3).
    constructor; cbn [set_sess w_sess w_pre w_spk w_ids w_ident w_reg w_trust_all].
    + intros r d Hd'. unfold LoadSession. cbn [set_sess w_sess]. destruct (beq r rid && (d =? dev)) eqn:B.
      * apply andb_true_iff in B. destruct B as [B1 B2]. apply beq_eq in B1. apply Z.eqb_eq in B2. subst.
        unfold F_LoadSession. rewrite E1. apply record_round_trip; auto.
        unfold typed_record. cbn [r_cur r_prevs]. eapply Forall_impl; [|exact Hg]. exact good_typed.
      * specialize (R1 r d Hd'). unfold F_LoadSession in *. rewrite (readFile_frame fs fs'); [exact R1|]. apply E2.
        intros X. apply sessionPath_inj in X; auto. destruct X as [-> ->]. rewrite beq_refl, Z.eqb_refl in B. discriminate.
    + intros r k. specialize (R2 r k). unfold IsTrusted, exists_file in *.
      rewrite (readFile_frame fs fs'), E2; auto; try other_dir. apply E2. other_dir.
    + intros id H. specialize (R3 id H). unfold exists_file, LoadPreKey in *.
      rewrite (readFile_frame fs fs'), E2; auto; try other_dir. apply E2. other_dir.
    + intros id H. specialize (R4 id H). unfold exists_file, LoadSignedPreKey in *.
      rewrite (readFile_frame fs fs'), E2; auto; try other_dir. apply E2. other_dir.
    + unfold GetIdentityKeyPair in *. rewrite (readFile_frame fs fs'); auto. apply E2. other_dir.
    + unfold readNum in *. rewrite (readFile_frame fs fs'); auto. apply E2. other_dir.
  - injection E as <-. unfold RemovePreKey.
    assert (E2 : forall q, q <> preKeyPath id -> raw_read (raw_remove fs (preKeyPath id)) q = raw_read fs q)
      by (intros q Hq; now apply read_remove_other).
    set (fs' := raw_remove fs (preKeyPath id)) in *.
    constructor; cbn [set_pre w_sess w_pre w_spk w_ids w_ident w_reg w_trust_all].
    + intros r d Hd'. specialize (R1 r d Hd'). unfold F_LoadSession, LoadSession in *. cbn [set_pre w_sess].
      rewrite (readFile_frame fs fs'); auto. apply E2. other_dir.
    + intros r k. specialize (R2 r k). unfold IsTrusted, exists_file, IsTrustedIdentity in *. cbn [set_pre w_trust_all w_ids].
      rewrite (readFile_frame fs fs'), E2; auto; try other_dir. apply E2. other_dir.
    + intros i H. destruct (Z.eqb_spec i id) as [->|N].
      * unfold exists_file, fs'. now rewrite read_remove_same.
      * specialize (R3 i H). unfold exists_file, LoadPreKey in *.
        assert (P : preKeyPath i <> preKeyPath id) by (intros X; apply N; now apply preKeyPath_inj).
        rewrite (readFile_frame fs fs'), E2; auto.
    + intros i H. specialize (R4 i H). unfold exists_file, LoadSignedPreKey in *.
      rewrite (readFile_frame fs fs'), E2; auto; try other_dir. apply E2. other_dir.
    + unfold GetIdentityKeyPair in *. rewrite (readFile_frame fs fs'); auto. apply E2. other_dir.
    + unfold readNum in *. rewrite (readFile_frame fs fs'); auto. apply E2. other_dir.
  - unfold SaveIdentity in E.
    destruct (readFile_write C OK cf iv fs _ _ fs' G Hi E) as (E1 & E2 & E3).
    constructor; cbn [set_id w_sess w_pre w_spk w_ids w_ident w_reg w_trust_all].
    + intros r d Hd'. specialize (R1 r d Hd'). unfold F_LoadSession, LoadSession in *. cbn [set_id w_sess].
      rewrite (readFile_frame fs fs'); auto. apply E2. other_dir.
    + intros r k'. specialize (R2 r k'). unfold IsTrustedIdentity in *. cbn [set_id w_trust_all w_ids].
      unfold IsTrusted in *. destruct (w_trust_all w); auto. cbn [orb] in *. destruct (beq r rid) eqn:B.
      * apply beq_eq in B. subst. rewrite E3, E1. reflexivity.
      * assert (P : remotePath r <> remotePath rid).
        { intros X. apply remotePath_inj in X. subst. rewrite beq_refl in B. discriminate. }
        unfold exists_file in *. rewrite (readFile_frame fs fs'), E2; auto.
    + intros i H. specialize (R3 i H). unfold exists_file, LoadPreKey in *.
      rewrite (readFile_frame fs fs'), E2; auto; try other_dir. apply E2. other_dir.
    + intros i H. specialize (R4 i H). unfold exists_file, LoadSignedPreKey in *.
      rewrite (readFile_frame fs fs'), E2; auto; try other_dir. apply E2. other_dir.
    + unfold GetIdentityKeyPair in *. rewrite (readFile_frame fs fs'); auto. apply E2.
      unfold identPath, remotePath, str_remote. intros X. apply (f_equal snd) in X. discriminate.
    + unfold readNum in *. rewrite (readFile_frame fs fs'); auto. apply E2.
      unfold regidPath, remotePath, str_remote. intros X. apply (f_equal snd) in X. discriminate.
Qed.

(* a list of writes, each with its own iv *)
Inductive F_effs : files -> list eff -> files -> Prop :=
| fe_nil fs : F_effs fs [] fs
| fe_cons fs e l iv fs1 fs2 : iv_ok iv -> F_eff iv fs e = Ok fs1 -> F_effs fs1 l fs2 -> F_effs fs (e :: l) fs2.

Theorem effs_refine fs w l fs' : represents fs w -> Forall good_eff l -> F_effs fs l fs' -> represents fs' (apply_effs w l).
Proof.
  intros R G F. revert w R G. induction F as [fs|fs e l iv fs1 fs2 Hi E F IH]; intros w R G; [exact R|].
  inversion G as [|? ? G1 G2]; subst. change (apply_effs w (e :: l)) with (apply_effs (apply_eff w e) l).
  apply IH; auto. apply (eff_refines iv fs w e fs1); auto.
Qed.
Theorem effs_total fs l : exists fs', F_effs fs l fs'.
Proof.
  assert (I0 : iv_ok (zeros 16)) by (split; [reflexivity|apply wfb_zeros]).
  revert fs. induction l as [|e l IH]; intros fs; [exists fs; constructor|].
  destruct (eff_total (zeros 16) fs e I0) as (fs1 & E). destruct (IH fs1) as (fs2 & F). exists fs2. econstructor; eauto.
Qed.
End R.
