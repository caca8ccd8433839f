(* C22 - C29, C63: what is written to the store's files *)
From Coq Require Import ZArith List Lia Bool.
From Verif Require Import Bytes Res Wire WireProofs Crypto Cbc CbcProofs Messages Session Builder History HistoryProofs
  RecordCodec RecordCodecProofs Decimal Storage StorageProofs TypedHistory Conversation Examples PropHistory.
Import ListNotations.
Open Scope Z_scope.

(* ------------------------------------------------------------------------------------------ *)
(* C22. A record whose numbers are in the range of their Go types is read back as it was. *)
Theorem C22_session_round_trip : forall r, typed_record r -> zlen (Serialize r) < 2 ^ 63 ->
  LoadSessionRecord (Serialize r) = Ok (mkSr (r_cur r) (r_prevs r) false).
Proof. exact record_round_trip. Qed.
Print Assumptions C22_session_round_trip.

(* the record B holds after messages 0, 2, 3 of A: skipped keys, an archived state *)
Definition ex_record : srecord := Eval vm_compute in
  LoadSession (fst (history toy ex_worldB (map Done [from_A 0 100; from_A 2 105; from_A 3 110]))) na 1.
Definition typed_stateb (s : sstate) : bool :=
  let u v := (0 <=? v) && (v <? 2 ^ 32) in
  let ch c := match ch_ck c with Some k => u (ck_index k) | None => true end && forallb (fun k => u (mk_index k)) (ch_mks c) in
  u (s_version s) && u (s_prev s) && u (s_rreg s) && u (s_lreg s) &&
  match s_sender s with Some c => ch c | None => true end && forallb ch (s_recv s) &&
  match s_pending s with Some p => u (pp_pkid p) && ((- 2 ^ 31 <=? pp_spkid p) && (pp_spkid p <? 2 ^ 31)) | None => true end.
Lemma typed_stateb_ok s : typed_stateb s = true -> typed_state s.
Proof.
  unfold typed_stateb, typed_state. cbv zeta. rewrite !andb_true_iff, !Z.leb_le, !Z.ltb_lt.
  assert (CH : forall c, match ch_ck c with Some k => (0 <=? ck_index k) && (ck_index k <? 2 ^ 32) | None => true end
      && forallb (fun k => (0 <=? mk_index k) && (mk_index k <? 2 ^ 32)) (ch_mks c) = true -> typed_chain c).
  { intros c. rewrite andb_true_iff. intros [H1 H2]. split.
    - destruct (ch_ck c); auto. unfold u32. rewrite andb_true_iff, Z.leb_le, Z.ltb_lt in H1. exact H1.
    - apply Forall_forall. intros k Hk. rewrite forallb_forall in H2. specialize (H2 k Hk).
      rewrite andb_true_iff, Z.leb_le, Z.ltb_lt in H2. exact H2. }
  intros ((((((H1 & H2) & H3) & H4) & H5) & H6) & H7). unfold u32. repeat (split; [assumption|]). split; [|split].
  - destruct (s_sender s); auto.
  - apply Forall_forall. intros c Hc. rewrite forallb_forall in H6. auto.
  - destruct (s_pending s); auto. rewrite !andb_true_iff, !Z.leb_le, !Z.ltb_lt in H7. tauto.
Qed.
Lemma typed_recordb_ok r : forallb typed_stateb (r_cur r :: r_prevs r) = true -> typed_record r.
Proof. rewrite forallb_forall. intros H. apply Forall_forall. intros s Hs. apply typed_stateb_ok. auto. Qed.

Example C22_example : typed_record ex_record /\ zlen (Serialize ex_record) < 2 ^ 63 /\
  length (r_prevs ex_record) = 1%nat /\
  existsb (fun s => existsb (fun c => negb (Nat.eqb (length (ch_mks c)) 0)) (s_recv s)) (r_prevs ex_record) = true /\
  LoadSessionRecord (Serialize ex_record) = Ok (mkSr (r_cur ex_record) (r_prevs ex_record) false).
Proof.
  assert (T : typed_record ex_record) by (apply typed_recordb_ok; vm_compute; reflexivity).
  assert (Z1 : zlen (Serialize ex_record) < 2 ^ 63) by (vm_compute; reflexivity).
  split; [exact T|]. split; [exact Z1|]. split; [reflexivity|]. split; [vm_compute; reflexivity|].
  now apply C22_session_round_trip.
Qed.

(* The same along every history of API calls with crashes between store writes. The stores are
   described by a world; the files represent it if every load of a session, identity key, prekey,
   signed prekey, identity key pair and registration id from the files gives what the world holds.
   Performing the writes of the history on the files, with any ivs, leads to files that represent the
   world after the history. *)
Theorem C22_files_follow_history : forall C, crypto_ok C -> forall cf h w fs fs',
  conf_ok cf -> good_world w -> Forall (fun e => good_call (ecall e)) h ->
  Forall fits_eff (history_effs C w h) ->
  represents C cf fs w -> F_effs C cf fs (history_effs C w h) fs' ->
  represents C cf fs' (fst (history C w h)).
Proof. exact files_follow_history. Qed.
Print Assumptions C22_files_follow_history.

(* a set up store: identity, registration id, prekeys 5 and 6, signed prekey 1 *)
Definition ex_cf : sconf := mkConf false (repeat 3 16) (repeat 4 20).
Definition ex_iv : bytes := repeat 9 16.
Definition ex_spk : spk_rec := mkSpkr 1 (snd (ex_kp 33)) (fst (ex_kp 33)) (zeros 64) 1000.
Definition get_files (r : res files) : files := match r with Ok f => f | _ => [] end.
Definition ex_files : files := Eval vm_compute in
  get_files (let* f := SetIdentityKeyPair toy ex_cf ex_iv [] (ex_kp 22) in
             let* f := writeNum toy ex_cf ex_iv f regidPath 1002 in
             let* f := StorePreKey toy ex_cf ex_iv f 5 (mkPkr 5 (snd (ex_kp 55)) (fst (ex_kp 55))) in
             let* f := StorePreKey toy ex_cf ex_iv f 6 (mkPkr 6 (snd (ex_kp 66)) (fst (ex_kp 66))) in
             StoreSignedPreKey toy ex_cf ex_iv f 1 ex_spk).

Lemma ex_conf : conf_ok ex_cf.
Proof. right. reflexivity. Qed.
Lemma no_pre id : u32 id -> id <> 5 -> id <> 6 -> raw_read ex_files (preKeyPath id) = None.
Proof.
  intros H H5 H6. destruct (raw_read ex_files (preKeyPath id)) as [b|] eqn:E; auto. exfalso. apply raw_read_in in E.
  unfold ex_files in E. cbn [In] in E.
  assert (N5 : preKeyPath id <> preKeyPath 5) by (intros X; apply H5; apply preKeyPath_inj; auto; unfold u32; lia).
  assert (N6 : preKeyPath id <> preKeyPath 6) by (intros X; apply H6; apply preKeyPath_inj; auto; unfold u32; lia).
  destruct E as [E|[E|[E|[E|[E|[]]]]]]; apply (f_equal fst) in E; cbn [fst] in E;
    first [apply (f_equal fst) in E; discriminate E|apply N5; symmetry; exact E|apply N6; symmetry; exact E].
Qed.
Lemma no_spk id : u32 id -> id <> 1 -> raw_read ex_files (signedPath id) = None.
Proof.
  intros H H1. destruct (raw_read ex_files (signedPath id)) as [b|] eqn:E; auto. exfalso. apply raw_read_in in E.
  unfold ex_files in E. cbn [In] in E.
  assert (N1 : signedPath id <> signedPath 1) by (intros X; apply H1; apply signedPath_inj; auto; unfold u32; lia).
  destruct E as [E|[E|[E|[E|[E|[]]]]]]; apply (f_equal fst) in E; cbn [fst] in E;
    first [apply (f_equal fst) in E; discriminate E|apply N1; symmetry; exact E].
Qed.
Lemma ex_represents : represents toy ex_cf ex_files ex_worldB.
Proof.
  constructor.
  - intros rid dev H. reflexivity.
  - intros rid k. reflexivity.
  - intros id H. cbn [ex_worldB w_pre]. destruct (Z.eqb_spec id 5) as [->|N5]; [vm_compute; reflexivity|].
    destruct (Z.eqb_spec id 6) as [->|N6]; [vm_compute; reflexivity|]. unfold exists_file. now rewrite no_pre.
  - intros id H. cbn [ex_worldB w_spk]. destruct (Z.eqb_spec id 1) as [->|N1].
    + exists (zeros 64), 1000. vm_compute. reflexivity.
    + unfold exists_file. now rewrite no_spk.
  - vm_compute. reflexivity.
  - vm_compute. reflexivity.
Qed.
Lemma ex_good_world : good_world ex_worldB.
Proof.
  constructor.
  - discriminate.
  - split; apply wfbb_ok; vm_compute; reflexivity.
  - vm_compute. split; congruence.
  - intros id kp. cbn [ex_worldB w_spk]. destruct (id =? 1); [|discriminate]. intros E. injection E as <-.
    split; apply wfbb_ok; vm_compute; reflexivity.
Qed.
Definition get_A (n : nat) (r : Z) : call :=
  CRecv na 1 PREKEY_BUNDLE (se_bytes (nth n outA (mkSent [] 0 CIPHERTEXT []))) (fun _ => rb r).
Definition ex_h : list event := [Done (get_A 0 100); Done (CEnc na 1 [9]); Crash (get_A 2 105) 0; Done (get_A 3 110)].
Lemma ex_good_calls : Forall (fun e => good_call (ecall e)) ex_h.
Proof.
  assert (R : forall n r, wfbb (se_bytes (nth n outA (mkSent [] 0 CIPHERTEXT []))) = true -> wfbb (rb r) = true -> good_call (get_A n r)).
  { intros n r H1 H2. split; [unfold u32; lia|]. split; [|intros _]; now apply wfbb_ok. }
  constructor; [apply R; vm_compute; reflexivity|]. constructor; [cbn; unfold u32; lia|].
  constructor; [apply R; vm_compute; reflexivity|]. constructor; [apply R; vm_compute; reflexivity|constructor].
Qed.
Definition fitsb (e : eff) : bool :=
  match e with EStoreSession rid dev c p => zlen (Serialize (mkSr c p false)) <? 2 ^ 63 | _ => true end.
Lemma fitsb_ok l : forallb fitsb l = true -> Forall fits_eff l.
Proof.
  rewrite forallb_forall. intros H. apply Forall_forall. intros e He. specialize (H e He). destruct e; cbn [fitsb fits_eff] in *; auto.
  now apply Z.ltb_lt.
Qed.
Example C22_files_example : exists fs',
  F_effs toy ex_cf ex_files (history_effs toy ex_worldB ex_h) fs' /\
  represents toy ex_cf fs' (fst (history toy ex_worldB ex_h)) /\
  map (fun e => match e with EStoreSession _ _ _ _ => 0 | ERemovePreKey id => id | ESaveIdentity _ _ => 1 end)
    (history_effs toy ex_worldB ex_h) = [1; 5; 0; 0; 1; 6; 0].
Proof.
  destruct (effs_total toy ex_cf ex_conf ex_files (history_effs toy ex_worldB ex_h)) as (fs' & F). exists fs'.
  split; [exact F|]. split; [|vm_compute; reflexivity].
  apply (C22_files_follow_history toy toy_ok ex_cf ex_h ex_worldB ex_files fs' ex_conf ex_good_world ex_good_calls); auto.
  - apply fitsb_ok. vm_compute. reflexivity.
  - exact ex_represents.
Qed.

(* ------------------------------------------------------------------------------------------ *)
(* C23 *)
Theorem C23_prekey_round_trip : forall r, u32 (pkr_id r) -> zlen (pkr_serialize r) < 2 ^ 63 ->
  LoadPreKeyRecord (pkr_serialize r) = Ok r.
Proof. exact prekey_round_trip. Qed.
Theorem C23_signed_prekey_round_trip : forall r, u32 (spkr_id r) -> 0 <= spkr_time r < 2 ^ 64 ->
  zlen (spkr_serialize r) < 2 ^ 63 -> LoadSignedPreKeyRecord (spkr_serialize r) = Ok r.
Proof. exact signed_prekey_round_trip. Qed.
(* through the files, whatever else they hold; other prekeys are not touched *)
Theorem C23_stored_prekey : forall C, crypto_ok C -> forall cf iv fs r fs', iv_ok iv ->
  u32 (pkr_id r) -> wfb (pkr_pub r) -> wfb (pkr_priv r) -> zlen (pkr_serialize r) < 2 ^ 63 ->
  StorePreKey C cf iv fs (pkr_id r) r = Ok fs' ->
  LoadPreKey C cf fs' (pkr_id r) = Ok r /\
  (forall id, u32 id -> id <> pkr_id r -> LoadPreKey C cf fs' id = LoadPreKey C cf fs id) /\
  (forall rid dev, F_LoadSession C cf fs' rid dev = F_LoadSession C cf fs rid dev).
Proof.
  intros C OK cf iv fs r fs' Hi H1 H2 H3 H4 E.
  assert (W : wfb (pkr_serialize r)).
  { apply marshal_wf. unfold pkr_slots. wb_tac. }
  destruct (readFile_write C OK cf iv fs _ _ fs' W Hi E) as (E1 & E2 & _).
  split; [|split].
  - unfold LoadPreKey. rewrite E1. cbn [bind]. now apply prekey_round_trip.
  - intros id Hd N. unfold LoadPreKey. rewrite (readFile_frame C cf fs fs'); auto. apply E2.
    intros X. apply N. now apply preKeyPath_inj.
  - intros rid dev. unfold F_LoadSession. rewrite (readFile_frame C cf fs fs'); auto. apply E2.
    intros X. apply (f_equal fst) in X. discriminate.
Qed.
Print Assumptions C23_prekey_round_trip.
Print Assumptions C23_signed_prekey_round_trip.
Print Assumptions C23_stored_prekey.
Example C23_example : exists fs',
  StorePreKey toy ex_cf ex_iv ex_files 4294967295 (mkPkr 4294967295 (rb 1) (rb 2)) = Ok fs' /\
  LoadPreKey toy ex_cf fs' 4294967295 = Ok (mkPkr 4294967295 (rb 1) (rb 2)) /\
  LoadPreKey toy ex_cf fs' 6 = Ok (mkPkr 6 (snd (ex_kp 66)) (fst (ex_kp 66))) /\
  LoadSignedPreKeyRecord (spkr_serialize ex_spk) = Ok ex_spk.
Proof.
  eexists. split; [vm_compute; reflexivity|]. split; [vm_compute; reflexivity|]. split; vm_compute; reflexivity.
Qed.

(* ------------------------------------------------------------------------------------------ *)
(* C24 *)
Theorem C24_storage_round_trip : forall C, crypto_ok C -> forall cf iv fs p b fs', wfb b -> iv_ok iv ->
  writeFile C cf iv fs p b = Ok fs' ->
  readFile C cf fs' p = Ok b /\ forall q, q <> p -> readFile C cf fs' q = readFile C cf fs q.
Proof.
  intros C OK cf iv fs p b fs' Hb Hi E. destruct (readFile_write C OK cf iv fs p b fs' Hb Hi E) as (E1 & E2 & _).
  split; auto. intros q Hq. apply readFile_frame. auto.
Qed.
Theorem C24_write_succeeds : forall C cf iv fs p b, conf_ok cf -> iv_ok iv -> exists fs', writeFile C cf iv fs p b = Ok fs'.
Proof. intros C cf iv fs p b H1 H2. now apply writeFile_total. Qed.
(* data that comes out of an encrypted store was authenticated with the store's MAC key *)
Theorem C24_tamper_detection : forall C cf fs p b, c_plain cf = false -> readFile C cf fs p = Ok b ->
  exists e, raw_read fs p = Some (e ++ hmac C (c_mac cf) e).
Proof.
  intros C cf fs p b Hp. unfold readFile. destruct (raw_read fs p) as [ct|]; [|discriminate]. unfold st_decrypt. rewrite Hp.
  destruct (_ <? _); [discriminate|]. destruct (Cbc.verifyMAC _ _ _ _) eqn:V; [|discriminate]. intros _.
  unfold Cbc.verifyMAC in V. apply beq_eq in V. exists (firstn (length ct - 32) ct). f_equal. rewrite V. symmetry. apply firstn_skipn.
Qed.
Theorem C24_unauthenticated_refused : forall C cf fs p ct, c_plain cf = false -> raw_read fs p = Some ct -> 32 <= zlen ct ->
  skipn (length ct - 32) ct <> hmac C (c_mac cf) (firstn (length ct - 32) ct) -> readFile C cf fs p = Err EMac.
Proof.
  intros C cf fs p ct Hp R Hl Hm. unfold readFile. rewrite R. unfold st_decrypt. rewrite Hp.
  assert (zlen ct <? 32 = false) as -> by (apply Z.ltb_ge; lia).
  unfold Cbc.verifyMAC. destruct (beq _ _) eqn:B; auto. apply beq_eq in B. congruence.
Qed.
(* the two halves of the identity come back as they were set *)
Theorem C24_identity_round_trip : forall C, crypto_ok C -> forall cf iv fs kp fs', iv_ok iv -> wfb (fst kp) -> wfb (snd kp) ->
  length (fst kp) = 32%nat -> length (snd kp) = 32%nat -> SetIdentityKeyPair C cf iv fs kp = Ok fs' ->
  GetIdentityKeyPair C cf fs' = Ok kp.
Proof.
  intros C OK cf iv fs [a b] fs' Hi Ha Hb La Lb E. cbn [fst snd] in *. unfold SetIdentityKeyPair in E. cbn [fst snd] in E.
  destruct (C24_storage_round_trip C OK cf iv fs identPath (b ++ a) fs') as [R _]; auto; [apply Forall_app; split; assumption|].
  unfold GetIdentityKeyPair. rewrite R. cbn [bind]. rewrite app_length, La, Lb. cbn [Nat.add Nat.eqb].
  rewrite skipn_app, firstn_app, Lb, Nat.sub_diag. rewrite (firstn_all2 b) by lia. rewrite (skipn_all2 b) by lia.
  cbn [firstn skipn app]. now rewrite app_nil_r.
Qed.
Print Assumptions C24_identity_round_trip.
(* C16, as the files have it. Unless everything is trusted, a key is trusted exactly if there is no file for the peer or the file
   reads back as this very key; in particular a file that cannot be read - damaged, or written under another password - trusts
   nobody. What was saved is what is trusted from then on. *)
Theorem C16_files : forall C cf fs rid k,
  IsTrusted C cf false fs rid k = Ok true <-> raw_read fs (remotePath rid) = None \/ readFile C cf fs (remotePath rid) = Ok k.
Proof.
  intros C cf fs rid k. unfold IsTrusted, exists_file, readFile. destruct (raw_read fs (remotePath rid)) as [b|] eqn:E; cbn [negb].
  - destruct (st_decrypt C cf b) as [x|e|]; split.
    + intros H. injection H as H. apply beq_eq in H. right. now subst.
    + intros [H|H]; [discriminate H|]. injection H as ->. now rewrite beq_refl.
    + intros H. discriminate H.
    + intros [H|H]; discriminate H.
    + intros H. discriminate H.
    + intros [H|H]; discriminate H.
  - split; [intros _; left; reflexivity|reflexivity].
Qed.
Theorem C16_files_after_saving : forall C, crypto_ok C -> forall cf iv fs rid k fs', wfb k -> iv_ok iv ->
  SaveIdentity C cf iv fs rid k = Ok fs' -> forall k', IsTrusted C cf false fs' rid k' = Ok (beq k k').
Proof.
  intros C OK cf iv fs rid k fs' Hk Hi E k'. destruct (readFile_write C OK cf iv fs _ k fs' Hk Hi E) as (R & _ & X).
  unfold IsTrusted. now rewrite X, R.
Qed.
Print Assumptions C16_files.
Print Assumptions C16_files_after_saving.
Definition ex_saved : files := Eval vm_compute in get_files (SaveIdentity toy ex_cf ex_iv ex_files nb (snd (ex_kp 44))).
Example C16_files_example :
  IsTrusted toy ex_cf false ex_saved nb (snd (ex_kp 44)) = Ok true /\ IsTrusted toy ex_cf false ex_saved nb (snd (ex_kp 22)) = Ok false /\
  IsTrusted toy ex_cf false (raw_write ex_saved (remotePath nb) (repeat 7 100)) nb (snd (ex_kp 44)) = Ok false /\
  GetIdentityKeyPair toy ex_cf ex_saved = Ok (ex_kp 22).
Proof. vm_compute. auto. Qed.
Print Assumptions C24_storage_round_trip.
Print Assumptions C24_tamper_detection.
Print Assumptions C24_unauthenticated_refused.
Definition flip_last (b : bytes) : bytes := removelast b ++ [(last b 0 + 1) mod 256].
Definition damaged_files : files := map (fun e => (fst e, flip_last (snd e))) ex_files.
Example C24_example :
  readFile toy ex_cf ex_files regidPath = Ok [49;48;48;50] /\
  readFile toy ex_cf damaged_files regidPath = Err EMac /\
  (exists ct, raw_read damaged_files regidPath = Some ct /\ 32 <= zlen ct /\
    skipn (length ct - 32) ct <> hmac toy (c_mac ex_cf) (firstn (length ct - 32) ct)).
Proof.
  split; [vm_compute; reflexivity|]. split; [vm_compute; reflexivity|].
  eexists. split; [vm_compute; reflexivity|]. split; [vm_compute; congruence|]. apply beq_neq. vm_compute. reflexivity.
Qed.

(* ------------------------------------------------------------------------------------------ *)
(* C25. Full statement: for every content of the file, reading it gives data or an error. It is false:
   a file of fewer than 32 bytes, for example an empty one, crashes the process. *)
Theorem C25_damaged_file_panics_refuted : exists C cf fs rid dev, crypto_ok C /\ conf_ok cf /\ c_plain cf = false /\
  readFile C cf fs (sessionPath rid dev) = Panic /\ F_LoadSession C cf fs rid dev = Panic /\
  IsTrusted C cf false fs rid [] = Panic.
Proof.
  exists toy, ex_cf, [(sessionPath na 1, []); (remotePath na, [1;2;3])], na, 1.
  split; [exact toy_ok|]. split; [exact ex_conf|]. split; [reflexivity|]. split; [reflexivity|]. split; reflexivity.
Qed.
(* every file of fewer than 32 bytes does, and no longer one does unless its content is authenticated *)
Theorem C25_short_files_panic : forall C cf fs p ct, c_plain cf = false -> raw_read fs p = Some ct -> zlen ct < 32 ->
  readFile C cf fs p = Panic.
Proof.
  intros C cf fs p ct Hp R Hl. unfold readFile. rewrite R. unfold st_decrypt. rewrite Hp.
  apply Z.ltb_lt in Hl. now rewrite Hl.
Qed.
Theorem C25_no_other_panic : forall C cf fs p ct, c_plain cf = false -> raw_read fs p = Some ct -> 32 <= zlen ct ->
  readFile C cf fs p = Panic -> exists e, ct = e ++ hmac C (c_mac cf) e.
Proof.
  intros C cf fs p ct Hp R Hl H. 
  destruct (beq (hmac C (c_mac cf) (firstn (length ct - 32) ct)) (skipn (length ct - 32) ct)) eqn:B.
  - apply beq_eq in B. exists (firstn (length ct - 32) ct). rewrite B. symmetry. apply firstn_skipn.
  - apply beq_neq in B. rewrite (C24_unauthenticated_refused C cf fs p ct) in H; congruence.
Qed.
Print Assumptions C25_damaged_file_panics_refuted.
Print Assumptions C25_short_files_panic.
Print Assumptions C25_no_other_panic.

(* C63. Full statement: loading a session whose file is damaged reports an error. It is false: a file of
   at least 32 bytes with a wrong MAC is taken for the absence of a session, and the next message that
   builds a session overwrites it. *)
Theorem C63_damaged_session_is_forgotten_refuted : exists C cf fs rid dev ct, crypto_ok C /\ conf_ok cf /\
  raw_read fs (sessionPath rid dev) = Some ct /\ readFile C cf fs (sessionPath rid dev) = Err EMac /\
  F_LoadSession C cf fs rid dev = Ok NewSessionRecord.
Proof.
  exists toy, ex_cf, [(sessionPath na 1, zeros 40)], na, 1, (zeros 40).
  split; [exact toy_ok|]. split; [exact ex_conf|]. split; [reflexivity|]. split; vm_compute; reflexivity.
Qed.
(* it is so for every file that is not authenticated *)
Theorem C63_every_damaged_session : forall C cf fs rid dev ct, c_plain cf = false ->
  raw_read fs (sessionPath rid dev) = Some ct -> 32 <= zlen ct ->
  skipn (length ct - 32) ct <> hmac C (c_mac cf) (firstn (length ct - 32) ct) ->
  F_LoadSession C cf fs rid dev = Ok NewSessionRecord.
Proof.
  intros C cf fs rid dev ct H1 H2 H3 H4. unfold F_LoadSession. now rewrite (C24_unauthenticated_refused C cf fs _ ct).
Qed.
Print Assumptions C63_damaged_session_is_forgotten_refuted.

(* ------------------------------------------------------------------------------------------ *)
(* C26 *)
Theorem C26_session_files_distinct : forall r d r' d', u32 d -> u32 d' -> sessionPath r d = sessionPath r' d' -> r = r' /\ d = d'.
Proof. exact sessionPath_inj. Qed.
(* what the store puts among the sessions is of this form, so that the hypothesis below holds of
   every directory made by the store *)
Theorem C26_directory_invariant : forall C cf iv fs rid dev r fs', session_files fs -> u32 dev ->
  F_StoreSession C cf iv fs rid dev r = Ok fs' -> session_files fs'.
Proof.
  intros C cf iv fs rid dev r fs' H Hd E. unfold F_StoreSession, writeFile in E.
  destruct (st_encrypt C cf iv (Serialize r)) as [e|x|]; cbn [bind] in E; try discriminate. injection E as <-.
  intros n b. cbn [raw_write In]. intros [X|X].
  - apply (f_equal fst) in X. apply (f_equal snd) in X. cbn [fst snd sessionPath] in X. eauto.
  - unfold raw_remove in X. apply filter_In in X. destruct X as [X _]. eapply H; eauto.
Qed.
Theorem C26_delete_all : forall fs rid, session_files fs ->
  (forall dev, u32 dev -> raw_read (DeleteAllSessions fs rid) (sessionPath rid dev) = None) /\
  (forall q, (forall dev, u32 dev -> q <> sessionPath rid dev) -> raw_read (DeleteAllSessions fs rid) q = raw_read fs q).
Proof. exact delete_all. Qed.
Print Assumptions C26_session_files_distinct.
Print Assumptions C26_directory_invariant.
Print Assumptions C26_delete_all.
(* recipients a, a_1 and b, devices 1, 2 and 11 *)
Definition ex_dir : files :=
  [(sessionPath na 1, [1]); (sessionPath na 11, [2]); (sessionPath (na ++ [95;49]) 1, [3]); (sessionPath nb 2, [4]);
   (regidPath, [5])].
Example C26_example : session_files ex_dir /\
  map (raw_read (DeleteAllSessions ex_dir na)) [sessionPath na 1; sessionPath na 11; sessionPath (na ++ [95;49]) 1; sessionPath nb 2; regidPath]
  = [None; None; Some [3]; Some [4]; Some [5]].
Proof.
  split; [|vm_compute; reflexivity].
  intros n b H. unfold ex_dir in H. cbn [In] in H.
  destruct H as [H|[H|[H|[H|[H|[]]]]]]; apply (f_equal fst) in H; cbn [fst] in H;
    first [apply (f_equal fst) in H; discriminate H|apply (f_equal snd) in H; cbn [snd sessionPath] in H; symmetry in H].
  - exists na, 1. split; [unfold u32; lia|exact H].
  - exists na, 11. split; [unfold u32; lia|exact H].
  - exists (na ++ [95;49]), 1. split; [unfold u32; lia|exact H].
  - exists nb, 2. split; [unfold u32; lia|exact H].
Qed.

(* C64. GetSubDeviceSessions: full statement: the devices returned for a recipient are those with which
   there is a session with this recipient. It is false: the recipient is not looked at. *)
Theorem C64_devices_of_other_recipients_refuted : exists fs rid dev, session_files fs /\ u32 dev /\
  In dev (GetSubDeviceSessions fs rid) /\ raw_read fs (sessionPath rid dev) = None.
Proof.
  exists ex_dir, na, 2. split; [apply C26_example|]. split; [unfold u32; lia|]. split; [|reflexivity].
  vm_compute. tauto.
Qed.
(* what holds: no device is left out, and each device returned has a session with some recipient *)
Theorem C64_devices_complete : forall fs rid dev, u32 dev -> raw_read fs (sessionPath rid dev) <> None ->
  In dev (GetSubDeviceSessions fs rid).
Proof.
  intros fs rid dev Hd H. destruct (raw_read fs (sessionPath rid dev)) as [b|] eqn:R; [|congruence]. apply raw_read_in in R.
  unfold GetSubDeviceSessions. apply in_map_iff. exists (session_name rid dev). unfold u32 in Hd.
  rewrite after_underscore_name, atoi_udec by lia. split; [apply Z.mod_small; lia|]. apply in_names. eauto.
Qed.
Theorem C64_devices_of_someone : forall fs rid dev, session_files fs -> In dev (GetSubDeviceSessions fs rid) ->
  exists rid' b, In (sessionPath rid' dev, b) fs.
Proof.
  intros fs rid dev H Hi. unfold GetSubDeviceSessions in Hi. apply in_map_iff in Hi. destruct Hi as (n & E & Hn).
  apply in_names in Hn. destruct Hn as (b & Hb). destruct (H n b Hb) as (rid' & dev' & Hd & ->). unfold u32 in Hd.
  rewrite after_underscore_name, atoi_udec in E by lia. rewrite Z.mod_small in E by lia. subst. exists rid', b. exact Hb.
Qed.
Print Assumptions C64_devices_of_other_recipients_refuted.
Print Assumptions C64_devices_complete.
Print Assumptions C64_devices_of_someone.

(* ------------------------------------------------------------------------------------------ *)
(* C27 *)
Theorem C27_prekey_names_distinct : forall i j, u32 i -> u32 j -> preKeyPath i = preKeyPath j -> i = j.
Proof. exact preKeyPath_inj. Qed.
Theorem C27_prekey_name_read_back : forall i, u32 i -> sscanf_u32 (snd (preKeyPath i)) = Ok i.
Proof. intros i H. now apply sscanf_pad9. Qed.
Theorem C27_prekey_name_order : forall i j, 0 <= i < 10 ^ 9 -> 0 <= j < 10 ^ 9 ->
  (blt (snd (preKeyPath i)) (snd (preKeyPath j)) = true <-> i < j).
Proof. exact pad9_order. Qed.
Print Assumptions C27_prekey_names_distinct.
Print Assumptions C27_prekey_name_read_back.
Print Assumptions C27_prekey_name_order.
(* "000000099", "000000100"; beyond nine digits the order is lost *)
Example C27_example : snd (preKeyPath 99) = [48;48;48;48;48;48;48;57;57] /\
  blt (snd (preKeyPath 99)) (snd (preKeyPath 100)) = true /\
  sscanf_u32 (snd (preKeyPath 4294967295)) = Ok 4294967295 /\
  blt (snd (preKeyPath 1000000000)) (snd (preKeyPath 200000000)) = true.
Proof. vm_compute. repeat split; reflexivity. Qed.

(* ------------------------------------------------------------------------------------------ *)
(* C28 *)
Theorem C28_number_round_trip : forall C, crypto_ok C -> forall cf iv fs v fs', u32 v -> iv_ok iv ->
  writeNum C cf iv fs regidPath v = Ok fs' -> readNum C cf fs' regidPath = Ok v.
Proof. intros C OK cf iv fs v fs'. now apply num_round_trip. Qed.
Theorem C28_generated_range : forall r, 0 <= generateRegistrationID r < 16384.
Proof.
  intros r. unfold generateRegistrationID. change 16383 with (Z.ones 14). rewrite Z.land_ones by lia.
  apply Z.mod_pos_bound. lia.
Qed.
Print Assumptions C28_number_round_trip.
Print Assumptions C28_generated_range.
Example C28_example : exists fs', writeNum toy ex_cf ex_iv ex_files regidPath (generateRegistrationID 4294967295) = Ok fs' /\
  readNum toy ex_cf fs' regidPath = Ok 16383.
Proof. eexists. split; [vm_compute; reflexivity|]. vm_compute. reflexivity. Qed.

(* ------------------------------------------------------------------------------------------ *)
(* C29. Full statement: if the process stops during the write of a session file, the next load gives
   the old or the new session. It is false, with and without encryption: the file is truncated first. *)
Theorem C29_torn_write_refuted : exists C r r' fs fs1,
  crypto_ok C /\ typed_record r /\ typed_record r' /\
  F_LoadSession C (mkConf true [] []) fs na 1 = Ok r /\
  F_StoreSession C (mkConf true [] []) [] fs na 1 r' = Ok fs1 /\
  exists now, torn (raw_read fs (sessionPath na 1)) (Serialize r') (Some now) /\
    let fs2 := raw_write fs (sessionPath na 1) now in
    F_LoadSession C (mkConf true [] []) fs2 na 1 <> Ok r /\
    F_LoadSession C (mkConf true [] []) fs2 na 1 <> F_LoadSession C (mkConf true [] []) fs1 na 1.
Proof.
  exists toy, ex_record, (mkSr (r_cur ex_record) [] false), [(sessionPath na 1, Serialize ex_record)].
  exists [(sessionPath na 1, Serialize (mkSr (r_cur ex_record) [] false))].
  split; [exact toy_ok|].
  split; [apply typed_recordb_ok; vm_compute; reflexivity|].
  split; [apply typed_recordb_ok; vm_compute; reflexivity|].
  split; [vm_compute; reflexivity|]. split; [vm_compute; reflexivity|].
  exists []. split; [right; exists 0%nat; split; [lia|reflexivity]|]. cbv zeta.
  assert (D : forall b c : res srecord, (match b with Ok r => s_version (r_cur r) | _ => 0 end) <> (match c with Ok r => s_version (r_cur r) | _ => 0 end) -> b <> c)
    by (intros b c H ->; now apply H).
  split; apply D; vm_compute; congruence.
Qed.
(* with encryption, every torn write that leaves fewer than 32 bytes makes the next load crash *)
Theorem C29_torn_encrypted_panics : forall C cf fs rid dev now, c_plain cf = false -> zlen now < 32 ->
  F_LoadSession C cf (raw_write fs (sessionPath rid dev) now) rid dev = Panic.
Proof.
  intros C cf fs rid dev now Hp Hl. unfold F_LoadSession.
  rewrite (C25_short_files_panic C cf _ _ now); auto. apply read_write_same.
Qed.
Print Assumptions C29_torn_write_refuted.
Print Assumptions C29_torn_encrypted_panics.
