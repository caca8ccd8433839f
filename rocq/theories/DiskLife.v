(* The files of installations over their whole lives: the attempts to register, the later starts, the calls of the session
   API with crashes between writes, deleted sessions and saved keys, and new prekeys. Used for C205. *)
From Coq Require Import ZArith List Lia Bool.
From Verif Require Import Bytes Res Wire WireProofs Crypto Cbc CbcProofs Messages Session SessionProofs Builder History HistoryProofs
  RecordCodec RecordCodecProofs Decimal Storage StorageProofs TypedHistory PreKeyGen PropPreKeys Profile Startup PropStartup PropKeysTold
  ActiveLink PropActive Lifetime.
Import ListNotations.
Open Scope Z_scope.

Section F.
Variable C : crypto.
Variable cf : sconf.

(* One step of a life on the files. The writes of a call (store.go 283-366, 418-439) are those of the session API in the
   stores w; DeleteSession (446-449), DeleteAllSessions (451-457) and the removal of a saved key (cmd/textsecure/main.go
   353-378) remove files; StorePreKey (328-334) and StoreSignedPreKey (336-343) write one, with any signature and time. *)
Inductive F_step (w : world) (fs : files) : Lifetime.life -> files -> Prop :=
| fs_call e fs' : F_effs C cf fs (event_effs C w e) fs' -> F_step w fs (LCall e) fs'
| fs_end rid dev : F_step w fs (LEnd rid dev) (raw_remove fs (sessionPath rid dev))
| fs_end_all rid : F_step w fs (LEndAll rid) (DeleteAllSessions fs rid)
| fs_forget rid : F_step w fs (LForget rid) (raw_remove fs (remotePath rid))
| fs_pre id kp iv fs' : iv_ok iv -> StorePreKey C cf iv fs id (mkPkr id (snd kp) (fst kp)) = Ok fs' -> F_step w fs (LPreKey id kp) fs'
| fs_signed id kp sig t iv fs' : iv_ok iv -> wfb sig -> zlen sig <= 64 -> 0 <= t < 2 ^ 64 ->
    StoreSignedPreKey C cf iv fs id (mkSpkr id (snd kp) (fst kp) sig t) = Ok fs' -> F_step w fs (LSigned id kp) fs'.

(* what the steps are about is in the range of the Go types; the sessions written are not larger than a file can be *)
Definition good_step (w : world) (x : Lifetime.life) : Prop :=
  match x with
  | LCall e => good_call (ecall e) /\ Forall fits_eff (event_effs C w e)
  | LEnd rid dev => u32 dev
  | LEndAll rid | LForget rid => True
  | LPreKey id kp | LSigned id kp => u32 id /\ goodkp kp
  end.

(* besides, the client is started again at any time, and the process may stop after any event of the start *)
Inductive item : Type := Live (x : Lifetime.life) | Again (I : input) (k : nat).
Definition lives (l : list item) : list Lifetime.life := flat_map (fun i => match i with Live x => [x] | Again _ _ => [] end) l.
Inductive F_lives : world -> disk -> list item -> disk -> Prop :=
| fl_nil w d : F_lives w d [] d
| fl_live w d x fs t d' : good_step w x -> F_step w (fst d) x fs -> F_lives (lstep C w x) (fs, snd d) t d' -> F_lives w d (Live x :: t) d'
| fl_again w d I k r d1 l t d' : start C cf I d = (r, d1, l) -> F_lives w (crashed d (firstn k l)) t d' -> F_lives w d (Again I k :: t) d'.
End F.

(* ------------------------------------------------------------------------------------------ *)
Section P.
Variable C : crypto.
Hypothesis OK : crypto_ok C.
Variable cf : sconf.
Hypothesis CF : conf_ok cf.
Notation represents := (represents C cf).
Ltac other_dir := let X := fresh in intros X; apply (f_equal fst) in X; discriminate.

(* ---- removing and writing one file ---- *)
Lemma rp_end fs w rid dev : u32 dev -> represents fs w -> represents (raw_remove fs (sessionPath rid dev)) (set_sess w rid dev None).
Proof.
  intros Hd [R1 R2 R3 R4 R5 R6].
  assert (E2 : forall q, q <> sessionPath rid dev -> raw_read (raw_remove fs (sessionPath rid dev)) q = raw_read fs q)
    by (intros q Hq; now apply read_remove_other).
  set (fs' := raw_remove fs (sessionPath rid dev)) in *.
  constructor; cbn [set_sess w_sess w_pre w_spk w_ids w_ident w_reg w_trust_all].
  - intros r d Hd'. unfold LoadSession. cbn [set_sess w_sess]. destruct (beq r rid && (d =? dev)) eqn:B.
    + apply andb_true_iff in B. destruct B as [B1 B2]. apply beq_eq in B1. apply Z.eqb_eq in B2. subst.
      unfold F_LoadSession, readFile, fs'. now rewrite read_remove_same.
    + specialize (R1 r d Hd'). unfold F_LoadSession in *. rewrite (readFile_frame C cf fs fs'); [exact R1|]. apply E2.
      intros X. apply sessionPath_inj in X; auto. destruct X as [-> ->]. rewrite beq_refl, Z.eqb_refl in B. discriminate.
  - intros r k. specialize (R2 r k). unfold IsTrusted, exists_file in *.
    rewrite (readFile_frame C cf fs fs'), E2; auto; try other_dir. apply E2. other_dir.
  - intros id H. specialize (R3 id H). unfold exists_file, LoadPreKey in *.
    rewrite (readFile_frame C cf fs fs'), E2; auto; try other_dir. apply E2. other_dir.
  - intros id H. specialize (R4 id H). unfold exists_file, LoadSignedPreKey in *.
    rewrite (readFile_frame C cf fs fs'), E2; auto; try other_dir. apply E2. other_dir.
  - unfold GetIdentityKeyPair in *. rewrite (readFile_frame C cf fs fs'); auto. apply E2. other_dir.
  - unfold readNum in *. rewrite (readFile_frame C cf fs fs'); auto. apply E2. other_dir.
Qed.
Lemma rp_end_all fs w rid : session_files fs -> represents fs w -> represents (DeleteAllSessions fs rid) (end_all w rid).
Proof.
  intros SF [R1 R2 R3 R4 R5 R6]. destruct (delete_all fs rid SF) as (E1 & E2). set (fs' := DeleteAllSessions fs rid) in *.
  constructor; cbn [end_all w_sess w_pre w_spk w_ids w_ident w_reg w_trust_all].
  - intros r d Hd'. unfold LoadSession. cbn [end_all w_sess]. destruct (beq r rid) eqn:B.
    + apply beq_eq in B. subst. unfold F_LoadSession, readFile. now rewrite E1.
    + specialize (R1 r d Hd'). unfold F_LoadSession in *. rewrite (readFile_frame C cf fs fs'); [exact R1|]. apply E2.
      intros d2 Hd2 X. apply sessionPath_inj in X; auto. destruct X as [-> ->]. rewrite beq_refl in B. discriminate.
  - intros r k. specialize (R2 r k). unfold IsTrusted, exists_file in *.
    rewrite (readFile_frame C cf fs fs'), E2; auto; try (intros ? ?; other_dir). apply E2. intros ? ?. other_dir.
  - intros id H. specialize (R3 id H). unfold exists_file, LoadPreKey in *.
    rewrite (readFile_frame C cf fs fs'), E2; auto; try (intros ? ?; other_dir). apply E2. intros ? ?. other_dir.
  - intros id H. specialize (R4 id H). unfold exists_file, LoadSignedPreKey in *.
    rewrite (readFile_frame C cf fs fs'), E2; auto; try (intros ? ?; other_dir). apply E2. intros ? ?. other_dir.
  - unfold GetIdentityKeyPair in *. rewrite (readFile_frame C cf fs fs'); auto. apply E2. intros ? ?. other_dir.
  - unfold readNum in *. rewrite (readFile_frame C cf fs fs'); auto. apply E2. intros ? ?. other_dir.
Qed.
Lemma rp_forget fs w rid : represents fs w -> represents (raw_remove fs (remotePath rid)) (set_id w rid None).
Proof.
  intros [R1 R2 R3 R4 R5 R6].
  assert (E2 : forall q, q <> remotePath rid -> raw_read (raw_remove fs (remotePath rid)) q = raw_read fs q)
    by (intros q Hq; now apply read_remove_other).
  set (fs' := raw_remove fs (remotePath rid)) in *.
  constructor; cbn [set_id w_sess w_pre w_spk w_ids w_ident w_reg w_trust_all].
  - intros r d Hd'. specialize (R1 r d Hd'). unfold F_LoadSession, LoadSession in *. cbn [set_id w_sess].
    rewrite (readFile_frame C cf fs fs'); auto. apply E2. other_dir.
  - intros r k'. specialize (R2 r k'). unfold IsTrustedIdentity in *. cbn [set_id w_trust_all w_ids].
    unfold IsTrusted in *. destruct (w_trust_all w); auto. cbn [orb] in *. destruct (beq r rid) eqn:B.
    + apply beq_eq in B. subst. unfold exists_file, fs'. now rewrite read_remove_same.
    + assert (P : remotePath r <> remotePath rid).
      { intros X. apply remotePath_inj in X. subst. rewrite beq_refl in B. discriminate. }
      unfold exists_file in *. rewrite (readFile_frame C cf fs fs'), E2; auto.
  - intros i H. specialize (R3 i H). unfold exists_file, LoadPreKey in *.
    rewrite (readFile_frame C cf fs fs'), E2; auto; try other_dir. apply E2. other_dir.
  - intros i H. specialize (R4 i H). unfold exists_file, LoadSignedPreKey in *.
    rewrite (readFile_frame C cf fs fs'), E2; auto; try other_dir. apply E2. other_dir.
  - unfold GetIdentityKeyPair in *. rewrite (readFile_frame C cf fs fs'); auto. apply E2.
    unfold identPath, remotePath, str_remote. intros X. apply (f_equal snd) in X. discriminate.
  - unfold readNum in *. rewrite (readFile_frame C cf fs fs'); auto. apply E2.
    unfold regidPath, remotePath, str_remote. intros X. apply (f_equal snd) in X. discriminate.
Qed.
Lemma good_pkr id kp : u32 id -> goodkp kp -> good_rec (mkPkr id (snd kp) (fst kp)).
Proof. intros H (K1 & K2 & K3 & K4). unfold u32 in H. repeat split; cbn [pkr_id pkr_pub pkr_priv]; auto; lia. Qed.
Lemma rp_prekey fs w id kp iv fs' : u32 id -> goodkp kp -> iv_ok iv -> StorePreKey C cf iv fs id (mkPkr id (snd kp) (fst kp)) = Ok fs' ->
  represents fs w -> represents fs' (set_pre w id (Some kp)).
Proof.
  intros Hid K Hi E [R1 R2 R3 R4 R5 R6]. unfold StorePreKey in E. pose proof (good_pkr id kp Hid K) as G.
  destruct (readFile_write C OK cf iv fs _ _ fs' (rec_wf _ G) Hi E) as (E1 & E2 & E3).
  constructor; cbn [set_pre w_sess w_pre w_spk w_ids w_ident w_reg w_trust_all].
  - intros r d Hd'. specialize (R1 r d Hd'). unfold F_LoadSession, LoadSession in *. cbn [set_pre w_sess].
    rewrite (readFile_frame C cf fs fs'); auto. apply E2. other_dir.
  - intros r k. specialize (R2 r k). unfold IsTrusted, exists_file, IsTrustedIdentity in *. cbn [set_pre w_trust_all w_ids].
    rewrite (readFile_frame C cf fs fs'), E2; auto; try other_dir. apply E2. other_dir.
  - intros i H. destruct (Z.eqb_spec i id) as [->|N].
    + unfold LoadPreKey. rewrite E1. cbn [bind]. apply prekey_round_trip; [exact Hid|]. now apply rec_small.
    + specialize (R3 i H). unfold exists_file, LoadPreKey in *.
      assert (P : preKeyPath i <> preKeyPath id) by (intros X; apply N; now apply preKeyPath_inj).
      rewrite (readFile_frame C cf fs fs'), E2; auto.
  - intros i H. specialize (R4 i H). unfold exists_file, LoadSignedPreKey in *.
    rewrite (readFile_frame C cf fs fs'), E2; auto; try other_dir. apply E2. other_dir.
  - unfold GetIdentityKeyPair in *. rewrite (readFile_frame C cf fs fs'); auto. apply E2. other_dir.
  - unfold readNum in *. rewrite (readFile_frame C cf fs fs'); auto. apply E2. other_dir.
Qed.
Lemma spkr_fits id kp sig t : u32 id -> goodkp kp -> wfb sig -> zlen sig <= 64 ->
  zlen (spkr_serialize (mkSpkr id (snd kp) (fst kp) sig t)) < 2 ^ 63 /\ wfb (spkr_serialize (mkSpkr id (snd kp) (fst kp) sig t)).
Proof.
  intros Hid (L1 & W1 & L2 & W2) W3 L3. split.
  - assert (V : forall v, (length (varint v) <= 10)%nat) by (intros; apply enc_varint_le).
    assert (F : (length (spkr_serialize (mkSpkr id (snd kp) (fst kp) sig t)) <= 400)%nat); [|unfold zlen; lia].
    unfold spkr_serialize, marshal, spkr_slots, flat, encode, f_u32, f_bytes, f_f64.
    cbn [flat_map map fst snd spkr_id spkr_pub spkr_priv spkr_sig spkr_time].
    assert (L3' : (length sig <= 64)%nat) by (unfold zlen in L3; lia).
    destruct (snd kp) as [|x1 t1] eqn:E1; [discriminate|]. destruct (fst kp) as [|x2 t2] eqn:E2; [discriminate|].
    destruct sig as [|x3 t3];
    destruct (id =? 0); destruct (t =? 0); cbn [map app flat_map]; unfold enc_field; cbn [fst snd enc_val];
      repeat rewrite app_length; rewrite ?le_enc_length; cbn [length] in *;
      repeat match goal with |- context [length (varint ?v)] => pose proof (V v); generalize dependent (length (varint v)); intros end; lia.
  - apply marshal_wf. unfold spkr_slots.
    repeat (apply Forall_cons; [cbn [fst snd spkr_id spkr_pub spkr_priv spkr_sig spkr_time]; split; [lia|];
      first [apply wb_u32; assumption | apply wb_bytes; assumption | apply wb_f64]|]). apply Forall_nil.
Qed.
Lemma rp_signed fs w id kp sig t iv fs' : u32 id -> goodkp kp -> iv_ok iv -> wfb sig -> zlen sig <= 64 -> 0 <= t < 2 ^ 64 ->
  StoreSignedPreKey C cf iv fs id (mkSpkr id (snd kp) (fst kp) sig t) = Ok fs' -> represents fs w -> represents fs' (set_spk w id kp).
Proof.
  intros Hid K Hi W3 L3 Ht E [R1 R2 R3 R4 R5 R6]. unfold StoreSignedPreKey in E.
  destruct (spkr_fits id kp sig t Hid K W3 L3) as (S1 & S2).
  destruct (readFile_write C OK cf iv fs _ _ fs' S2 Hi E) as (E1 & E2 & E3).
  constructor; cbn [set_spk w_sess w_pre w_spk w_ids w_ident w_reg w_trust_all].
  - intros r d Hd'. specialize (R1 r d Hd'). unfold F_LoadSession, LoadSession in *. cbn [set_spk w_sess].
    rewrite (readFile_frame C cf fs fs'); auto. apply E2. other_dir.
  - intros r k. specialize (R2 r k). unfold IsTrusted, exists_file, IsTrustedIdentity in *. cbn [set_spk w_trust_all w_ids].
    rewrite (readFile_frame C cf fs fs'), E2; auto; try other_dir. apply E2. other_dir.
  - intros i H. specialize (R3 i H). unfold exists_file, LoadPreKey in *.
    rewrite (readFile_frame C cf fs fs'), E2; auto; try other_dir. apply E2. other_dir.
  - intros i H. destruct (Z.eqb_spec i id) as [->|N].
    + exists sig, t. unfold LoadSignedPreKey. rewrite E1. cbn [bind]. now apply signed_prekey_round_trip.
    + specialize (R4 i H). unfold exists_file, LoadSignedPreKey in *.
      assert (P : signedPath i <> signedPath id) by (intros X; apply N; now apply signedPath_inj).
      rewrite (readFile_frame C cf fs fs'), E2; auto.
  - unfold GetIdentityKeyPair in *. rewrite (readFile_frame C cf fs fs'); auto. apply E2. other_dir.
  - unfold readNum in *. rewrite (readFile_frame C cf fs fs'); auto. apply E2. other_dir.
Qed.

(* ---- the files among the sessions stay files of sessions ---- *)
Lemma sf_incl fs fs' : (forall e, In e fs' -> In e fs) -> session_files fs -> session_files fs'.
Proof. intros H S n b X. eapply S, H, X. Qed.
Lemma sf_remove fs p : session_files fs -> session_files (raw_remove fs p).
Proof. apply sf_incl. intros e X. unfold raw_remove in X. now apply filter_In in X. Qed.
Lemma sf_write iv fs p b fs' : session_files fs -> (fst p = DSessions -> exists rid dev, u32 dev /\ p = sessionPath rid dev) ->
  writeFile C cf iv fs p b = Ok fs' -> session_files fs'.
Proof.
  intros S D E. unfold writeFile in E. destruct (st_encrypt C cf iv b) as [e|x|]; cbn [bind] in E; try discriminate. injection E as <-.
  intros n c. cbn [raw_write In]. intros [X|X].
  - injection X as -> ->. destruct (D eq_refl) as (rid & dev & U & X). exists rid, dev. split; [exact U|]. now injection X.
  - unfold raw_remove in X. apply filter_In in X. destruct X as [X _]. eapply S; eauto.
Qed.
Lemma sf_effs fs l fs' : Forall fine_eff l -> F_effs C cf fs l fs' -> session_files fs -> session_files fs'.
Proof.
  intros G F. revert G. induction F as [fs|fs e l iv fs1 fs2 Hi E F IH]; intros G S; [exact S|].
  inversion G as [|? ? G1 G2]; subst. apply IH; [exact G2|]. destruct e as [rid dev c p|id|rid k]; cbn [F_eff fine_eff] in *.
  - eapply sf_write; [exact S| |exact E]. intros _. exists rid, dev. tauto.
  - injection E as <-. now apply sf_remove.
  - eapply sf_write; [exact S| |exact E]. discriminate.
Qed.
Lemma sf_delete_all fs rid : session_files fs -> session_files (DeleteAllSessions fs rid).
Proof.
  unfold DeleteAllSessions. generalize (GetSubDeviceSessions fs rid) as l. intros l. revert fs.
  induction l as [|d l IH]; intros fs S; [exact S|]. cbn [fold_left]. apply IH. now apply sf_remove.
Qed.

(* ---- the last-resort prekey stays ---- *)
Definition keeps_last (e : eff) : Prop := e <> ERemovePreKey 16777215.
Lemma build_recv_last w rid r m q l : BuildReceiverSession C w rid r m = (q, l) -> Forall keeps_last l.
Proof.
  unfold BuildReceiverSession. destruct (negb _); [intros [= _ <-]; constructor|]. destruct (negb _); [intros [= _ <-]; constructor|].
  destruct (hasSessionState _ _ _); [intros [= _ <-]; constructor|]. destruct (bind _ _) as [a|e|]; intros [= _ <-]; repeat constructor; discriminate.
Qed.
Lemma call_last w c : Forall keeps_last (snd (perform_call C w c)).
Proof.
  destruct c as [rid dev pt|rid dev ty b rnd|rid dev b rbase rratchet]; cbn [perform_call].
  - unfold SessionEncryptMessage. cbv zeta. destruct (ss_encrypt _ _ _) as [[[x ty] s]|e|]; cbn [snd]; repeat constructor; discriminate.
  - unfold receive. destruct ty.
    + destruct (LoadWhisperMessage b) as [m|e|]; try (cbn [snd]; constructor). unfold SessionDecryptWhisperMessage.
      destruct (sc_decrypt _ _ _ _) as [[pt|e|] r']; cbn [snd]; repeat constructor; discriminate.
    + destruct (LoadPreKeyWhisperMessage b) as [m|e|]; try (cbn [snd]; constructor). unfold SessionDecryptPreKeyWhisperMessage.
      destruct (BuildReceiverSession C w rid (LoadSession w rid dev) m) as [[[pkid r1]|e|] l1] eqn:B; apply build_recv_last in B; try exact B.
      destruct (sc_decrypt _ _ _ _) as [[pt|e|] r']; cbn [snd]; try exact B.
      apply Forall_app. split; [exact B|]. destruct (Z.eqb_spec pkid 16777215) as [E|E]; cbn [app]; repeat constructor; try discriminate.
      intros X. apply E. now injection X.
  - unfold BuildSenderSession. destruct (negb _); [constructor|]. destruct (match b_spk b with Some _ => _ | None => _ end); [constructor|].
    destruct (b_spk b); cbn [snd]; repeat constructor; discriminate.
Qed.
Lemma effs_last l : forall w, Forall keeps_last l -> w_pre w 16777215 <> None -> w_pre (apply_effs w l) 16777215 <> None.
Proof.
  induction l as [|e l IH]; intros w F H; [exact H|]. inversion F as [|? ? F1 F2]; subst.
  change (apply_effs w (e :: l)) with (apply_effs (apply_eff w e) l). apply IH; [exact F2|].
  destruct e as [rid dev c p|id|rid k]; cbn [apply_eff set_sess set_pre set_id w_pre]; try exact H.
  destruct (Z.eqb_spec 16777215 id) as [<-|N]; [elim F1; reflexivity|exact H].
Qed.
Lemma event_last w e : Forall keeps_last (event_effs C w e).
Proof. destruct e as [c|c k]; cbn [event_effs]; [|apply Forall_firstn]; apply call_last. Qed.
Lemma step_last w x : w_pre w 16777215 <> None -> w_pre (lstep C w x) 16777215 <> None.
Proof.
  intros H. destruct x as [e|rid dev|rid|rid|id kp|id kp]; cbn [lstep set_sess end_all set_id set_pre set_spk w_pre]; try exact H.
  - rewrite estep_effs. apply effs_last; [apply event_last|exact H].
  - destruct (16777215 =? id); [discriminate|exact H].
Qed.
Lemma last_valid fs w : represents fs w -> w_pre w 16777215 <> None -> valid fs = true.
Proof.
  intros R H. unfold valid, exists_file. pose proof (rp_pre _ _ _ _ R lastResortPreKeyID ltac:(unfold u32, lastResortPreKeyID; lia)) as X.
  unfold lastResortPreKeyID in *. destruct (w_pre w 16777215) as [kp|]; [|now elim H]. unfold LoadPreKey, readFile in X.
  destruct (raw_read fs (preKeyPath 16777215)); [reflexivity|discriminate].
Qed.

(* ---- a whole life ---- *)
Record kept (fs : files) (w : world) : Prop := {
  kp_rep : represents fs w;
  kp_files : session_files fs;
  kp_good : good_world w;
  kp_last : w_pre w 16777215 <> None }.

Lemma step_good w x : good_world w -> good_step C w x -> good_world (lstep C w x).
Proof.
  intros W G. destruct x as [e|rid dev|rid|rid|id kp|id kp]; cbn [lstep good_step] in *.
  - rewrite estep_effs. apply effs_good_world; [exact W|]. apply event_fine; [exact OK|exact W|apply G].
  - destruct W as [H1 H2 H3 H4]. constructor; cbn [set_sess w_sess w_ident w_reg w_spk]; auto.
    intros r d c p. destruct (beq r rid && (d =? dev)); [discriminate|apply H1].
  - destruct W as [H1 H2 H3 H4]. constructor; cbn [end_all w_sess w_ident w_reg w_spk]; auto.
    intros r d c p. destruct (beq r rid); [discriminate|apply H1].
  - destruct W as [H1 H2 H3 H4]. constructor; cbn [set_id w_sess w_ident w_reg w_spk]; auto.
  - destruct W as [H1 H2 H3 H4]. constructor; cbn [set_pre w_sess w_ident w_reg w_spk]; auto.
  - destruct W as [H1 H2 H3 H4]. constructor; cbn [set_spk w_sess w_ident w_reg w_spk]; auto.
    intros i k. destruct (i =? id); [|apply H4]. intros [= <-]. destruct G as (_ & G1 & G2 & G3 & G4). auto.
Qed.
Lemma step_kept fs w x fs' : kept fs w -> good_step C w x -> F_step C cf w fs x fs' -> kept fs' (lstep C w x).
Proof.
  intros [R S W L] G F. constructor; [| |now apply step_good|now apply step_last].
  - destruct F as [e fs' F|rid dev|rid|rid|id kp iv fs' Hi E|id kp sig t iv fs' Hi W3 L3 Ht E]; cbn [lstep good_step] in *.
    + rewrite estep_effs. apply (effs_refine C OK cf fs w _ fs'); [exact R| |exact F].
      destruct G as (G & Z). pose proof (event_fine C OK w e W G) as A. clear -A Z.
      induction A as [|e' l He Hl IH]; [constructor|]. inversion Z; subst. constructor; auto. destruct e'; cbn in *; tauto.
    + now apply rp_end.
    + now apply rp_end_all.
    + now apply rp_forget.
    + eapply rp_prekey; try eassumption; apply G.
    + eapply rp_signed; try eassumption; apply G.
  - destruct F as [e fs' F|rid dev|rid|rid|id kp iv fs' Hi E|id kp sig t iv fs' Hi W3 L3 Ht E]; cbn [lstep good_step] in *.
    + eapply sf_effs; [|exact F|exact S]. apply event_fine; [exact OK|exact W|apply G].
    + now apply sf_remove.
    + now apply sf_delete_all.
    + now apply sf_remove.
    + eapply sf_write; [exact S| |exact E]. discriminate.
    + eapply sf_write; [exact S| |exact E]. discriminate.
Qed.
(* a start of a registered client leaves the files of the store alone *)
Lemma again_files I d r d1 l k : valid (fst d) = true -> start C cf I d = (r, d1, l) -> fst (crashed d (firstn k l)) = fst d.
Proof.
  intros V E. unfold start in E. rewrite setup_split in E. cbn zeta in E. cbn [boot t_files t_disk t_nw t_nc t_drawn t_log] in E.
  rewrite V in E.
  match type of E with context [rest C cf I ?s0] => pose proof (later_rest C cf I (fst d) (g_uuid (snd d)) s0 eq_refl eq_refl) as (_ & _ & m & L & F) end.
  destruct (rest C cf I _) as (r0, s). cbn [snd t_log] in L. rewrite app_nil_r in L. injection E as _ _ <-. subst m.
  apply (later_crashed C cf (fst d) (g_uuid (snd d))); [|reflexivity]. apply Forall_firstn_ev, Forall_rev_ev, F.
Qed.
Theorem lives_kept w d l d' : kept (fst d) w -> F_lives C cf w d l d' -> kept (fst d') (fold_left (lstep C) (lives l) w).
Proof.
  intros K F. induction F as [w d|w d x fs t d' G E F IH|w d I k r d1 l t d' E F IH]; [exact K| |].
  - cbn [lives flat_map app fold_left]. apply IH. cbn [fst]. eapply step_kept; eauto.
  - cbn [lives flat_map app]. apply IH. rewrite (again_files I d r d1 l k); [exact K| |exact E].
    eapply last_valid; [apply (kp_rep _ _ K)|apply (kp_last _ _ K)].
Qed.

(* the steps are such uses as the lives of Startup allow *)
Lemma same_refl fs : same fs fs.
Proof. intros p _ _. reflexivity. Qed.
Lemma same_remove fs p : fst p <> DIdentity \/ (exists rid, p = remotePath rid) -> same fs (raw_remove fs p).
Proof.
  intros N q D R. apply read_remove_other. intros ->. destruct N as [N|(rid & ->)]; [now apply N|now elim (R rid)].
Qed.
Lemma same_write iv fs p b fs' : fst p <> DIdentity \/ (exists rid, p = remotePath rid) -> writeFile C cf iv fs p b = Ok fs' -> same fs fs'.
Proof.
  intros N E q D R. unfold writeFile in E. destruct (st_encrypt C cf iv b) as [e|x|]; cbn [bind] in E; try discriminate. injection E as <-.
  apply read_write_other. intros ->. destruct N as [N|(rid & ->)]; [now apply N|now elim (R rid)].
Qed.
Lemma same_effs fs l fs' : F_effs C cf fs l fs' -> same fs fs'.
Proof.
  induction 1 as [fs|fs e l iv fs1 fs2 Hi E F IH]; [apply same_refl|]. eapply same_trans; [|exact IH].
  destruct e as [rid dev c p|id|rid k]; cbn [F_eff] in E.
  - eapply same_write; [|exact E]. left. discriminate.
  - injection E as <-. apply same_remove. left. discriminate.
  - eapply same_write; [|exact E]. right. eauto.
Qed.
Lemma step_same w fs x fs' : F_step C cf w fs x fs' -> same fs fs'.
Proof.
  intros [e fs1 F|rid dev|rid|rid|id kp iv fs1 Hi E|id kp sig t iv fs1 Hi W3 L3 Ht E].
  - now apply same_effs in F.
  - apply same_remove. left. discriminate.
  - unfold DeleteAllSessions. generalize (GetSubDeviceSessions fs rid) as l. intros l. revert fs.
    induction l as [|d l IH]; intros fs; [apply same_refl|]. cbn [fold_left]. eapply same_trans; [|apply IH]. apply same_remove. left. discriminate.
  - apply same_remove. right. eauto.
  - eapply same_write; [|exact E]. left. discriminate.
  - eapply same_write; [|exact E]. left. discriminate.
Qed.
Definition starts_ok (Q : input -> Prop) (l : list item) : Prop := Forall (fun i => match i with Again J _ => Q J | Live _ => True end) l.
Theorem lives_life (Q : input -> Prop) d0 w d l d' : kept (fst d) w -> F_lives C cf w d l d' -> starts_ok Q l ->
  forall L, PropStartup.life C cf Q d0 d L -> exists L', PropStartup.life C cf Q d0 d' (L ++ L').
Proof.
  intros K F. induction F as [w d|w d x fs t d' G E F IH|w d I k r d1 l t d' E F IH]; intros S L H.
  - exists []. now rewrite app_nil_r.
  - inversion S; subst. pose proof (step_kept _ _ _ _ K G E) as K'. apply IH; [exact K'|assumption|].
    apply life_use with (d := d); [exact H|eapply step_same; exact E| |reflexivity].
    rewrite (last_valid _ _ (kp_rep _ _ K') (kp_last _ _ K')). symmetry. apply (last_valid _ _ (kp_rep _ _ K) (kp_last _ _ K)).
  - inversion S; subst.
    assert (K' : kept (fst (crashed d (firstn k l))) w).
    { rewrite (again_files I d r d1 l k); [exact K| |exact E]. eapply last_valid; [apply (kp_rep _ _ K)|apply (kp_last _ _ K)]. }
    destruct (IH K' ltac:(assumption) (L ++ firstn k l)) as (L' & H'); [eapply life_start; eauto|].
    exists (firstn k l ++ L'). now rewrite app_assoc.
Qed.
(* every life can be led on the files *)
Fixpoint good_lives (w : world) (l : list item) : Prop :=
  match l with
  | [] => True
  | Live x :: t => good_step C w x /\ good_lives (lstep C w x) t
  | Again _ _ :: t => good_lives w t
  end.
Lemma step_total w fs x : good_step C w x -> exists fs', F_step C cf w fs x fs'.
Proof.
  assert (I0 : iv_ok (zeros 16)) by (split; [reflexivity|apply wfb_zeros]).
  intros G. destruct x as [e|rid dev|rid|rid|id kp|id kp]; cbn [good_step] in G.
  - destruct (effs_total C cf CF fs (event_effs C w e)) as (fs' & F). exists fs'. now constructor.
  - eexists. constructor.
  - eexists. constructor.
  - eexists. constructor.
  - destruct (writeFile_total C cf CF (zeros 16) fs (preKeyPath id) (pkr_serialize (mkPkr id (snd kp) (fst kp))) I0) as (fs' & E).
    exists fs'. econstructor; [exact I0|exact E].
  - destruct (writeFile_total C cf CF (zeros 16) fs (signedPath id) (spkr_serialize (mkSpkr id (snd kp) (fst kp) [] 0)) I0) as (fs' & E).
    exists fs'. econstructor; [exact I0| | | |exact E]; [constructor|cbn; lia|lia].
Qed.
Theorem lives_total l : forall w d, good_lives w l -> exists d', F_lives C cf w d l d'.
Proof.
  induction l as [|[x|J k] l IH]; intros w d G; cbn [good_lives] in G.
  - exists d. constructor.
  - destruct G as (G1 & G2). destruct (step_total w (fst d) x G1) as (fs & E). destruct (IH (lstep C w x) (fs, snd d) G2) as (d' & F).
    exists d'. econstructor; eauto.
  - destruct (start C cf J d) as [[r d1] l1] eqn:E. destruct (IH w (crashed d (firstn k l1)) G) as (d' & F). exists d'. econstructor; eauto.
Qed.

(* ---- the files of a client that has registered and has not used its sessions yet ---- *)
Section N.
Variable P : keypair -> Prop.
Definition new_file (p : path) (b : bytes) : Prop :=
  match fst p with
  | DSessions => False
  | DPreKeys => exists id kp, u32 id /\ goodkp kp /\ P kp /\ p = preKeyPath id /\
      st_decrypt C cf b = Ok (pkr_serialize (mkPkr id (snd kp) (fst kp)))
  | DSigned => exists id kp sig t, u32 id /\ goodkp kp /\ P kp /\ wfb sig /\ zlen sig <= 64 /\ 0 <= t < 2 ^ 64 /\ p = signedPath id /\
      st_decrypt C cf b = Ok (spkr_serialize (mkSpkr id (snd kp) (fst kp) sig t))
  | DIdentity => (forall rid, p <> remotePath rid) /\
      (p = identPath -> exists kp, goodkp kp /\ P kp /\ st_decrypt C cf b = Ok (snd kp ++ fst kp)) /\
      (p = regidPath -> exists v, u32 v /\ st_decrypt C cf b = Ok (itoa v))
  end.
Definition new_files (fs : files) : Prop := forall p b, In (p, b) fs -> new_file p b.

(* the keys drawn in a start *)
Definition draws (I : input) : Prop := P (i_ident I) /\ P (i_skp I) /\ forall i, P (i_kps I i).

Section I.
Variable I : input.
Hypothesis GI : good_in I.
Hypothesis GK : good_keys I.
Hypothesis DR : draws I.
Definition evnew (e : ev) : Prop := match e with EvDisk fs _ => new_files fs | _ => True end.
Definition Rnew (s s' : pst) : Prop := new_files (t_files s) -> new_files (t_files s') /\ since evnew s s'.
Lemma new_refl s : Rnew s s.
Proof. intros H. split; [exact H|apply since_refl]. Qed.
Lemma new_trans a b c : Rnew a b -> Rnew b c -> Rnew a c.
Proof. intros H K V. destruct (H V) as (V1 & S1). destruct (K V1) as (V2 & S2). split; [exact V2|eapply since_trans; eauto]. Qed.
Lemma new_write p b : (forall ct, st_decrypt C cf ct = Ok b -> new_file p ct) -> wfb b -> keeps Rnew (write C cf I p b).
Proof.
  intros N W s V. unfold write. destruct (i_wok I _); [|split; [exact V|apply since_none; reflexivity]].
  destruct (writeFile C cf _ (t_files s) p b) as [fs|e|] eqn:E; cbn [snd t_files]; try (split; [exact V|apply since_none; reflexivity]).
  assert (new_files fs).
  { unfold writeFile in E. destruct (st_encrypt _ _ _ _) as [ct|e|] eqn:A; cbn [bind] in E; try discriminate. injection E as <-.
    apply (decrypt_encrypt C OK cf) in A; [|exact W|apply (gi_iv _ GI)].
    intros q c. cbn [raw_write In]. intros [X|X]; [injection X as <- <-; now apply N|]. apply V.
    unfold raw_remove in X. now apply filter_In in X. }
  split; [assumption|]. eapply since_one; [reflexivity|assumption].
Qed.
Lemma new_prekey id kp : u32 id -> goodkp kp -> P kp -> keeps Rnew (genPreKey C cf I id kp).
Proof.
  intros U G H. unfold genPreKey. apply new_write; [|apply rec_wf; now apply good_pkr].
  intros ct D. cbn [new_file preKeyPath fst]. exists id, kp. auto.
Qed.
Lemma new_batch n : forall i start, 0 <= start <= 16777215 -> (i + n <= 100)%nat -> keeps Rnew (genBatch C cf I n i start).
Proof.
  induction n as [|n IH]; intros i st S L; cbn [genBatch]; [apply keeps_ret; apply new_refl|].
  apply (keeps_bind _ new_trans); [|intros _; apply IH; lia]. rewrite Z.mod_small by lia.
  apply new_prekey; [unfold u32; lia|apply (gk_kps _ GK)|apply DR].
Qed.
Lemma new_gen : keeps Rnew (genPreKeys C cf I).
Proof.
  unfold genPreKeys. apply (keeps_bind _ new_trans); [apply new_batch; [apply land24|unfold preKeyBatchSize; lia]|intros _].
  apply (keeps_bind _ new_trans); [apply new_prekey; [unfold u32, lastResortPreKeyID; lia|apply (gk_kps _ GK)|apply DR]|intros _].
  apply keeps_ignore. pose proof (land24 (i_srand I)) as R. destruct (gk_sig _ GK) as (W & L).
  assert (U : u32 (randID (i_srand I))) by (unfold u32; lia). assert (L' : zlen (i_signature I) <= 64) by lia.
  apply new_write; [|apply (proj2 (spkr_fits _ _ _ (i_time I) U (gk_skp _ GK) W L'))].
  intros ct D. cbn [new_file signedPath fst]. exists (randID (i_srand I)), (i_skp I), (i_signature I), (i_time I).
  split; [exact U|]. split; [apply (gk_skp _ GK)|]. split; [apply DR|]. split; [exact W|]. split; [exact L'|].
  split; [apply (gk_time _ GK)|]. split; [reflexivity|exact D].
Qed.
Lemma new_save : keeps Rnew (saveConfig I).
Proof. intros s V. unfold saveConfig. destruct (i_cok I _); (split; [exact V|]); [eapply since_one; [reflexivity|exact V]|apply since_none; reflexivity]. Qed.
Lemma new_say e : (forall fs c, e <> EvDisk fs c) -> keeps Rnew (say e).
Proof. intros F s V. split; [exact V|]. eapply since_one; [reflexivity|]. destruct e; try exact Logic.I. now elim (F fs c). Qed.
Lemma new_register : keeps Rnew (register C cf I).
Proof.
  pose proof new_refl as Rr. pose proof new_trans as Rt.
  assert (M : forall g, keeps Rnew (modify g)) by (intros g s V; split; [exact V|apply since_none; reflexivity]).
  unfold register.
  assert (RG : u32 (generateRegistrationID (i_rand I))).
  { unfold generateRegistrationID. change 16383 with (Z.ones 14). rewrite Z.land_ones by lia. unfold u32. 
    pose proof (Z.mod_pos_bound (i_rand I) (2 ^ 14) ltac:(lia)). lia. }
  apply (keeps_bind _ Rt).
  { apply keeps_ignore, new_write.
    - intros ct D. cbn [new_file regidPath fst]. split; [apply not_remote; discriminate|]. split; [discriminate|]. intros _. eauto.
    - unfold itoa. unfold u32 in RG. destruct (_ <? 0) eqn:E; [apply Z.ltb_lt in E; lia|]. apply udec_wf. lia. }
  intros _. apply (keeps_bind _ Rt).
  { apply keeps_ignore, new_write; [|apply (gi_pass _ GI)].
    intros ct D. cbn [new_file passPath fst]. split; [apply not_remote; discriminate|]. split; discriminate. }
  intros _. apply (keeps_bind _ Rt).
  { apply keeps_ignore, new_write; [|apply (gi_sig _ GI)].
    intros ct D. cbn [new_file sigPath fst]. split; [apply not_remote; discriminate|]. split; discriminate. }
  intros _. apply (keeps_bind _ Rt).
  { apply new_write.
    - intros ct D. cbn [new_file identPath fst]. split; [apply not_remote; discriminate|]. split; [|discriminate].
      intros _. exists (i_ident I). split; [apply (gi_ident _ GI)|]. split; [apply DR|exact D].
    - destruct (gi_ident _ GI) as (_ & W1 & _ & W2). apply Forall_app. auto. }
  intros _. unfold registerDevice. apply (keeps_bind _ Rt). { intros s V. split; [exact V|apply since_none; reflexivity]. } intros _.
  destruct (i_register I); [|apply keeps_fail; auto|apply keeps_panic; auto].
  destruct (i_verify I); [|apply keeps_fail; auto|apply keeps_panic; auto].
  apply (keeps_bind _ Rt); [apply new_say; discriminate|intros _]. apply (keeps_bind _ Rt); [apply M|intros _].
  apply (keeps_bind _ Rt); [apply new_save|intros _]. apply (keeps_bind _ Rt); [apply new_gen|intros _].
  apply (keeps_bind _ Rt); [apply keeps_lift; auto|intros ps].
  destruct (i_upload I); [|apply keeps_fail; auto|apply keeps_panic; auto]. destruct (is_error _); [apply keeps_fail; auto|].
  apply (keeps_bind _ Rt); [apply new_say; discriminate|intros _].
  apply (keeps_bind _ Rt). { intros s V. split; [exact V|apply since_none; reflexivity]. } intros k.
  apply (keeps_bind _ Rt); [apply M|intros _]. apply (keeps_bind _ Rt); [apply keeps_ignore, new_save|intros _].
  apply (keeps_bind _ Rt); [apply new_say; discriminate|intros _]. apply new_say. discriminate.
Qed.
Lemma new_setup : keeps Rnew (Setup C cf I).
Proof.
  apply keeps_setup; [exact new_refl | exact new_trans | ..];
    first [apply new_register | apply new_save | intros; apply new_say; discriminate
          | intros; intros s V; split; [exact V|apply since_none; reflexivity]].
Qed.
Lemma new_start d r d' l : new_files (fst d) -> start C cf I d = (r, d', l) -> Forall evnew l.
Proof.
  intros V E. unfold start in E. destruct (new_setup (boot d) V) as (_ & m & L & F).
  destruct (Setup C cf I (boot d)) as (r0, s). injection E as _ _ <-. cbn [snd boot t_log] in L. rewrite app_nil_r in L. subst m.
  now apply Forall_rev_ev.
Qed.
End I.

(* any number of attempts to register, each carried out or cut off after any number of its events, from an empty disk *)
Inductive attempts : disk -> Prop :=
| at_new c : attempts ([], c)
| at_more I d r d' l k : attempts d -> good_in I -> good_keys I -> draws I -> start C cf I d = (r, d', l) -> attempts (crashed d (firstn k l)).
Lemma crashed_new l : forall d, new_files (fst d) -> Forall evnew l -> new_files (fst (crashed d l)).
Proof.
  induction l as [|e l IH]; intros d V F; [exact V|]. inversion F; subst. cbn [crashed fold_left]. apply IH; [|assumption].
  destruct e; try exact V. assumption.
Qed.
Lemma attempts_new d : attempts d -> new_files (fst d).
Proof.
  induction 1 as [c|I d r d' l k T IH GI GK DR E]; [intros p b []|].
  apply crashed_new; [exact IH|]. apply Forall_firstn_ev. eapply new_start; eauto.
Qed.
Lemma attempts_life d : attempts d -> exists c L, PropStartup.life C cf good_in ([], c) d L.
Proof.
  induction 1 as [c|I d r d' l k T IH GI GK DR E]; [exists c, []; constructor|]. destruct IH as (c & L & H).
  exists c, (L ++ firstn k l). eapply life_start; eauto.
Qed.
Lemma start_reg I d r d' l : start C cf I d = (Ok r, d', l) -> exists v, readNum C cf (fst d') regidPath = Ok v.
Proof.
  unfold start. rewrite setup_split. cbn zeta. cbn [boot t_files t_disk t_nw t_nc t_drawn t_log].
  assert (X : forall s0, (let (r0, s) := rest C cf I s0 in (r0, (t_files s, t_disk s), rev (t_log s))) = (Ok r, d', l) ->
    exists v, readNum C cf (fst d') regidPath = Ok v).
  { intros s0. pose proof (later_rest C cf I (t_files s0) (g_uuid (t_mem s0)) s0 eq_refl eq_refl) as (A & _).
    destruct (rest C cf I s0) as (r0, s) eqn:E. cbn [snd] in A. intros [= -> <- <-]. cbn [fst]. rewrite A.
    unfold rest in E. apply bind_inv in E as (v & s1 & E1 & _). exists v. unfold lift in E1. congruence. }
  destruct (valid (fst d)); [apply X|]. destruct (register C cf I _) as [[a|e|] s']; [apply X|discriminate|discriminate].
Qed.

(* the stores that such files are *)
Definition world_of (ta : bool) (fs : files) : world :=
  mkWorld (match GetIdentityKeyPair C cf fs with Ok kp => kp | _ => ([], []) end)
    (match readNum C cf fs regidPath with Ok v => v | _ => 0 end) ta (fun _ _ => None)
    (fun id => match LoadPreKey C cf fs id with Ok r => Some (pkr_priv r, pkr_pub r) | _ => None end)
    (fun id => match LoadSignedPreKey C cf fs id with Ok r => Some (spkr_priv r, spkr_pub r) | _ => None end) (fun _ => None).
Lemma new_pre fs id b : new_files fs -> raw_read fs (preKeyPath id) = Some b -> exists i kp, u32 i /\ goodkp kp /\ P kp /\
  preKeyPath id = preKeyPath i /\ LoadPreKey C cf fs id = Ok (mkPkr i (snd kp) (fst kp)).
Proof.
  intros N R. pose proof (raw_read_in _ _ _ R) as X. apply N in X. cbn [new_file preKeyPath fst] in X.
  destruct X as (i & kp & U & G & K & E & D). exists i, kp. repeat (split; [assumption|]).
  unfold LoadPreKey, readFile. rewrite R, D. cbn [bind]. apply prekey_round_trip; [exact U|]. apply rec_small. now apply good_pkr.
Qed.
Lemma new_spk fs id b : new_files fs -> raw_read fs (signedPath id) = Some b -> exists i kp sig t, u32 i /\ goodkp kp /\ P kp /\
  signedPath id = signedPath i /\ LoadSignedPreKey C cf fs id = Ok (mkSpkr i (snd kp) (fst kp) sig t).
Proof.
  intros N R. pose proof (raw_read_in _ _ _ R) as X. apply N in X. cbn [new_file signedPath fst] in X.
  destruct X as (i & kp & sig & t & U & G & K & W & L & T & E & D). exists i, kp, sig, t. repeat (split; [assumption|]).
  unfold LoadSignedPreKey, readFile. rewrite R, D. cbn [bind]. apply signed_prekey_round_trip; [exact U|exact T|].
  apply (proj1 (spkr_fits i kp sig t U G W L)).
Qed.
Lemma new_world ta fs k v : new_files fs -> valid fs = true -> GetIdentityKeyPair C cf fs = Ok k -> readNum C cf fs regidPath = Ok v ->
  let w := world_of ta fs in kept fs w /\ w_ident w = k /\ w_trust_all w = ta /\ P k /\
    (forall id kp, w_pre w id = Some kp -> P kp) /\ (forall id kp, w_spk w id = Some kp -> P kp) /\
    (forall rid dev, w_sess w rid dev = None) /\ (forall rid, w_ids w rid = None).
Proof.
  intros N V ID RG w.
  assert (PRE : forall id kp, w_pre w id = Some kp -> P kp).
  { intros id kp. unfold w. cbn [world_of w_pre]. destruct (raw_read fs (preKeyPath id)) as [b|] eqn:R.
    - destruct (new_pre fs id b N R) as (i & kp' & _ & _ & K & _ & ->). cbn [pkr_priv pkr_pub]. intros [= <-]. now destruct kp'.
    - unfold LoadPreKey, readFile. rewrite R. discriminate. }
  assert (SPK : forall id kp, w_spk w id = Some kp -> P kp /\ goodkp kp).
  { intros id kp. unfold w. cbn [world_of w_spk]. destruct (raw_read fs (signedPath id)) as [b|] eqn:R.
    - destruct (new_spk fs id b N R) as (i & kp' & sig & t & _ & G & K & _ & ->). cbn [spkr_priv spkr_pub]. intros [= <-]. now destruct kp'.
    - unfold LoadSignedPreKey, readFile. rewrite R. discriminate. }
  assert (IDN : w_ident w = k) by (unfold w; cbn [world_of w_ident]; now rewrite ID).
  assert (KP : goodkp k /\ P k).
  { unfold GetIdentityKeyPair, readFile in ID. destruct (raw_read fs identPath) as [b|] eqn:R; [|discriminate].
    apply raw_read_in, N in R. cbn [new_file identPath fst] in R. destruct R as (_ & R & _). destruct (R eq_refl) as (kp & G & K & D).
    rewrite D in ID. cbn [bind] in ID. destruct G as (L1 & W1 & L2 & W2). rewrite app_length, L2, L1 in ID. cbn [Nat.add Nat.eqb] in ID.
    rewrite firstn_app_exact, skipn_app_exact in ID by exact L2. injection ID as <-. destruct kp as [x y]. cbn [fst snd] in *.
    split; [split; [|split; [|split]]; assumption|exact K]. }
  split; [|split; [exact IDN|split; [reflexivity|split; [apply KP|split; [exact PRE|split; [intros id kp X; now apply (SPK id)|split; reflexivity]]]]]].
  constructor.
  - constructor.
    + intros rid dev _. unfold F_LoadSession, readFile. destruct (raw_read fs (sessionPath rid dev)) as [b|] eqn:R; [|reflexivity].
      apply raw_read_in, N in R. destruct R.
    + intros rid key. unfold IsTrusted, IsTrustedIdentity, w. cbn [world_of w_trust_all w_ids]. destruct ta; [reflexivity|]. cbn [orb].
      unfold exists_file. destruct (raw_read fs (remotePath rid)) as [b|] eqn:R; [|reflexivity].
      apply raw_read_in, N in R. cbn [new_file remotePath fst] in R. destruct R as (R & _). now elim (R rid).
    + intros id U. unfold w. cbn [world_of w_pre]. unfold exists_file. destruct (raw_read fs (preKeyPath id)) as [b|] eqn:R.
      * destruct (new_pre fs id b N R) as (i & kp' & U' & _ & _ & E & ->). cbn [pkr_priv pkr_pub fst snd].
        apply preKeyPath_inj in E; [subst; reflexivity|exact U|exact U'].
      * unfold LoadPreKey, readFile. now rewrite R.
    + intros id U. unfold w. cbn [world_of w_spk]. unfold exists_file. destruct (raw_read fs (signedPath id)) as [b|] eqn:R.
      * destruct (new_spk fs id b N R) as (i & kp' & sig & t & U' & _ & _ & E & ->). cbn [spkr_priv spkr_pub fst snd].
        apply signedPath_inj in E; [subst; eauto|exact U|exact U'].
      * unfold LoadSignedPreKey, readFile. now rewrite R.
    + rewrite IDN. exact ID.
    + unfold w. cbn [world_of w_reg]. now rewrite RG.
  - intros n b X. destruct (N _ _ X).
  - constructor.
    + discriminate.
    + rewrite IDN. destruct KP as ((_ & W1 & _ & W2) & _). auto.
    + unfold w. cbn [world_of w_reg]. rewrite RG. unfold readNum in RG. destruct (readFile C cf fs regidPath) as [b|e|]; try discriminate.
      cbn [bind] in RG. destruct (atoi b); [|discriminate]. injection RG as <-. unfold u32. apply Z.mod_pos_bound. lia.
    + intros id kp X. destruct (SPK id kp X) as (_ & _ & W1 & _ & W2). auto.
  - unfold valid, exists_file in V. unfold lastResortPreKeyID in V. destruct (raw_read fs (preKeyPath 16777215)) as [b|] eqn:R; [|discriminate].
    unfold w. cbn [world_of w_pre]. destruct (new_pre fs 16777215 b N R) as (i & kp' & _ & _ & _ & _ & ->). discriminate.
Qed.
Theorem registered_world I d r d' l ta : attempts d -> good_in I -> good_keys I -> draws I -> start C cf I d = (Ok r, d', l) ->
  let w := world_of ta (fst d') in
  r = Some (w_ident w) /\ kept (fst d') w /\ w_trust_all w = ta /\ P (w_ident w) /\
    (forall id kp, w_pre w id = Some kp -> P kp) /\ (forall id kp, w_spk w id = Some kp -> P kp) /\
    (forall rid dev, w_sess w rid dev = None) /\ (forall rid, w_ids w rid = None).
Proof.
  intros A GI GK DR E. destruct (start_complete C cf I d _ d' l E) as (D & FL).
  pose proof (attempts_new _ (at_more I d _ _ _ (length l) A GI GK DR E)) as N. rewrite <- D in N.
  destruct (attempts_life d A) as (c & L & H).
  destruct (C116_identity_partial C cf c d L I r d' l OK CF H GI E) as (k & -> & ID & _).
  destruct (start_reg I d _ d' l E) as (v & RG).
  destruct (new_world ta (fst d') k v N ltac:(eapply start_ok_valid; eauto) ID RG) as (K & X & T). intros w. fold w in K, X, T. rewrite X. auto.
Qed.
End N.
End P.
