(* Properties of starting the client: C108-C118. *)
From Coq Require Import ZArith List Lia Bool.
From Verif Require Import Bytes Res Wire WireProofs Crypto Cbc Messages Session Builder RecordCodec Decimal Storage StorageProofs
  Encodings PreKeyGen PropPreKeys Profile Startup.
Import ListNotations.
Open Scope Z_scope.

(* ---------- relations every step keeps ---------- *)

Section K.
Variable R : pst -> pst -> Prop.
Hypothesis Rr : forall s, R s s.
Hypothesis Rt : forall a b c, R a b -> R b c -> R a c.
Definition keeps {A} (m : M A) : Prop := forall s, R s (snd (m s)).

Lemma keeps_ret {A} (a : A) : keeps (ret a).
Proof. intros s. apply Rr. Qed.
Lemma keeps_fail {A} e : keeps (@fail A e).
Proof. intros s. apply Rr. Qed.
Lemma keeps_panic {A} : keeps (fun s => (@Panic A, s)).
Proof. intros s. apply Rr. Qed.
Lemma keeps_lift {A} (f : files -> res A) : keeps (lift f).
Proof. intros s. apply Rr. Qed.
Lemma keeps_mem : keeps mem.
Proof. intros s. apply Rr. Qed.
Lemma keeps_bind {A B} (m : M A) (f : A -> M B) : keeps m -> (forall a, keeps (f a)) -> keeps (mbind m f).
Proof.
  intros H K s. unfold mbind. specialize (H s). destruct (m s) as [[a|e|] s'] eqn:E; cbn [snd] in *; auto.
  eapply Rt; [exact H | apply K].
Qed.
Lemma keeps_ignore {A} (m : M A) : keeps m -> keeps (ignore m).
Proof. intros H s. unfold ignore. specialize (H s). destruct (m s) as [[a|e|] s']; exact H. Qed.
Lemma keeps_attempt {A} (m : M A) : keeps m -> keeps (attempt m).
Proof. intros H s. unfold attempt. specialize (H s). destruct (m s) as [[a|e|] s']; exact H. Qed.

Section Parts.
Variable C : crypto.
Variable cf : sconf.
Variable I : input.
Hypothesis Kpkey : forall k, keeps (modify (with_pkey k)).
Hypothesis Kname : forall k, keeps (modify (with_name k)).
Hypothesis Kcred : forall k, keeps (modify (with_cred k)).
Hypothesis Kcert : forall k, keeps (modify (with_cert k)).
Hypothesis Kload : keeps loadConfig.
Hypothesis Ksave : keeps (saveConfig I).
Hypothesis Kdraw : forall n, keeps (draw I n).

Ltac kk := repeat (first
  [ apply keeps_bind; intros | apply keeps_ret | apply keeps_fail | apply keeps_panic | apply keeps_lift | apply keeps_mem
  | apply Kpkey | apply Kname | apply Kcred | apply Kcert | apply Kload | apply Ksave | apply Kdraw | apply keeps_ignore | apply keeps_attempt ]).

Lemma keeps_update k u n : (forall nonce, keeps (say (EvProfile u k nonce n))) -> keeps (UpdateProfile I k u n).
Proof. intros H. unfold UpdateProfile. destruct (negb _); [kk|]. destruct (_ <? _)%nat; kk. apply H. Qed.

Hypothesis Kprofile : forall u k nonce n, keeps (say (EvProfile u k nonce n)).
Lemma keeps_profile : keeps (setupProfile I).
Proof.
  unfold setupProfile. kk.
  - destruct (_ =? _)%nat; kk.
  - destruct (beq _ _); kk.
  - match goal with |- context [if ?b then _ else _] => destruct b end; kk.
  - apply keeps_update. auto.
Qed.
Lemma keeps_renew : keeps (renew I).
Proof. unfold renew. destruct (i_cert I); kk. Qed.
Lemma keeps_certificate : keeps (setupCertificate I).
Proof.
  unfold setupCertificate. kk. destruct (_ =? _)%nat; kk; [apply keeps_renew|].
  destruct (CheckCertificate _ _); kk. apply keeps_renew.
Qed.
Lemma keeps_credential : keeps (setupCredential I).
Proof.
  unfold setupCredential. kk. destruct (_ =? _)%nat; kk; [apply keeps_update; auto|].
  destruct (getCredential _ _ _); kk.
Qed.

(* what follows the registration *)
Definition rest : M (option keypair) :=
  do _ <- lift (fun fs => readNum C cf fs regidPath);
  do pass <- lift (fun fs => readFile C cf fs passPath);
  do _ <- lift (fun fs => readFile C cf fs sigPath);
  do _ <- say EvDone;
  do c <- mem;
  do _ <- say (EvUse (g_uuid c) pass);
  do id <- attempt (lift (GetIdentityKeyPair C cf));
  do _ <- setupProfile I;
  do over <- setupCertificate I;
  do _ <- setupCredential I;
  match id, over with
  | Ok k, _ => ret (Some k)
  | _, true => ret None
  | Err e, false => fail e
  | Panic, _ => fun s => (Panic, s)
  end.

Hypothesis Kdone : keeps (say EvDone).
Hypothesis Kuse : forall u p, keeps (say (EvUse u p)).
Ltac k2 := repeat (first
  [ apply keeps_profile | apply keeps_certificate | apply keeps_credential | apply Kdone | apply Kuse
  | apply keeps_bind; intros | apply keeps_ret | apply keeps_fail | apply keeps_panic | apply keeps_lift | apply keeps_mem
  | apply Kload | apply keeps_attempt ]).
Lemma keeps_rest : keeps rest.
Proof. unfold rest. k2. destruct a5; [k2| |]; destruct a7; k2. Qed.
Lemma keeps_setup : keeps (register C cf I) -> keeps (Setup C cf I).
Proof.
  intros H. unfold Setup. k2.
  - destruct a0; [k2|exact H].
  - match goal with |- keeps (match ?x with _ => _ end) => destruct x end; [k2| |];
    match goal with |- keeps (match ?x with _ => _ end) => destruct x | _ => idtac end; k2.
Qed.

Section G.
Hypothesis Kwrite : forall p b, fst p <> DIdentity -> keeps (write C cf I p b).
Lemma keeps_batch n : forall i start, keeps (genBatch C cf I n i start).
Proof. induction n; intros i start; cbn [genBatch]; [kk|]. apply keeps_bind; [apply Kwrite; discriminate | intros; apply IHn]. Qed.
Lemma keeps_gen : keeps (genPreKeys C cf I).
Proof.
  unfold genPreKeys. apply keeps_bind; [apply keeps_batch|intros]. apply keeps_bind; [apply Kwrite; discriminate|intros].
  apply keeps_ignore. apply Kwrite; discriminate.
Qed.
End G.
Hypothesis Kwrite : forall p b, keeps (write C cf I p b).
Hypothesis Kaccount : forall t u p g, keeps (say (EvAccount t u p g)).
Hypothesis Kmod : forall t u n, keeps (modify (with_account t u n)).
Hypothesis Kupload : forall ps, keeps (say (EvUpload (snd (i_ident I)) ps (signedRecord I))).
Ltac k3 := repeat (first
  [ apply keeps_gen; auto | apply Kdone | apply Kaccount | apply Kupload | apply Kmod | apply Kpkey | apply Ksave | apply Kdraw
  | apply keeps_bind; intros | apply keeps_ret | apply keeps_fail | apply keeps_panic | apply keeps_lift | apply keeps_mem
  | apply Kload | apply keeps_ignore ]).
Lemma keeps_device : keeps (registerDevice C cf I).
Proof.
  unfold registerDevice. k3. destruct (i_register I); k3. destruct (i_verify I); k3.
  destruct (i_upload I); k3. destruct (is_error _); k3.
Qed.
Lemma keeps_register : keeps (register C cf I).
Proof. unfold register. repeat (first [apply keeps_device | apply keeps_bind; intros | apply keeps_ignore | apply Kwrite]). Qed.
End Parts.
End K.

Lemma setup_split C cf I s :
  Setup C cf I s = let s0 := mkPst (t_files s) (t_disk s) (t_disk s) (t_nw s) (t_nc s) (t_drawn s) (t_log s) in
    if valid (t_files s) then rest C cf I s0
    else match register C cf I s0 with
         | (Ok _, s') => rest C cf I s'
         | (Err e, s') => (Err e, s')
         | (Panic, s') => (Panic, s')
         end.
Proof.
  unfold Setup. unfold mbind at 1, loadConfig. unfold mbind at 1, lift at 1. cbn [t_files]. destruct (valid (t_files s)).
  - unfold mbind at 1, ret at 1. reflexivity.
  - unfold mbind at 1. destruct (register C cf I _) as [[a|e|] s']; reflexivity.
Qed.

(* ---------- what a start does, in order ---------- *)

(* the events since s, the last one first *)
Definition since (P : ev -> Prop) (s s' : pst) : Prop := exists l, t_log s' = l ++ t_log s /\ Forall P l.
Lemma since_refl P s : since P s s.
Proof. exists []. split; [reflexivity | constructor]. Qed.
Lemma since_trans P a b c : since P a b -> since P b c -> since P a c.
Proof.
  intros (l & E & F) (m & G & H). exists (m ++ l). split; [rewrite G, E; apply app_assoc | apply Forall_app; auto].
Qed.
Lemma since_one (P : ev -> Prop) s s' e : t_log s' = e :: t_log s -> P e -> since P s s'.
Proof. intros E H. exists [e]. split; [exact E | constructor; [exact H | constructor]]. Qed.
Lemma since_none P s s' : t_log s' = t_log s -> since P s s'.
Proof. intros E. exists []. split; [exact E | constructor]. Qed.

(* the log accounts for the disk *)
Definition traced (s s' : pst) : Prop :=
  exists l, t_log s' = l ++ t_log s /\ crashed (t_files s, t_disk s) (rev l) = (t_files s', t_disk s').
Lemma crashed_app d a b : crashed d (a ++ b) = crashed (crashed d a) b.
Proof. unfold crashed. apply fold_left_app. Qed.
Lemma traced_refl s : traced s s.
Proof. exists []. split; reflexivity. Qed.
Lemma traced_trans a b c : traced a b -> traced b c -> traced a c.
Proof.
  intros (l & E & F) (m & G & H). exists (m ++ l). split; [rewrite G, E; apply app_assoc |].
  rewrite rev_app_distr, crashed_app, F. exact H.
Qed.
Ltac tr0 := exists []; split; reflexivity.
Ltac tr1 := eexists [_]; split; reflexivity.

Section T.
Variable C : crypto.
Variable cf : sconf.
Variable I : input.

Lemma traced_write p b : keeps traced (write C cf I p b).
Proof.
  intros s. unfold write. destruct (i_wok I _); [|tr0]. destruct (writeFile _ _ _ _ _ _); cbn [snd]; [tr1|tr0|tr0].
Qed.
Lemma traced_save : keeps traced (saveConfig I).
Proof. intros s. unfold saveConfig. destruct (i_cok I _); [tr1|tr0]. Qed.
Lemma traced_say e : (forall fs c, e <> EvDisk fs c) -> keeps traced (say e).
Proof. intros H s. exists [e]. split; [reflexivity|]. cbn. destruct e; try reflexivity. now elim (H fs c). Qed.
Lemma traced_setup : keeps traced (Setup C cf I).
Proof.
  apply keeps_setup; [exact traced_refl | exact traced_trans | ..]; try (intros; intros s; tr0).
  - apply traced_save.
  - intros; apply traced_say; discriminate.
  - intros; apply traced_say; discriminate.
  - intros; apply traced_say; discriminate.
  - apply keeps_register; [exact traced_refl | exact traced_trans | ..]; try (intros; intros s; tr0);
    first [apply traced_save | intros; apply traced_say; discriminate | intros; apply traced_write].
Qed.
Lemma start_traced d r d' l : start C cf I d = (r, d', l) -> crashed d l = d'.
Proof.
  unfold start. destruct (Setup C cf I (boot d)) as (r0, s) eqn:E. intros [= <- <- <-].
  pose proof (traced_setup (boot d)) as (m & G & H). rewrite E in G, H. cbn [snd boot t_log t_files t_disk] in *. rewrite app_nil_r in G.
  subst m. destruct d; exact H.
Qed.

(* ---- after the registration the store is left alone ---- *)
Definition later (f : files) (u : bytes) (e : ev) : Prop :=
  match e with
  | EvDisk fs c => fs = f /\ g_uuid c = u
  | EvAccount _ _ _ _ | EvUpload _ _ _ => False
  | EvUse a p => a = u /\ readFile C cf f passPath = Ok p
  | EvProfile a _ _ _ => a = u
  | EvDone => True
  end.
Definition Rlater (f : files) (u : bytes) (s s' : pst) : Prop :=
  t_files s = f -> g_uuid (t_mem s) = u -> t_files s' = f /\ g_uuid (t_mem s') = u /\ since (later f u) s s'.
Lemma later_refl f u s : Rlater f u s s.
Proof. intros A B. split; [exact A|]. split; [exact B|]. apply since_refl. Qed.
Lemma later_trans f u a b c : Rlater f u a b -> Rlater f u b c -> Rlater f u a c.
Proof.
  intros H K A B. destruct (H A B) as (A1 & B1 & S1). destruct (K A1 B1) as (A2 & B2 & S2).
  split; [exact A2|]. split; [exact B2|]. eapply since_trans; eauto.
Qed.
Ltac l0 := intros A B; split; [exact A|]; split; [exact B|]; apply since_none; reflexivity.
Lemma later_save f u : keeps (Rlater f u) (saveConfig I).
Proof.
  intros s. unfold saveConfig. destruct (i_cok I _); [|l0]. intros A B. split; [exact A|]. split; [exact B|].
  eapply since_one; [reflexivity|]. cbn. auto.
Qed.
Lemma keeps_say_mem {R : pst -> pst -> Prop} (Rr : forall s, R s s) (Rt : forall a b c, R a b -> R b c -> R a c) {A} (g : cfg -> M A) :
  (forall s, R s (snd (g (t_mem s) s))) -> keeps R (mbind mem g).
Proof. intros H s. unfold mbind, mem. apply H. Qed.

Lemma later_update f u k n s : Rlater f u s (snd (UpdateProfile I k (g_uuid (t_mem s)) n s)).
Proof.
  unfold UpdateProfile. destruct (negb _); [l0|]. destruct (_ <? _)%nat; [l0|]. unfold mbind, draw, say. cbn [snd].
  intros A B. split; [exact A|]. split; [exact B|]. eapply since_one; [reflexivity|]. exact B.
Qed.
Lemma ignore_snd {A} (m : M A) s : snd (ignore m s) = snd (m s).
Proof. unfold ignore. destruct (m s) as [[a|e|] s']; reflexivity. Qed.

Lemma later_profile f u : keeps (Rlater f u) (setupProfile I).
Proof.
  unfold setupProfile. pose proof (later_refl f u) as Rr. pose proof (later_trans f u) as Rt.
  assert (D : forall n, keeps (Rlater f u) (draw I n)) by (intros n s; l0).
  assert (P : forall k, keeps (Rlater f u) (modify (with_pkey k))) by (intros k s; l0).
  assert (N : forall k, keeps (Rlater f u) (modify (with_name k))) by (intros k s; l0).
  apply (keeps_bind _ Rt); [apply keeps_mem; auto|intros c].
  apply (keeps_bind _ Rt).
  { destruct (_ =? _)%nat; [|apply keeps_ret; auto]. repeat (apply (keeps_bind _ Rt); [first [apply D | apply P | apply keeps_ignore, later_save] | intros]).
    apply keeps_ret; auto. }
  intros ch1. apply (keeps_bind _ Rt); [apply keeps_mem; auto|intros c2]. apply (keeps_bind _ Rt).
  { destruct (beq _ _); [|apply keeps_ret; auto]. repeat (apply (keeps_bind _ Rt); [first [apply N | apply keeps_ignore, later_save] | intros]).
    apply keeps_ret; auto. }
  intros ch2. apply (keeps_bind _ Rt).
  { destruct ch2; [apply keeps_ret; auto|]. repeat (apply (keeps_bind _ Rt); [first [apply D | apply P] | intros]). apply keeps_ignore, later_save. }
  intros _. apply (keeps_say_mem Rr Rt). intros s. rewrite ignore_snd. apply later_update.
Qed.
Lemma later_renew f u : keeps (Rlater f u) (renew I).
Proof. apply (keeps_renew (Rlater f u)); [apply later_refl | apply later_trans | intros k s; l0 | apply later_save]. Qed.
Lemma later_certificate f u : keeps (Rlater f u) (setupCertificate I).
Proof.
  apply (keeps_certificate (Rlater f u)); [apply later_refl | apply later_trans | intros k s; l0 | apply later_save].
Qed.
Lemma later_credential f u : keeps (Rlater f u) (setupCredential I).
Proof.
  unfold setupCredential. pose proof (later_refl f u) as Rr. pose proof (later_trans f u) as Rt.
  apply (keeps_say_mem Rr Rt). intros s. destruct (_ =? _)%nat; [|apply Rr]. unfold mbind at 1.
  pose proof (later_update f u (g_pkey (t_mem s)) (g_name (t_mem s)) s) as U. rewrite <- ignore_snd in U.
  destruct (ignore _ s) as [[a|e|] s1]; cbn [snd] in *; auto.
  assert (K : keeps (Rlater f u) (match getCredential I (g_uuid (t_mem s)) (g_pkey (t_mem s)) with
    | Ok x => do _ <- modify (with_cred x); ignore (saveConfig I) | Err e => fail e | Panic => fun s => (Panic, s) end)).
  { destruct (getCredential _ _ _) as [x|e|]; [|apply keeps_fail; auto|apply keeps_panic; auto].
    apply (keeps_bind _ Rt); [intros z; l0|]. intros _. apply keeps_ignore, later_save. }
  eapply Rt; [exact U | apply K].
Qed.
Lemma later_rest f u : keeps (Rlater f u) (rest C cf I).
Proof.
  pose proof (later_refl f u) as Rr. pose proof (later_trans f u) as Rt. unfold rest.
  assert (DN : keeps (Rlater f u) (say EvDone)).
  { intros s A B. split; [exact A|]. split; [exact B|]. eapply since_one; [reflexivity|exact Logic.I]. }
  apply (keeps_bind _ Rt); [apply keeps_lift; auto|intros _].
  intros s. unfold mbind at 1, lift at 1. destruct (readFile C cf (t_files s) passPath) as [pass|e|] eqn:RP; [|apply Rr|apply Rr].
  revert s RP. assert (K : forall s, readFile C cf (t_files s) passPath = Ok pass -> True) by auto. clear K. intros s RP.
  unfold mbind at 1, lift at 1. destruct (readFile C cf (t_files s) sigPath); [|apply Rr|apply Rr].
  unfold mbind at 1, say at 1, mbind at 1, mem. cbn [t_mem]. unfold mbind at 1, say at 1. cbn [t_files t_disk t_mem t_nw t_nc t_drawn t_log].
  match goal with |- Rlater f u s (snd (?m ?s1)) => assert (K : keeps (Rlater f u) m); [|assert (S1 : Rlater f u s s1)] end.
  { apply (keeps_bind _ Rt); [apply keeps_attempt, keeps_lift; auto|intros id]. apply (keeps_bind _ Rt); [apply later_profile|intros _].
    apply (keeps_bind _ Rt); [apply later_certificate|intros ov]. apply (keeps_bind _ Rt); [apply later_credential|intros _].
    destruct id; [apply keeps_ret; auto| |]; destruct ov; first [apply keeps_ret; auto | apply keeps_fail; auto | apply keeps_panic; auto]. }
  { intros A B. split; [exact A|]. split; [exact B|]. eexists [_; _]. split; [reflexivity|]. repeat constructor; [exact B|]. now rewrite <- A. }
  eapply Rt; [exact S1 | apply K].
Qed.

(* ---- the registration ---- *)
Definition stageA : M bytes :=
  do _ <- ignore (write C cf I regidPath (itoa (generateRegistrationID (i_rand I))));
  do _ <- ignore (write C cf I passPath (i_pass I));
  do _ <- ignore (write C cf I sigPath (i_sig I));
  do _ <- write C cf I identPath (snd (i_ident I) ++ fst (i_ident I));
  do _ <- loadConfig;
  match i_register I with
  | Err e => fail e
  | Panic => fun s => (Panic, s)
  | Ok _ =>
    match i_verify I with
    | Err e => fail e
    | Panic => fun s => (Panic, s)
    | Ok uuid =>
      do _ <- say (EvAccount (i_phone I) uuid (i_pass I) (i_sig I));
      do _ <- modify (with_account (i_phone I) uuid (i_user I));
      do _ <- saveConfig I;
      ret uuid
    end
  end.
Definition post (ps : pkstate) : M unit :=
  match i_upload I with
  | Err e => fail e
  | Panic => fun s => (Panic, s)
  | Ok st =>
    if is_error st then fail (EServer st)
    else
      do _ <- say (EvUpload (snd (i_ident I)) ps (signedRecord I));
      do k <- GenerateProfileKey I;
      do _ <- modify (with_pkey k);
      do _ <- ignore (saveConfig I);
      do _ <- say EvDone;
      say EvDone
  end.
Lemma mbind_assoc {A B D} (m : M A) (f : A -> M B) (g : B -> M D) s :
  mbind (mbind m f) g s = mbind m (fun a => mbind (f a) g) s.
Proof. unfold mbind. destruct (m s) as [[a|e|] s']; reflexivity. Qed.
Lemma mbind_ext {A B} (m : M A) (f g : A -> M B) s : (forall a s, f a s = g a s) -> mbind m f s = mbind m g s.
Proof. intros H. unfold mbind. destruct (m s) as [[a|e|] s']; auto. Qed.
Lemma register_split s : register C cf I s =
  mbind stageA (fun _ => mbind (genPreKeys C cf I) (fun _ => mbind (lift (generatePreKeyState C cf)) post)) s.
Proof.
  unfold register, stageA, registerDevice. repeat (rewrite mbind_assoc; apply mbind_ext; intros ? ?).
  destruct (i_register I); [|reflexivity|reflexivity]. destruct (i_verify I) as [uuid|e|]; [|reflexivity|reflexivity].
  repeat (rewrite mbind_assoc; apply mbind_ext; intros ? ?). reflexivity.
Qed.

Record good_in : Prop := {
  gi_iv : forall n, iv_ok (i_iv I n);
  gi_ident : goodkp (i_ident I);
  gi_pass : wfb (i_pass I);
  gi_sig : wfb (i_sig I) }.
Hypothesis OK : crypto_ok C.
Hypothesis CF : conf_ok cf.
Hypothesis GI : good_in.

Lemma write_other p b s q : q <> p -> raw_read (t_files (snd (write C cf I p b s))) q = raw_read (t_files s) q.
Proof.
  intros N. unfold write. destruct (i_wok I _); [|reflexivity].
  destruct (writeFile C cf _ (t_files s) p b) as [fs|e|] eqn:E; try reflexivity. cbn [snd t_files].
  unfold writeFile in E. destruct (st_encrypt _ _ _ _) as [ct|e|]; cbn [bind] in E; try discriminate. injection E as <-.
  now apply read_write_other.
Qed.
Lemma write_same p b s s' : wfb b -> write C cf I p b s = (Ok tt, s') ->
  readFile C cf (t_files s') p = Ok b /\ exists_file (t_files s') p = true.
Proof.
  intros W E. unfold write in E. destruct (i_wok I _); [|discriminate].
  destruct (writeFile C cf _ (t_files s) p b) as [fs|e|] eqn:F; try discriminate. injection E as <-. cbn [t_files].
  destruct (readFile_write C OK cf _ _ _ _ _ W (gi_iv GI (t_nw s)) F) as (A & _ & B). auto.
Qed.
Lemma write_works p b s : (forall n, i_wok I n = true) -> exists s', write C cf I p b s = (Ok tt, s').
Proof.
  intros W. unfold write. rewrite W. destruct (writeFile_total C cf CF (i_iv I (t_nw s)) (t_files s) p b (gi_iv GI _)) as (fs & ->). eauto.
Qed.
Lemma write_config p b s : t_disk (snd (write C cf I p b s)) = t_disk s /\ t_mem (snd (write C cf I p b s)) = t_mem s.
Proof. unfold write. destruct (i_wok I _); [|auto]. destruct (writeFile _ _ _ _ _ _); auto. Qed.
Lemma read_kept fs fs' q : raw_read fs' q = raw_read fs q -> readFile C cf fs' q = readFile C cf fs q.
Proof. intros E. unfold readFile. now rewrite E. Qed.

(* before the prekeys are made: the store is not valid, nothing was uploaded *)
Definition early (e : ev) : Prop :=
  match e with EvDisk fs _ => valid fs = false | EvAccount _ _ _ _ => True | _ => False end.
Definition Rearly (s s' : pst) : Prop := valid (t_files s) = false -> valid (t_files s') = false /\ since early s s'.
Lemma early_refl s : Rearly s s.
Proof. intros H. split; [exact H | apply since_refl]. Qed.
Lemma early_trans a b c : Rearly a b -> Rearly b c -> Rearly a c.
Proof. intros H K V. destruct (H V) as (V1 & S1). destruct (K V1) as (V2 & S2). split; [exact V2 | eapply since_trans; eauto]. Qed.
Lemma valid_kept fs fs' : raw_read fs' (preKeyPath lastResortPreKeyID) = raw_read fs (preKeyPath lastResortPreKeyID) -> valid fs' = valid fs.
Proof. intros E. unfold valid, exists_file. now rewrite E. Qed.
Lemma early_write p b : fst p = DIdentity -> keeps Rearly (write C cf I p b).
Proof.
  intros D s V. pose proof (write_other p b s (preKeyPath lastResortPreKeyID) ltac:(intros <-; discriminate)) as O.
  apply valid_kept in O. rewrite V in O. split; [exact O|]. revert O. unfold write. destruct (i_wok I _); [|intros; apply since_none; reflexivity].
  destruct (writeFile C cf _ (t_files s) p b) as [fs|e|]; cbn [snd t_files]; intros O; try (apply since_none; reflexivity).
  eapply since_one; [reflexivity|exact O].
Qed.
Ltac e0 := intros V; split; [exact V|]; apply since_none; reflexivity.
Lemma early_save : keeps Rearly (saveConfig I).
Proof.
  intros s. unfold saveConfig. destruct (i_cok I _); [|e0]. intros V. split; [exact V|]. eapply since_one; [reflexivity|exact V].
Qed.
Lemma early_stageA : keeps Rearly stageA.
Proof.
  pose proof early_refl as Rr. pose proof early_trans as Rt. unfold stageA.
  repeat (apply (keeps_bind _ Rt); [first [apply keeps_ignore, early_write; reflexivity | apply early_write; reflexivity | intros s; e0] | intros _]).
  destruct (i_register I); [|apply keeps_fail; auto|apply keeps_panic; auto].
  destruct (i_verify I); [|apply keeps_fail; auto|apply keeps_panic; auto].
  apply (keeps_bind _ Rt). { intros s V. split; [exact V|]. eapply since_one; [reflexivity|exact Logic.I]. } intros _.
  apply (keeps_bind _ Rt); [intros s; e0|intros _]. apply (keeps_bind _ Rt); [apply early_save|intros _]. apply keeps_ret; auto.
Qed.

Lemma bind_inv {A B} (m : M A) (f : A -> M B) s b s' : mbind m f s = (Ok b, s') -> exists a s1, m s = (Ok a, s1) /\ f a s1 = (Ok b, s').
Proof. unfold mbind. destruct (m s) as [[a|e|] s1]; try discriminate. eauto. Qed.
Lemma ignore_inv {A} (m : M A) s u s' : ignore m s = (Ok u, s') -> snd (m s) = s'.
Proof. unfold ignore. destruct (m s) as [[a|e|] s1]; intros [= _ <-]; reflexivity. Qed.

(* what holds when the account was made *)
Definition same (fA f : files) : Prop :=
  forall p, fst p = DIdentity -> (forall rid, p <> remotePath rid) -> raw_read f p = raw_read fA p.
Lemma not_remote n : nth_error n 2 <> Some 109 -> forall rid, (DIdentity, n) <> remotePath rid.
Proof. intros H rid X. apply (f_equal snd) in X. cbn [snd remotePath str_remote] in X. subst n. apply H. reflexivity. Qed.
Lemma stageA_ok s uuid s' : valid (t_files s) = false -> stageA s = (Ok uuid, s') ->
  i_verify I = Ok uuid /\ valid (t_files s') = false /\
  (exists l, t_log s' = EvDisk (t_files s') (t_disk s') :: EvAccount (i_phone I) uuid (i_pass I) (i_sig I) :: l ++ t_log s /\ Forall early l) /\
  g_uuid (t_disk s') = uuid /\ t_mem s' = t_disk s' /\
  GetIdentityKeyPair C cf (t_files s') = Ok (i_ident I) /\
  ((forall n, i_wok I n = true) -> readFile C cf (t_files s') passPath = Ok (i_pass I)).
Proof.
  intros V E. unfold stageA in E.
  apply bind_inv in E as (u1 & s1 & E1 & E). apply bind_inv in E as (u2 & s2 & E2 & E). apply bind_inv in E as (u3 & s3 & E3 & E).
  apply bind_inv in E as (u4 & s4 & E4 & E). apply bind_inv in E as (u5 & s5 & E5 & E). destruct u4.
  apply ignore_inv in E1. assert (E2' := E2). apply ignore_inv in E2, E3.
  assert (S4 : Rearly s s4).
  { apply (early_trans s s1); [|apply (early_trans s1 s2); [|apply (early_trans s2 s3)]].
    - rewrite <- E1. apply early_write. reflexivity.
    - rewrite <- E2. apply early_write. reflexivity.
    - rewrite <- E3. apply early_write. reflexivity.
    - change s4 with (snd (Ok tt : res unit, s4)). rewrite <- E4. apply early_write. reflexivity. }
  destruct (S4 V) as (V4 & l & L4 & F4).
  assert (S5 : t_files s5 = t_files s4 /\ t_log s5 = t_log s4) by (unfold loadConfig in E5; injection E5 as _ <-; auto).
  destruct S5 as (F5 & L5).
  destruct (i_register I); try discriminate. destruct (i_verify I) as [v|e|]; try discriminate.
  unfold mbind at 1, say in E. unfold mbind at 1, modify in E. cbn [t_files t_disk t_mem t_nw t_nc t_drawn t_log] in E.
  unfold mbind, saveConfig in E. cbn [t_files t_disk t_mem t_nw t_nc t_drawn t_log] in E. destruct (i_cok I _); [|discriminate].
  unfold ret in E. injection E as <- <-. cbn [t_files t_disk t_mem t_nw t_nc t_drawn t_log]. rewrite F5, L5.
  split; [reflexivity|]. split; [exact V4|]. split; [exists l; rewrite L4; auto|]. split; [reflexivity|]. split; [reflexivity|].
  destruct GI as [GIV (L1 & W1 & L2 & W2) GP GS].
  assert (W : wfb (snd (i_ident I) ++ fst (i_ident I))) by (apply Forall_app; auto).
  destruct (write_same _ _ _ _ W E4) as (RI & _). split.
  - unfold GetIdentityKeyPair. rewrite RI. cbn [bind]. rewrite app_length, L2, L1. cbn [Nat.add Nat.eqb].
    rewrite firstn_app_exact, skipn_app_exact by exact L2. now destruct (i_ident I).
  - intros OKW. destruct (write_works passPath (i_pass I) s1 OKW) as (s2' & E2w). rewrite E2w in E2. cbn [snd] in E2. subst s2'.
    destruct (write_same _ _ _ _ GP E2w) as (RP & _). rewrite <- RP. apply read_kept.
    change s4 with (snd (Ok tt : res unit, s4)). rewrite <- E4, write_other by discriminate. rewrite <- E3. apply write_other. discriminate.
Qed.

(* while the prekeys are made *)
Definition making (fA : files) (cA : cfg) (e : ev) : Prop := match e with EvDisk fs c => c = cA /\ same fA fs | _ => False end.
Definition Rmaking (fA : files) (cA : cfg) (s s' : pst) : Prop :=
  t_disk s = cA -> same fA (t_files s) ->
  t_disk s' = cA /\ t_mem s' = t_mem s /\ same fA (t_files s') /\ since (making fA cA) s s'.
Lemma making_refl fA cA s : Rmaking fA cA s s.
Proof. intros A B. split; [exact A|]. split; [reflexivity|]. split; [exact B|]. apply since_refl. Qed.
Lemma making_trans fA cA a b c : Rmaking fA cA a b -> Rmaking fA cA b c -> Rmaking fA cA a c.
Proof.
  intros H K A B. destruct (H A B) as (A1 & M1 & B1 & S1). destruct (K A1 B1) as (A2 & M2 & B2 & S2).
  split; [exact A2|]. split; [congruence|]. split; [exact B2|]. eapply since_trans; eauto.
Qed.
Lemma making_write fA cA p b : fst p <> DIdentity -> keeps (Rmaking fA cA) (write C cf I p b).
Proof.
  intros N s A B. destruct (write_config p b s) as (W1 & W2). rewrite W1, W2. split; [exact A|]. split; [reflexivity|].
  assert (Q : same fA (t_files (snd (write C cf I p b s)))).
  { intros q D R. rewrite write_other by congruence. apply B; [exact D|exact R]. }
  split; [exact Q|]. revert Q. unfold write. destruct (i_wok I _); [|intros; apply since_none; reflexivity].
  destruct (writeFile _ _ _ _ _ _); cbn [snd t_files]; intros Q; try (apply since_none; reflexivity).
  eapply since_one; [reflexivity|]. split; [exact A|exact Q].
Qed.
Lemma making_gen fA cA : keeps (Rmaking fA cA) (genPreKeys C cf I).
Proof. apply keeps_gen; [apply making_refl | apply making_trans | apply making_write]. Qed.
Lemma gen_valid s u s' : genPreKeys C cf I s = (Ok u, s') -> valid (t_files s') = true.
Proof.
  intros E. unfold genPreKeys in E. apply bind_inv in E as (u1 & s1 & _ & E). apply bind_inv in E as (u2 & s2 & E2 & E).
  apply ignore_inv in E. subst s'. unfold genPreKey in E2.
  assert (X : exists_file (t_files s2) (preKeyPath lastResortPreKeyID) = true).
  { unfold write in E2. destruct (i_wok I _); [|discriminate]. destruct (writeFile C cf _ _ _ _) as [fs|e|] eqn:F; try discriminate.
    injection E2 as _ <-. cbn [t_files]. unfold writeFile in F. destruct (st_encrypt _ _ _ _) as [ct|e|]; cbn [bind] in F; try discriminate.
    injection F as <-. unfold exists_file. now rewrite read_write_same. }
  unfold valid. rewrite <- X. unfold exists_file. rewrite write_other; [reflexivity|]. discriminate.
Qed.
Lemma later_post f u ps s : t_files s = f -> g_uuid (t_mem s) = u ->
  (t_log (snd (post ps s)) = t_log s /\ fst (post ps s) <> Ok tt /\ t_files (snd (post ps s)) = f) \/
  exists l, t_log (snd (post ps s)) = l ++ EvUpload (snd (i_ident I)) ps (signedRecord I) :: t_log s /\
    Forall (later f u) l /\ t_files (snd (post ps s)) = f /\ g_uuid (t_mem (snd (post ps s))) = u.
Proof.
  intros A B. unfold post. destruct (i_upload I) as [st|e|]; [|left; repeat split; auto; discriminate|left; repeat split; auto; discriminate].
  destruct (is_error st); [left; repeat split; auto; discriminate|]. right.
  unfold mbind at 1, say at 1.
  match goal with |- context [snd (?m ?s1)] => assert (K : keeps (Rlater f u) m) end.
  { pose proof (later_refl f u) as Rr. pose proof (later_trans f u) as Rt.
    assert (DN : keeps (Rlater f u) (say EvDone)).
    { intros s0 A0 B0. split; [exact A0|]. split; [exact B0|]. eapply since_one; [reflexivity|exact Logic.I]. }
    apply (keeps_bind _ Rt). { intros s0 A0 B0. split; [exact A0|]. split; [exact B0|]. apply since_none. reflexivity. } intros k.
    apply (keeps_bind _ Rt). { intros s0 A0 B0. split; [exact A0|]. split; [exact B0|]. apply since_none. reflexivity. } intros _.
    apply (keeps_bind _ Rt); [apply keeps_ignore, later_save|intros _]. apply (keeps_bind _ Rt); [exact DN|intros _; exact DN]. }
  match goal with |- context [snd (_ ?s1)] => destruct (K s1 A B) as (A1 & B1 & l & L & F) end.
  cbn [t_log] in L. exists l. auto.
Qed.
Lemma Forall_rev_ev (P : ev -> Prop) l : Forall P l -> Forall P (rev l).
Proof. intros H. apply Forall_forall. intros x X. apply in_rev in X. rewrite Forall_forall in H. auto. Qed.

Record account (uuid : bytes) (fA : files) (cA : cfg) : Prop := {
  ac_uuid : i_verify I = Ok uuid;
  ac_valid : valid fA = false;
  ac_cfg : g_uuid cA = uuid;
  ac_ident : GetIdentityKeyPair C cf fA = Ok (i_ident I);
  ac_pass : (forall n, i_wok I n = true) -> readFile C cf fA passPath = Ok (i_pass I) }.

Inductive shape (d : disk) (r : res (option keypair)) : list ev -> Prop :=
| ShValid l : valid (fst d) = true -> Forall (later (fst d) (g_uuid (snd d))) l -> shape d r l
| ShEarly l : valid (fst d) = false -> (forall k, r <> Ok k) -> Forall early l -> shape d r l
| ShAccount lA uuid fA cA lB : valid (fst d) = false -> (forall k, r <> Ok k) -> Forall early lA -> account uuid fA cA ->
    Forall (making fA cA) lB -> shape d r (lA ++ EvAccount (i_phone I) uuid (i_pass I) (i_sig I) :: EvDisk fA cA :: lB)
| ShDone lA uuid fA cA lB f ps lC : valid (fst d) = false -> Forall early lA -> account uuid fA cA ->
    Forall (making fA cA) lB -> crashed (fA, cA) lB = (f, cA) -> valid f = true -> same fA f -> Forall (later f uuid) lC ->
    generatePreKeyState C cf f = Ok ps ->
    shape d r (lA ++ EvAccount (i_phone I) uuid (i_pass I) (i_sig I) :: EvDisk fA cA :: lB ++ EvUpload (snd (i_ident I)) ps (signedRecord I) :: lC).

Lemma traced_gen : keeps traced (genPreKeys C cf I).
Proof. apply keeps_gen; [exact traced_refl | exact traced_trans | intros; apply traced_write]. Qed.

Lemma start_shape d r d' l : start C cf I d = (r, d', l) -> shape d r l.
Proof.
  unfold start. rewrite setup_split. cbn zeta. cbn [boot t_files t_disk t_nw t_nc t_drawn t_log].
  destruct (valid (fst d)) eqn:V.
  - match goal with |- context [rest C cf I ?s0] => pose proof (later_rest (fst d) (g_uuid (snd d)) s0 eq_refl eq_refl) as (_ & _ & m & L & F) end.
    destruct (rest C cf I _) as (r0, s). cbn [snd t_log] in L. rewrite app_nil_r in L. intros [= <- <- <-]. subst m.
    apply ShValid; [exact V|]. apply Forall_rev_ev. exact F.
  - set (s0 := mkPst _ _ _ _ _ _ _). rewrite register_split.
    assert (V0 : valid (t_files s0) = false) by exact V.
    assert (L0 : t_log s0 = []) by reflexivity. clearbody s0.
    unfold mbind at 1. destruct (early_stageA s0 V0) as (VA & m & LA & FA).
    destruct (stageA s0) as [[uuid|e|] sA] eqn:EA; cbn [snd] in *; rewrite L0, ?app_nil_r in *;
      [|intros [= <- <- <-]; apply ShEarly; [exact V|discriminate|rewrite LA; apply Forall_rev_ev, FA]
       |intros [= <- <- <-]; apply ShEarly; [exact V|discriminate|rewrite LA; apply Forall_rev_ev, FA]].
    destruct (stageA_ok _ _ _ V0 EA) as (U & _ & (mA & LA' & FA') & UC & MD & ID & PW). rewrite L0, app_nil_r in LA'.
    assert (AC : account uuid (t_files sA) (t_disk sA)) by (constructor; assumption).
    unfold mbind at 1. destruct (making_gen (t_files sA) (t_disk sA) sA eq_refl ltac:(intros p _ _; reflexivity)) as (D1 & M1 & S1 & mB & LB & FB).
    pose proof (traced_gen sA) as (mB' & LB2 & TB). pose proof (gen_valid sA) as VB.
    destruct (genPreKeys C cf I sA) as [rB sB]. cbn [snd] in *.
    assert (mB' = mB) as -> by (apply (app_inv_tail (t_log sA)); congruence). rewrite D1 in TB.
    assert (LB3 : rev (t_log sB) = rev mA ++ EvAccount (i_phone I) uuid (i_pass I) (i_sig I) :: EvDisk (t_files sA) (t_disk sA) :: rev mB).
    { rewrite LB, LA', rev_app_distr. cbn [rev]. now rewrite <- !app_assoc. }
    assert (SH : (forall k, r <> Ok k) -> rev (t_log sB) = l -> shape d r l).
    { intros N <-. rewrite LB3. eapply ShAccount; eauto using Forall_rev_ev. }
    destruct rB as [u|e|];
      [|intros [= <- <- <-]; apply SH; [discriminate|reflexivity]|intros [= <- <- <-]; apply SH; [discriminate|reflexivity]].
    specialize (VB _ _ eq_refl).
    unfold mbind at 1, lift at 1. destruct (generatePreKeyState C cf (t_files sB)) as [ps|e|] eqn:PS;
      [|intros [= <- <- <-]; apply SH; [discriminate|reflexivity]|intros [= <- <- <-]; apply SH; [discriminate|reflexivity]].
    destruct (later_post (t_files sB) uuid ps sB eq_refl ltac:(congruence)) as [(L & N & F)|(mC & LC & FC & FF & UU)].
    + destruct (post ps sB) as [[[]|e|] sC]; cbn [fst snd] in *; [now elim N|..]; intros [= <- <- <-]; (apply SH; [discriminate | now rewrite L]).
    + assert (DN : forall mD, Forall (later (t_files sB) uuid) mD -> l = rev (mD ++ mC ++ EvUpload (snd (i_ident I)) ps (signedRecord I) :: t_log sB) -> shape d r l).
      { intros mD FD ->. rewrite app_assoc, rev_app_distr. cbn [rev]. rewrite LB3, <- !app_assoc. cbn [app].
        eapply ShDone; eauto using Forall_rev_ev. apply Forall_rev_ev, Forall_app; auto. }
      destruct (post ps sB) as [[u2|e|] sC]; cbn [fst snd] in *;
        [|intros [= <- <- <-]; apply (DN []); [constructor|now rewrite LC]|intros [= <- <- <-]; apply (DN []); [constructor|now rewrite LC]].
      destruct (later_rest (t_files sB) uuid sC FF UU) as (_ & _ & mD & LD & FD).
      destruct (rest C cf I sC) as (r1, sD). cbn [snd] in *. intros [= <- <- <-]. apply (DN mD); [exact FD|]. now rewrite LD, LC.
Qed.
End T.

(* ---------- the life of an installation ---------- *)

(* its starts, each of which may be cut off after any of its events, and ordinary use in between, which
   leaves the last-resort prekey, the UUID and the files of the identity directory other than the saved keys of peers
   alone (/repo/axolotl/session.go 693 never removes that prekey; C205 proves that the steps of a life are such uses) *)
Section L.
Variable C : crypto.
Variable cf : sconf.

Inductive life (Q : input -> Prop) (d0 : disk) : disk -> list ev -> Prop :=
| life_new : life Q d0 d0 []
| life_start d L I r d' l n : life Q d0 d L -> Q I -> start C cf I d = (r, d', l) ->
    life Q d0 (crashed d (firstn n l)) (L ++ firstn n l)
| life_use d L fs c : life Q d0 d L -> same (fst d) fs -> valid fs = valid (fst d) -> g_uuid c = g_uuid (snd d) ->
    life Q d0 (fs, c) L.

(* the account in force: the UUID and the password of the last one that was made *)
Definition account_of (L : list ev) : option (bytes * bytes) :=
  fold_left (fun o e => match e with EvAccount _ u p _ => Some (u, p) | _ => o end) L None.

(* beginnings of a start *)
Inductive part (I : input) (d : disk) : list ev -> Prop :=
| PValid l : valid (fst d) = true -> Forall (later C cf (fst d) (g_uuid (snd d))) l -> part I d l
| PEarly l : valid (fst d) = false -> Forall early l -> part I d l
| PAccount lA uuid fA cA lB : valid (fst d) = false -> Forall early lA -> account C cf I uuid fA cA -> Forall (making fA cA) lB ->
    part I d (lA ++ EvAccount (i_phone I) uuid (i_pass I) (i_sig I) :: EvDisk fA cA :: lB)
| PDone lA uuid fA cA lB f ps lC : valid (fst d) = false -> Forall early lA -> account C cf I uuid fA cA -> Forall (making fA cA) lB ->
    crashed (fA, cA) lB = (f, cA) -> valid f = true -> same fA f -> Forall (later C cf f uuid) lC ->
    part I d (lA ++ EvAccount (i_phone I) uuid (i_pass I) (i_sig I) :: EvDisk fA cA :: lB ++ EvUpload (snd (i_ident I)) ps (signedRecord I) :: lC).

Lemma shape_part I d r l : shape C cf I d r l -> part I d l.
Proof.
  intros [m V F | m V N F | lA uuid fA cA lB V N FA AC FB | lA uuid fA cA lB f ps lC V FA AC FB T VF SF FC G];
    [apply PValid | apply PEarly | eapply PAccount | eapply PDone]; eauto.
Qed.
Lemma Forall_firstn_ev (P : ev -> Prop) n l : Forall P l -> Forall P (firstn n l).
Proof. intros H. apply Forall_forall. intros x X. rewrite Forall_forall in H. apply H. rewrite <- (firstn_skipn n l). apply in_or_app. now left. Qed.
Lemma firstn_past {A} (a b : list A) x n : (length a < n)%nat -> exists k, firstn n (a ++ x :: b) = a ++ x :: firstn k b /\ n = (length a + S k)%nat.
Proof.
  intros H. exists (n - length a - 1)%nat. split; [|lia]. rewrite firstn_app, firstn_all2 by lia.
  destruct (n - length a)%nat as [|m] eqn:E; [lia|]. cbn [firstn]. now replace (S m - 1)%nat with m by lia.
Qed.
Lemma firstn_before {A} (a b : list A) n : (n <= length a)%nat -> firstn n (a ++ b) = firstn n a.
Proof. intros H. rewrite firstn_app. replace (n - length a)%nat with 0%nat by lia. cbn [firstn]. apply app_nil_r. Qed.
Lemma part_firstn I d n l : part I d l -> part I d (firstn n l).
Proof.
  intros [m V F | m V F | lA uuid fA cA lB V FA AC FB | lA uuid fA cA lB f ps lC V FA AC FB T VF SF FC].
  - apply PValid; auto using Forall_firstn_ev.
  - apply PEarly; auto using Forall_firstn_ev.
  - destruct (Nat.le_gt_cases n (length lA)) as [H|H].
    { rewrite firstn_before by exact H. apply PEarly; auto using Forall_firstn_ev. }
    destruct (firstn_past lA (EvDisk fA cA :: lB) (EvAccount (i_phone I) uuid (i_pass I) (i_sig I)) n H) as (k & -> & _).
    destruct k as [|k]; cbn [firstn].
    { apply PEarly; [exact V|]. apply Forall_app. split; [exact FA|]. constructor; [exact Logic.I|constructor]. }
    eapply PAccount; eauto using Forall_firstn_ev.
  - destruct (Nat.le_gt_cases n (length lA)) as [H|H].
    { rewrite firstn_before by exact H. apply PEarly; auto using Forall_firstn_ev. }
    match goal with |- part I d (firstn n (lA ++ ?a :: ?b)) => destruct (firstn_past lA b a n H) as (k & -> & _) end.
    destruct k as [|k]; cbn [firstn].
    { apply PEarly; [exact V|]. apply Forall_app. split; [exact FA|]. constructor; [exact Logic.I|constructor]. }
    destruct (Nat.le_gt_cases k (length lB)) as [H2|H2].
    { rewrite firstn_before by exact H2. eapply PAccount; eauto using Forall_firstn_ev. }
    match goal with |- context [firstn k (lB ++ ?a :: ?b)] => destruct (firstn_past lB b a k H2) as (j & -> & _) end.
    eapply PDone; eauto using Forall_firstn_ev.
Qed.

(* what the events of each kind do to a disk *)
Lemma crashed_later f u l : Forall (later C cf f u) l -> forall d, fst d = f -> g_uuid (snd d) = u ->
  fst (crashed d l) = f /\ g_uuid (snd (crashed d l)) = u.
Proof.
  induction 1 as [|e l E F IH]; intros d A B; [auto|]. change (crashed d (e :: l)) with (crashed (match e with EvDisk fs c => (fs, c) | _ => d end) l).
  apply IH; destruct e; cbn in E; cbn [fst snd]; tauto.
Qed.
Lemma crashed_early l : Forall early l -> forall d, valid (fst d) = false -> valid (fst (crashed d l)) = false.
Proof.
  induction 1 as [|e l E F IH]; intros d V; [auto|]. change (crashed d (e :: l)) with (crashed (match e with EvDisk fs c => (fs, c) | _ => d end) l).
  apply IH. destruct e; auto.
Qed.
Lemma crashed_making fA cA l : Forall (making fA cA) l -> forall d, snd d = cA -> same fA (fst d) ->
  snd (crashed d l) = cA /\ same fA (fst (crashed d l)).
Proof.
  induction 1 as [|e l E F IH]; intros d V S; [auto|]. change (crashed d (e :: l)) with (crashed (match e with EvDisk fs c => (fs, c) | _ => d end) l).
  apply IH; destruct e; cbn in E; cbn [fst snd]; tauto.
Qed.
Lemma crashed_account d lA tel u p s fA cA l : crashed d (lA ++ EvAccount tel u p s :: EvDisk fA cA :: l) = crashed (fA, cA) l.
Proof. rewrite crashed_app. reflexivity. Qed.

Definition no_account (e : ev) : Prop := match e with EvAccount _ _ _ _ => False | _ => True end.
Definition no_upload (e : ev) : Prop := match e with EvUpload _ _ _ => False | _ => True end.
Definition no_use (e : ev) : Prop := match e with EvUse _ _ => False | _ => True end.
Lemma account_app L l : Forall no_account l -> account_of (L ++ l) = account_of L.
Proof.
  unfold account_of. rewrite fold_left_app. generalize (fold_left (fun o e => match e with EvAccount _ u p _ => Some (u, p) | _ => o end) L None).
  intros o H. revert o. induction H as [|e l E F IH]; intros o; [reflexivity|]. cbn [fold_left]. destruct e; try apply IH. now elim E.
Qed.
Lemma account_last L lA tel u p s l : Forall no_account l -> account_of (L ++ lA ++ EvAccount tel u p s :: l) = Some (u, p).
Proof.
  intros H. change (EvAccount tel u p s :: l) with ([EvAccount tel u p s] ++ l). rewrite !app_assoc. rewrite account_app by exact H.
  unfold account_of. rewrite fold_left_app. reflexivity.
Qed.
Lemma Forall_imp (P Q : ev -> Prop) l : (forall e, P e -> Q e) -> Forall P l -> Forall Q l.
Proof. intros H. apply Forall_impl. exact H. Qed.
Lemma later_quiet f u l : Forall (later C cf f u) l -> Forall no_account l /\ Forall no_upload l.
Proof. intros H. split; revert H; apply Forall_imp; intros []; cbn; tauto. Qed.
Lemma making_quiet fA cA l : Forall (making fA cA) l -> Forall no_account l /\ Forall no_upload l /\ Forall no_use l.
Proof. intros H. split; [|split]; revert H; apply Forall_imp; intros []; cbn; tauto. Qed.
Lemma early_quiet l : Forall early l -> Forall no_upload l /\ Forall no_use l.
Proof. intros H. split; revert H; apply Forall_imp; intros []; cbn; tauto. Qed.
Lemma no_upload_in l : Forall no_upload l -> forall ik ps k, ~ In (EvUpload ik ps k) l.
Proof. intros H ik ps k X. rewrite Forall_forall in H. exact (H _ X). Qed.

Lemma ident_kept fA f : same fA f -> GetIdentityKeyPair C cf f = GetIdentityKeyPair C cf fA.
Proof. intros S. unfold GetIdentityKeyPair. now rewrite (read_kept C cf fA f identPath) by (apply S; [reflexivity|apply not_remote; discriminate]). Qed.
Lemma pass_kept fA f : same fA f -> readFile C cf f passPath = readFile C cf fA passPath.
Proof. intros S. apply read_kept. apply S; [reflexivity|apply not_remote; discriminate]. Qed.
Lemma same_trans a b c : same a b -> same b c -> same a c.
Proof. intros H K p D R. rewrite K, H by assumption. reflexivity. Qed.

(* the uses of credentials in L: W is whether all writes succeed *)
Definition uses_good (W : Prop) (L : list ev) : Prop := forall L1 u p L2, L = L1 ++ EvUse u p :: L2 ->
  exists q, account_of L1 = Some (u, q) /\ (W -> p = q).
Lemma uses_app (W : Prop) L l : uses_good W L ->
  (forall l1 u p l2, l = l1 ++ EvUse u p :: l2 -> exists q, account_of (L ++ l1) = Some (u, q) /\ (W -> p = q)) -> uses_good W (L ++ l).
Proof.
  intros H K L1 u p L2 E. destruct (Nat.lt_ge_cases (length L1) (length L)) as [G|G].
  - assert (E1 : L = L1 ++ EvUse u p :: firstn (length L - length L1 - 1) L2).
    { rewrite <- (firstn_all L) at 1. rewrite <- (firstn_before L l (length L)) by lia. rewrite E.
      destruct (firstn_past L1 L2 (EvUse u p) (length L) G) as (k & -> & Hk). replace (length L - length L1 - 1)%nat with k by lia. reflexivity. }
    exact (H _ _ _ _ E1).
  - assert (E1 : L1 = L ++ skipn (length L) L1).
    { rewrite <- (firstn_skipn (length L) L1) at 1. f_equal. rewrite <- (firstn_before L1 (EvUse u p :: L2) (length L)) by lia.
      rewrite <- E, firstn_before by lia. apply firstn_all. }
    rewrite E1 in E. rewrite <- app_assoc in E. apply app_inv_head in E. rewrite E1. exact (K _ _ _ _ E).
Qed.
Lemma no_use_in l : Forall no_use l -> forall l1 u p l2, l <> l1 ++ EvUse u p :: l2.
Proof. intros H l1 u p l2 ->. apply Forall_app in H as (_ & H). inversion_clear H as [|? ? X _]. exact X. Qed.
(* an element of a list whose first part has no use *)
Lemma use_past a l l1 u p l2 : Forall no_use a -> a ++ l = l1 ++ EvUse u p :: l2 -> exists l3, l1 = a ++ l3 /\ l = l3 ++ EvUse u p :: l2.
Proof.
  revert l1. induction a as [|x a IH]; intros l1 H E; [exists l1; auto|]. inversion_clear H as [|? ? X Y]. destruct l1 as [|y l1]; cbn [app] in E.
  - injection E as -> _. now elim X.
  - injection E as <- E. destruct (IH l1 Y E) as (l3 & -> & ->). exists l3. auto.
Qed.

Definition uploads (L : list ev) : nat := length (filter (fun e => match e with EvUpload _ _ _ => true | _ => false end) L).
Lemma uploads_app a b : uploads (a ++ b) = (uploads a + uploads b)%nat.
Proof. unfold uploads. now rewrite filter_app, app_length. Qed.
Lemma uploads_none l : Forall no_upload l -> uploads l = 0%nat.
Proof. unfold uploads. induction 1 as [|e l E F IH]; [reflexivity|]. cbn [filter]. destruct e; try exact IH. now elim E. Qed.

Record J (W : Prop) (d : disk) (L : list ev) : Prop := {
  j_valid : valid (fst d) = true ->
    (exists q, account_of L = Some (g_uuid (snd d), q) /\ (W -> readFile C cf (fst d) passPath = Ok q)) /\
    exists k, GetIdentityKeyPair C cf (fst d) = Ok k;
  j_invalid : valid (fst d) = false -> Forall no_upload L;
  j_upload : forall ik ps spk, In (EvUpload ik ps spk) L -> exists priv, GetIdentityKeyPair C cf (fst d) = Ok (priv, ik);
  j_uses : uses_good W L;
  j_once : (uploads L <= 1)%nat }.

Lemma J_part (W : Prop) I d L l : (W -> forall n, i_wok I n = true) -> J W d L -> part I d l -> J W (crashed d l) (L ++ l).
Proof.
  intros HW [JV JI JU JS JO] [m V F | m V F | lA uuid fA cA lB V FA AC FB | lA uuid fA cA lB f ps lC V FA AC FB T VF SF FC].
  - destruct (later_quiet _ _ _ F) as (NA & NU). destruct (crashed_later _ _ _ F d eq_refl eq_refl) as (E1 & E2).
    destruct (JV V) as ((q & AO & RP) & K). constructor; rewrite ?E1, ?E2.
    + intros _. split; [|exact K]. exists q. rewrite account_app by exact NA. auto.
    + congruence.
    + intros ik ps k X. apply in_app_or in X as [X|X]; [eauto|]. now elim (no_upload_in _ NU ik ps k).
    + apply uses_app; [exact JS|]. intros l1 u p l2 ->. apply Forall_app in F as (F1 & F2). inversion_clear F2 as [|? ? X _]. cbn [later] in X. destruct X as (X1 & X2).
      apply later_quiet in F1 as (N1 & _). exists q. rewrite account_app by exact N1. rewrite X1. split; [exact AO|]. intros w.
      specialize (RP w). congruence.
    + rewrite uploads_app, (uploads_none _ NU). lia.
  - destruct (early_quiet _ F) as (NU & NS). pose proof (crashed_early _ F d V) as V2. constructor; rewrite ?V2.
    + discriminate.
    + intros _. apply Forall_app; auto.
    + intros ik ps k X. apply in_app_or in X as [X|X]; [now elim (no_upload_in _ (JI V) ik ps k)|now elim (no_upload_in _ NU ik ps k)].
    + apply uses_app; [exact JS|]. intros l1 u p l2 E. now elim (no_use_in _ NS _ _ _ _ E).
    + rewrite uploads_app, (uploads_none _ NU). lia.
  - rewrite crashed_account. destruct (making_quiet _ _ _ FB) as (NA & NU & NS). destruct (early_quiet _ FA) as (NU0 & NS0).
    destruct (crashed_making _ _ _ FB (fA, cA) eq_refl ltac:(intros ? _ _; reflexivity)) as (E1 & E2).
    assert (NUL : Forall no_upload (lA ++ EvAccount (i_phone I) uuid (i_pass I) (i_sig I) :: EvDisk fA cA :: lB)).
    { apply Forall_app. split; [exact NU0|]. constructor; [exact Logic.I|]. constructor; [exact Logic.I|exact NU]. }
    constructor; rewrite ?E1.
    + intros _. split.
      * exists (i_pass I). rewrite account_last by (constructor; [exact Logic.I|exact NA]). rewrite (ac_cfg _ _ _ _ _ _ AC). split; [reflexivity|].
        intros w. rewrite (pass_kept fA) by exact E2. apply (ac_pass _ _ _ _ _ _ AC). auto.
      * exists (i_ident I). rewrite (ident_kept fA) by exact E2. apply (ac_ident _ _ _ _ _ _ AC).
    + intros _. apply Forall_app; auto.
    + intros ik ps k X. apply in_app_or in X as [X|X]; [now elim (no_upload_in _ (JI V) ik ps k)|now elim (no_upload_in _ NUL ik ps k)].
    + apply uses_app; [exact JS|]. intros l1 u p l2 E. apply (no_use_in _) in E; [now elim E|].
      apply Forall_app. split; [exact NS0|]. constructor; [exact Logic.I|]. constructor; [exact Logic.I|exact NS].
    + rewrite uploads_app, (uploads_none _ NUL). lia.
  - rewrite crashed_account, crashed_app, T. change (EvUpload (snd (i_ident I)) ps (signedRecord I) :: lC) with ([EvUpload (snd (i_ident I)) ps (signedRecord I)] ++ lC).
    rewrite crashed_app. change (crashed (f, cA) [EvUpload (snd (i_ident I)) ps (signedRecord I)]) with (f, cA).
    destruct (making_quiet _ _ _ FB) as (NA & NU & NS). destruct (early_quiet _ FA) as (NU0 & NS0). destruct (later_quiet _ _ _ FC) as (NAC & NUC).
    destruct (crashed_later _ _ _ FC (f, cA) eq_refl (ac_cfg _ _ _ _ _ _ AC)) as (E1 & E2).
    assert (ID : GetIdentityKeyPair C cf f = Ok (i_ident I)) by (rewrite (ident_kept fA) by exact SF; apply (ac_ident _ _ _ _ _ _ AC)).
    assert (PW : W -> readFile C cf f passPath = Ok (i_pass I)).
    { intros w. rewrite (pass_kept fA) by exact SF. apply (ac_pass _ _ _ _ _ _ AC). auto. }
    assert (NA1 : forall x, Forall no_account x -> Forall no_account (EvDisk fA cA :: lB ++ [EvUpload (snd (i_ident I)) ps (signedRecord I)] ++ x)).
    { intros x Hx. constructor; [exact Logic.I|]. apply Forall_app. split; [exact NA|]. constructor; [exact Logic.I|exact Hx]. }
    constructor; rewrite ?E1, ?E2.
    + intros _. split; [|eauto]. exists (i_pass I). rewrite account_last by (apply NA1; exact NAC). auto.
    + congruence.
    + intros ik ps' k X. apply in_app_or in X as [X|X]; [now elim (no_upload_in _ (JI V) ik ps' k)|].
      apply in_app_or in X as [X|X]; [now elim (no_upload_in _ NU0 ik ps' k)|]. destruct X as [X|[X|X]]; try discriminate.
      apply in_app_or in X as [X|X]; [now elim (no_upload_in _ NU ik ps' k)|]. destruct X as [X|X]; [|now elim (no_upload_in _ NUC ik ps' k)].
      injection X as <- _ _. exists (fst (i_ident I)). rewrite ID. now destruct (i_ident I).
    + apply uses_app; [exact JS|]. intros l1 u p l2 E.
      assert (E' : (lA ++ EvAccount (i_phone I) uuid (i_pass I) (i_sig I) :: EvDisk fA cA :: lB ++ [EvUpload (snd (i_ident I)) ps (signedRecord I)]) ++ lC = l1 ++ EvUse u p :: l2).
      { rewrite <- E. cbn [app]. rewrite <- ?app_assoc. cbn [app]. rewrite <- ?app_assoc. reflexivity. }
      apply use_past in E' as (l3 & -> & ->).
      2:{ apply Forall_app. split; [exact NS0|]. constructor; [exact Logic.I|]. constructor; [exact Logic.I|]. apply Forall_app. split; [exact NS|].
          constructor; [exact Logic.I|constructor]. }
      apply Forall_app in FC as (F1 & F2). inversion_clear F2 as [|? ? X _]. cbn [later] in X. destruct X as (X1 & X2). apply later_quiet in F1 as (N1 & _).
      exists (i_pass I). rewrite <- app_assoc. cbn [app]. rewrite <- app_assoc. rewrite account_last by (apply NA1; exact N1).
      rewrite X1. split; [reflexivity|]. intros w. specialize (PW w). congruence.
    + rewrite uploads_app, (uploads_none _ (JI V)), uploads_app, (uploads_none _ NU0).
      change (0 + (0 + uploads (lB ++ [EvUpload (snd (i_ident I)) ps (signedRecord I)] ++ lC)) <= 1)%nat.
      rewrite !uploads_app, (uploads_none _ NU), (uploads_none _ NUC). cbn. lia.
Qed.

Hypothesis OK : crypto_ok C.
Hypothesis CF : conf_ok cf.
Lemma start_part I d r d' l n : good_in I -> start C cf I d = (r, d', l) -> part I d (firstn n l).
Proof. intros GI E. apply part_firstn. eapply shape_part. eapply start_shape; eauto. Qed.
Lemma life_J (W : Prop) (Q : input -> Prop) c d L : (forall I, Q I -> good_in I) -> (W -> forall I, Q I -> forall n, i_wok I n = true) ->
  life Q ([], c) d L -> J W d L.
Proof.
  intros QG QW H. induction H as [|d L I r d' l n H IH HQ E|d L fs c' H IH S V U].
  - constructor; try discriminate.
    + constructor.
    + intros ik ps k [].
    + intros [|? ?] u p L2; discriminate.
    + cbn. lia.
  - eapply J_part; eauto using start_part.
  - destruct IH as [JV JI JU JS JO]. constructor; cbn [fst snd]; rewrite ?V, ?U, ?(ident_kept _ _ S), ?(pass_kept _ _ S); auto.
Qed.
(* nothing is registered from a valid store *)
Lemma life_settled (Q : input -> Prop) d0 d L : (forall I, Q I -> good_in I) -> valid (fst d0) = true -> life Q d0 d L ->
  valid (fst d) = true /\ Forall no_account L /\ Forall no_upload L.
Proof.
  intros QG V0 H. induction H as [|d L I r d' l n H IH HQ E|d L fs c' H IH S V U].
  - auto.
  - destruct IH as (V & NA & NU). pose proof (start_part I d r d' l n (QG _ HQ) E) as P. remember (firstn n l) as m eqn:Em. clear Em E.
    destruct P as [m V' F | m V' F | lA uuid fA cA lB V' FA AC FB | lA uuid fA cA lB f ps lC V' FA AC FB T VF SF FC]; try congruence.
    destruct (later_quiet _ _ _ F) as (NA' & NU'). destruct (crashed_later _ _ _ F d eq_refl eq_refl) as (E1 & _). rewrite E1.
    split; [exact V|]. split; apply Forall_app; auto.
  - cbn [fst]. rewrite V. exact IH.
Qed.
Lemma start_complete I d r d' l : start C cf I d = (r, d', l) -> d' = crashed d (firstn (length l) l) /\ firstn (length l) l = l.
Proof. intros E. rewrite firstn_all. split; [|reflexivity]. symmetry. eapply start_traced; eauto. Qed.
Lemma start_ok_valid I d k d' l : good_in I -> start C cf I d = (Ok k, d', l) -> valid (fst d') = true.
Proof.
  intros GI E. pose proof (start_traced _ _ _ _ _ _ _ E) as T. pose proof (start_shape C cf I OK CF GI d _ _ _ E) as S.
  destruct S as [m V F | m V N F | lA uuid fA cA lB V N FA AC FB | lA uuid fA cA lB f ps lC V FA AC FB TB VF SF FC G].
  - destruct (crashed_later _ _ _ F d eq_refl eq_refl) as (E1 & _). rewrite <- T, E1. exact V.
  - now elim (N k).
  - now elim (N k).
  - rewrite <- T, crashed_account, crashed_app, TB. change (EvUpload (snd (i_ident I)) ps (signedRecord I) :: lC) with ([EvUpload (snd (i_ident I)) ps (signedRecord I)] ++ lC).
    rewrite crashed_app. change (crashed (f, cA) [EvUpload (snd (i_ident I)) ps (signedRecord I)]) with (f, cA).
    destruct (crashed_later _ _ _ FC (f, cA) eq_refl (ac_cfg _ _ _ _ _ _ AC)) as (E1 & _). rewrite E1. exact VF.
Qed.
Lemma rest_ident I s r s' k : rest C cf I s = (Ok r, s') -> GetIdentityKeyPair C cf (t_files s) = Ok k -> r = Some k.
Proof.
  intros E G. unfold rest in E. apply bind_inv in E as (a1 & s1 & E1 & E). apply bind_inv in E as (a2 & s2 & E2 & E).
  apply bind_inv in E as (a3 & s3 & E3 & E). apply bind_inv in E as (a4 & s4 & E4 & E). apply bind_inv in E as (a5 & s5 & E5 & E).
  apply bind_inv in E as (a6 & s6 & E6 & E). apply bind_inv in E as (a7 & s7 & E7 & E). apply bind_inv in E as (a8 & s8 & _ & E).
  apply bind_inv in E as (a9 & s9 & _ & E). apply bind_inv in E as (a10 & s10 & _ & E).
  injection E1 as _ <-. injection E2 as _ <-. injection E3 as _ <-. injection E4 as _ <-. injection E5 as _ <-. injection E6 as _ <-.
  unfold attempt, lift in E7. cbn [t_files] in E7. rewrite G in E7. injection E7 as <- _. now injection E as <- _.
Qed.
Lemma start_ident I d r d' l k : start C cf I d = (Ok r, d', l) -> GetIdentityKeyPair C cf (fst d') = Ok k -> r = Some k.
Proof.
  unfold start. rewrite setup_split. cbn zeta. cbn [boot t_files t_disk t_nw t_nc t_drawn t_log].
  assert (X : forall s0, (let (r0, s) := rest C cf I s0 in (r0, (t_files s, t_disk s), rev (t_log s))) = (Ok r, d', l) ->
    GetIdentityKeyPair C cf (fst d') = Ok k -> r = Some k).
  { intros s0 E G. destruct (later_rest C cf I (t_files s0) (g_uuid (t_mem s0)) s0 eq_refl eq_refl) as (F & _).
    destruct (rest C cf I s0) as [r0 s] eqn:R. injection E as -> <- _. cbn [fst snd] in *. rewrite F in G. eapply rest_ident; eauto. }
  destruct (valid (fst d)); [apply X|]. destruct (register C cf I _) as [[a|e|] s']; [apply X|discriminate|discriminate].
Qed.
End L.

(* ---------- an installation for the examples ---------- *)
Definition ex_cfg : cfg := mkCfg [] [] [] [] [] [].
Definition ex_in (wok : nat -> bool) (pass : bytes) (phone user : bytes) (ident : nat) (reg : res unit) (upload : res Z) (now : Z) (cert : certreply) : input :=
  mkIn wok (fun _ => true) ex_ivs (fun n => Z.of_nat n) 7 pass [9;9] (ex_kps' ident) 4660 ex_kps' (ex_kps' 3) 5 (repeat 1 64) 0
    phone user reg (Ok phone) upload now cert (fun k => Ok (1 :: k)).
Definition yes (n : nat) : bool := true.
(* ServerCertificate{certificate = Certificate{expires = 1600000000000}}, in milliseconds: 13 September 2020 *)
Definition ex_cert : bytes := Eval vm_compute in encode [(1, WLen (encode [(3, WI64 1600000000000)]))].
Definition ex_first : input := ex_in yes [1;2;3] [43;49] [65] 1 (Ok tt) (Ok 200) 1590000000 (CBody ex_cert).
Definition ex_again : input := ex_in yes [4;5;6] [43;50] [66] 2 (Ok tt) (Ok 200) 1700000000 (CBody [10;0]).
Lemma ex_in_good wok pass phone user ident reg upload now cert : wfb pass -> good_in (ex_in wok pass phone user ident reg upload now cert).
Proof.
  intros W. constructor; cbn [ex_in i_iv i_ident i_pass i_sig]; [intros; apply ex_iv | apply ex_good | exact W |].
  repeat constructor; unfold isbyte; lia.
Qed.
Lemma ex_first_good : good_in ex_first.
Proof. apply ex_in_good. repeat constructor; unfold isbyte; lia. Qed.
Lemma ex_again_good : good_in ex_again.
Proof. apply ex_in_good. repeat constructor; unfold isbyte; lia. Qed.
Definition go (I : input) (d : disk) : res (option keypair) * disk * list ev := start toy ex_conf I d.
Lemma go_start I d : start toy ex_conf I d = (fst (fst (go I d)), snd (fst (go I d)), snd (go I d)).
Proof. unfold go. now destruct (start toy ex_conf I d) as [[r d'] l]. Qed.
Lemma go_is I d r : fst (fst (go I d)) = r -> start toy ex_conf I d = (r, snd (fst (go I d)), snd (go I d)).
Proof. intros <-. apply go_start. Qed.
Definition ex_disk1 : disk := snd (fst (go ex_first ([], ex_cfg))).
Definition is_upload (e : ev) : bool := match e with EvUpload _ _ _ => true | _ => false end.
Definition is_done (e : ev) : bool := match e with EvDone => true | _ => false end.
Definition is_account (e : ev) : bool := match e with EvAccount _ _ _ _ => true | _ => false end.
Definition seen (e : ev) : bool := match e with EvDisk _ _ => false | _ => true end.
Lemma none_uploaded l : existsb is_upload l = false -> Forall no_upload l.
Proof.
  intros H. apply Forall_forall. intros e X. destruct e; try exact Logic.I.
  assert (existsb is_upload l = true) by (apply existsb_exists; eexists; split; [exact X|reflexivity]). congruence.
Qed.
Lemma one_done l : existsb is_done l = true -> In EvDone l.
Proof. intros H. apply existsb_exists in H as (e & X & Y). destruct e; try discriminate Y. exact X. Qed.

(* ---------- C108: a registration that failed is tried again ---------- *)

(* a start that succeeds although the store was not valid has uploaded the keys *)
Theorem C108_success_uploads : forall C cf I d k d' l, crypto_ok C -> conf_ok cf -> good_in I ->
  valid (fst d) = false -> start C cf I d = (Ok k, d', l) -> exists ps spk, In (EvUpload (snd (i_ident I)) ps spk) l.
Proof.
  intros C cf I d k d' l OK CF GI V E. pose proof (start_shape C cf I OK CF GI d _ _ _ E) as S.
  destruct S as [m V' F | m V' N F | lA uuid fA cA lB V' N FA AC FB | lA uuid fA cA lB f ps lC V' FA AC FB TB VF SF FC G].
  - congruence.
  - now elim (N k).
  - now elim (N k).
  - exists ps, (signedRecord I). apply in_or_app. right. right. right. apply in_or_app. right. left. reflexivity.
Qed.
(* but once the last-resort prekey is stored no later start registers or uploads anything, whatever happened before *)
Theorem C108_never_again : forall C cf d0 d L, crypto_ok C -> conf_ok cf ->
  exists_file (fst d0) (preKeyPath lastResortPreKeyID) = true -> life C cf good_in d0 d L ->
  forall e, In e L -> match e with EvAccount _ _ _ _ | EvUpload _ _ _ => False | _ => True end.
Proof.
  intros C cf d0 d L OK CF V H e X. destruct (life_settled C cf OK CF good_in d0 d L ltac:(auto) V H) as (_ & NA & NU).
  rewrite Forall_forall in NA, NU. specialize (NA e X). specialize (NU e X). destruct e; auto.
Qed.
(* the keys could not be uploaded; the next start, in which everything works, does not try it, and says
   that the registration is done *)
Definition ex_down : input := ex_in yes [1;2;3] [43;49] [65] 1 (Ok tt) (Ok 500) 1590000000 (CBody ex_cert).
Lemma ex_down_good : good_in ex_down.
Proof. apply ex_in_good. repeat constructor; unfold isbyte; lia. Qed.
Definition ex_disk0 : disk := snd (fst (go ex_down ([], ex_cfg))).
Theorem C108_retried_refuted : exists I1 I2 c d1 l1 k d2 l2,
  good_in I1 /\ good_in I2 /\ i_upload I2 = Ok 200 /\ (forall n, i_wok I2 n = true /\ i_cok I2 n = true) /\
  start toy ex_conf I1 ([], c) = (Err (EServer 500), d1, l1) /\ start toy ex_conf I2 d1 = (Ok k, d2, l2) /\
  Forall no_upload (l1 ++ l2) /\ In EvDone l2.
Proof.
  exists ex_down, ex_again, ex_cfg, ex_disk0, (snd (go ex_down ([], ex_cfg))), (Some (ex_kps' 1)),
    (snd (fst (go ex_again ex_disk0))), (snd (go ex_again ex_disk0)).
  split; [exact ex_down_good|]. split; [exact ex_again_good|]. split; [reflexivity|]. split; [split; reflexivity|].
  split. { unfold ex_disk0. apply go_is. vm_compute. reflexivity. }
  split. { apply go_is. vm_compute. reflexivity. }
  split. { apply none_uploaded. vm_compute. reflexivity. }
  apply one_done. vm_compute. reflexivity.
Qed.
Example C108_example : valid (fst ex_disk0) = true /\ fst (fst (go ex_first ([], ex_cfg))) = Ok (Some (ex_kps' 1)) /\
  existsb is_upload (snd (go ex_first ([], ex_cfg))) = true.
Proof. vm_compute. auto. Qed.
Print Assumptions C108_success_uploads.
Print Assumptions C108_never_again.
Print Assumptions C108_retried_refuted.

(* ---------- C109: the identity the server was told is the stored one ---------- *)

Theorem C109_identity_kept : forall C cf c d L ik ps spk, crypto_ok C -> conf_ok cf -> life C cf good_in ([], c) d L ->
  In (EvUpload ik ps spk) L -> exists priv, GetIdentityKeyPair C cf (fst d) = Ok (priv, ik).
Proof.
  intros C cf c d L ik ps spk OK CF H X.
  exact (j_upload _ _ _ _ _ (life_J C cf OK CF False good_in c d L ltac:(auto) ltac:(tauto) H) ik ps spk X).
Qed.
(* and it is told only once *)
Theorem C109_told_once : forall C cf c d L1 L2 L3 ik ps spk ik' ps' spk', crypto_ok C -> conf_ok cf ->
  life C cf good_in ([], c) d (L1 ++ EvUpload ik ps spk :: L2 ++ EvUpload ik' ps' spk' :: L3) -> False.
Proof.
  intros C cf c d L1 L2 L3 ik ps spk ik' ps' spk' OK CF H.
  pose proof (j_once _ _ _ _ _ (life_J C cf OK CF False good_in c d _ ltac:(auto) ltac:(tauto) H)) as O.
  rewrite uploads_app in O. change (EvUpload ik ps spk :: L2 ++ EvUpload ik' ps' spk' :: L3) with ([EvUpload ik ps spk] ++ L2 ++ [EvUpload ik' ps' spk'] ++ L3) in O.
  rewrite !uploads_app in O. change (uploads [EvUpload ik ps spk]) with 1%nat in O. change (uploads [EvUpload ik' ps' spk']) with 1%nat in O. lia.
Qed.
(* a first attempt is cut off after the identity was written, the second one succeeds with another identity,
   and a third start is cut off in the middle *)
Definition ex_cut : disk := crashed ([], ex_cfg) (firstn 6 (snd (go ex_again ([], ex_cfg)))).
Definition ex_log : list ev := (([] ++ firstn 6 (snd (go ex_again ([], ex_cfg)))) ++ firstn 119 (snd (go ex_first ex_cut))).
Definition ex_end : disk := crashed ex_cut (firstn 119 (snd (go ex_first ex_cut))).
Lemma life_go n I d L : good_in I -> life toy ex_conf good_in ([], ex_cfg) d L ->
  life toy ex_conf good_in ([], ex_cfg) (crashed d (firstn n (snd (go I d)))) (L ++ firstn n (snd (go I d))).
Proof. intros G H. exact (life_start toy ex_conf good_in ([], ex_cfg) d L I _ _ _ n H G (go_start I d)). Qed.
Example C109_example : life toy ex_conf good_in ([], ex_cfg)
    (crashed ex_end (firstn 2 (snd (go ex_again ex_end)))) (ex_log ++ firstn 2 (snd (go ex_again ex_end))) /\
  (exists ps spk, In (EvUpload (repeat 101 32) ps spk) ex_log) /\ GetIdentityKeyPair toy ex_conf (fst ex_cut) = Ok (ex_kps' 2) /\
  GetIdentityKeyPair toy ex_conf (fst ex_end) = Ok (repeat 1 32, repeat 101 32).
Proof.
  split.
  { apply (life_go 2 ex_again ex_end ex_log ex_again_good). unfold ex_log at 1, ex_end at 1.
    match goal with |- life _ _ _ _ (crashed _ _) (?L ++ _) => apply (life_go 119 ex_first ex_cut L ex_first_good) end.
    unfold ex_cut. apply (life_go 6 ex_again ([], ex_cfg) [] ex_again_good). apply life_new. }
  split.
  { assert (E : existsb (fun e => match e with EvUpload ik _ _ => beq ik (repeat 101 32) | _ => false end) ex_log = true) by (vm_compute; reflexivity).
    apply existsb_exists in E as (e & X & Y). destruct e; try discriminate Y. apply beq_eq in Y. exists ps, spk. rewrite <- Y. exact X. }
  vm_compute. auto.
Qed.
Print Assumptions C109_identity_kept.
Print Assumptions C109_told_once.

(* ---------- more about a start from a valid store ---------- *)
Section V.
Variable C : crypto.
Variable cf : sconf.
Variable I : input.

Lemma start_rest d r d' l : valid (fst d) = true -> start C cf I d = (r, d', l) ->
  exists s, rest C cf I (mkPst (fst d) (snd d) (snd d) 0 0 0 []) = (r, s) /\ d' = (t_files s, t_disk s) /\ l = rev (t_log s) /\ t_files s = fst d.
Proof.
  intros V. unfold start. rewrite setup_split. cbn zeta. cbn [boot t_files t_disk t_nw t_nc t_drawn t_log]. rewrite V.
  destruct (later_rest C cf I (fst d) (g_uuid (snd d)) (mkPst (fst d) (snd d) (snd d) 0 0 0 []) eq_refl eq_refl) as (F & _).
  destruct (rest C cf I (mkPst (fst d) (snd d) (snd d) 0 0 0 [])) as (r0, s). cbn [snd] in F. intros [= <- <- <-]. exists s. auto.
Qed.

(* the parts of rest *)
Lemma rest_parts s r s' : rest C cf I s = (Ok r, s') -> exists pass s1 s2 ov s3,
  setupProfile I (mkPst (t_files s) (t_disk s) (t_mem s) (t_nw s) (t_nc s) (t_drawn s) (EvUse (g_uuid (t_mem s)) pass :: EvDone :: t_log s)) = (Ok tt, s1) /\
  setupCertificate I s1 = (Ok ov, s2) /\ setupCredential I s2 = (Ok tt, s3) /\ s' = s3 /\
  (r = None -> ov = true).
Proof.
  intros E. unfold rest in E. apply bind_inv in E as (a1 & s1 & E1 & E). apply bind_inv in E as (pass & s2 & E2 & E).
  apply bind_inv in E as (a3 & s3 & E3 & E). apply bind_inv in E as (a4 & s4 & E4 & E). apply bind_inv in E as (a5 & s5 & E5 & E).
  apply bind_inv in E as (a6 & s6 & E6 & E). apply bind_inv in E as (a7 & s7 & E7 & E). apply bind_inv in E as ([] & s8 & E8 & E).
  apply bind_inv in E as (a9 & s9 & E9 & E). apply bind_inv in E as ([] & s10 & E10 & E).
  injection E1 as _ <-. injection E2 as _ <-. injection E3 as _ <-. injection E4 as _ <-. injection E5 as <- <-. injection E6 as _ <-.
  unfold attempt, lift in E7. cbn [t_files t_disk t_mem t_nw t_nc t_drawn t_log] in E7. 
  assert (a7 = GetIdentityKeyPair C cf (t_files s) /\ s7 = mkPst (t_files s) (t_disk s) (t_mem s) (t_nw s) (t_nc s) (t_drawn s) (EvUse (g_uuid (t_mem s)) pass :: EvDone :: t_log s)) as (X & ->).
  { destruct (GetIdentityKeyPair C cf (t_files s)); [| |discriminate]; injection E7 as <- <-; auto. }
  exists pass, s8, s9, a9, s10. split; [exact E8|]. split; [exact E9|]. split; [exact E10|].
  destruct a7; [|destruct a9|destruct a9]; try discriminate; injection E as <- <-; split; reflexivity || discriminate || auto.
Qed.

(* with a key and a name, a new key is drawn *)
Lemma profile_named s : (forall n, i_cok I n = true) -> g_pkey (t_mem s) <> [] -> g_name (t_mem s) <> [] ->
  let k := map (i_stream I) (seq (t_drawn s) 32) in
  exists s', setupProfile I s = (Ok tt, s') /\ g_pkey (t_mem s') = k /\ g_pkey (t_disk s') = k /\
    ((length (g_name (t_mem s)) <= NAME_PADDED_LENGTH)%nat ->
     t_log s' = EvProfile (g_uuid (t_mem s)) k (map (i_stream I) (seq (t_drawn s + 32) 12)) (g_name (t_mem s)) :: EvDisk (t_files s) (with_pkey k (t_mem s)) :: t_log s).
Proof.
  intros W HK HN k. unfold setupProfile, GenerateProfileKey. unfold mbind at 1, mem at 1.
  destruct (g_pkey (t_mem s)) as [|x t] eqn:EK; [now elim HK|]. cbn [length Nat.eqb]. unfold mbind at 1, ret at 1.
  unfold mbind at 1, mem at 1. apply beq_neq in HN. rewrite HN. unfold mbind at 1, ret at 1. cbn iota.
  unfold mbind at 1. unfold mbind at 1, draw at 1. unfold mbind at 1, modify at 1. unfold ignore at 1, saveConfig at 1.
  cbn [t_files t_disk t_mem t_nw t_nc t_drawn t_log]. rewrite W. cbn iota beta. unfold mbind at 1, mem at 1.
  cbn [t_files t_disk t_mem t_nw t_nc t_drawn t_log]. unfold with_pkey at 1 2 3. cbn [g_pkey g_uuid g_name]. unfold UpdateProfile.
  rewrite map_length, seq_length. cbn [Nat.eqb negb].
  destruct (NAME_PADDED_LENGTH <? length (g_name (t_mem s)))%nat eqn:EL; eexists; (split; [reflexivity|]); cbn [t_mem t_disk t_log]; split; [reflexivity| |reflexivity|].
  - split; [reflexivity|]. intros H. apply Nat.ltb_lt in EL. lia.
  - split; [reflexivity|]. intros _. reflexivity.
Qed.

Definition Rkey (k : bytes) (s s' : pst) : Prop := g_pkey (t_mem s) = k /\ g_pkey (t_disk s) = k -> g_pkey (t_mem s') = k /\ g_pkey (t_disk s') = k.
Lemma key_refl k s : Rkey k s s. Proof. intros H. exact H. Qed.
Lemma key_trans k a b c : Rkey k a b -> Rkey k b c -> Rkey k a c. Proof. unfold Rkey. auto. Qed.
Lemma key_save k : keeps (Rkey k) (saveConfig I).
Proof. intros s (A & B). unfold saveConfig. destruct (i_cok I _); cbn; auto. Qed.
Lemma key_certificate k : keeps (Rkey k) (setupCertificate I).
Proof. apply (keeps_certificate (Rkey k)); [apply key_refl | apply key_trans | intros x s H; exact H | apply key_save]. Qed.
Lemma key_credential k : keeps (Rkey k) (setupCredential I).
Proof. apply (keeps_credential (Rkey k)); [apply key_refl | apply key_trans | intros x s H; exact H | apply key_save | intros n s H; exact H | intros u x n m s H; exact H]. Qed.

Lemma start_named d r d' l : (forall n, i_cok I n = true) -> valid (fst d) = true -> g_pkey (snd d) <> [] -> g_name (snd d) <> [] ->
  start C cf I d = (Ok r, d', l) -> g_pkey (snd d') = map (i_stream I) (seq 0 32) /\
  ((length (g_name (snd d)) <= NAME_PADDED_LENGTH)%nat ->
   In (EvProfile (g_uuid (snd d)) (map (i_stream I) (seq 0 32)) (map (i_stream I) (seq 32 12)) (g_name (snd d))) l).
Proof.
  intros W V HK HN E. destruct (start_rest _ _ _ _ V E) as (s & R & -> & -> & _).
  destruct (rest_parts _ _ _ R) as (pass & s1 & s2 & ov & s3 & E1 & E2 & E3 & <- & _).
  cbn [t_files t_disk t_mem t_nw t_nc t_drawn t_log] in E1. set (s0 := mkPst _ _ _ _ _ _ _) in E1.
  destruct (profile_named s0 W HK HN) as (s1' & P & K1 & K2 & PL). rewrite E1 in P. injection P as <-.
  pose proof (key_certificate _ s1 (conj K1 K2)) as K3. rewrite E2 in K3. cbn [snd] in K3.
  pose proof (key_credential _ s2 K3) as K4. rewrite E3 in K4. cbn [snd] in K4. split; [exact (proj2 K4)|].
  intros HL. specialize (PL HL).
  assert (S2 : since (fun _ => True) s1 s2).
  { change s2 with (snd (Ok ov, s2)). rewrite <- E2. apply (keeps_certificate (since (fun _ => True))); [apply since_refl | apply since_trans | intros x t; apply since_none; reflexivity |].
    intros t. unfold saveConfig. destruct (i_cok I _); [eapply since_one; [reflexivity|exact Logic.I]|apply since_none; reflexivity]. }
  assert (S3 : since (fun _ => True) s2 s).
  { change s with (snd (Ok tt, s)). rewrite <- E3. apply (keeps_credential (since (fun _ => True))); [apply since_refl | apply since_trans | intros x t; apply since_none; reflexivity | | intros x t; apply since_none; reflexivity |].
    - intros t. unfold saveConfig. destruct (i_cok I _); [eapply since_one; [reflexivity|exact Logic.I]|apply since_none; reflexivity].
    - intros u x n m t. eapply since_one; [reflexivity|exact Logic.I]. }
  destruct S2 as (m2 & L2 & _). destruct S3 as (m3 & L3 & _). apply in_rev. rewrite rev_involutive, L3, L2, PL.
  apply in_or_app. right. apply in_or_app. right. left. reflexivity.
Qed.

(* a start that finds no credential stores the one of the key it stores *)
Definition Rcred (s s' : pst) : Prop := g_cred (t_mem s) = [] /\ g_cred (t_disk s) = [] -> g_cred (t_mem s') = [] /\ g_cred (t_disk s') = [].
Lemma cred_refl s : Rcred s s. Proof. intros H. exact H. Qed.
Lemma cred_trans a b c : Rcred a b -> Rcred b c -> Rcred a c. Proof. unfold Rcred. auto. Qed.
Lemma cred_save : keeps Rcred (saveConfig I).
Proof. intros s (A & B). unfold saveConfig. destruct (i_cok I _); cbn; auto. Qed.
Lemma cred_write p b : keeps Rcred (write C cf I p b).
Proof. intros s H. destruct (write_config C cf I p b s) as (-> & ->). exact H. Qed.
Lemma cred_load : keeps Rcred loadConfig.
Proof. intros s (A & B). cbn. auto. Qed.
Lemma credential_none s u s' : (forall n, i_cok I n = true) -> g_cred (t_mem s) = [] -> setupCredential I s = (Ok u, s') ->
  i_issue I (g_pkey (t_disk s')) = Ok (g_cred (t_disk s')).
Proof.
  intros W HC E. unfold setupCredential in E. unfold mbind at 1, mem in E. rewrite HC in E. cbn [length Nat.eqb] in E.
  apply bind_inv in E as (a1 & s1 & E1 & E). apply ignore_inv in E1.
  assert (M1 : t_mem s1 = t_mem s).
  { rewrite <- E1. unfold UpdateProfile. destruct (negb _); [reflexivity|]. destruct (_ <? _)%nat; reflexivity. }
  destruct (getCredential I _ _) as [x|e|] eqn:G; try discriminate.
  unfold mbind, modify, ignore, saveConfig in E. cbn [t_nc t_mem t_disk] in E. rewrite W in E. injection E as _ <-. cbn [t_disk].
  rewrite M1. unfold with_cred. cbn [g_pkey g_cred]. unfold getCredential in G. destruct (_ =? _)%nat; [discriminate|]. destruct (_ || _); [discriminate|]. exact G.
Qed.
Lemma rest_credential s r s' : (forall n, i_cok I n = true) -> g_cred (t_mem s) = [] -> g_cred (t_disk s) = [] -> rest C cf I s = (Ok r, s') ->
  i_issue I (g_pkey (t_disk s')) = Ok (g_cred (t_disk s')).
Proof.
  intros W A B E. destruct (rest_parts _ _ _ E) as (pass & s1 & s2 & ov & s3 & E1 & E2 & E3 & -> & _).
  eapply credential_none; [exact W| |exact E3]. set (s0 := mkPst _ _ _ _ _ _ _) in E1.
  assert (K1 : g_cred (t_mem s1) = [] /\ g_cred (t_disk s1) = []).
  { pose proof (keeps_profile Rcred cred_refl cred_trans I) as K. specialize (K ltac:(intros x t H; exact H) ltac:(intros x t H; exact H) cred_save).
    specialize (K ltac:(intros x t H; exact H) ltac:(intros u x n m t H; exact H) s0 (conj A B)). rewrite E1 in K. exact K. }
  pose proof (keeps_certificate Rcred cred_refl cred_trans I ltac:(intros x t H; exact H) cred_save s1 K1) as K2. rewrite E2 in K2. exact (proj1 K2).
Qed.

(* a certificate that cannot be read is kept, and no start gets past it *)
Definition Rcert (b : bytes) (s s' : pst) : Prop := g_cert (t_mem s) = b /\ g_cert (t_disk s) = b -> g_cert (t_mem s') = b /\ g_cert (t_disk s') = b.
Lemma cert_refl b s : Rcert b s s. Proof. intros H. exact H. Qed.
Lemma cert_trans b x y z : Rcert b x y -> Rcert b y z -> Rcert b x z. Proof. unfold Rcert. auto. Qed.
Lemma cert_save b : keeps (Rcert b) (saveConfig I).
Proof. intros s (A & B). unfold saveConfig. destruct (i_cok I _); cbn; auto. Qed.
Lemma cert_profile b : keeps (Rcert b) (setupProfile I).
Proof.
  apply (keeps_profile (Rcert b) (cert_refl b) (cert_trans b) I ltac:(intros x t H; exact H) ltac:(intros x t H; exact H) (cert_save b)
    ltac:(intros x t H; exact H) ltac:(intros u x n m t H; exact H)).
Qed.
Lemma certificate_panics b s : b <> [] -> CheckCertificate (i_now I) b = Panic -> g_cert (t_mem s) = b -> setupCertificate I s = (Panic, s).
Proof.
  intros N P E. unfold setupCertificate, mbind at 1, mem. rewrite E. destruct b; [now elim N|]. cbn [length Nat.eqb]. now rewrite P.
Qed.
Lemma start_bad_cert b d r d' l : b <> [] -> CheckCertificate (i_now I) b = Panic -> g_cert (snd d) = b -> valid (fst d) = true ->
  start C cf I d = (r, d', l) -> (forall k, r <> Ok k) /\ g_cert (snd d') = b /\ fst d' = fst d.
Proof.
  intros N P G V E. destruct (start_rest _ _ _ _ V E) as (s & R & -> & _ & F). cbn [fst snd]. split; [|split; [|exact F]].
  - intros k ->. destruct (rest_parts _ _ _ R) as (pass & s1 & s2 & ov & s3 & E1 & E2 & _).
    match type of E1 with setupProfile I ?s0 = _ => pose proof (cert_profile b s0 (conj G G)) as K end. rewrite E1 in K. cbn [snd] in K.
    rewrite (certificate_panics b s1 N P (proj1 K)) in E2. discriminate.
  - assert (K : keeps (Rcert b) (rest C cf I)).
    { pose proof (cert_refl b) as Rr. pose proof (cert_trans b) as Rt. unfold rest.
      repeat (apply (keeps_bind _ Rt); [first [apply keeps_attempt, keeps_lift; auto | apply keeps_lift; auto | apply keeps_mem; auto | apply cert_profile | intros t H; exact H] | intros ?]).
      intros t H. match goal with |- context [mbind (setupCertificate I) ?f t] => assert (Z : mbind (setupCertificate I) f t = (Panic, t)) end.
      { unfold mbind at 1. now rewrite (certificate_panics b t N P (proj1 H)). }
      rewrite Z. exact H. }
    match type of R with rest C cf I ?s0 = _ => specialize (K s0 (conj G G)) end. rewrite R in K. exact (proj2 K).
Qed.

(* how often the application is told that the registration is done *)
Definition dones (l : list ev) : nat := length (filter is_done l).
Definition quiet (e : ev) : Prop := is_done e = false.
Lemma dones_app a b : dones (a ++ b) = (dones a + dones b)%nat.
Proof. unfold dones. now rewrite filter_app, app_length. Qed.
Lemma dones_quiet l : Forall quiet l -> dones l = 0%nat.
Proof. unfold dones. induction 1 as [|e l E F IH]; [reflexivity|]. cbn [filter]. unfold quiet in E. rewrite E. exact IH. Qed.
Lemma since_dones s s' : since quiet s s' -> dones (t_log s') = dones (t_log s).
Proof. intros (l & -> & F). now rewrite dones_app, dones_quiet. Qed.
Lemma quiet_save : keeps (since quiet) (saveConfig I).
Proof. intros s. unfold saveConfig. destruct (i_cok I _); [eapply since_one; reflexivity|apply since_none; reflexivity]. Qed.
Lemma quiet_write p b : keeps (since quiet) (write C cf I p b).
Proof. intros s. unfold write. destruct (i_wok I _); [destruct (writeFile _ _ _ _ _ _)|]; try (apply since_none; reflexivity). eapply since_one; reflexivity. Qed.
Lemma rest_dones s r s' : rest C cf I s = (Ok r, s') -> dones (t_log s') = S (dones (t_log s)).
Proof.
  intros E. destruct (rest_parts _ _ _ E) as (pass & s1 & s2 & ov & s3 & E1 & E2 & E3 & -> & _).
  set (s0 := mkPst _ _ _ _ _ _ _) in E1.
  pose proof (since_refl quiet) as Rr. pose proof (since_trans quiet) as Rt.
  assert (N : forall g, keeps (since quiet) (modify g)) by (intros g t; apply since_none; reflexivity).
  assert (D : forall n, keeps (since quiet) (draw I n)) by (intros n t; apply since_none; reflexivity).
  assert (P : forall u x n m, keeps (since quiet) (say (EvProfile u x n m))) by (intros u x n m t; eapply since_one; reflexivity).
  pose proof (keeps_profile (since quiet) Rr Rt I ltac:(auto) ltac:(auto) quiet_save D P s0) as K1. rewrite E1 in K1.
  pose proof (keeps_certificate (since quiet) Rr Rt I ltac:(auto) quiet_save s1) as K2. rewrite E2 in K2.
  pose proof (keeps_credential (since quiet) Rr Rt I ltac:(auto) quiet_save D P s2) as K3. rewrite E3 in K3.
  cbn [snd] in *. apply since_dones in K1, K2, K3. rewrite K3, K2, K1. reflexivity.
Qed.
Lemma register_dones s u s' : register C cf I s = (Ok u, s') -> dones (t_log s') = S (S (dones (t_log s))).
Proof.
  rewrite register_split. intros E. pose proof (since_refl quiet) as Rr. pose proof (since_trans quiet) as Rt.
  apply bind_inv in E as (a1 & s1 & E1 & E). apply bind_inv in E as (a2 & s2 & E2 & E). apply bind_inv in E as (a3 & s3 & E3 & E).
  assert (K1 : since quiet s s1).
  { change s1 with (snd (Ok a1, s1)). rewrite <- E1. revert s E1. assert (K : keeps (since quiet) (stageA C cf I)); [|intros s _; apply K].
    unfold stageA. repeat (apply (keeps_bind _ Rt); [first [apply keeps_ignore, quiet_write | apply quiet_write | intros t; apply since_none; reflexivity] | intros _]).
    destruct (i_register I); [|apply keeps_fail; auto|apply keeps_panic; auto].
    destruct (i_verify I); [|apply keeps_fail; auto|apply keeps_panic; auto].
    apply (keeps_bind _ Rt); [intros t; eapply since_one; reflexivity|intros _]. apply (keeps_bind _ Rt); [intros t; apply since_none; reflexivity|intros _].
    apply (keeps_bind _ Rt); [apply quiet_save|intros _]. apply keeps_ret; auto. }
  assert (K2 : since quiet s1 s2).
  { change s2 with (snd (Ok a2, s2)). rewrite <- E2. apply keeps_gen; [exact Rr | exact Rt | intros; apply quiet_write]. }
  injection E3 as _ <-. unfold post in E. destruct (i_upload I) as [st|e|]; try discriminate. destruct (is_error st); [discriminate|].
  apply bind_inv in E as (a4 & s4 & E4 & E). apply bind_inv in E as (a5 & s5 & E5 & E). apply bind_inv in E as (a6 & s6 & E6 & E).
  apply bind_inv in E as (a7 & s7 & E7 & E). apply bind_inv in E as (a8 & s8 & E8 & E). injection E4 as _ <-. injection E5 as _ <-. injection E6 as _ <-.
  apply ignore_inv in E7. pose proof (quiet_save (mkPst (t_files s2) (t_disk s2) (with_pkey a5 (t_mem s2)) (t_nw s2) (t_nc s2) (t_drawn s2 + 32) (EvUpload (snd (i_ident I)) a3 (signedRecord I) :: t_log s2))) as K7.
  rewrite E7 in K7. apply since_dones in K1, K2, K7. injection E8 as _ <-. injection E as _ <-. cbn [t_log] in *.
  change (dones (EvDone :: EvDone :: t_log s7)) with (S (S (dones (t_log s7)))). rewrite K7.
  change (dones (EvUpload (snd (i_ident I)) a3 (signedRecord I) :: t_log s2)) with (dones (t_log s2)). now rewrite K2, K1.
Qed.
Lemma dones_rev l : dones (rev l) = dones l.
Proof. induction l as [|e l IH]; [reflexivity|]. cbn [rev]. rewrite dones_app, IH. unfold dones. cbn [filter]. destruct (is_done e); cbn [length]; lia. Qed.
Lemma start_dones d k d' l : start C cf I d = (Ok k, d', l) -> dones l = if valid (fst d) then 1%nat else 3%nat.
Proof.
  unfold start. rewrite setup_split. cbn zeta. cbn [boot t_files t_disk t_nw t_nc t_drawn t_log].
  set (s0 := mkPst _ _ _ _ _ _ _). assert (L0 : t_log s0 = []) by reflexivity. clearbody s0.
  destruct (valid (fst d)).
  - destruct (rest C cf I s0) as [r s] eqn:R. intros [= -> <- <-]. apply rest_dones in R. rewrite dones_rev, R, L0. reflexivity.
  - destruct (register C cf I s0) as [[u|e|] s1] eqn:G; try discriminate. apply register_dones in G.
    destruct (rest C cf I s1) as [r s] eqn:R. intros [= -> <- <-]. apply rest_dones in R. rewrite dones_rev, R, G, L0. reflexivity.
Qed.
End V.

(* ---------- C110: the profile key is the same after a restart ---------- *)

(* a start of an installation with a profile key and a name replaces the key: by the first 32 bytes of
   math/rand in the new process *)
Theorem C110_key_replaced : forall C cf I d k d' l, (forall n, i_cok I n = true) ->
  exists_file (fst d) (preKeyPath lastResortPreKeyID) = true -> g_pkey (snd d) <> [] -> g_name (snd d) <> [] ->
  start C cf I d = (Ok k, d', l) -> g_pkey (snd d') = map (i_stream I) (seq 0 32).
Proof. intros C cf I d k d' l W V HK HN E. exact (proj1 (start_named C cf I d k d' l W V HK HN E)). Qed.
Definition ex_disk2 : disk := snd (fst (go ex_again ex_disk1)).
Theorem C110_stable_refuted : exists I1 I2 c k1 d1 l1 k2 d2 l2, good_in I1 /\ good_in I2 /\
  start toy ex_conf I1 ([], c) = (Ok k1, d1, l1) /\ start toy ex_conf I2 d1 = (Ok k2, d2, l2) /\
  g_uuid (snd d2) = g_uuid (snd d1) /\ g_pkey (snd d1) <> [] /\ g_pkey (snd d2) <> g_pkey (snd d1).
Proof.
  exists ex_first, ex_again, ex_cfg, (Some (ex_kps' 1)), ex_disk1, (snd (go ex_first ([], ex_cfg))), (Some (ex_kps' 1)), ex_disk2, (snd (go ex_again ex_disk1)).
  split; [exact ex_first_good|]. split; [exact ex_again_good|].
  split. { unfold ex_disk1. apply go_is. vm_compute. reflexivity. }
  split. { unfold ex_disk2. apply go_is. vm_compute. reflexivity. }
  split. { vm_compute. reflexivity. }
  split; apply beq_neq; vm_compute; reflexivity.
Qed.
Example C110_example : valid (fst ex_disk1) = true /\ g_pkey (snd ex_disk1) = map Z.of_nat (seq 32 32) /\ g_name (snd ex_disk1) = [65] /\
  fst (fst (go ex_again ex_disk1)) = Ok (Some (ex_kps' 1)) /\ g_pkey (snd ex_disk2) = map Z.of_nat (seq 0 32).
Proof. vm_compute. auto 10. Qed.
Print Assumptions C110_key_replaced.
Print Assumptions C110_stable_refuted.

(* ---------- C111: the stored credential is the one of the stored profile key ---------- *)

(* it is after a start that found none *)
Theorem C111_first_partial : forall C cf I d k d' l, (forall n, i_cok I n = true) -> g_cred (snd d) = [] ->
  start C cf I d = (Ok k, d', l) -> i_issue I (g_pkey (snd d')) = Ok (g_cred (snd d')).
Proof.
  intros C cf I d k d' l W HC. unfold start. rewrite setup_split. cbn zeta. cbn [boot t_files t_disk t_nw t_nc t_drawn t_log].
  set (s0 := mkPst _ _ _ _ _ _ _). assert (K0 : g_cred (t_mem s0) = [] /\ g_cred (t_disk s0) = []) by (split; exact HC). clearbody s0.
  assert (X : forall s, g_cred (t_mem s) = [] /\ g_cred (t_disk s) = [] ->
    (let (r0, s) := rest C cf I s in (r0, (t_files s, t_disk s), rev (t_log s))) = (Ok k, d', l) -> i_issue I (g_pkey (snd d')) = Ok (g_cred (snd d'))).
  { intros s (A & B) E. destruct (rest C cf I s) as [r0 s1] eqn:R. injection E as -> <- _. cbn [snd]. eapply rest_credential; eauto. }
  destruct (valid (fst d)); [now apply X|].
  assert (K : keeps Rcred (register C cf I)).
  { apply keeps_register; [exact cred_refl | exact cred_trans | intros x t H; exact H | exact cred_load | apply cred_save | intros x t H; exact H
    | intros t H; exact H | apply cred_write | intros t u p g x H; exact H | intros t u n x H; exact H | intros ps x H; exact H]. }
  specialize (K s0 K0). destruct (register C cf I s0) as [[a|e|] s1]; [now apply X|discriminate|discriminate].
Qed.
(* but the next start replaces the key and keeps the credential *)
Theorem C111_matching_refuted : exists I1 I2 c k1 d1 l1 k2 d2 l2, good_in I1 /\ good_in I2 /\
  (forall n, i_cok I1 n = true /\ i_cok I2 n = true) /\ (forall x, i_issue I1 x = i_issue I2 x) /\
  start toy ex_conf I1 ([], c) = (Ok k1, d1, l1) /\ start toy ex_conf I2 d1 = (Ok k2, d2, l2) /\
  i_issue I2 (g_pkey (snd d1)) = Ok (g_cred (snd d1)) /\
  exists x, i_issue I2 (g_pkey (snd d2)) = Ok x /\ x <> g_cred (snd d2).
Proof.
  exists ex_first, ex_again, ex_cfg, (Some (ex_kps' 1)), ex_disk1, (snd (go ex_first ([], ex_cfg))), (Some (ex_kps' 1)), ex_disk2, (snd (go ex_again ex_disk1)).
  split; [exact ex_first_good|]. split; [exact ex_again_good|]. split; [split; reflexivity|]. split; [reflexivity|].
  split. { unfold ex_disk1. apply go_is. vm_compute. reflexivity. }
  split. { unfold ex_disk2. apply go_is. vm_compute. reflexivity. }
  split. { vm_compute. reflexivity. }
  exists (1 :: map Z.of_nat (seq 0 32)). split; [vm_compute; reflexivity|]. apply beq_neq. vm_compute. reflexivity.
Qed.
Example C111_example : g_cred ex_cfg = [] /\ g_cred (snd ex_disk1) = 1 :: map Z.of_nat (seq 32 32).
Proof. vm_compute. auto. Qed.
Print Assumptions C111_first_partial.
Print Assumptions C111_matching_refuted.

(* ---------- C112: the profile keys of two installations differ ---------- *)

(* they are the same if math/rand gives the same bytes, as it does if it is not seeded *)
Theorem C112_same_bytes_same_key : forall C cf I1 I2 cf2 d1 d2 k1 k2 d1' d2' l1 l2,
  (forall n, i_cok I1 n = true) -> (forall n, i_cok I2 n = true) -> (forall n, i_stream I1 n = i_stream I2 n) ->
  exists_file (fst d1) (preKeyPath lastResortPreKeyID) = true -> exists_file (fst d2) (preKeyPath lastResortPreKeyID) = true ->
  g_pkey (snd d1) <> [] -> g_name (snd d1) <> [] -> g_pkey (snd d2) <> [] -> g_name (snd d2) <> [] ->
  start C cf I1 d1 = (Ok k1, d1', l1) -> start C cf2 I2 d2 = (Ok k2, d2', l2) -> g_pkey (snd d1') = g_pkey (snd d2').
Proof.
  intros C cf I1 I2 cf2 d1 d2 k1 k2 d1' d2' l1 l2 W1 W2 S V1 V2 A1 B1 A2 B2 E1 E2.
  rewrite (C110_key_replaced _ _ _ _ _ _ _ W1 V1 A1 B1 E1), (C110_key_replaced _ _ _ _ _ _ _ W2 V2 A2 B2 E2).
  apply map_ext. exact S.
Qed.
(* two different people register: different telephones, names, passwords and identities *)
Definition ex_other : disk := snd (fst (go ex_again ([], ex_cfg))).
Theorem C112_different_refuted : exists I1 I2 c k1 d1 l1 k2 d2 l2, good_in I1 /\ good_in I2 /\
  start toy ex_conf I1 ([], c) = (Ok k1, d1, l1) /\ start toy ex_conf I2 ([], c) = (Ok k2, d2, l2) /\
  k1 <> k2 /\ g_uuid (snd d1) <> g_uuid (snd d2) /\ g_pkey (snd d1) = g_pkey (snd d2).
Proof.
  exists ex_first, ex_again, ex_cfg, (Some (ex_kps' 1)), ex_disk1, (snd (go ex_first ([], ex_cfg))), (Some (ex_kps' 2)), ex_other, (snd (go ex_again ([], ex_cfg))).
  split; [exact ex_first_good|]. split; [exact ex_again_good|].
  split. { unfold ex_disk1. apply go_is. vm_compute. reflexivity. }
  split. { unfold ex_other. apply go_is. vm_compute. reflexivity. }
  split. { intros [= X]. }
  split; [apply beq_neq; vm_compute; reflexivity|]. vm_compute. reflexivity.
Qed.
Print Assumptions C112_same_bytes_same_key.
Print Assumptions C112_different_refuted.

(* ---------- C113: no two names are sealed with the same key and nonce ---------- *)

Lemma in_log e l : existsb (fun x => match x, e with
    | EvProfile u k n m, EvProfile u' k' n' m' => beq u u' && beq k k' && beq n n' && beq m m' | _, _ => false end) l = true -> In e l.
Proof.
  intros H. apply existsb_exists in H as (x & X & Y). destruct x; try discriminate Y. destruct e; try discriminate Y.
  apply andb_prop in Y as (Y & Y4). apply andb_prop in Y as (Y & Y3). apply andb_prop in Y as (Y1 & Y2).
  apply beq_eq in Y1, Y2, Y3, Y4. rewrite <- Y1, <- Y2, <- Y3, <- Y4. exact X.
Qed.
(* a later start seals the name with key and nonce that are determined by the bytes of math/rand *)
Theorem C113_key_and_nonce : forall C cf I d k d' l, (forall n, i_cok I n = true) ->
  exists_file (fst d) (preKeyPath lastResortPreKeyID) = true -> g_pkey (snd d) <> [] -> g_name (snd d) <> [] ->
  (length (g_name (snd d)) <= NAME_PADDED_LENGTH)%nat -> start C cf I d = (Ok k, d', l) ->
  In (EvProfile (g_uuid (snd d)) (map (i_stream I) (seq 0 32)) (map (i_stream I) (seq 32 12)) (g_name (snd d))) l.
Proof. intros C cf I d k d' l W V HK HN HL E. exact (proj2 (start_named C cf I d k d' l W V HK HN E) HL). Qed.
Theorem C113_fresh_refuted : exists I1 I2 c k1 d1 l1 k2 d2 l2 u1 u2 key nonce name1 name2, good_in I1 /\ good_in I2 /\
  start toy ex_conf I1 ([], c) = (Ok k1, d1, l1) /\ start toy ex_conf I2 ([], c) = (Ok k2, d2, l2) /\
  In (EvProfile u1 key nonce name1) l1 /\ In (EvProfile u2 key nonce name2) l2 /\ name1 <> name2.
Proof.
  exists ex_first, ex_again, ex_cfg, (Some (ex_kps' 1)), ex_disk1, (snd (go ex_first ([], ex_cfg))), (Some (ex_kps' 2)), ex_other, (snd (go ex_again ([], ex_cfg))).
  exists [43;49], [43;50], (map Z.of_nat (seq 32 32)), (map Z.of_nat (seq 64 12)), [65], [66].
  split; [exact ex_first_good|]. split; [exact ex_again_good|].
  split. { unfold ex_disk1. apply go_is. vm_compute. reflexivity. }
  split. { unfold ex_other. apply go_is. vm_compute. reflexivity. }
  split. { apply in_log. vm_compute. reflexivity. }
  split. { apply in_log. vm_compute. reflexivity. }
  intros [=].
Qed.
Print Assumptions C113_key_and_nonce.
Print Assumptions C113_fresh_refuted.

(* ---------- C114: an expired certificate is renewed ---------- *)

(* the certificate b expires e milliseconds after 1970 *)
Definition expires (b : bytes) (e : Z) : Prop := exists f g, parse b = Some f /\
  parse (match get_len 1 f with Some x => x | None => [] end) = Some g /\ get_sub 5 g <> Some None /\ get_i64 3 g = Some e.
Lemma expires_check b e now : expires b e -> b <> [] -> 0 <= now < 2 ^ 63 ->
  CheckCertificate now b = if e <? now then Err EOther else Ok tt.
Proof.
  intros (f & g & P & Q & R & S) N H. unfold CheckCertificate. destruct b as [|x t]; [now elim N|]. rewrite P, Q, S, Z.mod_small by lia.
  destruct (get_sub 5 g) as [[y|]|]; try reflexivity. now elim R.
Qed.
(* the clock, in seconds, is compared with the expiry, in milliseconds: the certificate stays in use until
   the number of seconds since 1970 is larger than e *)
Theorem C114_kept_until : forall C cf I d k d' l e, exists_file (fst d) (preKeyPath lastResortPreKeyID) = true ->
  g_cert (snd d) <> [] -> expires (g_cert (snd d)) e -> 0 <= i_now I < 2 ^ 63 -> i_now I <= e ->
  start C cf I d = (Ok k, d', l) -> g_cert (snd d') = g_cert (snd d).
Proof.
  intros C cf I d k d' l e V N X T LE E. destruct (start_rest C cf I d _ _ _ V E) as (s & R & -> & _). cbn [snd].
  destruct (rest_parts C cf I _ _ _ R) as (pass & s1 & s2 & ov & s3 & E1 & E2 & E3 & -> & _). set (b := g_cert (snd d)) in *.
  match type of E1 with setupProfile I ?s0 = _ => pose proof (cert_profile I b s0 (conj eq_refl eq_refl)) as K1 end. rewrite E1 in K1. cbn [snd] in K1.
  assert (S2 : s2 = s1).
  { unfold setupCertificate, mbind at 1, mem in E2. rewrite (proj1 K1), (expires_check b e _ X N T) in E2.
    destruct (Z.ltb_spec e (i_now I)); [lia|]. destruct b; [now elim N|]. cbn [length Nat.eqb] in E2. now injection E2 as _ <-. }
  subst s2. pose proof (keeps_credential (Rcert b) (cert_refl b) (cert_trans b) I) as K.
  specialize (K ltac:(intros x t H; exact H) (cert_save I b) ltac:(intros x t H; exact H) ltac:(intros u x n m t H; exact H) s1 K1).
  rewrite E3 in K. exact (proj2 K).
Qed.
(* after that it is renewed *)
Theorem C114_renewed_after : forall C cf I d k d' l e new, exists_file (fst d) (preKeyPath lastResortPreKeyID) = true ->
  g_cert (snd d) <> [] -> expires (g_cert (snd d)) e -> 0 <= i_now I < 2 ^ 63 -> e < i_now I -> i_cert I = CBody new ->
  (forall n, i_cok I n = true) -> start C cf I d = (Ok k, d', l) -> g_cert (snd d') = new.
Proof.
  intros C cf I d k d' l e new V N X T LE CB W E. destruct (start_rest C cf I d _ _ _ V E) as (s & R & -> & _). cbn [snd].
  destruct (rest_parts C cf I _ _ _ R) as (pass & s1 & s2 & ov & s3 & E1 & E2 & E3 & -> & _). set (b := g_cert (snd d)) in *.
  match type of E1 with setupProfile I ?s0 = _ => pose proof (cert_profile I b s0 (conj eq_refl eq_refl)) as K1 end. rewrite E1 in K1. cbn [snd] in K1.
  assert (K2 : g_cert (t_mem s2) = new /\ g_cert (t_disk s2) = new).
  { unfold setupCertificate, mbind at 1, mem in E2. rewrite (proj1 K1), (expires_check b e _ X N T) in E2.
    destruct (Z.ltb_spec e (i_now I)); [|lia]. destruct b; [now elim N|]. cbn [length Nat.eqb] in E2.
    unfold renew in E2. rewrite CB in E2. unfold mbind, modify, ignore, saveConfig in E2. cbn [t_nc t_mem] in E2. rewrite W in E2.
    injection E2 as _ <-. split; reflexivity. }
  pose proof (keeps_credential (Rcert new) (cert_refl new) (cert_trans new) I) as K.
  specialize (K ltac:(intros x t H; exact H) (cert_save I new) ltac:(intros x t H; exact H) ltac:(intros u x n m t H; exact H) s2 K2).
  rewrite E3 in K. exact (proj2 K).
Qed.
(* so a certificate that expired three years ago is used *)
Theorem C114_renewed_refuted : exists I1 I2 c k1 d1 l1 k2 d2 l2 e new, good_in I1 /\ good_in I2 /\
  start toy ex_conf I1 ([], c) = (Ok k1, d1, l1) /\ start toy ex_conf I2 d1 = (Ok k2, d2, l2) /\
  expires (g_cert (snd d1)) e /\ e + 3 * 365 * 86400 * 1000 < 1000 * i_now I2 /\ i_cert I2 = CBody new /\
  g_cert (snd d2) = g_cert (snd d1) /\ g_cert (snd d1) <> new.
Proof.
  exists ex_first, ex_again, ex_cfg, (Some (ex_kps' 1)), ex_disk1, (snd (go ex_first ([], ex_cfg))), (Some (ex_kps' 1)), ex_disk2, (snd (go ex_again ex_disk1)),
    1600000000000, [10;0].
  split; [exact ex_first_good|]. split; [exact ex_again_good|].
  split. { unfold ex_disk1. apply go_is. vm_compute. reflexivity. }
  split. { unfold ex_disk2. apply go_is. vm_compute. reflexivity. }
  assert (E1 : g_cert (snd ex_disk1) = ex_cert) by (vm_compute; reflexivity).
  assert (E2 : g_cert (snd ex_disk2) = ex_cert) by (vm_compute; reflexivity). rewrite E1, E2.
  split. { eexists _, _. split; [vm_compute; reflexivity|]. split; [vm_compute; reflexivity|]. split; [vm_compute; discriminate|]. vm_compute. reflexivity. }
  split; [cbn; lia|]. split; [reflexivity|]. split; [reflexivity|]. intros [=].
Qed.
Print Assumptions C114_kept_until.
Print Assumptions C114_renewed_after.
Print Assumptions C114_renewed_refuted.

(* ---------- C115: a bad answer to the certificate request can be recovered from ---------- *)

(* the results of starts one after the other *)
Fixpoint starts (C : crypto) (cf : sconf) (Is : list input) (d : disk) : list (res (option keypair)) :=
  match Is with
  | [] => []
  | i :: t => let '(r, d', _) := start C cf i d in r :: starts C cf t d'
  end.
(* with bytes stored that are no certificate, no start succeeds, whatever the server answers *)
Theorem C115_stuck : forall C cf Is d, exists_file (fst d) (preKeyPath lastResortPreKeyID) = true ->
  g_cert (snd d) <> [] -> parse (g_cert (snd d)) = None -> forall r k, In r (starts C cf Is d) -> r <> Ok k.
Proof.
  intros C cf Is. induction Is as [|I Is IH]; intros d V N P r k X; [destruct X|]. cbn [starts] in X.
  destruct (start C cf I d) as [[r0 d'] l] eqn:E.
  assert (B : CheckCertificate (i_now I) (g_cert (snd d)) = Panic).
  { unfold CheckCertificate. destruct (g_cert (snd d)); [now elim N|]. now rewrite P. }
  destruct (start_bad_cert C cf I _ d r0 d' l N B eq_refl V E) as (R & G & F). destruct X as [<-|X]; [apply R|].
  apply (IH d'); [now rewrite F | now rewrite G | now rewrite G | exact X].
Qed.
(* the status and the form of the answer are not checked: one page of an overloaded server is enough *)
Definition ex_page : input := ex_in yes [1;2;3] [43;49] [65] 1 (Ok tt) (Ok 200) 1590000000 (CBody [7]).
Theorem C115_recovers_refuted : exists I1 c k d1 l1, good_in I1 /\ start toy ex_conf I1 ([], c) = (Ok k, d1, l1) /\
  forall Is r k', In r (starts toy ex_conf Is d1) -> r <> Ok k'.
Proof.
  exists ex_page, ex_cfg, (Some (ex_kps' 1)), (snd (fst (go ex_page ([], ex_cfg)))), (snd (go ex_page ([], ex_cfg))).
  split. { apply ex_in_good. repeat constructor; unfold isbyte; lia. }
  split. { apply go_is. vm_compute. reflexivity. }
  assert (E : g_cert (snd (snd (fst (go ex_page ([], ex_cfg))))) = [7]) by (vm_compute; reflexivity).
  intros Is r k'. apply C115_stuck; [vm_compute; reflexivity|rewrite E; discriminate|rewrite E; vm_compute; reflexivity].
Qed.
(* and the answer null ends the process *)
Definition ex_null : input := ex_in yes [1;2;3] [43;49] [65] 1 (Ok tt) (Ok 200) 1590000000 CNull.
Example C115_null : fst (fst (go ex_null ([], ex_cfg))) = Panic.
Proof. vm_compute. reflexivity. Qed.
Print Assumptions C115_stuck.
Print Assumptions C115_recovers_refuted.

(* ---------- C116: a client that has started has its identity ---------- *)

Theorem C116_identity_partial : forall C cf c d L I r d' l, crypto_ok C -> conf_ok cf -> life C cf good_in ([], c) d L -> good_in I ->
  start C cf I d = (Ok r, d', l) -> exists k, r = Some k /\ GetIdentityKeyPair C cf (fst d') = Ok k /\
    forall ik ps spk, In (EvUpload ik ps spk) (L ++ l) -> snd k = ik.
Proof.
  intros C cf c d L I r d' l OK CF H GI E. destruct (start_complete C cf I d _ d' l E) as (D & FL).
  pose proof (life_start C cf good_in ([], c) d L I _ _ _ (length l) H GI E) as H'. rewrite <- D, FL in H'.
  pose proof (life_J C cf OK CF False good_in c d' _ ltac:(auto) ltac:(tauto) H') as [JV JI JU JS JO].
  destruct (JV (start_ok_valid C cf OK CF I d r d' l GI E)) as (_ & k & K). exists k. split; [|split; [exact K|]].
  - eapply start_ident; eauto.
  - intros ik ps spk X. destruct (JU ik ps spk X) as (priv & P). rewrite K in P. now injection P as ->.
Qed.
(* but if the file of the identity is damaged, and there is no certificate yet, the error is overwritten:
   Setup reports success and there is no identity *)
Definition ex_damaged : disk := (raw_write (fst ex_disk1) identPath [1;2;3], with_cert [] (snd ex_disk1)).
Theorem C116_identity_refuted : exists I d d' l, good_in I /\ valid (fst d) = true /\ start toy ex_conf I d = (Ok None, d', l).
Proof.
  exists ex_again, ex_damaged, (snd (fst (go ex_again ex_damaged))), (snd (go ex_again ex_damaged)).
  split; [exact ex_again_good|]. split; [vm_compute; reflexivity|]. apply go_is. vm_compute. reflexivity.
Qed.
Example C116_example : fst (fst (go ex_again ex_disk1)) = Ok (Some (ex_kps' 1)).
Proof. vm_compute. reflexivity. Qed.
Print Assumptions C116_identity_partial.
Print Assumptions C116_identity_refuted.

(* ---------- C117: RegistrationDone is called once per registration ---------- *)

Theorem C117_number_of_calls : forall C cf I d k d' l, start C cf I d = (Ok k, d', l) ->
  length (filter is_done l) = if exists_file (fst d) (preKeyPath lastResortPreKeyID) then 1%nat else 3%nat.
Proof. intros C cf I d k d' l E. exact (start_dones C cf I d k d' l E). Qed.
Theorem C117_once_refuted : exists I1 I2 c k1 d1 l1 k2 d2 l2, good_in I1 /\ good_in I2 /\
  start toy ex_conf I1 ([], c) = (Ok k1, d1, l1) /\ start toy ex_conf I2 d1 = (Ok k2, d2, l2) /\
  length (filter is_account l1) = 1%nat /\ length (filter is_done l1) = 3%nat /\
  length (filter is_account l2) = 0%nat /\ length (filter is_done l2) = 1%nat.
Proof.
  exists ex_first, ex_again, ex_cfg, (Some (ex_kps' 1)), ex_disk1, (snd (go ex_first ([], ex_cfg))), (Some (ex_kps' 1)), ex_disk2, (snd (go ex_again ex_disk1)).
  split; [exact ex_first_good|]. split; [exact ex_again_good|].
  split. { unfold ex_disk1. apply go_is. vm_compute. reflexivity. }
  split. { unfold ex_disk2. apply go_is. vm_compute. reflexivity. }
  split; [vm_compute; reflexivity|]. split; [vm_compute; reflexivity|]. split; vm_compute; reflexivity.
Qed.
Print Assumptions C117_number_of_calls.
Print Assumptions C117_once_refuted.

(* ---------- C118: requests are made with the credentials of the account ---------- *)

(* if no write of the store fails *)
Definition solid (I : input) : Prop := good_in I /\ forall n, i_wok I n = true.
Theorem C118_credentials_partial : forall C cf c d L L1 u p L2, crypto_ok C -> conf_ok cf -> life C cf solid ([], c) d L ->
  L = L1 ++ EvUse u p :: L2 -> account_of L1 = Some (u, p).
Proof.
  intros C cf c d L L1 u p L2 OK CF H E.
  pose proof (life_J C cf OK CF True solid c d L ltac:(intros I (G & _); exact G) ltac:(intros _ I (_ & G); exact G) H) as [JV JI JU JS JO].
  destruct (JS _ _ _ _ E) as (q & A & B). rewrite (B Logic.I). exact A.
Qed.
(* in any case they are those of the account that was made last, except for the password *)
Theorem C118_account : forall C cf c d L L1 u p L2, crypto_ok C -> conf_ok cf -> life C cf good_in ([], c) d L ->
  L = L1 ++ EvUse u p :: L2 -> exists q, account_of L1 = Some (u, q).
Proof.
  intros C cf c d L L1 u p L2 OK CF H E.
  destruct (j_uses _ _ _ _ _ (life_J C cf OK CF False good_in c d L ltac:(auto) ltac:(tauto) H) _ _ _ _ E) as (q & A & _). eauto.
Qed.
(* the error of the write is ignored: a password of an earlier attempt stays in the file *)
Definition ex_refused : input := ex_in yes [8;8;8] [43;49] [65] 1 (Err EOther) (Ok 200) 1590000000 (CBody ex_cert).
Definition ex_nopass : input := ex_in (fun n => negb (n =? 1)%nat) [1;2;3] [43;49] [65] 1 (Ok tt) (Ok 200) 1590000000 (CBody ex_cert).
Definition ex_left : disk := snd (fst (go ex_refused ([], ex_cfg))).
Theorem C118_credentials_refuted : exists c d L L1 u p q L2, life toy ex_conf good_in ([], c) d L /\
  L = L1 ++ EvUse u p :: L2 /\ account_of L1 = Some (u, q) /\ p <> q.
Proof.
  assert (G1 : good_in ex_refused) by (apply ex_in_good; repeat constructor; unfold isbyte; lia).
  assert (G2 : good_in ex_nopass) by (apply ex_in_good; repeat constructor; unfold isbyte; lia).
  assert (H : life toy ex_conf good_in ([], ex_cfg) (snd (fst (go ex_nopass ex_left))) ((([] ++ snd (go ex_refused ([], ex_cfg)))) ++ snd (go ex_nopass ex_left))).
  { destruct (start_complete toy ex_conf _ _ _ _ _ (go_start ex_nopass ex_left)) as (D & FL).
    pose proof (life_go (length (snd (go ex_nopass ex_left))) ex_nopass ex_left ([] ++ snd (go ex_refused ([], ex_cfg))) G2) as H.
    rewrite <- D, FL in H. apply H. clear H D FL.
    destruct (start_complete toy ex_conf _ _ _ _ _ (go_start ex_refused ([], ex_cfg))) as (D & FL).
    pose proof (life_go (length (snd (go ex_refused ([], ex_cfg)))) ex_refused ([], ex_cfg) [] G1) as H.
    rewrite <- D, FL in H. apply H. apply life_new. }
  assert (X : exists L1 u p q L2, (([] ++ snd (go ex_refused ([], ex_cfg))) ++ snd (go ex_nopass ex_left)) = L1 ++ EvUse u p :: L2 /\
    account_of L1 = Some (u, q) /\ p <> q).
  { assert (S : exists n, nth_error (([] ++ snd (go ex_refused ([], ex_cfg))) ++ snd (go ex_nopass ex_left)) n = Some (EvUse [43;49] [8;8;8]) /\
      account_of (firstn n (([] ++ snd (go ex_refused ([], ex_cfg))) ++ snd (go ex_nopass ex_left))) = Some ([43;49], [1;2;3])).
    { exists 116%nat. split; vm_compute; reflexivity. }
    destruct S as (n & S1 & S2). apply nth_error_split in S1 as (l1 & l2 & E & LN). rewrite E in S2.
    rewrite firstn_before in S2 by (rewrite LN; apply le_n). rewrite <- LN, firstn_all in S2.
    exists l1, [43;49], [8;8;8], [1;2;3], l2. split; [exact E|]. split; [exact S2|]. intros [=]. }
  destruct X as (L1 & u & p & q & L2 & E & A & N). exists ex_cfg, (snd (fst (go ex_nopass ex_left))), (([] ++ snd (go ex_refused ([], ex_cfg))) ++ snd (go ex_nopass ex_left)), L1, u, p, q, L2.
  split; [exact H|]. split; [exact E|]. split; [exact A|exact N].
Qed.
Example C118_example : account_of (snd (go ex_first ([], ex_cfg))) = Some ([43;49], [1;2;3]) /\
  existsb (fun e => match e with EvUse u p => beq u [43;49] && beq p [1;2;3] | _ => false end) (snd (go ex_first ([], ex_cfg))) = true.
Proof. vm_compute. auto. Qed.
Print Assumptions C118_credentials_partial.
Print Assumptions C118_account.
Print Assumptions C118_credentials_refuted.
