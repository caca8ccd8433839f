(* C197: a registered installation keeps its account, its name and its keys over any number of starts *)
From Coq Require Import ZArith List Lia Bool.
From Verif Require Import Bytes Res Crypto Messages Session Builder Storage Profile Examples PreKeyGen Startup PropStartup.
Import ListNotations.
Open Scope Z_scope.

(* ---------- what is kept ---------- *)
(* the disk after starts, each of which is cut off when n of its events have happened *)
Fixpoint after (C : crypto) (cf : sconf) (d : disk) (l : list (input * nat)) : disk :=
  match l with
  | [] => d
  | (i, n) :: t => after C cf (crashed d (firstn n (snd (start C cf i d)))) t
  end.

Section R.
Variables (A : Type) (pr : cfg -> A) (a : A) (f : files).
(* in memory and on the disk pr is a, the files are f, and so in every state of the disk that was seen *)
Definition Rstay (s s' : pst) : Prop := t_files s = f -> pr (t_mem s) = a -> pr (t_disk s) = a ->
  t_files s' = f /\ pr (t_mem s') = a /\ pr (t_disk s') = a /\
  since (fun e => match e with EvDisk fs c => fs = f /\ pr c = a | _ => True end) s s'.
Lemma stay_refl s : Rstay s s.
Proof. intros F M D. split; [exact F|]. split; [exact M|]. split; [exact D|]. apply since_refl. Qed.
Lemma stay_trans x y z : Rstay x y -> Rstay y z -> Rstay x z.
Proof.
  intros H K F M D. destruct (H F M D) as (F1 & M1 & D1 & S1). destruct (K F1 M1 D1) as (F2 & M2 & D2 & S2).
  split; [exact F2|]. split; [exact M2|]. split; [exact D2|]. eapply since_trans; eassumption.
Qed.
Lemma stay_modify g : (forall c, pr (g c) = pr c) -> keeps Rstay (modify g).
Proof. intros G s F M D. cbn. rewrite G. split; [exact F|]. split; [exact M|]. split; [exact D|]. apply since_none. reflexivity. Qed.
Lemma stay_load : keeps Rstay loadConfig.
Proof. intros s F M D. cbn. split; [exact F|]. split; [exact D|]. split; [exact D|]. apply since_none. reflexivity. Qed.
Lemma stay_save I : keeps Rstay (saveConfig I).
Proof.
  intros s F M D. unfold saveConfig. destruct (i_cok I _); cbn [snd t_files t_mem t_disk].
  - split; [exact F|]. split; [exact M|]. split; [exact M|]. eapply since_one; [reflexivity|]. cbv beta iota. split; assumption.
  - split; [exact F|]. split; [exact M|]. split; [exact D|]. apply since_none. reflexivity.
Qed.
Lemma stay_draw I n : keeps Rstay (draw I n).
Proof. intros s F M D. cbn. split; [exact F|]. split; [exact M|]. split; [exact D|]. apply since_none. reflexivity. Qed.
Lemma stay_say e : (forall fs c, e <> EvDisk fs c) -> keeps Rstay (say e).
Proof.
  intros N s F M D. cbn. split; [exact F|]. split; [exact M|]. split; [exact D|]. eapply since_one; [reflexivity|].
  destruct e; auto. now elim (N fs c).
Qed.

Hypothesis Pcred : forall k c, pr (with_cred k c) = pr c.
Hypothesis Pcert : forall k c, pr (with_cert k c) = pr c.

(* the steps after the profile *)
Lemma stay_rest C cf I : keeps Rstay (setupProfile I) -> keeps Rstay (rest C cf I).
Proof.
  intros K. unfold rest.
  repeat (first [exact K
    | apply (keeps_certificate Rstay stay_refl stay_trans); intros; [apply stay_modify, Pcert|apply stay_save]
    | apply (keeps_credential Rstay stay_refl stay_trans); intros;
        [apply stay_modify, Pcred|apply stay_save|apply stay_draw|apply stay_say; discriminate]
    | apply (keeps_lift Rstay stay_refl) | apply stay_say; discriminate | apply (keeps_mem Rstay stay_refl) | apply (keeps_attempt Rstay)
    | apply (keeps_bind Rstay stay_trans); intros ]).
  repeat match goal with |- keeps _ (match ?x with _ => _ end) => destruct x end;
    (apply (keeps_ret Rstay stay_refl) || apply (keeps_fail Rstay stay_refl) || apply (keeps_panic Rstay stay_refl)).
Qed.
Lemma stay_start C cf I d n : valid (fst d) = true -> fst d = f -> pr (snd d) = a -> keeps Rstay (setupProfile I) ->
  let e := crashed d (firstn n (snd (start C cf I d))) in fst e = f /\ pr (snd e) = a.
Proof.
  intros V F P K. unfold start. rewrite setup_split. cbn zeta. cbn [boot t_files t_disk t_nw t_nc t_drawn t_log]. rewrite V.
  pose proof (stay_rest C cf I K (mkPst (fst d) (snd d) (snd d) 0 0 0 []) F P P) as (_ & _ & _ & l & L & FL).
  destruct (rest C cf I _) as (r0, s). cbn [snd t_log] in *. rewrite app_nil_r in L. rewrite L.
  assert (FR : Forall (fun e => match e with EvDisk fs c => fs = f /\ pr c = a | _ => True end) (firstn n (rev l))).
  { apply Forall_forall. intros x X. rewrite Forall_forall in FL. apply FL, in_rev. rewrite <- (firstn_skipn n (rev l)). apply in_or_app. now left. }
  revert d V F P FR. generalize (firstn n (rev l)) as l0. clear. intros l0. induction l0 as [|e t IH]; intros d V F P FR; [cbn; auto|].
  inversion FR as [|? ? E FT]; subst. cbn [crashed fold_left]. destruct e as [fs c| | | | |]; try (apply IH; auto; fail).
  destruct E as [-> PC]. apply (IH (fst d, c)); auto.
Qed.
End R.

Definition who (c : cfg) : bytes * bytes := (g_tel c, g_uuid c).
Definition who3 (c : cfg) : bytes * bytes * bytes := (g_tel c, g_uuid c, g_name c).
Lemma profile_who a f I : keeps (Rstay _ who a f) (setupProfile I).
Proof.
  apply (keeps_profile (Rstay _ who a f)); [apply stay_refl|apply stay_trans|..]; intros;
    [apply stay_modify; reflexivity|apply stay_modify; reflexivity|apply stay_save|apply stay_draw|apply stay_say; discriminate].
Qed.
Lemma profile_who3 t u nm f I : nm <> [] -> keeps (Rstay _ who3 (t, u, nm) f) (setupProfile I).
Proof.
  intros NE. set (R := Rstay _ who3 (t, u, nm) f).
  assert (RR : forall s, R s s) by (apply stay_refl). assert (RT : forall x y z, R x y -> R y z -> R x z) by (apply stay_trans).
  unfold setupProfile. apply (keeps_bind R RT); [apply (keeps_mem R RR)|intros c0].
  apply (keeps_bind R RT).
  { destruct (_ =? _)%nat; [|apply (keeps_ret R RR)].
    repeat (first [apply (keeps_bind R RT); intros | apply stay_draw | apply stay_modify; reflexivity | apply (keeps_ignore R) | apply stay_save | apply (keeps_ret R RR)]). }
  intros ch1.
  assert (K : keeps R (do ch2 <- ret ch1; do _ <- (if ch2 then ret tt else do k <- GenerateProfileKey I; do _ <- modify (with_pkey k); ignore (saveConfig I));
    do c <- mem; ignore (UpdateProfile I (g_pkey c) (g_uuid c) (g_name c)))).
  2:{ intros s F M D.
      assert (E : beq (g_name (t_mem s)) [] = false).
      { unfold who3 in M. injection M as _ _ ->. destruct nm; [now elim NE|reflexivity]. }
      match goal with |- context [snd (?m s)] => assert (EQ : m s = (do ch2 <- ret ch1; do _ <- (if ch2 then ret tt else do k <- GenerateProfileKey I; do _ <- modify (with_pkey k); ignore (saveConfig I));
        do c <- mem; ignore (UpdateProfile I (g_pkey c) (g_uuid c) (g_name c))) s) by (unfold mbind at 1, mem at 1; rewrite E; reflexivity) end.
      rewrite EQ. exact (K s F M D). }
  apply (keeps_bind R RT); [apply (keeps_ret R RR)|intros ch2]. apply (keeps_bind R RT).
  { destruct ch2; [apply (keeps_ret R RR)|].
    repeat (first [apply (keeps_bind R RT); intros | apply stay_draw | apply stay_modify; reflexivity | apply (keeps_ignore R) | apply stay_save]). }
  intros _. apply (keeps_bind R RT); [apply (keeps_mem R RR)|intros c]. apply (keeps_ignore R).
  unfold UpdateProfile. destruct (negb _); [apply (keeps_fail R RR)|]. destruct (_ <? _)%nat; [apply (keeps_fail R RR)|].
  apply (keeps_bind R RT); [apply stay_draw|intros]. apply stay_say. discriminate.
Qed.

(* C197. Whatever the server, the clock and the application answer, however many writes fail and wherever each of any
   number of starts is cut off: a registered installation keeps every file of its store, its number, its UUID, and its
   name if it has one. *)
Theorem C197_account_kept : forall C cf l d, exists_file (fst d) (preKeyPath lastResortPreKeyID) = true ->
  let d' := after C cf d l in
  fst d' = fst d /\ g_tel (snd d') = g_tel (snd d) /\ g_uuid (snd d') = g_uuid (snd d) /\
  (g_name (snd d) <> [] -> g_name (snd d') = g_name (snd d)).
Proof.
  intros C cf l. induction l as [|[i n] l IH]; intros d V; cbn [after]; [auto|]. cbn zeta.
  destruct (stay_start _ who (who (snd d)) (fst d) (fun _ _ => eq_refl) (fun _ _ => eq_refl) C cf i d n V eq_refl eq_refl (profile_who _ _ i)) as [F W].
  set (e := crashed d (firstn n (snd (start C cf i d)))) in *. unfold who in W. injection W as WT WU.
  assert (VE : exists_file (fst e) (preKeyPath lastResortPreKeyID) = true) by (rewrite F; exact V). specialize (IH e VE). cbn zeta in IH. destruct IH as (I1 & I2 & I3 & I4).
  split; [congruence|]. split; [congruence|]. split; [congruence|]. intros NE.
  destruct (stay_start _ who3 (who3 (snd d)) (fst d) (fun _ _ => eq_refl) (fun _ _ => eq_refl) C cf i d n V eq_refl eq_refl (profile_who3 _ _ _ _ i NE)) as [_ W3].
  fold e in W3. unfold who3 in W3. injection W3 as _ _ WN. rewrite <- WN. apply I4. rewrite WN. exact NE.
Qed.
Print Assumptions C197_account_kept.

(* Example: the first start registered; the next one is cut off after three of its four events, when the configuration
   has been written with a new profile key, and the one after that runs to its end. *)
Example C197_example : let d := ex_disk1 in exists_file (fst d) (preKeyPath lastResortPreKeyID) = true /\ g_name (snd d) <> [] /\
  length (snd (go ex_again d)) = 4%nat /\
  g_pkey (snd (crashed d (firstn 3 (snd (go ex_again d))))) <> g_pkey (snd d) /\
  snd (after toy PropPreKeys.ex_conf d [(ex_again, 3%nat); (ex_again, 4%nat)]) = with_pkey (map (i_stream ex_again) (seq 0 32)) (snd d).
Proof.
  split; [vm_compute; reflexivity|]. split; [vm_compute; discriminate|]. split; [vm_compute; reflexivity|]. split; [vm_compute; discriminate|].
  vm_compute. reflexivity.
Qed.

(* ---------- an attempt to register ---------- *)
Definition own (c : cfg) : bytes * bytes * bytes := (g_pkey c, g_cred c, g_cert c).
Definition owned (a : bytes * bytes * bytes) (e : ev) : Prop := match e with EvDisk _ c => own c = a | _ => True end.
Section T.
Variable a : bytes * bytes * bytes.
Definition Rown (s s' : pst) : Prop := own (t_mem s) = a -> own (t_disk s) = a ->
  own (t_mem s') = a /\ own (t_disk s') = a /\ since (owned a) s s'.
Lemma own_refl s : Rown s s.
Proof. intros M D. split; [exact M|]. split; [exact D|]. apply since_refl. Qed.
Lemma own_trans x y z : Rown x y -> Rown y z -> Rown x z.
Proof.
  intros H K M D. destruct (H M D) as (M1 & D1 & S1). destruct (K M1 D1) as (M2 & D2 & S2).
  split; [exact M2|]. split; [exact D2|]. eapply since_trans; eassumption.
Qed.
Lemma own_write C cf I p b : keeps Rown (write C cf I p b).
Proof.
  intros s M D. unfold write. destruct (i_wok I _); [destruct (writeFile _ _ _ _ _ _)|]; cbn [snd t_mem t_disk];
    (split; [exact M|]; split; [exact D|]); try (apply since_none; reflexivity). eapply since_one; [reflexivity|exact D].
Qed.
Lemma own_save I : keeps Rown (saveConfig I).
Proof.
  intros s M D. unfold saveConfig. destruct (i_cok I _); cbn [snd t_mem t_disk].
  - split; [exact M|]. split; [exact M|]. eapply since_one; [reflexivity|exact M].
  - split; [exact M|]. split; [exact D|]. apply since_none. reflexivity.
Qed.
Lemma own_stageA C cf I : keeps Rown (stageA C cf I).
Proof.
  pose proof own_refl as Rr. pose proof own_trans as Rt. unfold stageA.
  repeat (apply (keeps_bind _ Rt); [first [apply keeps_ignore, own_write | apply own_write | intros t M D; split; [exact D|]; split; [exact D|]; apply since_none; reflexivity] | intros _]).
  destruct (i_register I); [|apply keeps_fail; auto|apply keeps_panic; auto].
  destruct (i_verify I); [|apply keeps_fail; auto|apply keeps_panic; auto].
  apply (keeps_bind _ Rt); [intros t M D; split; [exact M|]; split; [exact D|]; eapply since_one; [reflexivity|exact Logic.I]|intros _].
  apply (keeps_bind _ Rt); [intros t M D; split; [exact M|]; split; [exact D|]; apply since_none; reflexivity|intros _].
  apply (keeps_bind _ Rt); [apply own_save|intros _]. apply keeps_ret; auto.
Qed.
End T.
Lemma any_rest C cf I : keeps (since (fun _ => True)) (rest C cf I).
Proof.
  apply (keeps_rest (since (fun _ => True))); [apply since_refl | apply since_trans |..];
    try (intros; intros t; apply since_none; reflexivity); try (intros; intros t; eapply since_one; [reflexivity|exact Logic.I]).
  intros t. unfold saveConfig. destruct (i_cok I _); [eapply since_one; [reflexivity|exact Logic.I]|apply since_none; reflexivity].
Qed.
Lemma any_save I : keeps (since (fun _ => True)) (saveConfig I).
Proof. intros t. unfold saveConfig. destruct (i_cok I _); [eapply since_one; [reflexivity|exact Logic.I]|apply since_none; reflexivity]. Qed.
(* the events of a start that registers: first those that leave the three as they are, then, if it comes to that, the upload *)
Lemma attempt_log C cf I d : valid (fst d) = false ->
  exists l1 l2, snd (start C cf I d) = l1 ++ l2 /\ Forall (owned (own (snd d))) l1 /\ (l2 = [] \/ exists ik ps spk l3, l2 = EvUpload ik ps spk :: l3).
Proof.
  intros V. unfold start. rewrite setup_split. cbn zeta. cbn [boot t_files t_disk t_nw t_nc t_drawn t_log]. rewrite V.
  set (s0 := mkPst _ _ _ _ _ _ _). assert (L0 : t_log s0 = []) by reflexivity. assert (M0 : own (t_mem s0) = own (snd d)) by reflexivity.
  assert (D0 : own (t_disk s0) = own (snd d)) by reflexivity. clearbody s0. set (a := own (snd d)) in *. clearbody a.
  assert (STOP : forall (r : res (option keypair)) s, since (owned a) s0 s -> exists l1 l2, snd (r, (t_files s, t_disk s), rev (t_log s)) = l1 ++ l2 /\
     Forall (owned a) l1 /\ (l2 = [] \/ exists ik ps spk l3, l2 = EvUpload ik ps spk :: l3)).
  { intros r s (l & L & F). rewrite L0, app_nil_r in L. exists (rev l), []. cbn [snd]. rewrite L, app_nil_r. split; [reflexivity|]. split; [|now left].
    apply Forall_forall. intros x X. rewrite Forall_forall in F. apply F, in_rev. exact X. }
  rewrite register_split. unfold mbind at 1. pose proof (own_stageA a C cf I s0 M0 D0) as K1.
  destruct (stageA C cf I s0) as [[uuid|e|] s1]; cbn [snd] in K1; destruct K1 as (M1 & D1 & S1); [|now apply STOP|now apply STOP].
  unfold mbind at 1. pose proof (keeps_gen (Rown a) (own_refl a) (own_trans a) C cf I ltac:(intros; apply own_write) s1 M1 D1) as K2.
  destruct (genPreKeys C cf I s1) as [[x2|e|] s2]; cbn [snd] in K2; destruct K2 as (M2 & D2 & S2);
    [|apply STOP; eapply since_trans; eassumption|apply STOP; eapply since_trans; eassumption].
  pose proof (since_trans _ _ _ _ S1 S2) as S3. unfold mbind at 1, lift. destruct (generatePreKeyState C cf (t_files s2)) as [ps|e|]; [|now apply STOP|now apply STOP].
  unfold post. destruct (i_upload I) as [st|e|]; [|now apply STOP|now apply STOP]. destruct (is_error st); [now apply STOP|].
  unfold mbind at 1, say at 1. set (s4 := mkPst _ _ _ _ _ _ _).
  match goal with |- context [mbind (GenerateProfileKey I) ?f s4] => set (R := mbind (GenerateProfileKey I) f s4) end.
  assert (SR : since (fun _ => True) s4 (snd R)).
  { unfold R. clear R.
    assert (K : keeps (since (fun _ => True)) (do k <- GenerateProfileKey I; do _ <- modify (with_pkey k); do _ <- ignore (saveConfig I); do _ <- say EvDone; say EvDone)); [|apply K].
    pose proof (since_refl (fun _ => True)) as Rr. pose proof (since_trans (fun _ => True)) as Rt.
    apply (keeps_bind _ Rt); [intros t; apply since_none; reflexivity|intros k]. apply (keeps_bind _ Rt); [intros t; apply since_none; reflexivity|intros _].
    apply (keeps_bind _ Rt); [apply keeps_ignore, any_save|intros _].
    apply (keeps_bind _ Rt); [|intros _]; intros t; eapply since_one; try reflexivity; exact Logic.I. }
  assert (FIN : forall (r : res (option keypair)) s, since (fun _ => True) s4 s -> exists l1 l2, snd (r, (t_files s, t_disk s), rev (t_log s)) = l1 ++ l2 /\
     Forall (owned a) l1 /\ (l2 = [] \/ exists ik ps spk l3, l2 = EvUpload ik ps spk :: l3)).
  { intros r s (l & L & _). destruct (STOP r s2 S3) as (l1 & l2 & E & F & _). destruct S3 as (m & LM & FM). rewrite L0, app_nil_r in LM.
    exists (rev m), (EvUpload (snd (i_ident I)) ps (signedRecord I) :: rev l). cbn [snd]. rewrite L. unfold s4. cbn [t_log]. rewrite LM, rev_app_distr. cbn [rev].
    rewrite <- app_assoc. split; [reflexivity|]. split; [|right; eauto].
    apply Forall_forall. intros x X. rewrite Forall_forall in FM. apply FM, in_rev. exact X. }
  destruct R as [[x|e|] s5]; cbn [snd] in SR; [|now apply FIN|now apply FIN].
  pose proof (any_rest C cf I s5) as K5. destruct (rest C cf I s5) as [r s6]. cbn [snd] in K5. apply FIN. eapply since_trans; eassumption.
Qed.
(* An attempt to register that does not come to the upload of the keys, because something fails or the process stops,
   leaves the profile key, the credential and the certificate as they are. *)
Theorem C197_attempt : forall C cf I d n, exists_file (fst d) (preKeyPath lastResortPreKeyID) = false ->
  let p := firstn n (snd (start C cf I d)) in Forall no_upload p ->
  let c := snd (crashed d p) in g_pkey c = g_pkey (snd d) /\ g_cred c = g_cred (snd d) /\ g_cert c = g_cert (snd d).
Proof.
  intros C cf I d n V p F. cbv zeta. destruct (attempt_log C cf I d V) as (l1 & l2 & E & F1 & H2).
  assert (Q : Forall (owned (own (snd d))) p).
  { unfold p in *. rewrite E in *. rewrite firstn_app in *. apply Forall_app in F. destruct F as [_ F]. apply Forall_app. split.
    - apply Forall_forall. intros x X. rewrite Forall_forall in F1. apply F1. rewrite <- (firstn_skipn n l1). apply in_or_app. now left.
    - destruct H2 as [-> | (ik & ps & spk & l3 & ->)]; [rewrite firstn_nil; constructor|]. destruct (n - length l1)%nat; [constructor|].
      cbn [firstn] in F. inversion F as [|? ? X _]; subst. destruct X. }
  assert (G : forall l x, Forall (owned (own (snd d))) l -> own (snd x) = own (snd d) -> own (snd (crashed x l)) = own (snd d)).
  { clear. induction l as [|e t IH]; intros x H X; [exact X|]. inversion H as [|? ? H1 H3]; subst. cbn [crashed fold_left].
    destruct e; try (apply IH; [exact H3|exact X]). apply IH; [exact H3|exact H1]. }
  specialize (G p d Q eq_refl). unfold own in G. injection G as G1 G2 G3. auto.
Qed.
Print Assumptions C197_attempt.
(* an installation with the configuration of an earlier account; the server does not take the keys *)
Definition old_cfg : cfg := mkCfg [43;48] [9] [90] (repeat 7 32) [8] [10; 0].
Example C197_attempt_example : let d : disk := ([], old_cfg) in exists_file (fst d) (preKeyPath lastResortPreKeyID) = false /\
  fst (fst (go ex_down d)) = Err (EServer 500) /\ existsb is_upload (snd (go ex_down d)) = false /\
  let c := snd (snd (fst (go ex_down d))) in g_tel c = [43;49] /\ g_pkey c = repeat 7 32 /\ g_cred c = [8] /\ g_cert c = [10; 0].
Proof. vm_compute. auto 10. Qed.

(* ---------- the profile that is sent does not depend on what can be written ---------- *)
Lemma profile_sent I s : g_pkey (t_mem s) <> [] -> g_name (t_mem s) <> [] -> (length (g_name (t_mem s)) <= NAME_PADDED_LENGTH)%nat ->
  exists s' l, setupProfile I s = (Ok tt, s') /\
    t_log s' = EvProfile (g_uuid (t_mem s)) (map (i_stream I) (seq (t_drawn s) 32)) (map (i_stream I) (seq (t_drawn s + 32) 12)) (g_name (t_mem s)) :: l.
Proof.
  intros HK HN HL. set (k := map (i_stream I) (seq (t_drawn s) 32)). unfold setupProfile, GenerateProfileKey. unfold mbind at 1, mem at 1.
  destruct (g_pkey (t_mem s)) as [|x t] eqn:EK; [now elim HK|]. cbn [length Nat.eqb]. unfold mbind at 1, ret at 1.
  unfold mbind at 1, mem at 1. apply beq_neq in HN. rewrite HN. unfold mbind at 1, ret at 1. cbn iota.
  unfold mbind at 1. unfold mbind at 1, draw at 1. unfold mbind at 1, modify at 1. unfold ignore at 1, saveConfig at 1.
  cbn [t_files t_disk t_mem t_nw t_nc t_drawn t_log]. fold k.
  assert (LK : length k = 32%nat) by (unfold k; now rewrite map_length, seq_length).
  destruct (i_cok I (t_nc s)); cbn iota beta; unfold mbind at 1, mem at 1;
  cbn [t_files t_disk t_mem t_nw t_nc t_drawn t_log]; unfold with_pkey; cbn [g_pkey g_uuid g_name]; unfold UpdateProfile;
  rewrite LK; cbn [Nat.eqb negb]; apply Nat.ltb_ge in HL; rewrite HL; do 2 eexists; (split; [reflexivity|]); reflexivity.
Qed.
Theorem C113_whatever_is_written : forall C cf I d k d' l, exists_file (fst d) (preKeyPath lastResortPreKeyID) = true ->
  g_pkey (snd d) <> [] -> g_name (snd d) <> [] -> (length (g_name (snd d)) <= NAME_PADDED_LENGTH)%nat -> start C cf I d = (Ok k, d', l) ->
  In (EvProfile (g_uuid (snd d)) (map (i_stream I) (seq 0 32)) (map (i_stream I) (seq 32 12)) (g_name (snd d))) l.
Proof.
  intros C cf I d k d' l V HK HN HL E. destruct (start_rest C cf I _ _ _ _ V E) as (s & R & -> & -> & _).
  destruct (rest_parts C cf I _ _ _ R) as (pass & s1 & s2 & ov & s3 & E1 & E2 & E3 & <- & _).
  cbn [t_files t_disk t_mem t_nw t_nc t_drawn t_log] in E1. set (s0 := mkPst _ _ _ _ _ _ _) in E1.
  destruct (profile_sent I s0 HK HN HL) as (s1' & l1 & P & PL). rewrite E1 in P. injection P as <-.
  assert (S2 : since (fun _ => True) s1 s2).
  { change s2 with (snd (Ok ov, s2)). rewrite <- E2. apply (keeps_certificate (since (fun _ => True))); [apply since_refl | apply since_trans | intros x t; apply since_none; reflexivity | apply any_save]. }
  assert (S3 : since (fun _ => True) s2 s).
  { change s with (snd (Ok tt, s)). rewrite <- E3. apply (keeps_credential (since (fun _ => True))); [apply since_refl | apply since_trans | intros x t; apply since_none; reflexivity | apply any_save | intros x t; apply since_none; reflexivity |].
    intros u x n m t. eapply since_one; [reflexivity|exact Logic.I]. }
  destruct S2 as (m2 & L2 & _). destruct S3 as (m3 & L3 & _). apply in_rev. rewrite rev_involutive, L3, L2, PL.
  apply in_or_app. right. apply in_or_app. right. left. reflexivity.
Qed.
Print Assumptions C113_whatever_is_written.

(* ---------- sizes of what is sent for a profile ---------- *)
Definition sized (e : ev) : Prop :=
  match e with EvProfile _ k nonce name => length k = 32%nat /\ length nonce = 12%nat /\ (length name <= NAME_PADDED_LENGTH)%nat | _ => True end.
Section Sz.
Variable C : crypto.
Variable cf : sconf.
Variable I : input.
Notation R := (since sized).
Let Rr : forall s, R s s := since_refl sized.
Let Rt : forall a b c, R a b -> R b c -> R a c := since_trans sized.
Lemma sz_update k u n : keeps R (UpdateProfile I k u n).
Proof.
  intros s. unfold UpdateProfile. destruct (Nat.eqb_spec (length k) 32) as [EK|_]; cbn [negb]; [|apply Rr].
  destruct (Nat.ltb_spec NAME_PADDED_LENGTH (length n)) as [_|EN]; [apply Rr|]. unfold mbind, draw, say. cbn [snd].
  eapply since_one; [reflexivity|]. cbn [sized]. rewrite map_length, seq_length. auto.
Qed.
Lemma sz_save : keeps R (saveConfig I).
Proof. intros s. unfold saveConfig. destruct (i_cok I _); [eapply since_one; [reflexivity|exact Logic.I]|apply since_none; reflexivity]. Qed.
Lemma sz_write p b : keeps R (write C cf I p b).
Proof.
  intros s. unfold write. destruct (i_wok I _); [|apply since_none; reflexivity]. destruct (writeFile _ _ _ _ _ _); cbn [snd].
  - eapply since_one; [reflexivity|exact Logic.I].
  - apply since_none; reflexivity.
  - apply since_none; reflexivity.
Qed.
Lemma sz_cert : keeps R (setupCertificate I).
Proof. apply (keeps_certificate R Rr Rt); intros; try apply sz_save; intros ?; apply since_none; reflexivity. Qed.
Ltac z := repeat (first
  [ match goal with |- keeps _ (setupCertificate _) => apply sz_cert end | apply (keeps_bind _ Rt); intros | apply keeps_ret; exact Rr | apply keeps_fail; exact Rr | apply keeps_panic; exact Rr | apply keeps_lift; exact Rr
  | apply keeps_mem; exact Rr | apply sz_save | apply sz_update | apply keeps_ignore | apply keeps_attempt
  | match goal with |- keeps _ (modify _) => intros ?; apply since_none; reflexivity | |- keeps _ (draw _ _) => intros ?; apply since_none; reflexivity
    | |- keeps _ (say _) => intros ?; eapply since_one; [reflexivity|exact Logic.I] | |- keeps _ loadConfig => intros ?; apply since_none; reflexivity end ]).
Lemma sz_setup : keeps R (Setup C cf I).
Proof.
  unfold Setup, setupProfile, setupCredential, GenerateProfileKey. z.
  - match goal with |- context [if ?b then _ else _] => destruct b end; [z|].
    apply (keeps_register R Rr Rt); intros; try apply sz_save; try apply sz_write; try (intros ?; apply since_none; reflexivity);
    intros ?; eapply since_one; try reflexivity; exact Logic.I.
  - destruct (_ =? _)%nat; z.
  - destruct (beq _ _); z.
  - match goal with |- context [if ?b then _ else _] => destruct b end; z.
  - destruct (_ =? _)%nat; z. destruct (getCredential _ _ _); z.
  - match goal with |- keeps _ (match ?x with _ => _ end) => destruct x end; [z| |];
    match goal with |- keeps _ (match ?x with _ => _ end) => destruct x | _ => idtac end; z.
Qed.
End Sz.
(* Whatever the configuration file says: what a start sends for a profile has a key of 32 bytes, a nonce of 12, and
   a name that fits the padding. *)
Theorem C113_sizes : forall C cf I d u k nonce name, In (EvProfile u k nonce name) (snd (start C cf I d)) ->
  length k = 32%nat /\ length nonce = 12%nat /\ (length name <= NAME_PADDED_LENGTH)%nat.
Proof.
  intros C cf I d u k nonce name H. unfold start in H. pose proof (sz_setup C cf I (boot d)) as (l & L & F).
  destruct (Setup C cf I (boot d)) as [r s]. cbn [snd] in *. apply in_rev in H. rewrite L in H. cbn [boot t_log] in H. rewrite app_nil_r in H.
  rewrite Forall_forall in F. exact (F _ H).
Qed.
Print Assumptions C113_sizes.
(* a profile key of five bytes in the configuration and no name: nothing is sent for the profile *)
Definition short_cfg : cfg := mkCfg (g_tel ex_cfg) (g_uuid ex_cfg) [] [1; 2; 3; 4; 5] [8] (g_cert (snd ex_disk1)).
Example C113_sizes_example :
  existsb (fun e => match e with EvProfile _ _ _ _ => true | _ => false end) (snd (go ex_again (fst ex_disk1, short_cfg))) = false /\
  existsb (fun e => match e with EvProfile _ _ _ _ => true | _ => false end) (snd (go ex_again ex_disk1)) = true.
Proof. vm_compute. auto. Qed.
