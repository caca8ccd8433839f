(* C212: the configuration that was saved is the one the next start uses, also if a save was interrupted *)
From Coq Require Import String Ascii ZArith List Lia Bool.
From Verif Require Import Bytes Res Crypto Messages Session Builder Storage Profile Examples PreKeyGen PropPreKeys Startup PropStartup PropStays ConfigFile.
Import ListNotations.
Open Scope Z_scope.

Lemma orelse_idem x d : d <> [] -> orelse (orelse x d) d = orelse x d.
Proof. intros N. destruct x; [destruct d; [now elim N|reflexivity]|reflexivity]. Qed.
Lemma defaults_idem s : defaults (defaults s) = defaults s.
Proof. unfold defaults. cbn [s_cfg s_server s_vtype s_dir s_plain s_pass s_other]. rewrite !orelse_idem by discriminate. reflexivity. Qed.

(* ---------- without interruption ---------- *)
(* the settings that were saved last, if the process has mem in memory and saved was saved before; what is kept of
   the process is nothing but the list of its changes and whether each could be written *)
Fixpoint last_saved (mem saved : settings) (l : list (op * wout)) : settings :=
  match l with
  | [] => saved
  | (Change g, WWhole) :: t => last_saved (g mem) (g mem) t
  | (Change g, _) :: t => last_saved (g mem) saved t
  | (_, _) :: t => last_saved mem saved t
  end.
Definition calm (x : op * wout) : Prop := (forall n, snd x <> WCut n) /\ (forall s, fst x <> Edit s).

Section Y.
Variable m : settings -> bytes.
Variable u : bytes -> option settings.
Hypothesis Y : yaml_ok m u.

Lemma load_back s : loadConfig u (Some (m s)) = Ok (defaults s).
Proof. unfold loadConfig, ReadConfig. rewrite (yaml_back m u Y). reflexivity. Qed.

Lemma last_saved_run l : forall f mem saved, Forall calm l -> loadConfig u f = Ok (defaults saved) ->
  loadConfig u (fst (run m u (f, mem) l)) = Ok (defaults (last_saved mem saved l)).
Proof.
  induction l as [|[o w] t IH]; intros f mem saved F L; [exact L|]. inversion F as [|? ? [N1 N2] F']; subst. cbn [fst snd] in *.
  change (run m u (f, mem) ((o, w) :: t)) with (run m u (step m u (f, mem) (o, w)) t).
  destruct o as [g| |s]; [| |now elim (N2 s)].
  - unfold step. cbn [fst snd]. destruct w as [|n|]; [| now elim (N1 n) |]; cbn [WriteFile last_saved].
    + apply IH; assumption.
    + apply IH; [assumption|]. apply load_back.
  - unfold step. cbn [fst snd]. rewrite L. destruct w as [|n|]; [| now elim (N1 n) |]; cbn [WriteFile last_saved].
    + apply IH; assumption.
    + apply IH; [assumption|]. rewrite load_back, defaults_idem. reflexivity.
Qed.
End Y.

(* C212. As long as every save happens whole or not at all and nobody else writes the file, the next start uses what
   was saved last, with the server, the kind of verification and the directory filled in if they are missing. *)
Theorem C212_next : forall m u f s l, yaml_ok m u -> loadConfig u f = Ok s -> Forall calm l ->
  loadConfig u (fst (run m u (f, s) l)) = Ok (defaults (last_saved s s l)).
Proof.
  intros m u f s l Y L F. apply last_saved_run; [exact Y|exact F|].
  rewrite L. unfold loadConfig in L. destruct (ReadConfig u f); cbn [bind] in L; try discriminate. injection L as <-. now rewrite defaults_idem.
Qed.
(* What is filled in, and that nothing else is. *)
Definition txt (s : string) : bytes := map (fun c => Z.of_N (N_of_ascii c)) (list_ascii_of_string s).
Theorem C212_filled : forall u f s, loadConfig u f = Ok s -> exists b s0, f = Some b /\ u b = Some s0 /\
  s_cfg s = s_cfg s0 /\ s_plain s = s_plain s0 /\ s_pass s = s_pass s0 /\ s_other s = s_other s0 /\
  (s_server s0 = [] /\ s_server s = txt "https://chat.signal.org:443" \/ s_server s0 <> [] /\ s_server s = s_server s0) /\
  (s_vtype s0 = [] /\ s_vtype s = txt "sms" \/ s_vtype s0 <> [] /\ s_vtype s = s_vtype s0) /\
  (s_dir s0 = [] /\ s_dir s = txt ".storage" \/ s_dir s0 <> [] /\ s_dir s = s_dir s0).
Proof.
  intros u f s L. unfold loadConfig, ReadConfig in L. destruct f as [b|]; [|discriminate]. destruct (u b) as [s0|] eqn:E; [|discriminate].
  cbn [bind] in L. injection L as <-. exists b, s0. split; [reflexivity|]. split; [exact E|]. unfold defaults.
  cbn [s_cfg s_server s_vtype s_dir s_plain s_pass s_other]. repeat (split; [reflexivity|]).
  split; [destruct (s_server s0); [left|right]; split; try reflexivity; discriminate|].
  split; [destruct (s_vtype s0); [left|right]; split; try reflexivity; discriminate|destruct (s_dir s0); [left|right]; split; try reflexivity; discriminate].
Qed.
Print Assumptions C212_filled.
(* A name that is set is the name after the next start; nothing else of what the process has changes. *)
Theorem C212_name : forall m u v n s, yaml_ok m u -> loadConfig u (fst (step m u v (SetUsername n, WWhole))) = Ok s ->
  g_name (s_cfg s) = n /\ g_tel (s_cfg s) = g_tel (s_cfg (snd v)) /\ g_uuid (s_cfg s) = g_uuid (s_cfg (snd v)) /\
  g_pkey (s_cfg s) = g_pkey (s_cfg (snd v)) /\ g_cred (s_cfg s) = g_cred (s_cfg (snd v)) /\ g_cert (s_cfg s) = g_cert (s_cfg (snd v)) /\
  s_plain s = s_plain (snd v) /\ s_pass s = s_pass (snd v) /\ s_other s = s_other (snd v) /\
  (s_server (snd v) <> [] -> s_server s = s_server (snd v)) /\ (s_dir (snd v) <> [] -> s_dir s = s_dir (snd v)) /\
  s_server s <> [] /\ s_vtype s <> [] /\ s_dir s <> [].
Proof.
  intros m u v n s Y L. unfold step, SetUsername in L. cbn [fst snd WriteFile] in L. rewrite (load_back m u Y) in L. injection L as <-.
  unfold defaults, set_cfg, with_name. cbn [s_cfg s_server s_vtype s_dir s_plain s_pass s_other g_tel g_uuid g_name g_pkey g_cred g_cert].
  repeat (split; [reflexivity|]). split; [intros N; destruct (s_server (snd v)); [now elim N|reflexivity]|].
  split; [intros N; destruct (s_dir (snd v)); [now elim N|reflexivity]|].
  split; [destruct (s_server (snd v)); discriminate|]. split; [destruct (s_vtype (snd v)); discriminate|destruct (s_dir (snd v)); discriminate].
Qed.

(* ---------- RefreshConfig ---------- *)
(* What someone else wrote into the file is not taken into use by RefreshConfig, and the next save of the process
   removes all of it. *)
Theorem C212_edit_lost : forall m u s0 s1 n, yaml_ok m u -> defaults s0 = s0 ->
  let v := run m u (Some (m s0), s0) [(Edit s1, WWhole); (Refresh, WWhole)] in
  snd v = s0 /\ loadConfig u (fst v) = Ok (defaults s1) /\
  loadConfig u (fst (step m u v (SetUsername n, WWhole))) = Ok (set_cfg s0 (with_name n (s_cfg s0))).
Proof.
  intros m u s0 s1 n Y D v.
  assert (E : v = (Some (m (defaults s1)), s0)).
  { unfold v, run. cbn [fold_left]. unfold step at 2. cbn [fst snd]. unfold step. cbn [fst snd]. rewrite (load_back m u Y). reflexivity. }
  rewrite E. cbn [fst snd]. split; [reflexivity|]. split; [rewrite (load_back m u Y), defaults_idem; reflexivity|].
  unfold step, SetUsername. cbn [fst snd WriteFile]. rewrite (load_back m u Y).
  assert (X : forall c, defaults (set_cfg s0 c) = set_cfg s0 c); [|now rewrite X].
  intros c. destruct s0 as [c0 sv vt dr pl pw ot]. unfold defaults, set_cfg in *. cbn [s_cfg s_server s_vtype s_dir s_plain s_pass s_other] in *.
  injection D as D1 D2 D3. rewrite D1, D2, D3. reflexivity.
Qed.

(* ---------- a save that is interrupted ---------- *)
(* cut off right after the file was emptied, a save leaves nothing of the configuration *)
Theorem C212_cut : forall m u v g, yaml_ok m u -> loadConfig u (fst (step m u v (Change g, WCut 0))) = Ok (defaults zero_settings).
Proof.
  intros m u v g Y. unfold step. cbn [fst snd WriteFile firstn]. unfold loadConfig, ReadConfig. rewrite (yaml_empty m u Y). reflexivity.
Qed.

(* no UUID and no credential *)
Definition blank (c : cfg) : bytes * bytes := (g_uuid c, g_cred c).
Section B.
Variable f : files.
Let R := Rstay _ blank ([], []) f.
Lemma blank_profile I : keeps R (setupProfile I).
Proof.
  apply (keeps_profile R); [apply stay_refl|apply stay_trans|..]; intros;
    [apply stay_modify; reflexivity|apply stay_modify; reflexivity|apply stay_save|apply stay_draw|apply stay_say; discriminate].
Qed.
Lemma blank_certificate I : keeps R (setupCertificate I).
Proof.
  apply (keeps_certificate R); [apply stay_refl|apply stay_trans|..]; intros; [apply stay_modify; reflexivity|apply stay_save].
Qed.
Lemma blank_update I k a n : keeps R (ignore (UpdateProfile I k a n)).
Proof.
  apply (keeps_ignore R). unfold UpdateProfile. destruct (negb _); [apply (keeps_fail R), stay_refl|]. destruct (_ <? _)%nat; [apply (keeps_fail R), stay_refl|].
  apply (keeps_bind R); [apply stay_trans|apply stay_draw|intros]. apply stay_say. discriminate.
Qed.
Lemma blank_credential I s : blank (t_mem s) = ([], []) ->
  fst (setupCredential I s) <> Ok tt /\ snd (setupCredential I s) = snd (ignore (UpdateProfile I (g_pkey (t_mem s)) (g_uuid (t_mem s)) (g_name (t_mem s))) s).
Proof.
  intros B. unfold blank in B. injection B as U K.
  assert (E : setupCredential I s = match ignore (UpdateProfile I (g_pkey (t_mem s)) (g_uuid (t_mem s)) (g_name (t_mem s))) s with
    | (Ok _, s') => (Err EOther, s') | (Err e, s') => (Err e, s') | (Panic, s') => (Panic, s') end).
  { unfold setupCredential. unfold mbind at 1, mem at 1. rewrite K. cbn [length Nat.eqb]. unfold mbind at 1.
    destruct (ignore _ s) as [[a|e|] s']; [|reflexivity|reflexivity].
    unfold getCredential. rewrite U. cbn [length Nat.eqb orb]. destruct (_ =? 0)%nat; reflexivity. }
  rewrite E. destruct (ignore _ s) as [[a|e|] s']; (split; [discriminate|reflexivity]).
Qed.
Lemma blank_keeps_credential I : keeps R (setupCredential I).
Proof.
  intros s F M D. destruct (blank_credential I s M) as [_ ->]. exact (blank_update I _ _ _ s F M D).
Qed.
Lemma blank_rest C cf I : keeps R (rest C cf I).
Proof.
  unfold rest.
  repeat (first [apply blank_profile | apply blank_certificate | apply blank_keeps_credential
    | apply (keeps_lift R), stay_refl | apply stay_say; discriminate | apply (keeps_mem R), stay_refl | apply (keeps_attempt R)
    | apply (keeps_bind R); [apply stay_trans| |intros] ]).
  repeat match goal with |- keeps _ (match ?x with _ => _ end) => destruct x end;
    (apply (keeps_ret R) || apply (keeps_fail R) || apply (keeps_panic R)); apply stay_refl.
Qed.
Lemma blank_start C cf I d n : valid (fst d) = true -> fst d = f -> blank (snd d) = ([], []) ->
  let e := crashed d (firstn n (snd (start C cf I d))) in fst e = f /\ blank (snd e) = ([], []).
Proof.
  intros V F P. unfold start. rewrite setup_split. cbn zeta. cbn [boot t_files t_disk t_nw t_nc t_drawn t_log]. rewrite V.
  pose proof (blank_rest C cf I (mkPst (fst d) (snd d) (snd d) 0 0 0 []) F P P) as (_ & _ & _ & l & L & FL).
  destruct (rest C cf I _) as (r0, s). cbn [snd t_log] in *. rewrite app_nil_r in L. rewrite L.
  assert (FR : Forall (fun e => match e with EvDisk fs c => fs = f /\ blank c = ([], []) | _ => True end) (firstn n (rev l))).
  { apply Forall_forall. intros x X. rewrite Forall_forall in FL. apply FL, in_rev. rewrite <- (firstn_skipn n (rev l)). apply in_or_app. now left. }
  revert d V F P FR. generalize (firstn n (rev l)) as l0. clear. intros l0. induction l0 as [|e t IH]; intros d V F P FR; [cbn; auto|].
  inversion FR as [|? ? E FT]; subst. cbn [crashed fold_left]. destruct e as [fs c| | | | |]; try (apply IH; auto; fail).
  destruct E as [-> PC]. apply (IH (fst d, c)); auto.
Qed.
Lemma blank_fails C cf I d k : valid (fst d) = true -> fst d = f -> blank (snd d) = ([], []) -> fst (fst (start C cf I d)) <> Ok k.
Proof.
  intros V F P E. unfold start in E. rewrite setup_split in E. cbn zeta in E. cbn [boot t_files t_disk t_nw t_nc t_drawn t_log] in E. rewrite V in E.
  destruct (rest C cf I (mkPst (fst d) (snd d) (snd d) 0 0 0 [])) as [r s'] eqn:RE. cbn [fst] in E. subst r.
  destruct (rest_parts C cf I _ _ _ RE) as (pass & s1 & s2 & ov & s3 & E1 & E2 & E3 & _).
  match type of E1 with setupProfile I ?s0 = _ => pose proof (blank_profile I s0 F P P) as K end. rewrite E1 in K. cbn [snd] in K. destruct K as (F1 & M1 & D1 & _).
  pose proof (blank_certificate I s1 F1 M1 D1) as K. rewrite E2 in K. cbn [snd] in K. destruct K as (F2 & M2 & D2 & _).
  destruct (blank_credential I s2 M2) as [N _]. rewrite E3 in N. now apply N.
Qed.
End B.

(* the disk after starts, each of which stops when n of its events have happened *)
Fixpoint homes (m : settings -> bytes) (u : bytes -> option settings) (C : crypto) (l : list ((settings -> sconf) * input * nat)) (h : home) : home :=
  match l with
  | [] => h
  | (keys, i, n) :: t => homes m u C t (home_after m u C keys i n h)
  end.

(* Without a UUID and a credential in the configuration, a client whose keys are in the store never starts again,
   whatever the server answers and whichever password is given: it does not register, as it has its keys, and nothing
   ever fills in the UUID. *)
Theorem C212_stuck : forall m u C l keys I k h s, yaml_ok m u -> loadConfig u (h_file h) = Ok s ->
  g_uuid (s_cfg s) = [] -> g_cred (s_cfg s) = [] -> exists_file (h_dirs h (s_dir s)) (preKeyPath lastResortPreKeyID) = true ->
  boot_up u C keys I (homes m u C l h) <> Ok k.
Proof.
  intros m u C l. induction l as [|[[keys0 i] n] t IH]; intros keys I k h s Y L U K V.
  - cbn [homes]. unfold boot_up. rewrite L. apply (blank_fails (h_dirs h (s_dir s))); [exact V|reflexivity|]. unfold blank. cbn [snd]. now rewrite U, K.
  - cbn [homes].
    destruct (blank_start (h_dirs h (s_dir s)) C (keys0 s) i (h_dirs h (s_dir s), s_cfg s) n V eq_refl) as [F B].
    { unfold blank. cbn [snd]. now rewrite U, K. }
    unfold home_after. rewrite L. cbv zeta. set (d := crashed _ _) in *.
    assert (DS : defaults (set_cfg s (snd d)) = set_cfg s (snd d)).
    { unfold loadConfig in L. destruct (ReadConfig u (h_file h)) as [s0|e|]; cbn [bind] in L; try discriminate. injection L as <-.
      change (set_cfg (defaults s0) (snd d)) with (defaults (set_cfg s0 (snd d))). apply defaults_idem. }
    unfold blank in B. injection B as B1 B2.
    apply (IH keys I k _ (set_cfg s (snd d)) Y); [|exact B1|exact B2|].
    + cbn [h_file]. rewrite (load_back m u Y), DS. reflexivity.
    + cbn [h_dirs]. unfold put_dir. change (s_dir (set_cfg s (snd d))) with (s_dir s). rewrite beq_refl, F. exact V.
Qed.
(* So a client with its store in the usual place is lost if it stops right after a save has emptied the file. *)
Theorem C212_lost : forall m u C l keys I k h s g, yaml_ok m u ->
  exists_file (h_dirs h dot_storage) (preKeyPath lastResortPreKeyID) = true ->
  boot_up u C keys I (homes m u C l (mkHome (fst (step m u (h_file h, s) (Change g, WCut 0))) (h_dirs h))) <> Ok k.
Proof.
  intros m u C l keys I k h s g Y V. apply (C212_stuck m u C l keys I k _ (defaults zero_settings) Y); [|reflexivity|reflexivity|exact V].
  cbn [h_file]. apply C212_cut. exact Y.
Qed.

(* ---------- a small format for the examples ---------- *)
Definition e_bytes (b : bytes) : bytes := flat_map (fun x => [1; x]) b ++ [0].
Fixpoint d_bytes (b : bytes) : option (bytes * bytes) :=
  match b with
  | 1 :: x :: t => match d_bytes t with Some (h, r) => Some (x :: h, r) | None => None end
  | 0 :: t => Some ([], t)
  | _ => None
  end.
Lemma d_e b r : d_bytes (e_bytes b ++ r) = Some (b, r).
Proof.
  unfold e_bytes. induction b as [|x b IH]; [reflexivity|]. cbn [flat_map app d_bytes] in *. rewrite IH. reflexivity.
Qed.
Definition ex_marshal (s : settings) : bytes :=
  let c := s_cfg s in
  flat_map e_bytes [g_tel c; g_uuid c; s_server s; s_vtype s; s_dir s; (if s_plain s then [1] else []); s_pass s; s_other s;
    g_pkey c; g_cred c; g_name c; g_cert c].
Fixpoint d_many (n : nat) (b : bytes) : option (list bytes) :=
  match n with
  | O => match b with [] => Some [] | _ => None end
  | S n => match d_bytes b with Some (x, r) => match d_many n r with Some t => Some (x :: t) | None => None end | None => None end
  end.
Lemma d_many_e l : d_many (length l) (flat_map e_bytes l) = Some l.
Proof. induction l as [|x l IH]; [reflexivity|]. cbn [length flat_map d_many]. rewrite d_e, IH. reflexivity. Qed.
Definition ex_unmarshal (b : bytes) : option settings :=
  match b with
  | [] => Some zero_settings
  | _ => match d_many 12 b with
         | Some [t; un; sv; vt; dr; pl; pw; ot; pk; cr; nm; ce] =>
             Some (mkSet (mkCfg t un nm pk cr ce) sv vt dr (match pl with [] => false | _ => true end) pw ot)
         | _ => None
         end
  end.
Lemma e_bytes_ne b r : e_bytes b ++ r <> [].
Proof. unfold e_bytes. destruct b; discriminate. Qed.
Lemma ex_yaml : yaml_ok ex_marshal ex_unmarshal.
Proof.
  constructor; [|reflexivity]. intros s. unfold ex_unmarshal. destruct (ex_marshal s) eqn:E; [now elim (e_bytes_ne _ _ E)|]. rewrite <- E.
  unfold ex_marshal. rewrite (d_many_e [_; _; _; _; _; _; _; _; _; _; _; _]). destruct s as [[x1 x2 x3 x4 x5 x6] x7 x8 x9 pl x10 x11]. cbn [s_cfg s_server s_vtype s_dir s_plain s_pass s_other g_tel g_uuid g_name g_pkey g_cred g_cert].
  destruct pl; reflexivity.
Qed.

(* ---------- examples ---------- *)
(* an installation with its store in the directory k *)
Definition ex_settings (d : disk) (k : bytes) : settings := mkSet (snd d) chat_server by_sms k true [] [].
Definition ex_home (d : disk) (k : bytes) : home := mkHome (Some (ex_marshal (ex_settings d k))) (fun x => if beq x k then fst d else []).
Definition ex_keys (s : settings) : sconf := ex_conf.
Lemma ex_loads d k : k <> [] -> loadConfig ex_unmarshal (h_file (ex_home d k)) = Ok (ex_settings d k).
Proof.
  intros N. unfold ex_home. cbn [h_file]. rewrite (load_back _ _ ex_yaml). unfold ex_settings, defaults. cbn [s_cfg s_server s_vtype s_dir s_plain s_pass s_other].
  destruct k; [now elim N|reflexivity].
Qed.
Lemma ex_boots d k i r : k <> [] -> fst (fst (go i d)) = r -> boot_up ex_unmarshal toy ex_keys i (ex_home d k) = r.
Proof.
  intros N E. unfold boot_up. rewrite (ex_loads d k N). unfold ex_home, ex_settings. cbn [h_dirs s_dir s_cfg]. rewrite beq_refl. unfold go in E.
  destruct d as [a b]. exact E.
Qed.

(* C212, if a save is interrupted. A client that works sets its name and stops in between: it never starts again. *)
Theorem C212_interrupted_refuted : exists m u C h keys I k s n, yaml_ok m u /\ loadConfig u (h_file h) = Ok s /\
  boot_up u C keys I h = Ok k /\ g_uuid (s_cfg s) <> [] /\
  forall l keys' I' k', boot_up u C keys' I' (homes m u C l (mkHome (fst (step m u (h_file h, s) (SetUsername n, WCut 0))) (h_dirs h))) <> Ok k'.
Proof.
  exists ex_marshal, ex_unmarshal, toy, (ex_home ex_disk1 dot_storage), ex_keys, ex_again, (Some (ex_kps' 1)), (ex_settings ex_disk1 dot_storage), [77].
  split; [exact ex_yaml|]. split; [apply ex_loads; discriminate|]. split; [apply ex_boots; [discriminate|vm_compute; reflexivity]|].
  split; [vm_compute; discriminate|]. intros l keys' I' k'. unfold SetUsername. apply C212_lost; [exact ex_yaml|].
  unfold ex_home. cbn [h_dirs]. rewrite beq_refl. vm_compute. reflexivity.
Qed.
(* With its store in another place than the usual one, it registers again, with new keys, at the next start. *)
Lemma again_boots d (k : bytes) v i r : beq dot_storage k = false -> fst (fst (go i ([], ex_cfg))) = r ->
  boot_up ex_unmarshal toy ex_keys i (mkHome (fst (step ex_marshal ex_unmarshal v (SetUsername [77], WCut 0))) (h_dirs (ex_home d k))) = r.
Proof.
  intros N E. unfold boot_up, SetUsername. cbn [h_file h_dirs]. rewrite (C212_cut _ _ _ _ ex_yaml). unfold ex_home.
  change (s_dir (defaults zero_settings)) with dot_storage. change (s_cfg (defaults zero_settings)) with ex_cfg. cbn [h_dirs]. rewrite N. exact E.
Qed.
Lemma again_events d (k : bytes) v i : beq dot_storage k = false ->
  events ex_unmarshal toy ex_keys i (mkHome (fst (step ex_marshal ex_unmarshal v (SetUsername [77], WCut 0))) (h_dirs (ex_home d k))) = snd (go i ([], ex_cfg)).
Proof.
  intros N. unfold events, SetUsername. cbn [h_file h_dirs]. rewrite (C212_cut _ _ _ _ ex_yaml). unfold ex_home.
  change (s_dir (defaults zero_settings)) with dot_storage. change (s_cfg (defaults zero_settings)) with ex_cfg. cbn [h_dirs]. rewrite N. reflexivity.
Qed.
Lemma pick_account l : existsb is_account l = true -> exists t q p g, In (EvAccount t q p g) l.
Proof. intros E. apply existsb_exists in E as (e & X & Y). destruct e; try discriminate. eauto. Qed.
Theorem C212_registers_refuted : exists m u C h keys I1 I2 k1 k2 s n, yaml_ok m u /\ loadConfig u (h_file h) = Ok s /\ boot_up u C keys I1 h = Ok (Some k1) /\
  let h' := mkHome (fst (step m u (h_file h, s) (SetUsername n, WCut 0))) (h_dirs h) in
  boot_up u C keys I2 h' = Ok (Some k2) /\ k2 <> k1 /\ exists tel uuid pass sig, In (EvAccount tel uuid pass sig) (events u C keys I2 h').
Proof.
  exists ex_marshal, ex_unmarshal, toy, (ex_home ex_disk1 [100]), ex_keys, ex_again, ex_again, (ex_kps' 1), (ex_kps' 2), (ex_settings ex_disk1 [100]), [77].
  split; [exact ex_yaml|]. split; [apply ex_loads; discriminate|]. split; [apply ex_boots; [discriminate|vm_compute; reflexivity]|]. cbv zeta.
  split; [apply again_boots; [reflexivity|vm_compute; reflexivity]|]. split; [vm_compute; discriminate|].
  rewrite again_events by reflexivity. apply pick_account. vm_compute. reflexivity.
Qed.
(* A start, stopped anywhere, leaves the stores of other directories alone, and in its own what it did until then. *)
Theorem C212_elsewhere : forall m u C keys I0 n h s, loadConfig u (h_file h) = Ok s ->
  (forall x, x <> s_dir s -> h_dirs (home_after m u C keys I0 n h) x = h_dirs h x) /\
  h_dirs (home_after m u C keys I0 n h) (s_dir s) = fst (crashed (h_dirs h (s_dir s), s_cfg s) (firstn n (events u C keys I0 h))).
Proof.
  intros m u C keys I0 n h s L. unfold home_after, events. rewrite L. cbv zeta. cbn [h_dirs]. unfold put_dir. split.
  - intros x N. destruct (beq x (s_dir s)) eqn:B; [apply beq_eq in B; contradiction|reflexivity].
  - now rewrite beq_refl.
Qed.
Print Assumptions C212_elsewhere.
Print Assumptions C212_next.
Print Assumptions C212_name.
Print Assumptions C212_edit_lost.
Print Assumptions C212_cut.
Print Assumptions C212_stuck.
Print Assumptions C212_lost.
Print Assumptions C212_interrupted_refuted.
Print Assumptions C212_registers_refuted.

Lemma ex_edit s s1 : defaults s = s -> loadConfig ex_unmarshal (fst (run ex_marshal ex_unmarshal (Some (ex_marshal s), s)
    [(Edit s1, WWhole); (Refresh, WWhole); (SetUsername [78], WWhole)])) = Ok (set_cfg s (with_name [78] (s_cfg s))).
Proof. intros D. exact (proj2 (proj2 (C212_edit_lost ex_marshal ex_unmarshal s s1 [78] ex_yaml D))). Qed.
(* Example for C212_next, C212_name and C212_edit_lost: a name that could not be written, one that could, a refresh;
   the next start has the second. And an edit of the server, gone after the next name. *)
Example C212_example :
  let s := ex_settings ex_disk1 dot_storage in
  let l := [(SetUsername [77], WKept); (SetUsername [78], WWhole); (Refresh, WWhole)] in
  loadConfig ex_unmarshal (h_file (ex_home ex_disk1 dot_storage)) = Ok s /\ Forall calm l /\
  g_name (s_cfg (last_saved s s l)) = [78] /\ g_name (s_cfg s) = [65] /\ defaults s = s /\
  loadConfig ex_unmarshal (fst (run ex_marshal ex_unmarshal (Some (ex_marshal s), s)
    [(Edit (mkSet (s_cfg s) [1] by_sms dot_storage true [] []), WWhole); (Refresh, WWhole); (SetUsername [78], WWhole)]))
  = Ok (set_cfg s (with_name [78] (s_cfg s))).
Proof.
  cbv zeta. split; [apply ex_loads; discriminate|]. split. { repeat constructor; intros; cbn [fst snd]; try discriminate; unfold SetUsername; discriminate. }
  split; [vm_compute; reflexivity|]. split; [vm_compute; reflexivity|]. split; [reflexivity|].
  apply ex_edit. reflexivity.
Qed.
