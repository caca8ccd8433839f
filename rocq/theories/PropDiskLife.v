(* C205: the files follow the whole life of an installation *)
From Coq Require Import ZArith List Lia Bool.
From Verif Require Import Bytes Res Wire WireProofs Crypto Cbc CbcProofs Messages Session SessionProofs Builder History HistoryProofs
  RecordCodec RecordCodecProofs Decimal Storage StorageProofs TypedHistory Conversation Examples ActiveLink PropActive Lifetime
  PreKeyGen PropPreKeys Profile Startup PropStartup PropKeysTold DiskLife.
Import ListNotations.
Open Scope Z_scope.

(* the part of installation n in what happens to all of them *)
Definition part_of (n : nat) (evs : list (nat * item)) : list item := map snd (filter (fun e => Nat.eqb (fst e) n) evs).
(* without the starts *)
Definition used (evs : list (nat * item)) : list levent :=
  flat_map (fun e => match snd e with Live x => [(fst e, x)] | Again _ _ => [] end) evs.

Lemma run_part C evs : forall W n, lnrun C W (used evs) n = fold_left (lstep C) (lives (part_of n evs)) (W n).
Proof.
  induction evs as [|[m i] evs IH]; intros W n; [reflexivity|]. destruct i as [x|J k].
  - refine (eq_trans (IH (lnstep C W (m, x)) n) _). unfold part_of at 2. cbn [filter fst]. unfold lnstep. cbn [fst snd]. rewrite Nat.eqb_sym.
    destruct (Nat.eqb m n) eqn:E; [|reflexivity]. cbn [map snd lives flat_map app fold_left]. reflexivity.
  - refine (eq_trans (IH W n) _). unfold part_of at 2. cbn [filter fst]. destruct (Nat.eqb m n); reflexivity.
Qed.

(* Installations that registered, after any number of attempts each of which may have been cut off, with keys of their own.
   What can be loaded from their files then are stores as C199 - C204 ask for. Whatever happens to them afterwards,
   the files represent those stores after the same events: every load gives what was last written, and nothing of what was deleted. *)
Theorem C205_files_follow_lives : forall C, crypto_ok C -> forall priv cf ta I d0 r d l,
  (forall n : nat, conf_ok (cf n) /\ attempts C (cf n) (key_pair C priv) (d0 n) /\ good_in (I n) /\ good_keys (I n) /\ draws (key_pair C priv) (I n) /\
     start C (cf n) (I n) (d0 n) = (Ok (r n), d n, l n)) ->
  let W n := world_of C (cf n) (ta n) (fst (d n)) in
  start_ok C priv W /\ (forall n, r n = Some (w_ident (W n)) /\ w_trust_all (W n) = ta n) /\
  forall evs d', (forall n, F_lives C (cf n) (W n) (d n) (part_of n evs) (d' n)) ->
    forall n, represents C (cf n) (fst (d' n)) (lnrun C W (used evs) n).
Proof.
  intros C OK priv cf ta I d0 r d l H W.
  assert (R : forall n, r n = Some (w_ident (W n)) /\ kept C (cf n) (fst (d n)) (W n) /\ w_trust_all (W n) = ta n /\ key_pair C priv (w_ident (W n)) /\
    (forall id kp, w_pre (W n) id = Some kp -> key_pair C priv kp) /\ (forall id kp, w_spk (W n) id = Some kp -> key_pair C priv kp) /\
    (forall rid dev, w_sess (W n) rid dev = None) /\ (forall rid, w_ids (W n) rid = None)).
  { intros n. destruct (H n) as (CF & A & GI & GK & DR & E). exact (registered_world C OK (cf n) CF (key_pair C priv) (I n) (d0 n) (r n) (d n) (l n) (ta n) A GI GK DR E). }
  split; [|split].
  - constructor; intros n; destruct (R n) as (_ & _ & _ & K1 & K2 & K3 & K4 & _).
    + exact K1.
    + intros id kp X. exact (K3 id kp X).
    + intros id kp X. exact (K2 id kp X).
    + exact K4.
  - intros n. destruct (R n) as (K1 & _ & K2 & _). auto.
  - intros evs d' F n. rewrite run_part. destruct (R n) as (_ & K & _). destruct (H n) as (CF & _).
    apply (kp_rep C (cf n)). exact (lives_kept C OK (cf n) _ _ _ _ K (F n)).
Qed.
Print Assumptions C205_files_follow_lives.

(* Whatever a registered installation goes through, the next start neither makes an account nor uploads keys, leaves
   the files of the store as they are, and gives the identity of the registration. *)
Lemma life_ident C x : forall w, w_ident (lstep C w x) = w_ident w.
Proof.
  intros w. destruct x as [e|rid dev|rid|rid|id kp|id kp]; try reflexivity. cbn [lstep]. rewrite estep_effs.
  generalize (event_effs C w e) as l. intros l. revert w.
  induction l as [|a l IH]; intros w; [reflexivity|]. change (apply_effs w (a :: l)) with (apply_effs (apply_eff w a) l). rewrite IH. destruct a; reflexivity.
Qed.
Lemma lives_ident C l : forall w, w_ident (fold_left (lstep C) l w) = w_ident w.
Proof. induction l as [|x l IH]; intros w; [reflexivity|]. cbn [fold_left]. rewrite IH. apply life_ident. Qed.
Theorem C205_same_identity : forall C cf, crypto_ok C -> conf_ok cf -> forall P ta I d0 r d l, attempts C cf P d0 ->
  good_in I -> good_keys I -> draws P I -> start C cf I d0 = (Ok r, d, l) ->
  forall evs d1, F_lives C cf (world_of C cf ta (fst d)) d evs d1 ->
  forall I2 r2 d2 l2, start C cf I2 d1 = (r2, d2, l2) ->
    fst d2 = fst d1 /\ (forall k, r2 = Ok k -> k = r) /\
    forall e, In e l2 -> match e with EvAccount _ _ _ _ | EvUpload _ _ _ => False | _ => True end.
Proof.
  intros C cf OK CF P ta I d0 r d l A GI GK DR E evs d1 F I2 r2 d2 l2 E2.
  destruct (registered_world C OK cf CF P I d0 r d l ta A GI GK DR E) as (RI & K & _).
  pose proof (lives_kept C OK cf _ _ _ _ K F) as K1. pose proof (last_valid C cf _ _ (kp_rep _ _ _ _ K1) (kp_last _ _ _ _ K1)) as V1.
  pose proof (start_traced C cf I2 d1 r2 d2 l2 E2) as T. pose proof (again_files C cf I2 d1 r2 d2 l2 (length l2) V1 E2) as S. rewrite firstn_all, T in S.
  split; [exact S|]. split.
  - intros k ->. rewrite RI. eapply start_ident; [exact E2|]. rewrite S, (rp_ident _ _ _ _ (kp_rep _ _ _ _ K1)), lives_ident. reflexivity.
  - unfold start in E2. rewrite setup_split in E2. cbn zeta in E2. cbn [boot t_files t_disk t_nw t_nc t_drawn t_log] in E2. rewrite V1 in E2.
    match type of E2 with context [rest C cf I2 ?s0] => pose proof (later_rest C cf I2 (fst d1) (g_uuid (snd d1)) s0 eq_refl eq_refl) as (_ & _ & m & L & G) end.
    destruct (rest C cf I2 _) as (r0, s). cbn [snd t_log] in L. rewrite app_nil_r in L. injection E2 as _ _ <-. subst m.
    apply Forall_rev_ev in G. rewrite Forall_forall in G. intros e X. specialize (G e X). destruct e; exact G || exact Logic.I.
Qed.
Print Assumptions C205_same_identity.

(* Two clients register; the first attempt of the second is cut off among its prekeys. The first begins a session and
   writes; the second takes the message, starts again, gets a new prekey 7, deletes its sessions with the first and forgets its key. *)
Definition ex_reg (a : Z) : input :=
  mkIn yes (fun _ => true) ex_ivs (fun n => Z.of_nat n) 7 [1;2;3] [9;9] (ex_kp a) 4660 (fun i => if Nat.even i then ex_kp 55 else ex_kp 66)
    (ex_kp 33) 5 (repeat 1 64) 0 [43;49] [65] (Ok tt) (Ok [43;49]) (Ok 200) 1590000000 (CBody ex_cert) (fun k => Ok (1 :: k)).
Definition ex_start (n : nat) : disk :=
  match n with O => ([], ex_cfg) | _ => crashed ([], ex_cfg) (firstn 20 (snd (go (ex_reg 23) ([], ex_cfg)))) end.
Definition ex_I (n : nat) : input := match n with O => ex_reg 11 | _ => ex_reg 22 end.
Definition ex_d (n : nat) : disk := snd (fst (go (ex_I n) (ex_start n))).
Definition ex_Wd (n : nat) : world := world_of toy ex_conf false (fst (ex_d n)).
Definition ex_to_B : bundle :=
  mkBundle 7 1 4660 (Some (pub 55)) 5 (Some (pub 33)) (ex_sign (pub 22) (key_ser (pub 33))) (pub 22).
Definition ex_build : call := CBuild nb 1 ex_to_B (rb 77) (rb 88).
Definition ex_first_message : bytes := Eval vm_compute in
  match SessionEncryptMessage toy (fst (estep toy (ex_Wd 0) (Done ex_build))) nb 1 [1;2] with (Ok (b, _), _) => b | _ => [] end.
Definition ex_life : list (nat * item) :=
  [(0%nat, Live (LCall (Done ex_build))); (0%nat, Live (LCall (Done (CEnc nb 1 [1;2]))));
   (1%nat, Live (LCall (Done (CRecv na 1 PREKEY_BUNDLE ex_first_message (PropActive.ex_rnd 101))))); (1%nat, Again ex_again 3);
   (1%nat, Live (LPreKey 7 (ex_kp 66))); (1%nat, Live (LEndAll na)); (1%nat, Live (LForget na))].
Definition ex_own_keys : list Z := [11; 22; 23; 33; 55; 66].
Definition fitsb (e : eff) : bool := match e with EStoreSession _ _ c p => zlen (Serialize (mkSr c p false)) <? 2 ^ 63 | _ => true end.
Lemma fitsb_ok l : forallb fitsb l = true -> Forall fits_eff l.
Proof.
  rewrite forallb_forall. intros H. apply Forall_forall. intros e X. specialize (H e X). destruct e; try exact Logic.I. apply Z.ltb_lt in H. exact H.
Qed.
Lemma ex_kp_good n : In n ex_own_keys -> goodkp (ex_kp n) /\ key_pair toy (priv_of ex_own_keys) (ex_kp n).
Proof.
  intros H. assert (G : forallb (fun n => wfbb (fst (ex_kp n)) && wfbb (snd (ex_kp n)) && Nat.eqb (length (fst (ex_kp n))) 32 &&
    Nat.eqb (length (snd (ex_kp n))) 32 && mineb ex_own_keys (ex_priv n)) ex_own_keys = true) by (vm_compute; reflexivity).
  rewrite forallb_forall in G. specialize (G n H). rewrite !andb_true_iff in G. destruct G as ((((G1 & G2) & G3) & G4) & G5).
  split; [split; [apply Nat.eqb_eq, G3|split; [apply wfbb_ok, G1|split; [apply Nat.eqb_eq, G4|apply wfbb_ok, G2]]]|].
  split; [apply mineb_ok, G5|reflexivity].
Qed.
Lemma ex_reg_ok a : In a ex_own_keys -> good_in (ex_reg a) /\ good_keys (ex_reg a) /\ draws (key_pair toy (priv_of ex_own_keys)) (ex_reg a).
Proof.
  intros H.
  assert (K : forall i, goodkp (if Nat.even i then ex_kp 55 else ex_kp 66) /\ key_pair toy (priv_of ex_own_keys) (if Nat.even i then ex_kp 55 else ex_kp 66)).
  { intros i. destruct (Nat.even i); apply ex_kp_good; unfold ex_own_keys; cbn [In]; tauto. }
  assert (S : goodkp (ex_kp 33) /\ key_pair toy (priv_of ex_own_keys) (ex_kp 33)) by (apply ex_kp_good; unfold ex_own_keys; cbn [In]; tauto).
  split; [|split].
  - constructor; cbn [ex_reg i_iv i_ident i_pass i_sig]; [apply ex_iv|apply ex_kp_good, H|apply wfbb_ok; reflexivity|apply wfbb_ok; reflexivity].
  - constructor; cbn [ex_reg i_kps i_skp i_signature i_time]; [apply K|apply S|split; [apply wfbb_ok; reflexivity|reflexivity]|lia].
  - split; [apply ex_kp_good, H|]. split; [apply S|apply K].
Qed.
Lemma ex_registered n : conf_ok ex_conf /\ attempts toy ex_conf (key_pair toy (priv_of ex_own_keys)) (ex_start n) /\ good_in (ex_I n) /\
  good_keys (ex_I n) /\ draws (key_pair toy (priv_of ex_own_keys)) (ex_I n) /\
  start toy ex_conf (ex_I n) (ex_start n) = (Ok (Some (ex_kp (match n with O => 11 | _ => 22 end))), ex_d n, snd (go (ex_I n) (ex_start n))).
Proof.
  assert (K : good_in (ex_I n) /\ good_keys (ex_I n) /\ draws (key_pair toy (priv_of ex_own_keys)) (ex_I n)).
  { destruct n; apply ex_reg_ok; unfold ex_own_keys; cbn [In]; tauto. }
  destruct K as (K1 & K2 & K3). split; [exact ex_conf_ok|]. split; [|split; [exact K1|split; [exact K2|split; [exact K3|]]]].
  - destruct n; [apply at_new|]. destruct (ex_reg_ok 23 ltac:(unfold ex_own_keys; cbn [In]; tauto)) as (L1 & L2 & L3).
    unfold ex_start. eapply at_more; [apply at_new|exact L1|exact L2|exact L3|apply go_start].
  - unfold ex_d. apply go_is. destruct n as [|n]; unfold ex_I, ex_start; vm_compute; reflexivity.
Qed.
Definition ex_A : list item := [Live (LCall (Done ex_build)); Live (LCall (Done (CEnc nb 1 [1;2])))].
Definition ex_B : list item :=
  [Live (LCall (Done (CRecv na 1 PREKEY_BUNDLE ex_first_message (PropActive.ex_rnd 101)))); Again ex_again 3;
   Live (LPreKey 7 (ex_kp 66)); Live (LEndAll na); Live (LForget na)].
Example C205_example : exists d', (forall n, F_lives toy ex_conf (ex_Wd n) (ex_d n) (part_of n ex_life) (d' n)) /\
  (exists s ps, F_LoadSession toy ex_conf (fst (d' 0%nat)) nb 1 = Ok (mkSr s ps false) /\ s_remote s = pub 22) /\
  IsTrusted toy ex_conf false (fst (d' 0%nat)) nb (pub 23) = Ok false /\
  exists_file (fst (d' 1%nat)) (preKeyPath 4660) = false /\
  LoadPreKey toy ex_conf (fst (d' 1%nat)) 7 = Ok (mkPkr 7 (pub 66) (ex_priv 66)) /\
  F_LoadSession toy ex_conf (fst (d' 1%nat)) na 1 = Ok NewSessionRecord /\
  IsTrusted toy ex_conf false (fst (d' 1%nat)) na (pub 23) = Ok true.
Proof.
  assert (G0 : good_lives toy (ex_Wd 0) ex_A).
  { unfold ex_A. cbn [good_lives good_step ecall good_call]. split; [|split; [|exact Logic.I]].
    - split; [|apply fitsb_ok; vm_compute; reflexivity]. cbn [ex_build ex_to_B good_call b_reg b_pkid b_spkid b_ident b_spk].
      repeat split; try (apply wfbb_ok; vm_compute; reflexivity); vm_compute; congruence.
    - split; [vm_compute; split; congruence|apply fitsb_ok; vm_compute; reflexivity]. }
  assert (G1 : good_lives toy (ex_Wd 1) ex_B).
  { unfold ex_B. cbn [good_lives good_step ecall good_call]. split; [|split; [|split; [|split; [|exact Logic.I]]]].
    - split; [|apply fitsb_ok; vm_compute; reflexivity].
      split; [vm_compute; split; congruence|]. split; [apply wfbb_ok; vm_compute; reflexivity|]. intros i. apply wfbb_ok. vm_compute. reflexivity.
    - split; [vm_compute; split; congruence|]. apply ex_kp_good. unfold ex_own_keys. cbn [In]. tauto.
    - exact Logic.I.
    - exact Logic.I. }
  destruct (lives_total toy ex_conf ex_conf_ok ex_A (ex_Wd 0) (ex_d 0) G0) as (dA & FA).
  destruct (lives_total toy ex_conf ex_conf_ok ex_B (ex_Wd 1) (ex_d 1) G1) as (dB & FB).
  set (d' := fun n => match n with O => dA | 1%nat => dB | _ => ex_d n end).
  assert (F : forall n, F_lives toy ex_conf (ex_Wd n) (ex_d n) (part_of n ex_life) (d' n)).
  { intros [|[|n]]; [exact FA|exact FB|]. apply fl_nil. }
  exists d'. split; [exact F|].
  destruct (C205_files_follow_lives toy toy_ok (priv_of ex_own_keys) (fun _ => ex_conf) (fun _ => false) ex_I ex_start _ ex_d _ ex_registered) as (_ & _ & R).
  specialize (R ex_life d' F). pose proof (R 0%nat) as RA. pose proof (R 1%nat) as RB. clear R F FA FB G0 G1. subst d'. cbn beta iota in RA, RB.
  set (wA := lnrun _ _ _ 0%nat) in RA. set (wB := lnrun _ _ _ 1%nat) in RB.
  split; [|split; [|split; [|split; [|split]]]].
  - pose proof (rp_sess _ _ _ _ RA nb 1 ltac:(unfold u32; lia)) as X. exists (r_cur (LoadSession wA nb 1)), (r_prevs (LoadSession wA nb 1)).
    split; [refine (eq_trans X _)|]; vm_compute; reflexivity.
  - refine (eq_trans (rp_ids _ _ _ _ RA nb (pub 23)) _). vm_compute. reflexivity.
  - pose proof (rp_pre _ _ _ _ RB 4660 ltac:(unfold u32; lia)) as X. assert (E : w_pre wB 4660 = None) by (vm_compute; reflexivity). rewrite E in X. exact X.
  - pose proof (rp_pre _ _ _ _ RB 7 ltac:(unfold u32; lia)) as X. assert (E : w_pre wB 7 = Some (ex_kp 66)) by (vm_compute; reflexivity). rewrite E in X. exact X.
  - refine (eq_trans (rp_sess _ _ _ _ RB na 1 ltac:(unfold u32; lia)) _). vm_compute. reflexivity.
  - refine (eq_trans (rp_ids _ _ _ _ RB na (pub 23)) _). vm_compute. reflexivity.
Qed.
