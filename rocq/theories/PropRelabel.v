(* The name and the device that a server writes on an envelope, and taking one message under two of
   them: property C193. *)
From Coq Require Import ZArith List Lia Bool.
From Verif Require Import Bytes Res Wire Crypto Cbc CbcProofs Messages Session Builder
  History Active ActiveLink Examples PropActive PropHistory PropReceive PropInjective.
Import ListNotations.
Open Scope Z_scope.

Section Proofs.
Variable C : crypto.
Variable W : nat -> world.
Variable evs : list nevent.

(* no call brings a prekey back that is gone *)
Lemma effs_pre l : forall w id, w_pre w id = None -> w_pre (apply_effs w l) id = None.
Proof.
  induction l as [|e l IH]; intros w id H; [exact H|]. cbn [apply_effs fold_left]. apply IH.
  destruct e; cbn [apply_eff set_sess set_pre set_id w_pre]; try exact H. destruct (_ =? _); [reflexivity|exact H].
Qed.
Lemma estep_pre w e id : w_pre w id = None -> w_pre (fst (estep C w e)) id = None.
Proof.
  intros H. destruct e as [c|c k]; cbn [estep]; destruct (perform_call C w c) as [[r o] l]; cbn [fst]; now apply effs_pre.
Qed.
Lemma before_pre k2 : forall k1 n id, (k1 <= k2)%nat -> w_pre (before C W evs k1 n) id = None -> w_pre (before C W evs k2 n) id = None.
Proof.
  induction k2 as [|k2 IH]; intros k1 n id Hle H; [now replace k1 with 0%nat in H by lia|].
  destruct (Nat.eq_dec k1 (S k2)) as [->|Hne]; [exact H|]. specialize (IH k1 n id ltac:(lia) H).
  destruct (nth_error evs k2) as [[m e]|] eqn:Hk.
  - destruct (Nat.eq_dec m n) as [->|N].
    + rewrite (before_S C W evs _ _ _ Hk). now apply estep_pre.
    + now rewrite (before_other C W evs _ _ _ _ Hk N).
  - assert (EB : before C W evs (S k2) n = before C W evs k2 n).
    { unfold before. apply nth_error_None in Hk. rewrite !firstn_all2 by lia. reflexivity. }
    now rewrite EB.
Qed.

(* among the sessions that w keeps for (rid, dev) is one that began with the message m *)
Definition begun (w : world) (rid : bytes) (dev : Z) (m : pkmsg) : Prop :=
  exists s ps x, w_sess w rid dev = Some (s, ps) /\ In x (s :: ps) /\ getSessionVersion x = 3 /\ s_base x = key_ser (pk_base m).
Lemma begun_not w rid dev m : ~ begun w rid dev m -> pk_version m = 3 ->
  hasSessionState (LoadSession w rid dev) (pk_version m) (key_ser (pk_base m)) = false.
Proof.
  intros H V. apply not_true_iff_false. intros X. apply H. rewrite V in X. clear V H. unfold LoadSession in X.
  destruct (w_sess w rid dev) as [[s ps]|] eqn:E; [|discriminate X]. exists s, ps. unfold hasSessionState in X. cbn [r_cur r_prevs] in X.
  apply existsb_exists in X. destruct X as (x & Hi & X). exists x. apply andb_true_iff in X. destruct X as [X1 X2].
  apply Z.eqb_eq in X1. apply beq_eq in X2. auto.
Qed.

(* C193. Once a client has taken, under whatever name and device, a first message that names a one-time
   prekey of it and began a session, no first message that names this prekey begins a session with it
   any more, under whatever name and device the server delivers it, and whatever happens in between ... *)
Theorem C193_one_time : forall k1 k2 n rid1 dev1 rid2 dev2 b1 b2 pt1 s1 m1 m2 rnd2 r l,
  (k1 < k2)%nat -> takes C W evs k1 n rid1 dev1 PREKEY_BUNDLE b1 pt1 s1 ->
  LoadPreKeyWhisperMessage b1 = Ok m1 -> ~ begun (before C W evs k1 n) rid1 dev1 m1 ->
  LoadPreKeyWhisperMessage b2 = Ok m2 -> pk_pkid m2 = pk_pkid m1 -> pk_pkid m1 <> 0 -> pk_pkid m1 <> 16777215 ->
  ~ begun (before C W evs k2 n) rid2 dev2 m2 ->
  receive C (before C W evs k2 n) rid2 dev2 PREKEY_BUNDLE b2 rnd2 = (r, l) ->
  (forall pt, r <> Ok pt) /\ l = [].
Proof.
  intros k1 k2 n rid1 dev1 rid2 dev2 b1 b2 pt1 s1 m1 m2 rnd2 r l Hlt (rnd & l1 & ps & Hk & HR & _) L1 N1 L2 E Hz Hl N2 H2.
  assert (G : w_pre (before C W evs (S k1) n) (pk_pkid m1) = None).
  { rewrite (before_S C W evs _ _ _ Hk). cbn [estep perform_call]. rewrite HR. cbn [fst].
    apply (C14_used_prekey_is_removed C _ rid1 dev1 b1 rnd pt1 l1 m1 HR L1); [|exact Hl].
    apply begun_not; [exact N1|]. unfold receive in HR. rewrite L1 in HR.
    unfold SessionDecryptPreKeyWhisperMessage, BuildReceiverSession in HR.
    destruct (Z.eqb_spec (pk_version m1) currentVersion) as [Ev|Ev]; [exact Ev|discriminate HR]. }
  apply (before_pre k2) in G; [|lia]. unfold receive in H2. rewrite L2 in H2.
  unfold SessionDecryptPreKeyWhisperMessage, BuildReceiverSession in H2.
  destruct (Z.eqb_spec (pk_version m2) currentVersion) as [Ev|Ev]; cbn [negb] in H2; [|injection H2 as <- <-; split; [intros pt X; discriminate X|reflexivity]].
  destruct (IsTrustedIdentity _ _ _); cbn [negb] in H2; [|injection H2 as <- <-; split; [intros pt X; discriminate X|reflexivity]].
  rewrite (begun_not _ _ _ _ N2 Ev) in H2. cbv iota in H2. rewrite E, G in H2.
  destruct (w_spk _ _) as [kp|]; cbn [of_option bind] in H2; [|injection H2 as <- <-; split; [intros pt X; discriminate X|reflexivity]].
  unfold load_kp in H2 at 1. destruct (Z.eqb_spec (pk_pkid m1) 0) as [Z0|_]; [contradiction|].
  unfold key32 in H2. destruct (Nat.eqb (length (fst kp)) 32), (Nat.eqb (length (snd kp)) 32); cbn [bind of_option] in H2;
    injection H2 as <- <-; (split; [intros pt X; discriminate X|reflexivity]).
Qed.
End Proofs.
Print Assumptions C193_one_time.

(* Example: B takes A's first message; delivered again as one of A's second device it is refused. *)
Definition evs1 : list nevent :=
  [(0%nat, Done (CBuild nb 1 (ex_bundle 22 33 5 (Some (pub 55))) (rb 77) (rb 88))); (0%nat, Done (CEnc nb 1 [1]));
   (1%nat, Done (CRecv na 1 PREKEY_BUNDLE m0 (ex_rnd 101))); (1%nat, Done (CRecv na 2 PREKEY_BUNDLE m0 (ex_rnd 102)))].
Lemma none_begun w rid dev m : w_sess w rid dev = None -> ~ begun w rid dev m.
Proof. intros H (s & ps & x & E & _). rewrite H in E. discriminate E. Qed.
Example C193_example : exists s m, takes toy ex_W evs1 2 1%nat na 1 PREKEY_BUNDLE m0 [1] s /\
  LoadPreKeyWhisperMessage m0 = Ok m /\ pk_pkid m = 5 /\ ~ begun (before toy ex_W evs1 2 1%nat) na 1 m /\
  ~ begun (before toy ex_W evs1 3 1%nat) na 2 m /\
  receive toy (before toy ex_W evs1 3 1%nat) na 2 PREKEY_BUNDLE m0 (ex_rnd 102) = (Err EPreKeyNotFound, []).
Proof.
  destruct (taken_with_ok ex_W evs1 2 1%nat na 1 PREKEY_BUNDLE m0 (ex_rnd 101) [1] (pub 11)) as (s & HT & _); [reflexivity|vm_compute; reflexivity|].
  exists s. eexists. split; [exact HT|]. split; [vm_compute; reflexivity|]. split; [reflexivity|].
  split; [apply none_begun; vm_compute; reflexivity|]. split; [apply none_begun; vm_compute; reflexivity|]. vm_compute. reflexivity.
Qed.

(* ... but without a one-time prekey (the server's supply is used up, or the server says so) it is
   false: A sends one text once, and B takes it three times: from A's device 1, from A's device 2 and from
   somebody else, as the server pleases. *)
Definition lone : bytes := Eval vm_compute in
  match history toy (ex_W 0%nat) [Done (CBuild nb 1 (ex_bundle 22 33 0 None) (rb 77) (rb 88)); Done (CEnc nb 1 [1])] with
  | (_, x :: _) => se_bytes x | _ => [] end.
Definition nc : bytes := [99].
Definition evs3 : list nevent :=
  [(0%nat, Done (CBuild nb 1 (ex_bundle 22 33 0 None) (rb 77) (rb 88))); (0%nat, Done (CEnc nb 1 [1]));
   (1%nat, Done (CRecv na 1 PREKEY_BUNDLE lone (ex_rnd 101))); (1%nat, Done (CRecv na 2 PREKEY_BUNDLE lone (ex_rnd 102)));
   (1%nat, Done (CRecv nc 1 PREKEY_BUNDLE lone (ex_rnd 103)))].
Definition keys3 : list Z := [11; 22; 23; 33; 34; 35; 55; 66; 77; 88; 101; 102; 103].
Theorem C193_first_message_once_refuted : exists C priv W evs n rid rid' k0 k1 k2 k3 b pt s1 s2 s3,
  crypto_ok C /\ (forall k x, priv k = Some x -> basepub C x = k) /\ start_ok C priv W /\
  (forall n e, In (n, e) evs -> known_keys C priv e) /\ (k1 < k2 < k3)%nat /\ rid <> rid' /\
  takes C W evs k1 n rid 1 PREKEY_BUNDLE b pt s1 /\ takes C W evs k2 n rid 2 PREKEY_BUNDLE b pt s2 /\
  takes C W evs k3 n rid' 1 PREKEY_BUNDLE b pt s3 /\
  (exists n' rid0 dev0, sends C W evs k0 n' rid0 dev0 pt b) /\
  forall k' n' rid0 dev0 pt' b', sends C W evs k' n' rid0 dev0 pt' b' -> k' = k0.
Proof.
  destruct (taken_with_ok ex_W evs3 2 1%nat na 1 PREKEY_BUNDLE lone (ex_rnd 101) [1] (pub 11)) as (s1 & HT1 & _); [reflexivity|vm_compute; reflexivity|].
  destruct (taken_with_ok ex_W evs3 3 1%nat na 2 PREKEY_BUNDLE lone (ex_rnd 102) [1] (pub 11)) as (s2 & HT2 & _); [reflexivity|vm_compute; reflexivity|].
  destruct (taken_with_ok ex_W evs3 4 1%nat nc 1 PREKEY_BUNDLE lone (ex_rnd 103) [1] (pub 11)) as (s3 & HT3 & _); [reflexivity|vm_compute; reflexivity|].
  exists toy, (priv_of keys3), ex_W, evs3, 1%nat, na, nc, 1%nat, 2%nat, 3%nat, 4%nat, lone, [1], s1, s2, s3.
  split; [exact toy_ok|]. split; [apply priv_of_ok|]. split; [apply ex_start; vm_compute; reflexivity|]. split.
  { cbn [evs3 In]. intros n e H.
    repeat match type of H with _ \/ _ => destruct H as [H|H] end; try (exfalso; exact H); injection H as <- <-; cbn [known_keys ecall];
      first [split; apply mineb_ok; vm_compute; reflexivity|split; [apply wfbb_ok; reflexivity|vm_compute; reflexivity]
            |intros i; apply mineb_ok; vm_compute; reflexivity]. }
  split; [lia|]. split; [intros X; discriminate X|]. split; [exact HT1|]. split; [exact HT2|]. split; [exact HT3|]. split.
  { exists 0%nat, nb, 1. split; [reflexivity|]. do 2 eexists. vm_compute. reflexivity. }
  intros k n rid dev pt b [Hk _].
  assert (X : match nth_error evs3 k with Some (_, Done (CEnc _ _ _)) => k = 1%nat | _ => True end).
  { clear. do 5 (destruct k as [|k]; [cbn [nth_error evs3]; first [exact Logic.I|reflexivity]|]). destruct k; exact Logic.I. }
  rewrite Hk in X. exact X.
Qed.
Print Assumptions C193_first_message_once_refuted.
