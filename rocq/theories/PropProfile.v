(* C56 profile names round trip; C79 the profile a caller gets carries the decrypted name. *)
From Coq Require Import ZArith List Lia Bool.
From Verif Require Import Bytes Res Crypto Gcm Encodings PropEncodings Profile.
Import ListNotations.
Open Scope Z_scope.

(* ---- what the theorems speak about ---- *)

(* a name that does not end in a zero byte (no name typed by a user does) *)
Definition no_final_zero (n : bytes) : Prop := forall m, n <> m ++ [0].
(* r is n without the zero bytes at its end *)
Definition without_final_zeros (n r : bytes) : Prop := no_final_zero r /\ exists k, n = r ++ zeros k.

(* ---- proofs ---- *)

Lemma zeros_length k : length (zeros k) = k.
Proof. apply repeat_length. Qed.

Lemma plain_length_spec p n : (n <= length p)%nat ->
  exists k, firstn n p = firstn (plain_length p n) p ++ zeros k /\ no_final_zero (firstn (plain_length p n) p).
Proof.
  induction n as [|i IH]; intros L; cbn [plain_length].
  - exists O. cbn [zeros repeat]. split; [reflexivity|]. intros m X. destruct m; discriminate.
  - assert (E : firstn (S i) p = firstn i p ++ [nth i p 0]).
    { clear IH. revert i L. induction p as [|x t IHp]; intros i L; [cbn in L; lia|].
      destruct i; [reflexivity|]. cbn [length] in L. change (firstn (S (S i)) (x :: t)) with (x :: firstn (S i) t).
      rewrite IHp by lia. reflexivity. }
    destruct (nth i p 0 =? 0) eqn:Z.
    + apply Z.eqb_eq in Z. destruct IH as (k & E1 & N); [lia|]. exists (S k). split; [|exact N].
      rewrite E, Z, E1, <- app_assoc. f_equal. symmetry. apply (repeat_cons k).
    + apply Z.eqb_neq in Z. exists O. cbn [zeros repeat]. rewrite app_nil_r. split; [reflexivity|].
      rewrite E. intros m X. apply app_inj_tail in X. destruct X as [_ X]. contradiction.
Qed.

Lemma trailing_unique r r' k k' : no_final_zero r -> no_final_zero r' -> r ++ zeros k = r' ++ zeros k' -> r = r'.
Proof.
  revert k'. induction k as [|k IH]; intros k' N N' E.
  - destruct k'; cbn [zeros repeat] in E; rewrite ?app_nil_r in E; [exact E|].
    rewrite repeat_cons, app_assoc in E. now elim (N _ E).
  - destruct k' as [|k'].
    + cbn [zeros repeat] in E. rewrite app_nil_r in E.
      rewrite repeat_cons, app_assoc in E. symmetry in E. now elim (N' _ E).
    + cbn [zeros repeat] in E. rewrite !repeat_cons, !app_assoc in E. apply app_inj_tail in E. destruct E as [E _].
      exact (IH k' N N' E).
Qed.

Lemma key_ok (k : bytes) : length k = 32%nat -> aes_key_ok k = true.
Proof. intros H. unfold aes_key_ok. rewrite H. reflexivity. Qed.

(* An encrypted name always has 81 bytes, whatever the name, and decrypts to the name without zero bytes at
   its end. *)
Theorem C56_encrypt_decrypt : forall G, gcm_ok G -> forall key nonce name,
  length key = 32%nat -> length nonce = 12%nat -> (length name <= 53)%nat ->
  exists c r, encryptName G key nonce name NAME_PADDED_LENGTH = Ok c /\ length c = 81%nat /\
    decryptName G key c = Ok r /\ without_final_zeros name r.
Proof.
  intros G OK key nonce name Hk Hn L. unfold encryptName, NAME_PADDED_LENGTH.
  rewrite (proj2 (Nat.ltb_ge 53 (length name))) by exact L.
  unfold AesgcmEncrypt. rewrite (key_ok key Hk), Hn. cbn [negb Nat.eqb bind].
  set (padded := name ++ zeros (53 - length name)).
  assert (Lp : length padded = 53%nat).
  { unfold padded. rewrite app_length, zeros_length. lia. }
  set (c := seal G key nonce [] padded).
  assert (Lc : length c = 69%nat) by (unfold c; rewrite (seal_length G OK), Lp; reflexivity).
  exists (nonce ++ c), (firstn (plain_length padded (length padded)) padded).
  split; [reflexivity|]. split; [rewrite app_length; lia|]. split.
  - unfold decryptName. rewrite (proj2 (Nat.ltb_ge (length (nonce ++ c)) 29)) by (rewrite app_length; lia).
    rewrite firstn_app_exact, skipn_app_exact by (exact Hn).
    unfold AesgcmDecrypt. rewrite (key_ok key Hk), Hn, app_nil_r. cbn [negb Nat.eqb].
    unfold c. rewrite (gopen_seal G OK). reflexivity.
  - destruct (plain_length_spec padded (length padded) (le_n _)) as (k & E & N).
    rewrite firstn_all in E. split; [exact N|].
    set (r := firstn (plain_length padded (length padded)) padded) in *.
    (* r ++ zeros k = name ++ zeros (53 - length name) *)
    destruct (plain_length_spec name (length name) (le_n _)) as (k' & E' & N'). rewrite firstn_all in E'.
    set (r' := firstn (plain_length name (length name)) name) in *.
    assert (X : r = r').
    { apply (trailing_unique r r' k (k' + (53 - length name))); [exact N|exact N'|].
      rewrite <- E. unfold padded. rewrite E' at 1. rewrite <- app_assoc. f_equal.
      unfold zeros. symmetry. apply repeat_app. }
    exists k'. rewrite X. exact E'.
Qed.
Print Assumptions C56_encrypt_decrypt.

(* So a name without zero bytes at its end comes back as it was. *)
Theorem C56_round_trip : forall G, gcm_ok G -> forall key nonce name,
  length key = 32%nat -> length nonce = 12%nat -> (length name <= 53)%nat -> no_final_zero name ->
  exists c, encryptName G key nonce name NAME_PADDED_LENGTH = Ok c /\ length c = 81%nat /\
    decryptName G key c = Ok name.
Proof.
  intros G OK key nonce name Hk Hn L N.
  destruct (C56_encrypt_decrypt G OK key nonce name Hk Hn L) as (c & r & E & Lc & D & Nr & k & X).
  exists c. split; [exact E|]. split; [exact Lc|]. rewrite D. f_equal.
  apply (trailing_unique r name k 0 Nr N). cbn [zeros repeat]. rewrite app_nil_r. symmetry. exact X.
Qed.
Print Assumptions C56_round_trip.

(* The other names do not. *)
Theorem C56_name_with_final_zero_refuted : exists G key nonce name c,
  gcm_ok G /\ length key = 32%nat /\ length nonce = 12%nat /\ (length name <= 53)%nat /\
  encryptName G key nonce name NAME_PADDED_LENGTH = Ok c /\ decryptName G key c <> Ok name.
Proof.
  exists toygcm, (repeat 1 32), (repeat 2 12), [65; 0].
  destruct (C56_encrypt_decrypt toygcm toygcm_ok (repeat 1 32) (repeat 2 12) [65; 0]) as (c & r & E & _ & D & N & _);
    [reflexivity|reflexivity|cbn [length]; lia|].
  exists c. split; [exact toygcm_ok|]. do 2 (split; [reflexivity|]). split; [cbn [length]; lia|]. split; [exact E|].
  rewrite D. intros X. injection X as ->. now apply (N [65]).
Qed.
Print Assumptions C56_name_with_final_zero_refuted.

(* Longer names are refused. *)
Theorem C56_too_long : forall G key nonce name, (53 < length name)%nat ->
  encryptName G key nonce name NAME_PADDED_LENGTH = Err EBadFormat.
Proof.
  intros G key nonce name L. unfold encryptName, NAME_PADDED_LENGTH.
  rewrite (proj2 (Nat.ltb_lt 53 (length name)) L). reflexivity.
Qed.
Print Assumptions C56_too_long.

(* Decrypting accepts only what was sealed under the key, and never crashes. *)
Theorem C56_authentic : forall G, gcm_ok G -> forall key c,
  decryptName G key c <> Panic /\
  (forall n, decryptName G key c = Ok n -> exists nonce padded,
    length nonce = 12%nat /\ c = nonce ++ seal G key nonce [] padded /\ without_final_zeros padded n).
Proof.
  intros G OK key c. unfold decryptName.
  destruct (length c <? 29)%nat eqn:L; [split; [discriminate|intros n X; discriminate]|]. apply Nat.ltb_ge in L.
  unfold AesgcmDecrypt. destruct (aes_key_ok key); cbn [negb bind]; [|split; [discriminate|intros n X; discriminate]].
  assert (L12 : length (firstn 12 c) = 12%nat) by (rewrite firstn_length; lia).
  rewrite L12. cbn [Nat.eqb negb]. rewrite app_nil_r.
  destruct (gopen G key (firstn 12 c) [] (skipn 12 c)) as [p|] eqn:E; cbn [bind];
    [|split; [discriminate|intros n X; discriminate]].
  split; [discriminate|]. intros n X.
  destruct (plain_length_spec p (length p) (le_n _)) as (k & E' & N). rewrite firstn_all in E'.
  set (q := firstn (plain_length p (length p)) p) in *. clearbody q. injection X as <-.
  exists (firstn 12 c), p. split; [exact L12|]. split.
  - apply (gopen_only G OK) in E. rewrite <- E. symmetry. apply firstn_skipn.
  - split; [exact N|]. exists k. exact E'.
Qed.
Print Assumptions C56_authentic.

(* What one client publishes another one with the profile key reads. *)
Theorem C56_published_name_is_read : forall G, gcm_ok G -> forall key nonce name c identity p,
  length key = 32%nat -> length nonce = 12%nat -> wfb nonce -> wfb name -> no_final_zero name -> wfb identity ->
  published_name G key nonce name = Ok c ->
  GetProfileAndCredential_profile G key (Ok (mkJ (Some (enc64 identity)) (Some c) None None)) = Ok p ->
  pf_name p = name /\ pf_identity p = identity.
Proof.
  intros G OK key nonce name c identity p Hk Hn Wn Wna N Wi P Q. unfold published_name in P.
  destruct (le_lt_dec (length name) 53) as [L|L]; [|rewrite C56_too_long in P by exact L; discriminate].
  destruct (C56_round_trip G OK key nonce name Hk Hn L N) as (x & E & Lx & D). rewrite E in P. cbn [bind] in P.
  assert (Wx : wfb x).
  { unfold encryptName in E. unfold NAME_PADDED_LENGTH in E.
    rewrite (proj2 (Nat.ltb_ge 53 (length name))) in E by exact L.
    unfold AesgcmEncrypt in E. rewrite (key_ok key Hk), Hn in E. cbn [negb Nat.eqb bind] in E.
    assert (Y : x = nonce ++ seal G key nonce [] (name ++ zeros (53 - length name))) by congruence.
    rewrite Y. apply Forall_app. split; [exact Wn|]. apply (seal_wf G OK). apply Forall_app. split; [exact Wna|].
    apply Forall_forall. intros z Hz. apply repeat_spec in Hz. subst z. unfold isbyte. lia. }
  assert (Y : c = enc64 x) by congruence. clear P.
  unfold GetProfileAndCredential_profile in Q. cbn [bind] in Q. unfold unmarshal_profile, no_profile in Q.
  cbn [j_identity j_name j_about j_emoji over pf_identity pf_name pf_about pf_emoji] in Q.
  unfold decryptProfile in Q. destruct key as [|k0 kt]; [discriminate|].
  cbn [pf_name pf_about pf_emoji pf_identity] in Q.
  assert (NE : nonempty c = true).
  { rewrite Y. destruct x as [|a [|b [|d t]]]; try discriminate; reflexivity. }
  rewrite NE in Q. unfold decryptString in Q. rewrite Y, dec64_enc64 in Q by exact Wx. cbn [bind] in Q.
  rewrite D in Q. cbn [nonempty pf_name pf_about pf_emoji pf_identity] in Q.
  rewrite dec64_enc64 in Q by exact Wi. cbn [bind] in Q. injection Q as <-. split; reflexivity.
Qed.
Print Assumptions C56_published_name_is_read.

(* ---- examples ---- *)
Definition ex_pkey : bytes := map Z.of_nat (seq 5 32).
Definition ex_nonce : bytes := map Z.of_nat (seq 50 12).
Definition ex_name : bytes := [74; 195; 188; 114; 103; 0; 101; 110].
Definition ex_identity : bytes := 5 :: repeat 9 32.

Definition ex_pub : bytes := Eval vm_compute in match published_name toygcm ex_pkey ex_nonce ex_name with Ok c => c | _ => [] end.

Example C56_example : published_name toygcm ex_pkey ex_nonce ex_name = Ok ex_pub /\ zlen ex_pub = 108 /\
  GetProfileAndCredential_profile toygcm ex_pkey (Ok (mkJ (Some (enc64 ex_identity)) (Some ex_pub) None None))
  = Ok (mkProfile ex_identity ex_name [] []) /\
  (* another key does not open it *)
  GetProfileAndCredential_profile toygcm (repeat 7 32) (Ok (mkJ (Some (enc64 ex_identity)) (Some ex_pub) None None)) = Err EMac /\
  no_final_zero ex_name.
Proof.
  split; [vm_compute; reflexivity|]. split; [vm_compute; reflexivity|]. split; [vm_compute; reflexivity|].
  split; [vm_compute; reflexivity|]. intros m X. change ex_name with ([74; 195; 188; 114; 103; 0; 101] ++ [110]) in X.
  apply app_inj_tail in X. destruct X as [_ X]. discriminate.
Qed.

(* C79. GetProfile decrypts the profile and then reads the server's answer to a second request over it. The
   name the caller gets is the one of the second answer, in whatever form the server sent it. *)
Theorem C79_second_answer_wins : forall G key r1 r2 p j2 n,
  GetProfile G key r1 r2 = Ok p -> (forall q, r2 q = Ok j2) -> j_name j2 = Some n -> pf_name p = n.
Proof.
  intros G key r1 r2 p j2 n H R J. unfold GetProfile in H.
  destruct r1 as [j1| |]; cbn [bind] in H; try discriminate.
  destruct (decryptProfile G key (unmarshal_profile j1 no_profile)) as [p2 e].
  destruct e; try discriminate; rewrite R in H; cbn [bind] in H; injection H as <-; cbn [pf_name unmarshal_profile];
    rewrite J; reflexivity.
Qed.
Print Assumptions C79_second_answer_wins.

(* With a server that answers both requests the same, the name is still encrypted; the other path of the
   same file decrypts it. *)
Theorem C79_name_is_decrypted_refuted : exists G key name j p q,
  gcm_ok G /\ length key = 32%nat /\ published_name G key ex_nonce name = Ok (over (j_name j) []) /\
  GetProfileAndCredential_profile G key (Ok j) = Ok q /\ pf_name q = name /\
  GetProfile G key (Ok j) (fun _ => Ok j) = Ok p /\ pf_name p <> name.
Proof.
  exists toygcm, ex_pkey, ex_name, (mkJ (Some (enc64 ex_identity)) (Some ex_pub) None None).
  do 2 eexists. split; [exact toygcm_ok|]. split; [reflexivity|].
  split; [vm_compute; reflexivity|]. split; [vm_compute; reflexivity|]. split; [vm_compute; reflexivity|].
  split; [vm_compute; reflexivity|]. vm_compute. discriminate.
Qed.
Print Assumptions C79_name_is_decrypted_refuted.

(* A profile that cannot be decrypted is returned without an error. *)
Theorem C79_undecryptable_is_no_error : forall G, gcm_ok G -> forall key j1 j2,
  GetProfile G key (Ok j1) (fun _ => Ok j2) <> Panic -> exists p, GetProfile G key (Ok j1) (fun _ => Ok j2) = Ok p.
Proof.
  intros G OK key j1 j2 H. unfold GetProfile in *. cbn [bind] in *.
  destruct (decryptProfile G key (unmarshal_profile j1 no_profile)) as [p e].
  destruct e; [eexists; reflexivity|eexists; reflexivity|now elim H].
Qed.
Print Assumptions C79_undecryptable_is_no_error.

(* The other function returns a profile only if the name was sealed under the key. *)
Theorem C79_with_credential : forall G, gcm_ok G -> forall key j n p,
  GetProfileAndCredential_profile G key (Ok j) = Ok p -> j_name j = Some n -> n <> [] ->
  exists nonce padded, length nonce = 12%nat /\ dec64 n = Ok (nonce ++ seal G key nonce [] padded) /\
    without_final_zeros padded (pf_name p).
Proof.
  intros G OK key j n p H J N. unfold GetProfileAndCredential_profile in H. cbn [bind] in H.
  assert (X : forall q e, decryptProfile G key (unmarshal_profile j no_profile) = (q, e) -> e = Ok tt ->
    exists x, decryptString G key n = Ok x /\ pf_name q = x).
  { intros q e D ->. unfold decryptProfile in D. destruct key as [|k0 key]; [discriminate|].
    cbn [unmarshal_profile pf_name no_profile] in D. rewrite J in D. cbn [over] in D. destruct n as [|n0 n]; [now elim N|].
    cbn [nonempty] in D. cbv zeta in D. destruct (decryptString G (k0 :: key) (n0 :: n)) as [x|e|]; try discriminate. exists x. split; [reflexivity|].
    repeat (cbn [pf_identity pf_name pf_about pf_emoji] in D;
      match type of D with
      | (if ?b then _ else _) = _ => destruct b
      | match ?y with _ => _ end = _ => destruct y
      end; try discriminate D); injection D as <-; reflexivity. }
  destruct (decryptProfile G key (unmarshal_profile j no_profile)) as [q e]. destruct e as [[]|e|]; cbn [bind] in H; try discriminate.
  injection H as <-. destruct (X q (Ok tt) eq_refl eq_refl) as (x & D & E). rewrite E. unfold decryptString in D.
  destruct (dec64 n) as [b|e|]; cbn [bind] in D; try discriminate.
  destruct (C56_authentic G OK key b) as (_ & A). destruct (A x D) as (nonce & padded & L & -> & W). exists nonce, padded. auto.
Qed.
Print Assumptions C79_with_credential.
