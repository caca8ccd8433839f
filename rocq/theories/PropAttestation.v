(* C125 the directory and the client agree on their keys; C126 only a genuine enclave learns the address book; C127 a
   malformed attestation is an error; C128 what becomes of attestations that fail. *)
From Coq Require Import ZArith List Lia Bool.
From Verif Require Import Bytes Res Crypto Gcm Session Builder Contacts PropDiscovery Attestation.
Import ListNotations.
Open Scope Z_scope.

(* ---- what the theorems speak about ---- *)

(* the two keys as the other side computes them, knowing the private parts e and s of the keys in its answer *)
Definition their_keys (C : crypto) (e s client : bytes) : bytes :=
  hkdf C (dh C e client ++ dh C s client) (client ++ basepub C e ++ basepub C s) [] 64.
Definition their_client_key (C : crypto) (e s client : bytes) : bytes := firstn 32 (their_keys C e s client).
Definition their_server_key (C : crypto) (e s client : bytes) : bytes := skipn 32 (their_keys C e s client).
(* the answer: its public keys, a quote and its signature, and a request id under the server key *)
Definition their_answer (C : crypto) (G : gcm) (e s client quote sig iv id : bytes) : aresp :=
  let c := seal G (their_server_key C e s client) iv [] id in
  mkAresp (basepub C e) (basepub C s) quote iv (firstn (length c - 16) c) (skipn (length c - 16) c) sig.

(* Someone who has the private keys reads a discovery request: the envelope for its request id gives the key of the body. *)
Fixpoint find_env (id : bytes) (l : list sealedpart) : option sealedpart :=
  match l with [] => None | p :: t => if beq (sp_req p) id then Some p else find_env id t end.
Definition they_read (C : crypto) (G : gcm) (e s client id : bytes) (q : discovery) : option bytes :=
  match find_env id (dr_envs q) with
  | None => None
  | Some p =>
      match gopen G (their_client_key C e s client) (sp_iv p) id (sp_data p ++ sp_mac p) with
      | None => None
      | Some key => gopen G key (sp_iv (dr_body q)) [] (sp_data (dr_body q) ++ sp_mac (dr_body q))
      end
  end.

(* ---- proofs ---- *)
Section Proofs.
Variable C : crypto.
Hypothesis OK : crypto_ok C.
Variable G : gcm.
Hypothesis GK : gcm_ok G.

Lemma keys_agree e s c : remoteAttestationKeys C (c, basepub C c) (basepub C e) (basepub C s) =
  Ok (their_client_key C e s (basepub C c), their_server_key C e s (basepub C c)).
Proof.
  unfold remoteAttestationKeys. rewrite !(basepub_length C OK). cbn [Nat.eqb negb fst snd].
  unfold their_client_key, their_server_key, their_keys. rewrite (dh_comm C OK e c), (dh_comm C OK s c), app_assoc.
  do 2 f_equal. set (k := hkdf C _ _ [] 64). rewrite firstn_all2; [reflexivity|].
  rewrite skipn_length. unfold k. rewrite (hkdf_length C OK). lia.
Qed.

Lemma server_key_length e s c : length (their_server_key C e s c) = 32%nat.
Proof. unfold their_server_key, their_keys. rewrite skipn_length, (hkdf_length C OK). reflexivity. Qed.
Lemma client_key_length e s c : length (their_client_key C e s c) = 32%nat.
Proof. unfold their_client_key, their_keys. rewrite firstn_length, (hkdf_length C OK). reflexivity. Qed.
Lemma key32 (k : bytes) : length k = 32%nat -> aes_key_ok k = true.
Proof. intros H. unfold aes_key_ok. rewrite H. reflexivity. Qed.

Lemma valid_answer e s c quote sig iv id : length iv = 12%nat ->
  validateAndBuildRemoteAttestation C G (Some (their_answer C G e s (basepub C c) quote sig iv id)) (c, basepub C c) =
  Ok (mkAttest id (their_client_key C e s (basepub C c)) (their_server_key C e s (basepub C c))).
Proof.
  intros L. unfold validateAndBuildRemoteAttestation, their_answer. cbv zeta. cbn [ar_eph ar_static]. rewrite keys_agree. cbn [bind].
  unfold getRequestId, AesgcmDecrypt. cbn [snd fst ar_iv ar_ct ar_tag].
  rewrite (key32 _ (server_key_length e s (basepub C c))), L. cbn [negb Nat.eqb]. rewrite firstn_skipn.
  rewrite (gopen_seal G GK). reflexivity.
Qed.
End Proofs.

(* Whoever has the private keys of the answer and the client have the same two keys and the same request id. *)
Theorem C125_keys_agree : forall C, crypto_ok C -> forall G, gcm_ok G -> forall e s c quote sig iv id name, length iv = 12%nat ->
  GetAndVerifyMultiRemoteAttestation C G (c, basepub C c) (Some (AMap [(name, Some (their_answer C G e s (basepub C c) quote sig iv id))])) =
  Ok [(name, mkAttest id (their_client_key C e s (basepub C c)) (their_server_key C e s (basepub C c)))].
Proof.
  intros C OK G GK e s c quote sig iv id name L. unfold GetAndVerifyMultiRemoteAttestation. cbn [length Nat.ltb Nat.leb orb].
  cbn [validateAll]. rewrite (valid_answer C OK G GK) by exact L. reflexivity.
Qed.
Print Assumptions C125_keys_agree.

(* An answer for other keys than the client's is not accepted unless it is a seal under the key the client computes: the
   request id is authenticated. *)
Theorem C125_authentic : forall C G, gcm_ok G -> forall kp r a,
  validateAndBuildRemoteAttestation C G (Some r) kp = Ok a ->
  ar_ct r ++ ar_tag r = seal G (at_server a) (ar_iv r) [] (at_req a) /\
  at_server a = firstn 32 (skipn 32 (hkdf C (dh C (fst kp) (ar_eph r) ++ dh C (fst kp) (ar_static r)) ((snd kp ++ ar_eph r) ++ ar_static r) [] 64)).
Proof.
  intros C G GK kp r a H. unfold validateAndBuildRemoteAttestation in H.
  apply bind_ok in H. destruct H as (keys & K & H). apply bind_ok in H. destruct H as (id & I & H). injection H as <-.
  cbn [at_server at_req]. unfold remoteAttestationKeys in K.
  destruct (negb (length (ar_eph r) =? 32)%nat); [discriminate K|]. destruct (negb (length (ar_static r) =? 32)%nat); [discriminate K|].
  cbv zeta in K. injection K as <-. cbn [snd]. split; [|reflexivity].
  unfold getRequestId, AesgcmDecrypt in I. cbn [snd] in I.
  destruct (negb (aes_key_ok _)); [discriminate I|]. destruct (negb _); [discriminate I|].
  destruct (gopen G _ _ _ _) as [p|] eqn:E; [|discriminate I]. injection I as ->. exact (gopen_only G GK _ _ _ _ _ E).
Qed.
Print Assumptions C125_authentic.

(* C126. Anybody who answers the request for an attestation - with keys of their own making and any quote and signature, for
   instance ones that no verification accepts - is believed, and reads the numbers of the address book in the query. *)
Theorem C126_impostor_reads_the_address_book : forall C, crypto_ok C -> forall G, gcm_ok G ->
  forall sha256 ns e s c quote sig iv id name key nonce iv2 niv q,
  Forall (fun n => 0 <= n < 2 ^ 63) ns -> length iv = 12%nat -> length iv2 = 12%nat -> length key = 32%nat -> length nonce = 32%nat ->
  let answer := AMap [(name, Some (their_answer C G e s (basepub C c) quote sig iv id))] in
  forall ats, GetAndVerifyMultiRemoteAttestation C G (c, basepub C c) (Some answer) = Ok ats ->
  CreateDiscoveryRequest G sha256 (map e164 ns) (map (fun a => (snd a, niv)) ats) key nonce iv2 = Ok q ->
  exists d, they_read C G e s (basepub C c) id q = Some (nonce ++ d) /\ slots8 (length ns) d = ns.
Proof.
  intros C OK G GK sha ns e s c quote sig iv id name key nonce iv2 niv q Hn Hi Hi2 Hk Hno answer ats A Q.
  unfold answer in A. rewrite (C125_keys_agree C OK G GK) in A by exact Hi. injection A as <-.
  destruct (C57_request_opens G GK sha _ _ key nonce iv2 q Hk Hi2 Q) as (d & B & _ & _ & Body & Envs).
  destruct (C57_query_exact ns nonce Hn) as (d' & B' & _ & _ & S). rewrite B' in B. injection B as <-.
  exists d'. split; [|exact S]. cbn [map snd] in Envs. inversion Envs as [|x p xs ps [Rq Op] Rest X Y]; subst. cbn [fst at_req at_client] in Rq, Op.
  unfold they_read. rewrite <- Y. cbn [find_env]. rewrite Rq, beq_refl.
  unfold cds_decrypt in Op. destruct (negb (aes_key_ok _)); [discriminate Op|]. destruct (negb _); [discriminate Op|].
  destruct (gopen G _ (sp_iv p) id (sp_data p ++ sp_mac p)) as [k|]; [|discriminate Op]. injection Op as ->.
  unfold cds_decrypt in Body. destruct (negb (aes_key_ok _)); [discriminate Body|]. destruct (negb _); [discriminate Body|].
  destruct (gopen G key _ [] _) as [b|]; [|discriminate Body]. injection Body as ->. reflexivity.
Qed.
Print Assumptions C126_impostor_reads_the_address_book.

Definition ex_ns : list Z := [4915112345678; 12025550123].
Definition ex_q : res discovery :=
  CreateDiscoveryRequest toygcm (toy_hmac []) (map e164 ex_ns)
    [(mkAttest [9] (their_client_key toy [5] [6] (basepub toy [7])) (their_server_key toy [5] [6] (basepub toy [7])), zeros 12)]
    (zeros 32) (zeros 32) (zeros 12).
(* Whatever the right way of verifying a quote is: one that is wrong is accepted as well. *)
Theorem C126_only_a_genuine_enclave_refuted : forall verify : bytes -> bytes -> bytes -> bool,
  forall quote sig, verify quote sig (basepub toy [6]) = false ->
  exists C G e s c r ats ns q d, crypto_ok C /\ gcm_ok G /\ verify (ar_quote r) (ar_sig r) (ar_static r) = false /\
    GetAndVerifyMultiRemoteAttestation C G (c, basepub C c) (Some (AMap [([1], Some r)])) = Ok ats /\ length ns = 2%nat /\
    CreateDiscoveryRequest G (toy_hmac []) (map e164 ns) (map (fun a => (snd a, zeros 12)) ats) (zeros 32) (zeros 32) (zeros 12) = Ok q /\
    they_read C G e s (basepub C c) [9] q = Some (zeros 32 ++ d) /\ slots8 (length ns) d = ns.
Proof.
  intros verify quote sig V.
  pose (r := their_answer toy toygcm [5] [6] (basepub toy [7]) quote sig (zeros 12) [9]).
  pose proof (C125_keys_agree toy toy_ok toygcm toygcm_ok [5] [6] [7] quote sig (zeros 12) [9] [1] (eq_refl _)) as A.
  assert (Q : exists q, ex_q = Ok q) by (unfold ex_q; vm_compute; eexists; reflexivity).
  destruct Q as (q & Q).
  assert (Hn : Forall (fun n => 0 <= n < 2 ^ 63) ex_ns) by (unfold ex_ns; repeat constructor; lia).
  destruct (C126_impostor_reads_the_address_book toy toy_ok toygcm toygcm_ok (toy_hmac []) ex_ns [5] [6] [7] quote sig (zeros 12) [9] [1]
    (zeros 32) (zeros 32) (zeros 12) (zeros 12) q Hn (eq_refl _) (eq_refl _) (eq_refl _) (eq_refl _) _ A Q) as (d & R & S).
  exists toy, toygcm, [5], [6], [7], r. eexists. exists ex_ns, q, d.
  split; [exact toy_ok|]. split; [exact toygcm_ok|]. split; [exact V|]. split; [exact A|]. split; [reflexivity|].
  split; [exact Q|]. split; [exact R|exact S].
Qed.
Print Assumptions C126_only_a_genuine_enclave_refuted.

(* C127. The process stops exactly when the answer is null, or has one to three attestations one of which is null or has a
   public key that is not of 32 bytes or a nonce that is not of 12. *)
Definition malformed (r : option aresp) : Prop :=
  match r with None => True | Some r => length (ar_eph r) <> 32%nat \/ length (ar_static r) <> 32%nat \/ length (ar_iv r) <> 12%nat end.

Lemma malformed_panics C (OK : crypto_ok C) G r kp : validateAndBuildRemoteAttestation C G r kp = Panic <-> malformed r.
Proof.
  unfold validateAndBuildRemoteAttestation, malformed. destruct r as [r|]; [|split; [intros _; exact Logic.I|reflexivity]].
  unfold remoteAttestationKeys.
  destruct (Nat.eqb_spec (length (ar_eph r)) 32) as [E1|E1]; cbn [negb].
  2:{ cbn [bind]. split; [intros _; left; exact E1|reflexivity]. }
  destruct (Nat.eqb_spec (length (ar_static r)) 32) as [E2|E2]; cbn [negb].
  2:{ cbn [bind]. split; [intros _; right; left; exact E2|reflexivity]. }
  cbv zeta. cbn [bind]. unfold getRequestId, AesgcmDecrypt. cbn [snd].
  set (k := firstn 32 (skipn 32 _)).
  assert (K : aes_key_ok k = true).
  { apply key32. unfold k. rewrite firstn_length, skipn_length, (hkdf_length C OK). reflexivity. }
  rewrite K. cbn [negb].
  destruct (Nat.eqb_spec (length (ar_iv r)) 12) as [E3|E3]; cbn [negb].
  2:{ cbn [bind]. split; [intros _; right; right; exact E3|reflexivity]. }
  split.
  - intros H. destruct (gopen _ _ _ _ _); cbn [bind] in H; discriminate H.
  - intros [X|[X|X]]; contradiction.
Qed.

Lemma validateAll_panics C (OK : crypto_ok C) G kp l : validateAll C G l kp = Panic <-> Exists (fun x => malformed (snd x)) l.
Proof.
  induction l as [|[k r] t IH]; cbn [validateAll].
  - split; [intros H; discriminate H|intros H; inversion H].
  - pose proof (malformed_panics C OK G r kp) as M. destruct (validateAndBuildRemoteAttestation C G r kp) as [a|e|].
    + split.
      * intros H. right. apply IH. destruct (validateAll C G t kp); cbn [bind] in H; [discriminate H|discriminate H|reflexivity].
      * intros H. inversion H as [? ? X|? ? X]; subst; [apply M in X; discriminate X|]. apply IH in X. rewrite X. reflexivity.
    + split.
      * intros H. right. apply IH. exact H.
      * intros H. inversion H as [? ? X|? ? X]; subst; [apply M in X; discriminate X|]. apply IH. exact X.
    + split; [|reflexivity]. intros _. left. apply M. reflexivity.
Qed.

Theorem C127_when_it_crashes : forall C, crypto_ok C -> forall G kp answer,
  GetAndVerifyMultiRemoteAttestation C G kp answer = Panic <->
  answer = Some ANull \/ exists l, answer = Some (AMap l) /\ (1 <= length l <= 3)%nat /\ Exists (fun x => malformed (snd x)) l.
Proof.
  intros C OK G kp answer. unfold GetAndVerifyMultiRemoteAttestation. destruct answer as [[| |l]|].
  - split; [intros _; left; reflexivity|reflexivity].
  - split; [intros H; discriminate H|intros [H|(l & H & _)]; discriminate H].
  - destruct ((length l <? 1) || (3 <? length l))%nat eqn:E.
    + split; [intros H; discriminate H|]. intros [H|(l' & H & L & _)]; [discriminate H|]. injection H as <-.
      apply orb_true_iff in E. destruct E as [E|E]; apply Nat.ltb_lt in E; lia.
    + apply orb_false_iff in E. destruct E as [E1 E2]. apply Nat.ltb_ge in E1, E2. rewrite (validateAll_panics C OK). split.
      * intros X. right. exists l. split; [reflexivity|]. split; [lia|exact X].
      * intros [H|(l' & H & _ & X)]; [discriminate H|]. injection H as <-. exact X.
  - split; [intros H; discriminate H|intros [H|(l & H & _)]; discriminate H].
Qed.
Print Assumptions C127_when_it_crashes.

Theorem C127_malformed_is_an_error_refuted : exists C G kp answer, crypto_ok C /\ gcm_ok G /\
  (exists l, answer = AMap l /\ length l = 1%nat) /\ GetAndVerifyMultiRemoteAttestation C G kp (Some answer) = Panic.
Proof.
  exists toy, toygcm, ([7], basepub toy [7]), (AMap [([1], Some (mkAresp [] [] [] [] [] [] []))]).
  split; [exact toy_ok|]. split; [exact toygcm_ok|]. split; [eexists; split; reflexivity|].
  apply (C127_when_it_crashes toy toy_ok). right. eexists. split; [reflexivity|]. split; [cbn [length]; lia|].
  left. cbn [snd malformed ar_eph]. left. cbn [length]. lia.
Qed.
Print Assumptions C127_malformed_is_an_error_refuted.

(* C128. When nothing is malformed, the attestations returned are exactly those whose request id could be opened: one that
   fails does not hide the others. *)
Theorem C128_the_others_are_kept : forall C G kp l ats, GetAndVerifyMultiRemoteAttestation C G kp (Some (AMap l)) = Ok ats ->
  forall k a, In (k, a) ats <-> exists r, In (k, r) l /\ validateAndBuildRemoteAttestation C G r kp = Ok a.
Proof.
  intros C G kp l ats H. unfold GetAndVerifyMultiRemoteAttestation in H. destruct (_ || _); [discriminate H|].
  revert ats H. induction l as [|[k0 r0] t IH]; intros ats H k a; cbn [validateAll] in H.
  - injection H as <-. split; [intros []|intros (r & [] & _)].
  - destruct (validateAndBuildRemoteAttestation C G r0 kp) as [a0|e|] eqn:E; [| |discriminate H].
    + apply bind_ok in H. destruct H as (rest & R & H). injection H as <-. specialize (IH rest R k a). split.
      * intros [X|X]; [injection X as <- <-; exists r0; split; [left; reflexivity|exact E]|].
        apply IH in X. destruct X as (r & I & V). exists r. split; [right; exact I|exact V].
      * intros (r & [X|X] & V); [injection X as <- <-; rewrite E in V; injection V as <-; left; reflexivity|].
        right. apply IH. exists r. split; [exact X|exact V].
    + specialize (IH ats H k a). rewrite IH. split.
      * intros (r & I & V). exists r. split; [right; exact I|exact V].
      * intros (r & [X|X] & V); [injection X as <- <-; rewrite E in V; discriminate V|]. exists r. split; [exact X|exact V].
Qed.
Print Assumptions C128_the_others_are_kept.

(* But when all fail, that is no error: no attestation is returned, and the query is built and sent without any envelope. *)
Definition ex_wrong : aresp := mkAresp (basepub toy [5]) (basepub toy [6]) [] (zeros 12) [1; 2; 3] (zeros 16) [].
Theorem C128_all_failing_is_an_error_refuted : exists C G kp l q, crypto_ok C /\ gcm_ok G /\ length l = 2%nat /\
  Forall (fun x => validateAndBuildRemoteAttestation C G (snd x) kp = Err EMac) l /\
  GetAndVerifyMultiRemoteAttestation C G kp (Some (AMap l)) = Ok [] /\
  CreateDiscoveryRequest G (toy_hmac []) [[49; 50]] [] (zeros 32) (zeros 32) (zeros 12) = Ok q /\ dr_envs q = [].
Proof.
  assert (Q : exists q, CreateDiscoveryRequest toygcm (toy_hmac []) [[49; 50]] [] (zeros 32) (zeros 32) (zeros 12) = Ok q /\ dr_envs q = [])
    by (vm_compute; eexists; split; reflexivity).
  destruct Q as (q & Q & Q').
  exists toy, toygcm, ([7], basepub toy [7]), [([1], Some ex_wrong); ([2], Some ex_wrong)], q.
  split; [exact toy_ok|]. split; [exact toygcm_ok|]. split; [reflexivity|].
  split; [repeat constructor; vm_compute; reflexivity|]. split; [vm_compute; reflexivity|]. split; [exact Q|exact Q'].
Qed.
Print Assumptions C128_all_failing_is_an_error_refuted.

(* Examples: answers that are accepted, one beside another that fails *)
Example C125_example :
  let good := their_answer toy toygcm [5] [6] (basepub toy [7]) [1; 1] [2] (zeros 12) [9; 9] in
  match GetAndVerifyMultiRemoteAttestation toy toygcm ([7], basepub toy [7]) (Some (AMap [([1], Some ex_wrong); ([2], Some good)])) with
  | Ok [(k, a)] => beq k [2] && beq (at_req a) [9; 9] && beq (at_client a) (their_client_key toy [5] [6] (basepub toy [7]))
  | _ => false
  end = true.
Proof. vm_compute. reflexivity. Qed.
