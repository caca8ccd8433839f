(* C213: the store is opened with its password and with nothing else *)
From Coq Require Import ZArith List Lia Bool.
From Verif Require Import Bytes Res Crypto Cbc Messages Session Builder Decimal Storage StorageProofs PropStorage Examples PreKeyGen PropPreKeys Startup PropStartup ConfigFile OpenStore.
Import ListNotations.
Open Scope Z_scope.

Lemma open_salt pb pw rnd o salt cf t : newStore pb pw rnd o salt = (Ok cf, t) ->
  pw = [] /\ cf = mkConf true [] [] /\ t = salt \/
  pw <> [] /\ exists x, t = Some x /\ cf = mkConf false (firstn 16 (pb pw x)) (skipn 16 (pb pw x)) /\ (salt = Some x \/ salt = None /\ x = rnd).
Proof.
  unfold newStore. destruct (beq pw []) eqn:B.
  - apply beq_eq in B. intros [= <- <-]. left. auto.
  - intros E. right. split; [intros ->; discriminate|]. destruct salt as [x|].
    + injection E as <- <-. exists x. auto.
    + destruct o; try discriminate. injection E as <- <-. exists rnd. auto.
Qed.
Lemma reopened_some pb l x : reopened pb l (Some x) = Some x.
Proof.
  unfold reopened. induction l as [|[[pw r] o] l IH]; [reflexivity|]. cbn [fold_left fst snd]. unfold newStore at 2.
  destruct (beq pw []); exact IH.
Qed.

(* C213. Whatever passwords the store is opened with in between: opened again with the password that was used when
   something was written, it gives what was written. *)
Theorem C213_reopened : forall C pb pw rnd o salt cf t l rnd' o' iv fs p b fs', crypto_ok C ->
  newStore pb pw rnd o salt = (Ok cf, t) -> wfb b -> iv_ok iv -> writeFile C cf iv fs p b = Ok fs' ->
  exists cf', fst (newStore pb pw rnd' o' (reopened pb l t)) = Ok cf' /\ readFile C cf' fs' p = Ok b.
Proof.
  intros C pb pw rnd o salt cf t l rnd' o' iv fs p b fs' OK N W IV E. exists cf.
  split; [|apply (C24_storage_round_trip C OK cf iv fs p b fs' W IV E)].
  destruct (open_salt _ _ _ _ _ _ _ N) as [(-> & -> & _)|(NE & x & -> & -> & _)]; [reflexivity|].
  rewrite reopened_some. unfold newStore. destruct (beq pw []) eqn:B; [apply beq_eq in B; contradiction|]. reflexivity.
Qed.
(* With a password, what is on the disk is the text sealed with keys that come from the password and the salt ... *)
Theorem C213_sealed : forall C pb pw rnd o salt cf t iv fs p b fs', pw <> [] ->
  newStore pb pw rnd o salt = (Ok cf, t) -> writeFile C cf iv fs p b = Ok fs' ->
  exists x e, t = Some x /\ aesEncrypt C (firstn 16 (pb pw x)) iv b = Ok e /\
    raw_read fs' p = Some (e ++ hmac C (skipn 16 (pb pw x)) e).
Proof.
  intros C pb pw rnd o salt cf t iv fs p b fs' NE N E. destruct (open_salt _ _ _ _ _ _ _ N) as [(-> & _)|(_ & x & -> & -> & _)]; [now elim NE|].
  unfold writeFile, st_encrypt in E. cbn [c_plain c_aes c_mac] in E.
  destruct (aesEncrypt C (firstn 16 (pb pw x)) iv b) as [e| |] eqn:A; cbn [bind] in E; try discriminate. injection E as <-.
  exists x, e. split; [reflexivity|]. split; [exact A|]. unfold appendMAC. apply read_write_same.
Qed.
(* ... and another password gives anything only if the authentication codes of the two keys are the same for it. *)
Theorem C213_other_password : forall C pb pw rnd o salt cf t l pw' rnd' o' cf' iv fs p b fs' r, crypto_ok C -> pw <> [] -> pw' <> [] ->
  newStore pb pw rnd o salt = (Ok cf, t) -> writeFile C cf iv fs p b = Ok fs' ->
  fst (newStore pb pw' rnd' o' (reopened pb l t)) = Ok cf' -> readFile C cf' fs' p = Ok r ->
  exists x e, t = Some x /\ raw_read fs' p = Some (e ++ hmac C (skipn 16 (pb pw x)) e) /\
    hmac C (skipn 16 (pb pw' x)) e = hmac C (skipn 16 (pb pw x)) e.
Proof.
  intros C pb pw rnd o salt cf t l pw' rnd' o' cf' iv fs p b fs' r OK NE NE' N E N' R.
  destruct (C213_sealed C pb pw rnd o salt cf t iv fs p b fs' NE N E) as (x & e & -> & A & RR). exists x, e. split; [reflexivity|]. split; [exact RR|].
  rewrite reopened_some in N'. destruct (newStore pb pw' rnd' o' (Some x)) as [r0 t'] eqn:N2. cbn [fst] in N'. subst r0.
  destruct (open_salt _ _ _ _ _ _ _ N2) as [(-> & _)|(_ & x' & -> & -> & X)]; [now elim NE'|]. destruct X as [X|[X _]]; [|discriminate]. apply (f_equal (fun o => match o with Some z => z | None => [] end)) in X. cbv beta iota in X. subst x'.
  destruct (C24_tamper_detection C (mkConf false (firstn 16 (pb pw' x)) (skipn 16 (pb pw' x))) fs' p r eq_refl R) as (e' & R'). cbn [c_mac] in R'. rewrite RR in R'. apply (f_equal (fun o => match o with Some z => z | None => [] end)) in R'. cbv beta iota in R'.
  assert (L : length e = length e').
  { apply (f_equal (@length Z)) in R'. rewrite !app_length, !(hmac_length C OK) in R'. lia. }
  assert (e = e' /\ hmac C (skipn 16 (pb pw x)) e = hmac C (skipn 16 (pb pw' x)) e') as [-> H].
  { revert e' L R'. clear. generalize (hmac C (skipn 16 (pb pw x)) e) as u. intros u e'. generalize (hmac C (skipn 16 (pb pw' x)) e') as v. intros v.
    revert e'. induction e as [|a e IH]; intros [|a' e'] L R; try discriminate L; [auto|]. cbn [app] in R. injection R as -> R.
    cbn [length] in L. destruct (IH e' ltac:(lia) R) as [-> ->]. auto. }
  symmetry. exact H.
Qed.

(* The store is encrypted unless unencryptedStorage is set: not if the password is empty. Nothing asks again. *)
Theorem C213_empty_password : forall C pb s rnd o salt iv fs p b, s_plain s = false -> s_pass s = [] ->
  exists cf fs', setupStore pb s [] rnd o salt = (Ok cf, salt) /\ writeFile C cf iv fs p b = Ok fs' /\ raw_read fs' p = Some b.
Proof.
  intros C pb s rnd o salt iv fs p b PL PW. unfold setupStore, storePassword. rewrite PL, PW. cbn [beq].
  eexists _, _. split; [reflexivity|]. unfold writeFile, st_encrypt. cbn [c_plain bind]. split; [reflexivity|]. apply read_write_same.
Qed.
Theorem C213_encrypted_refuted : exists C pb s app rnd iv k cf t fs, crypto_ok C /\ s_plain s = false /\
  setupStore pb s app rnd WWhole None = (Ok cf, t) /\ SetIdentityKeyPair C cf iv [] k = Ok fs /\ raw_read fs identPath = Some (snd k ++ fst k).
Proof.
  exists toy, (fun _ _ => repeat 1 36), (defaults zero_settings), [], (repeat 7 8), (repeat 0 16), (ex_kps' 1), (mkConf true [] []), None.
  eexists. split; [exact toy_ok|]. split; [reflexivity|]. split; [reflexivity|]. split; [reflexivity|]. vm_compute. reflexivity.
Qed.

(* Which password it is: none if unencryptedStorage is set, else that of the configuration, else the one the user types. *)
Theorem C213_which : forall pb s app rnd o x cf t, setupStore pb s app rnd o (Some x) = (Ok cf, t) ->
  (s_plain s = true -> c_plain cf = true) /\
  (s_plain s = false -> s_pass s <> [] -> cf = mkConf false (firstn 16 (pb (s_pass s) x)) (skipn 16 (pb (s_pass s) x))) /\
  (s_plain s = false -> s_pass s = [] -> app <> [] -> cf = mkConf false (firstn 16 (pb app x)) (skipn 16 (pb app x))).
Proof.
  intros pb s app rnd o x cf t E. unfold setupStore in E. pose proof (open_salt _ _ _ _ _ _ _ E) as O. unfold storePassword in O.
  assert (G : forall pw, pw <> [] -> (pw = [] /\ cf = mkConf true [] [] /\ t = Some x \/ pw <> [] /\ (exists y, t = Some y /\
    cf = mkConf false (firstn 16 (pb pw y)) (skipn 16 (pb pw y)) /\ (Some x = Some y \/ Some x = None /\ y = rnd))) ->
    cf = mkConf false (firstn 16 (pb pw x)) (skipn 16 (pb pw x))).
  { intros pw NE [(Z & _)|(_ & y & _ & -> & [Y|[Y _]])]; [contradiction| |discriminate].
    apply (f_equal (fun o => match o with Some z => z | None => [] end)) in Y. cbv beta iota in Y. now subst y. }
  split; [|split].
  - intros P. rewrite P in O. destruct O as [(_ & -> & _)|(Z & _)]; [reflexivity|now elim Z].
  - intros P NE. rewrite P in O. destruct (beq (s_pass s) []) eqn:B; [apply beq_eq in B; contradiction|]. exact (G _ NE O).
  - intros P Z NE. rewrite P, Z in O. cbn [beq] in O. exact (G _ NE O).
Qed.
Print Assumptions C213_which.
(* The keys depend on eight random bytes that were drawn when the store was made ... *)
Theorem C213_salt_partial : forall pb pw rnd o cf t, pw <> [] -> newStore pb pw rnd o None = (Ok cf, t) ->
  t = Some rnd /\ o = WWhole /\ cf = mkConf false (firstn 16 (pb pw rnd)) (skipn 16 (pb pw rnd)).
Proof.
  intros pb pw rnd o cf t NE N. unfold newStore in N. destruct (beq pw []) eqn:B; [apply beq_eq in B; contradiction|].
  destruct o; try discriminate. injection N as <- <-. auto.
Qed.
(* ... but not if the first start was cut off: then there are none, for good, and whoever has the same password has
   the same keys. *)
Theorem C213_no_salt : forall pb pw rnd l rnd' o', pw <> [] ->
  let t := snd (newStore pb pw rnd (WCut 0) None) in
  fst (newStore pb pw rnd' o' (reopened pb l t)) = Ok (mkConf false (firstn 16 (pb pw [])) (skipn 16 (pb pw []))).
Proof.
  intros pb pw rnd l rnd' o' NE. cbv zeta. assert (B : beq pw [] = false) by (destruct (beq pw []) eqn:B; [apply beq_eq in B; contradiction|reflexivity]).
  assert (T : snd (newStore pb pw rnd (WCut 0) None) = Some []) by (unfold newStore; rewrite B; reflexivity).
  rewrite T, reopened_some. unfold newStore. rewrite B. reflexivity.
Qed.
Theorem C213_salt_refuted : exists pb pw rnd1 rnd2 rnd' cf1 cf2, rnd1 <> rnd2 /\ pb pw rnd1 <> pb pw rnd2 /\
  fst (newStore pb pw rnd' WWhole (snd (newStore pb pw rnd1 (WCut 0) None))) = Ok cf1 /\
  fst (newStore pb pw rnd' WWhole (snd (newStore pb pw rnd2 (WCut 0) None))) = Ok cf2 /\ cf1 = cf2.
Proof.
  exists (fun p s => firstn 36 (p ++ s ++ repeat 0 36)), [80], (repeat 1 8), (repeat 2 8), (repeat 3 8).
  eexists _, _. split; [discriminate|]. split; [discriminate|]. split; [reflexivity|]. split; reflexivity.
Qed.

(* A client that was used without a password ends at every start with one: the first file it reads is shorter than an
   authentication code. *)
Lemma udec_fuel_short n : forall v, (length (udec_fuel n v) <= n)%nat.
Proof.
  induction n as [|n IH]; intros v; cbn [udec_fuel]; [cbn; lia|]. destruct (v <? 10); [cbn [length]; lia|]. rewrite app_length. cbn [length]. specialize (IH (v / 10)). lia.
Qed.
Lemma itoa_short v : zlen (itoa v) < 32.
Proof.
  unfold zlen, itoa, udec. destruct (v <? 0); cbn [length]; [pose proof (udec_fuel_short 20 (- v))|pose proof (udec_fuel_short 20 v)]; lia.
Qed.
Theorem C213_password_later : forall C pb pw rnd o salt cf t I d v, pw <> [] -> newStore pb pw rnd o salt = (Ok cf, t) ->
  exists_file (fst d) (preKeyPath lastResortPreKeyID) = true -> raw_read (fst d) regidPath = Some (itoa v) ->
  start C cf I d = (Panic, d, []).
Proof.
  intros C pb pw rnd o salt cf t I d v NE N V R. destruct (open_salt _ _ _ _ _ _ _ N) as [(-> & _)|(_ & x & _ & -> & _)]; [now elim NE|]. clear N.
  unfold start. rewrite setup_split. cbn zeta. cbn [boot t_files t_disk t_nw t_nc t_drawn t_log]. unfold valid. rewrite V.
  set (cf := mkConf _ _ _).
  assert (P : readNum C cf (fst d) regidPath = Panic).
  { unfold readNum, readFile. rewrite R. unfold st_decrypt, cf. cbn [c_plain]. pose proof (itoa_short v). destruct (zlen (itoa v) <? 32) eqn:L; [reflexivity|lia]. }
  unfold rest. unfold mbind at 1, lift at 1. cbn [t_files]. rewrite P. cbn [t_files t_disk t_log rev]. destruct d; reflexivity.
Qed.
(* The first start with a password makes the salt, of its own random bytes, and it stays. *)
Theorem C213_first : forall pb pw rnd l, pw <> [] -> reopened pb ((pw, rnd, WWhole) :: l) None = Some rnd.
Proof.
  intros pb pw rnd l N. change (reopened pb ((pw, rnd, WWhole) :: l) None) with (reopened pb l (snd (newStore pb pw rnd WWhole None))).
  assert (E : snd (newStore pb pw rnd WWhole None) = Some rnd) by (unfold newStore; destruct (beq pw []) eqn:B; [apply beq_eq in B; contradiction|reflexivity]).
  rewrite E. apply reopened_some.
Qed.
Print Assumptions C213_first.
Print Assumptions C213_reopened.
Print Assumptions C213_sealed.
Print Assumptions C213_other_password.
Print Assumptions C213_empty_password.
Print Assumptions C213_encrypted_refuted.
Print Assumptions C213_salt_partial.
Print Assumptions C213_no_salt.
Print Assumptions C213_salt_refuted.
Print Assumptions C213_password_later.

(* Examples. A store is made with the password "P"; a registration number is written, the store is opened with another
   password, which cannot read it, and again with the right one. The installation of ex_disk1, made without a password,
   ends with one. *)
Definition ex_pb (pw salt : bytes) : bytes := firstn 36 (concat (repeat (pw ++ salt) 36)).
Example C213_example :
  let t := snd (newStore ex_pb [80] (repeat 7 8) WWhole None) in
  let fs := match writeFile toy (genKeys ex_pb [80] (repeat 7 8)) (repeat 1 16) [] regidPath (itoa 4711) with Ok fs => fs | _ => [] end in
  fst (newStore ex_pb [80] (repeat 7 8) WWhole None) = Ok (genKeys ex_pb [80] (repeat 7 8)) /\
  writeFile toy (genKeys ex_pb [80] (repeat 7 8)) (repeat 1 16) [] regidPath (itoa 4711) = Ok fs /\
  readFile toy (genKeys ex_pb [81] (repeat 7 8)) fs regidPath = Err EMac /\
  fst (newStore ex_pb [80] (repeat 9 8) WKept (reopened ex_pb [([81], repeat 5 8, WWhole); ([], [], WKept)] t)) = Ok (genKeys ex_pb [80] (repeat 7 8)) /\
  readFile toy (genKeys ex_pb [80] (repeat 7 8)) fs regidPath = Ok (itoa 4711).
Proof. cbv zeta. split; [reflexivity|]. split; [vm_compute; reflexivity|]. split; [vm_compute; reflexivity|]. split; [reflexivity|vm_compute; reflexivity]. Qed.
Example C213_later_example : exists v, exists_file (fst ex_disk1) (preKeyPath lastResortPreKeyID) = true /\ raw_read (fst ex_disk1) regidPath = Some (itoa v).
Proof. exists (generateRegistrationID 7). split; vm_compute; reflexivity. Qed.
