(* C55 attachments round trip and are authenticated; C77 the digest of the pointer is not looked at;
   C78 uploading crashes on an answer without a usable Location. *)
From Coq Require Import ZArith List Lia Bool.
From Verif Require Import Bytes Res Wire Crypto Cbc CbcProofs Messages Session Builder RecordCodec Content Encodings Decimal
  Sending Receiving Attachments.
Import ListNotations.
Open Scope Z_scope.

(* ---- what the theorems speak about ---- *)

(* the pieces of an uploaded file: an initialisation vector, the encrypted content and an HMAC over both *)
Definition sealed_under (C : crypto) (key blob body : bytes) : Prop :=
  blob = body ++ hmac C (skipn 32 key) body.

Definition slashes (l : bytes) : nat := count_occ Z.eq_dec l 47.

(* ---- proofs ---- *)

Lemma split_slash_count l : length (split_slash l) = S (slashes l).
Proof.
  unfold slashes. induction l as [|c t IH]; [reflexivity|]. cbn [split_slash count_occ].
  destruct (Z.eq_dec c 47) as [->|N].
  - cbn [Z.eqb Pos.eqb length]. now rewrite IH.
  - rewrite (proj2 (Z.eqb_neq c 47) N). destruct (split_slash t); [discriminate|]. cbn [length] in *. exact IH.
Qed.

Lemma relativePath_panics l : relativePath l = Panic <-> (slashes l < 2)%nat.
Proof.
  unfold relativePath. rewrite split_slash_count.
  destruct (S (slashes l) <? 3)%nat eqn:E; [apply Nat.ltb_lt in E|apply Nat.ltb_ge in E]; split; intros H;
    try reflexivity; try discriminate; lia.
Qed.

Lemma split_slash_app a b : slashes a = 0%nat -> split_slash (a ++ 47 :: b) = a :: split_slash b.
Proof.
  unfold slashes. induction a as [|c t IH]; intros H; [reflexivity|]. cbn [app split_slash count_occ] in *.
  destruct (Z.eq_dec c 47) as [->|N]; [discriminate|].
  rewrite (proj2 (Z.eqb_neq c 47) N), IH by exact H. reflexivity.
Qed.

Lemma join_split l : join_slash (split_slash l) = l.
Proof.
  induction l as [|c t IH]; [reflexivity|]. cbn [split_slash].
  destruct (c =? 47) eqn:E.
  - apply Z.eqb_eq in E. subst c. cbn [join_slash].
    destruct (split_slash t) eqn:F; [|now rewrite <- IH].
    pose proof (split_slash_count t) as L. rewrite F in L. discriminate.
  - pose proof (split_slash_count t) as L. destruct (split_slash t) as [|h r]; [discriminate|].
    destruct r; cbn [join_slash app] in *; now rewrite IH.
Qed.

(* The path used for the next request is what follows the host name. *)
Theorem C78_relative_path : forall scheme host path,
  slashes scheme = 0%nat -> slashes host = 0%nat ->
  relativePath (scheme ++ 47 :: 47 :: host ++ 47 :: path) = Ok (47 :: path).
Proof.
  intros scheme host path Hs Hh. unfold relativePath.
  rewrite (split_slash_app scheme) by exact Hs.
  change (47 :: host ++ 47 :: path) with ([] ++ 47 :: (host ++ 47 :: path)).
  rewrite (split_slash_app []) by reflexivity. rewrite (split_slash_app host) by exact Hh.
  pose proof (split_slash_count path) as L.
  destruct (split_slash path) as [|h r] eqn:E; [discriminate|].
  cbn [length Nat.ltb Nat.leb skipn]. rewrite <- E, join_split. reflexivity.
Qed.
Print Assumptions C78_relative_path.

Section U.
Variable C : crypto.
Hypothesis OK : crypto_ok C.
Variable sha256 : bytes -> bytes.

Lemma encrypt_upload keys iv b : length keys = 64%nat -> length iv = 16%nat ->
  exists e, aesEncrypt C (firstn 32 keys) iv b = Ok e.
Proof.
  intros Hk Hi. unfold aesEncrypt. rewrite Encrypt_ok; [eexists; reflexivity| |exact Hi].
  unfold aes_key_ok. rewrite firstn_length, Hk. reflexivity.
Qed.
End U.

(* Exactly when uploading crashes: the form or the allocation gives an address with fewer than two slashes,
   for example no Location header at all. *)
Theorem C78_when_uploading_crashes : forall C sha256 sv keys iv b ct voice,
  length keys = 64%nat -> length iv = 16%nat ->
  (us_form sv <> Panic) -> (forall p, us_post sv p <> Panic) -> (forall u m, us_put sv u m <> Panic) ->
  (uploadAttachmentV3 C sha256 sv keys iv b ct voice = Panic <->
   exists a, us_form sv = Ok a /\
     ((slashes (ua_loc a) < 2)%nat \/
      exists p l, relativePath (ua_loc a) = Ok p /\ us_post sv p = Ok l /\ (slashes l < 2)%nat)).
Proof.
  intros C sha sv keys iv b ct voice Hk Hi F1 F2 F3. unfold uploadAttachmentV3, allocateAttachmentV3.
  destruct (encrypt_upload C keys iv b Hk Hi) as [e E]. rewrite E. cbn [bind].
  destruct (us_form sv) as [a| |] eqn:Ea; cbn [bind].
  2:{ split; [discriminate|intros (x & X & _); discriminate]. }
  2:{ now elim F1. }
  destruct (relativePath (ua_loc a)) as [p| |] eqn:Ep; cbn [bind].
  - assert (N : ~ (slashes (ua_loc a) < 2)%nat) by (rewrite <- relativePath_panics; congruence).
    destruct (us_post sv p) as [l| |] eqn:El; cbn [bind].
    + destruct (relativePath l) as [r| |] eqn:Er; cbn [bind].
      * split.
        -- unfold putAttachmentV3. destruct (us_put sv r _) eqn:X; cbn [bind]; try discriminate. now elim (F3 _ _ X).
        -- intros (a' & [= <-] & [L|(p' & l' & E1 & E2 & L)]); [contradiction|].
           rewrite Ep in E1. injection E1 as <-. rewrite El in E2. injection E2 as <-. apply relativePath_panics in L. congruence.
      * exfalso. revert Er. unfold relativePath. destruct (_ <? _)%nat; discriminate.
      * split; [intros _|reflexivity]. exists a. split; [reflexivity|]. right. exists p, l.
        repeat split; auto. now apply relativePath_panics.
    + split; [discriminate|]. intros (a' & [= <-] & [L|(p' & l' & E1 & E2 & L)]); [contradiction|].
      rewrite Ep in E1. injection E1 as <-. congruence.
    + now elim (F2 _ El).
  - exfalso. revert Ep. unfold relativePath. destruct (_ <? _)%nat; discriminate.
  - split; [intros _|reflexivity]. exists a. split; [reflexivity|]. left. now apply relativePath_panics.
Qed.
Print Assumptions C78_when_uploading_crashes.

(* What was uploaded comes back: through the pointer, the message built from it and the download. *)
Theorem C55_round_trip : forall C, crypto_ok C -> forall sha256 sv keys iv b ct voice p loc m,
  length keys = 64%nat -> length iv = 16%nat -> wfb iv -> wfb b ->
  uploadAttachmentV3 C sha256 sv keys iv b ct voice = Ok (p, (loc, m)) ->
  forall pk now o, o_att o = Some p ->
  exists a, d_atts (createMessage pk now o) = [a] /\
    (forall ou, ou_fetch ou a = Ok m -> handleAttachments C ou (d_atts (createMessage pk now o)) = Ok [b]) /\
    ap_type a = Some ct /\ ap_digest a = Some (sha256 m) /\
    (zlen b < 2 ^ 32 -> ap_size a = Some (zlen b)) /\
    attachment_location a = (if pt_cdn p =? 2 then cdn2_url else cdn_url) ++ att_path ++ pt_cdnkey p.
Proof.
  intros C OK sha sv keys iv b ct voice p loc m Hk Hi Hiw Hb U pk now o Ho.
  unfold uploadAttachmentV3 in U.
  destruct (aesEncrypt C (firstn 32 keys) iv b) as [e| |] eqn:E; cbn [bind] in U; try discriminate.
  destruct (allocateAttachmentV3 sv) as [[lc at0]| |]; cbn [bind] in U; try discriminate.
  unfold putAttachmentV3 in U. destruct (us_put sv lc _); cbn [bind] in U; try discriminate.
  remember (skipn 32 keys) as k2 eqn:Hk2. injection U as <- <- <-.
  cbn [createMessage d_atts]. unfold createMessage. rewrite Ho. cbn [d_atts pt_cdnkey pt_cdn pt_ct pt_keys pt_digest pt_size pt_voice].
  eexists. split; [reflexivity|]. repeat split; cbn [ap_type ap_digest ap_size].
  - intros ou F. cbn [handleAttachments]. unfold handleSingleAttachment. rewrite F. cbn [bind ap_key g_bytes].
    unfold appendMAC. rewrite <- Hk2.
    assert (L : zlen (e ++ hmac C k2 e) - 32 = zlen e).
    { unfold zlen. rewrite app_length, (hmac_length C OK). lia. }
    rewrite L. unfold zlen at 1. rewrite Hk. change (Z.of_nat 64 <? 32) with false. cbn [orb].
    unfold zlen. rewrite Nat2Z.id. rewrite firstn_app_exact, skipn_app_exact by reflexivity.
    destruct (Z.of_nat (length e) <? 0) eqn:N; [apply Z.ltb_lt in N; lia|].
    unfold Cbc.verifyMAC. rewrite beq_refl. cbn [negb].
    unfold aesEncrypt in E. destruct (Encrypt C (firstn 32 keys) iv b) as [c| |] eqn:Ec; cbn [bind] in E; try discriminate.
    injection E as <-. unfold aesDecrypt. rewrite (Decrypt_Encrypt C OK _ _ _ _ Hb Hiw Ec). reflexivity.
  - intros Hlt. f_equal. apply Z.mod_small. unfold zlen in *. lia.
Qed.
Print Assumptions C55_round_trip.

(* Uploading succeeds when the servers answer with addresses. *)
Theorem C55_upload_succeeds : forall C sha256 sv keys iv b ct voice a l,
  length keys = 64%nat -> length iv = 16%nat ->
  us_form sv = Ok a -> (2 <= slashes (ua_loc a))%nat ->
  (forall p, us_post sv p = Ok l) -> (2 <= slashes l)%nat -> (forall u m, us_put sv u m = Ok tt) ->
  exists p loc m, uploadAttachmentV3 C sha256 sv keys iv b ct voice = Ok (p, (loc, m)).
Proof.
  intros C sha sv keys iv b ct voice a l Hk Hi F S1 P S2 Q.
  unfold uploadAttachmentV3, allocateAttachmentV3, putAttachmentV3.
  destruct (encrypt_upload C keys iv b Hk Hi) as [e E]. rewrite E, F. cbn [bind].
  unfold relativePath. rewrite split_slash_count.
  rewrite (proj2 (Nat.ltb_ge (S (slashes (ua_loc a))) 3)) by lia. cbn [bind]. rewrite P. cbn [bind].
  rewrite split_slash_count, (proj2 (Nat.ltb_ge (S (slashes l)) 3)) by lia. cbn [bind]. rewrite Q. cbn [bind].
  do 3 eexists. reflexivity.
Qed.
Print Assumptions C55_upload_succeeds.

(* Whatever is handed to the user was sealed under the key of the pointer ... *)
Theorem C55_authentic : forall C, crypto_ok C -> forall ou a b, handleSingleAttachment C ou a = Ok b ->
  exists key blob body, ap_key a = Some key /\ ou_fetch ou a = Ok blob /\ sealed_under C key blob body /\
    Decrypt C (firstn 32 key) body = Ok b.
Proof.
  intros C OK ou a b H. unfold handleSingleAttachment in H.
  destruct (ou_fetch ou a) as [blob| |] eqn:F; cbn [bind] in H; try discriminate.
  destruct (ap_key a) as [key|] eqn:K; cbn [g_bytes] in H.
  2:{ cbn in H. discriminate. }
  destruct (zlen key <? 32) eqn:A; cbn [orb] in H; [discriminate|].
  destruct (zlen blob - 32 <? 0) eqn:B; [discriminate|]. apply Z.ltb_ge in B.
  unfold Cbc.verifyMAC in H.
  destruct (beq _ _) eqn:M; cbn [negb] in H; [|discriminate]. apply beq_eq in M.
  exists key, blob, (firstn (Z.to_nat (zlen blob - 32)) blob). repeat split; auto.
  unfold sealed_under. rewrite M. symmetry. apply firstn_skipn.
Qed.
Print Assumptions C55_authentic.

(* ... and any other file of at least 32 bytes is refused, unless the key is too short to be one (C69). *)
Theorem C55_refused : forall C, crypto_ok C -> forall ou a key blob,
  ap_key a = Some key -> (32 <= length key)%nat -> ou_fetch ou a = Ok blob -> (32 <= length blob)%nat ->
  (forall body, ~ sealed_under C key blob body) -> handleSingleAttachment C ou a = Err EMac.
Proof.
  intros C OK ou a key blob K Lk F Lb N. unfold handleSingleAttachment. rewrite F, K. cbn [bind g_bytes].
  destruct (zlen key <? 32) eqn:A; [apply Z.ltb_lt in A; unfold zlen in A; lia|].
  destruct (zlen blob - 32 <? 0) eqn:B; [apply Z.ltb_lt in B; unfold zlen in B; lia|]. cbn [orb].
  unfold Cbc.verifyMAC. destruct (beq _ _) eqn:M; cbn [negb]; [|reflexivity]. apply beq_eq in M.
  elim (N (firstn (Z.to_nat (zlen blob - 32)) blob)). unfold sealed_under. rewrite M. symmetry. apply firstn_skipn.
Qed.
Print Assumptions C55_refused.

(* ---- examples ---- *)
Definition ex_keys : bytes := map Z.of_nat (seq 1 64).
Definition ex_iv : bytes := map Z.of_nat (seq 100 16).
Definition ex_pic : bytes := [255; 216; 255; 224; 0; 16; 74; 70; 73; 70; 0; 1; 2; 3; 4; 5; 6; 7; 8; 9].
(* "https://a/b" and "https://a/c/d" *)
Definition ex_form : upattrs := mkUp 2 [107; 49] [104;116;116;112;115;58;47;47;97;47;98].
Definition ex_sv : upserver := mkUs (Ok ex_form) (fun _ => Ok [104;116;116;112;115;58;47;47;97;47;99;47;100]) (fun _ _ => Ok tt).
Definition ex_up := Eval vm_compute in uploadAttachmentV3 toy (toy_hmac []) ex_sv ex_keys ex_iv ex_pic [106; 112] false.
Definition ex_ou (m : bytes) : outside := mkOutside (fun _ => Ok m) (fun _ => Ok None) (fun _ => None) (fun _ => Err EOther) (Ok tt)
  (fun _ => Ok tt) (Ok tt).

Example C55_example : exists p loc m a,
  uploadAttachmentV3 toy (toy_hmac []) ex_sv ex_keys ex_iv ex_pic [106; 112] false = Ok (p, (loc, m)) /\
  loc = [47; 99; 47; 100] /\
  d_atts (createMessage None 5 (mkOut [49] [104; 105] None None (Some p) 0 0 None)) = [a] /\
  handleAttachments toy (ex_ou m) [a] = Ok [ex_pic] /\ zlen m = 80 /\
  (* a changed byte is noticed *)
  handleAttachments toy (ex_ou (firstn 20 m ++ [(nth 20 m 0 + 1) mod 256] ++ skipn 21 m)) [a] = Err EMac.
Proof.
  do 4 eexists. split; [vm_compute; reflexivity|]. split; [vm_compute; reflexivity|].
  split; [vm_compute; reflexivity|]. split; [vm_compute; reflexivity|]. split; vm_compute; reflexivity.
Qed.

(* C77. A peer who knows the key (the sender, or anyone the pointer was forwarded to) can have the server
   give out another file under the same pointer: the digest in the message does not match, and it is
   accepted all the same. *)
Definition ex_blob1 := Eval vm_compute in match ex_up with Ok (_, (_, m)) => m | _ => [] end.
Definition ex_blob2 := Eval vm_compute in
  match uploadAttachmentV3 toy (toy_hmac []) ex_sv ex_keys ex_iv [66; 65; 68] [106; 112] false with
  | Ok (_, (_, m)) => m | _ => [] end.
Theorem C77_digest_decides_refuted : exists C sha256 a blob blob' b b',
  crypto_ok C /\ ap_digest a = Some (sha256 blob) /\ Some (sha256 blob') <> ap_digest a /\
  handleSingleAttachment C (ex_ou blob) a = Ok b /\ handleSingleAttachment C (ex_ou blob') a = Ok b' /\ b <> b'.
Proof.
  exists toy, (toy_hmac []), (mkAtt (Some (inr [107; 49])) (Some [106; 112]) (Some ex_keys) (Some 20)
    (Some (toy_hmac [] ex_blob1)) (Some []) None (Some 2)), ex_blob1, ex_blob2, ex_pic, [66; 65; 68].
  split; [exact toy_ok|]. split; [reflexivity|]. split.
  - intros X. apply (f_equal (fun o => match o with Some x => nth 0 x 0 | None => 0 end)) in X. vm_compute in X. discriminate.
  - split; [vm_compute; reflexivity|]. split; [vm_compute; reflexivity|]. discriminate.
Qed.
Print Assumptions C77_digest_decides_refuted.

(* The digest plays no part at all. *)
Theorem C77_digest_ignored : forall C ou a d,
  (forall x, ou_fetch ou (mkAtt (ap_id a) (ap_type a) (ap_key a) (ap_size a) x (ap_name a) (ap_flags a) (ap_cdn a)) = ou_fetch ou a) ->
  handleSingleAttachment C ou (mkAtt (ap_id a) (ap_type a) (ap_key a) (ap_size a) d (ap_name a) (ap_flags a) (ap_cdn a))
  = handleSingleAttachment C ou a.
Proof. intros C ou a d H. unfold handleSingleAttachment. rewrite H. reflexivity. Qed.
Print Assumptions C77_digest_ignored.

(* C78. The server accepts the allocation but sends no Location header. *)
Theorem C78_uploading_never_crashes_refuted : exists C sha256 sv keys iv b ct,
  crypto_ok C /\ length keys = 64%nat /\ length iv = 16%nat /\ us_form sv = Ok ex_form /\
  (forall p, us_post sv p = Ok []) /\
  uploadAttachmentV3 C sha256 sv keys iv b ct false = Panic.
Proof.
  exists toy, (toy_hmac []), (mkUs (Ok ex_form) (fun _ => Ok []) (fun _ _ => Ok tt)), ex_keys, ex_iv, ex_pic, [106; 112].
  split; [exact toy_ok|]. do 2 (split; [reflexivity|]). split; [reflexivity|]. split; [reflexivity|].
  vm_compute. reflexivity.
Qed.
Print Assumptions C78_uploading_never_crashes_refuted.
