(* C119 a linked device receives the account; C120 linking after a failed attempt; C121 every device gets a code
   of its own; C122 success means that the device got a code; C123 an unlinked device is gone; C124 the list of
   devices is the one of the server. *)
From Coq Require Import ZArith List Lia Bool.
From Verif Require Import Bytes Res Wire WireProofs Crypto Cbc CbcProofs Session Builder RecordCodec RecordCodecProofs Storage StorageProofs
  Encodings PropEncodings Linking.
Import ListNotations.
Open Scope Z_scope.
Ltac Zify.zify_post_hook ::= Z.to_euclidean_division_equations.

(* ---- what the theorems speak about ---- *)

(* what a device knows after it was linked *)
Record provision := mkProv { pv_pub : bytes; pv_priv : bytes; pv_tel : bytes; pv_code : bytes; pv_uuid : bytes; pv_profile : option bytes }.

(* "TextSecure Provisioning Message", as the device spells it *)
Definition device_info : bytes :=
  [84;101;120;116;83;101;99;117;114;101] ++ [32] ++ [80;114;111;118;105;115;105;111;110;105;110;103] ++ [32] ++ [77;101;115;115;97;103;101].

(* What the new device does with the text it gets from the server: the sender's key and the body, the shared
   secret, the MAC (the last 32 bytes) over everything before it, version 1, AES-CBC, and the message in it. *)
Definition device_reads (fs : list wfield) : option provision :=
  match get_len 1 fs, get_len 2 fs, get_len 3 fs, get_len 4 fs, get_len 8 fs with
  | Some p, Some s, Some t, Some c, Some u => Some (mkProv p s t c u (get_len 6 fs))
  | _, _, _, _, _ => None
  end.
Definition device_opens (C : crypto) (priv text : bytes) : option provision :=
  match dec64 text with
  | Ok env =>
      match parse env with
      | Some fs =>
          match get_len 1 fs, get_len 2 fs with
          | Some (5 :: pub), Some body =>
              let n := (length body - 32)%nat in
              let keys := hkdf C (dh C priv pub) [] device_info 64 in
              if beq (hmac C (skipn 32 keys) (firstn n body)) (skipn n body) then
                match firstn n body with
                | 1 :: ct => match Decrypt C (firstn 32 keys) ct with
                             | Ok m => match parse m with Some gs => device_reads gs | None => None end
                             | _ => None
                             end
                | _ => None
                end
              else None
          | _, _ => None
          end
      | None => None
      end
  | _ => None
  end.

Definition good_account (a : account) : Prop :=
  wfb (ac_pub a) /\ wfb (ac_priv a) /\ wfb (ac_uuid a) /\ wfb (ac_tel a) /\
  zlen (ac_pub a) < 2 ^ 32 /\ zlen (ac_priv a) < 2 ^ 32 /\ zlen (ac_uuid a) < 2 ^ 32 /\ zlen (ac_tel a) < 2 ^ 32.

(* the call o gave its device a code that the server had given out n seconds before, in a call of the list *)
Definition issued (tr : list obs) (t : nat) (code : bytes) : Prop := exists o, In o tr /\ o_at o = t /\ o_got o = Some code.

(* ---- sizes ---- *)

Lemma enc_varint_bound n v : (length (enc_varint n v) <= n)%nat.
Proof.
  revert v; induction n as [|n IH]; intros v; [cbn; lia|].
  rewrite enc_varint_S. destruct (v <? 128); cbn [length]; [lia|]. specialize (IH (v / 128)). lia.
Qed.
Lemma varint_bound v : zlen (varint v) <= 10.
Proof. unfold zlen, varint. pose proof (enc_varint_bound 10 v). lia. Qed.

Lemma field_bound n b : zlen (enc_field (n, WLen b)) <= 20 + zlen b.
Proof.
  unfold enc_field. cbn [fst snd enc_val]. rewrite !zlen_app. pose proof (varint_bound (zlen b)).
  match goal with |- zlen (varint ?v) + _ <= _ => pose proof (varint_bound v) end. lia.
Qed.

Lemma marshal2 n1 b1 n2 b2 : zlen (marshal [(n1, [WLen b1]); (n2, [WLen b2])]) <= 40 + zlen b1 + zlen b2.
Proof.
  unfold marshal, flat, encode. cbn [flat_map map fst snd app]. rewrite app_nil_r, zlen_app.
  pose proof (field_bound n1 b1). pose proof (field_bound n2 b2). lia.
Qed.
Lemma provision_bound a code : zlen (marshal (provision_slots a code)) <=
  101 + zlen (ac_pub a) + zlen (ac_priv a) + zlen (ac_tel a) + zlen code + zlen (ac_uuid a).
Proof.
  unfold provision_slots, marshal, flat, encode. cbn [flat_map map fst snd app]. rewrite app_nil_r, !zlen_app.
  pose proof (field_bound 1 (5 :: ac_pub a)) as H. rewrite zlen_cons in H.
  pose proof (field_bound 2 (ac_priv a)). pose proof (field_bound 3 (ac_tel a)). pose proof (field_bound 4 code).
  pose proof (field_bound 8 (ac_uuid a)). lia.
Qed.

Section Proofs.
Variable C : crypto.
Hypothesis OK : crypto_ok C.

Lemma encrypt_total key iv pt : length key = 32%nat -> length iv = 16%nat -> wfb iv -> wfb pt ->
  exists c, Encrypt C key iv pt = Ok c /\ zlen c <= zlen pt + 16 /\ wfb c.
Proof.
  intros Hk Hi Hiw Hw. assert (K : aes_key_ok key = true) by (unfold aes_key_ok; rewrite Hk; reflexivity).
  rewrite Encrypt_ok by assumption. eexists. split; [reflexivity|].
  destruct (padded_blocks pt Hw) as [Hb Hcat].
  pose proof (cbc_enc_blocks C OK key iv (blocks (pkcs_pad pt)) K (conj Hi Hiw) Hb) as HB.
  split; [|apply concat_wf; exact HB].
  unfold zlen. rewrite (concat_length16 _ HB).
  assert (L : length (cbc_enc C key iv (blocks (pkcs_pad pt))) = length (blocks (pkcs_pad pt))).
  { generalize (blocks (pkcs_pad pt)). intros bl. clear. revert iv. induction bl; intros; cbn [cbc_enc length]; [reflexivity|now rewrite IHbl]. }
  rewrite L. unfold blocks. rewrite chunk16_length.
  pose proof (pkcs_pad_facts pt) as (Hp & Hm & _). cbv zeta in *.
  assert (Lp : length (pkcs_pad pt) = (length pt + (16 - length pt mod 16))%nat) by (unfold pkcs_pad; rewrite app_length, repeat_length; reflexivity).
  pose proof (mul16 _ Hm). lia.
Qed.

Lemma provision_wf a code : good_account a -> wfb code -> wfb (marshal (provision_slots a code)).
Proof.
  intros (W1 & W2 & W3 & W4 & _) Wc. apply marshal_wf. unfold provision_slots.
  repeat (apply Forall_cons; [split; [cbn [fst]; lia|apply Forall_cons; [cbn [wf_bytes_val]|apply Forall_nil]]|]); [| | | | |apply Forall_nil]; try assumption.
  constructor; [unfold isbyte; lia|assumption].
Qed.

Lemma device_reads_provision a code : good_account a -> zlen code < 2 ^ 32 ->
  exists gs, parse (marshal (provision_slots a code)) = Some gs /\
    device_reads gs = Some (mkProv (5 :: ac_pub a) (ac_priv a) (ac_tel a) code (ac_uuid a) None).
Proof.
  intros (W1 & W2 & W3 & W4 & L1 & L2 & L3 & L4) Lc. pose proof (provision_bound a code) as B.
  exists (flat (provision_slots a code)). split.
  - apply parse_marshal; [|unfold small; lia].
    unfold slots_ok, provision_slots. repeat (first [apply Forall_cons | apply Forall_nil | split]); cbn; try (unfold max_field; lia); exact Logic.I.
  - unfold device_reads. rewrite !get_len_flat by reflexivity. reflexivity.
Qed.

(* The text sent for a device, and what the device makes of it. *)
Lemma cipher_opens a code e iv d : good_account a -> wfb code -> zlen code < 2 ^ 32 -> length iv = 16%nat -> wfb iv ->
  exists ct, provisioningCipher C (e, basepub C e) iv (provision_slots a code) (basepub C d) = Ok ct /\
    device_opens C d (enc64 ct) = Some (mkProv (5 :: ac_pub a) (ac_priv a) (ac_tel a) code (ac_uuid a) None).
Proof.
  intros G Wc Lc Hi Hiw. unfold provisioningCipher, aesEncrypt. cbn [fst snd].
  set (secret := hkdf C (dh C e (basepub C d)) [] provisioning_info 64).
  assert (Ls : length secret = 64%nat) by apply (hkdf_length C OK).
  assert (Lk : length (firstn 32 secret) = 32%nat) by (rewrite firstn_length; lia).
  pose proof (provision_wf a code G Wc) as Wm.
  destruct (encrypt_total (firstn 32 secret) iv (marshal (provision_slots a code)) Lk Hi Hiw Wm) as (c & Ec & Bc & Wcc).
  rewrite Ec. cbn [bind].
  set (mac := hmac C (skipn 32 secret) ([1] ++ iv ++ c)).
  assert (Lm : length mac = 32%nat) by apply (hmac_length C OK).
  eexists. split; [reflexivity|].
  set (body := [1] ++ (iv ++ c) ++ mac).
  assert (Wb : wfb body).
  { unfold body. repeat (apply wfb_app; split); try assumption; [constructor; [unfold isbyte; lia|constructor]|apply (hmac_wf C OK)]. }
  assert (Wp : wfb (5 :: basepub C e)) by (constructor; [unfold isbyte; lia|apply (basepub_wf C OK)]).
  pose proof G as (W1 & W2 & W3 & W4 & L1 & L2 & L3 & L4). pose proof (provision_bound a code) as B.
  assert (Sb : zlen body <= zlen c + 64).
  { unfold body. rewrite !zlen_app. unfold zlen at 1 2 4. rewrite Lm, Hi. cbn [length]. lia. }
  assert (Sp : zlen (5 :: basepub C e) = 33) by (unfold zlen; cbn [length]; rewrite (basepub_length C OK); reflexivity).
  set (env := [(1, [WLen (5 :: basepub C e)]); (2, [WLen body])]).
  assert (We : wfb (marshal env)).
  { apply marshal_wf. unfold env.
    repeat (apply Forall_cons; [split; [cbn [fst]; lia|apply Forall_cons; [cbn [wf_bytes_val]; assumption|apply Forall_nil]]|]). apply Forall_nil. }
  assert (Pe : parse (marshal env) = Some (flat env)).
  { apply parse_marshal.
    - unfold slots_ok, env. repeat (first [apply Forall_cons | apply Forall_nil | split]); cbn [fst snd val_ok]; try (unfold max_field; lia); exact Logic.I.
    - unfold small, env. pose proof (marshal2 1 (5 :: basepub C e) 2 body). lia. }
  unfold device_opens. rewrite (dec64_enc64 _ We), Pe.
  assert (G1 : get_len 1 (flat env) = Some (5 :: basepub C e)) by (rewrite get_len_flat by reflexivity; reflexivity).
  assert (G2 : get_len 2 (flat env) = Some body) by (rewrite get_len_flat by reflexivity; reflexivity).
  rewrite G1, G2. cbv zeta.
  change device_info with provisioning_info. rewrite (dh_comm C OK d e). fold secret.
  assert (Lb : (length body - 32)%nat = length ([1] ++ iv ++ c)).
  { unfold body. rewrite !app_length, Lm. cbn [length]. lia. }
  assert (Eb : body = ([1] ++ iv ++ c) ++ mac) by (unfold body; rewrite <- !app_assoc; reflexivity).
  rewrite Lb, Eb, firstn_app_exact, skipn_app_exact by reflexivity.
  fold mac. rewrite beq_refl. cbn [app].
  rewrite (Decrypt_Encrypt C OK _ _ _ _ Wm Hiw Ec).
  destruct (device_reads_provision a code G Lc) as (gs & Eg & Rg). rewrite Eg. exact Rg.
Qed.
End Proofs.

(* A call with the key shown by a device sends one message, addressed to the device, which only needs its private key
   to read it: it learns the identity key pair, the number and the identifier of the account and the code. *)
Theorem C119_linked_device_gets_the_account : forall C, crypto_ok C -> forall a d eph e iv code put,
  good_account a -> wfb code -> zlen code < 2 ^ 32 -> length iv = 16%nat -> wfb iv ->
  exists text, addNewDevice C a (e, basepub C e) iv eph (encodeKey (basepub C d)) code put = (Some (eph, text), put_result put) /\
    device_opens C d text = Some (mkProv (5 :: ac_pub a) (ac_priv a) (ac_tel a) code (ac_uuid a) None).
Proof.
  intros C OK a d eph e iv code put G Wc Lc Hi Hiw. unfold addNewDevice.
  rewrite (C51_key_round_trip (basepub C d) (basepub_wf C OK d) (basepub_length C OK d)).
  destruct (cipher_opens C OK a code e iv d G Wc Lc Hi Hiw) as (ct & E & D). rewrite E.
  exists (enc64 ct). split; [reflexivity|exact D].
Qed.
Print Assumptions C119_linked_device_gets_the_account.

(* A key that is not 33 bytes beginning with 5 is refused and nothing leaves the client. *)
Theorem C119_bad_key_sends_nothing : forall C a ours iv eph key code put,
  (forall k, decodeKey key <> Ok k) ->
  exists r, addNewDevice C a ours iv eph key code put = (None, r) /\ r <> Ok tt.
Proof.
  intros C a ours iv eph key code put H. unfold addNewDevice. destruct (decodeKey key) as [k|e|] eqn:E.
  - elim (H k). reflexivity.
  - exists (Err e). split; [reflexivity|]. intros X. discriminate X.
  - exists Panic. split; [reflexivity|]. intros X. discriminate X.
Qed.
Print Assumptions C119_bad_key_sends_nothing.

(* But no device ever learns the profile key of the account. *)
Theorem C119_profile_key_refuted : exists C a d eph e iv code put text p,
  crypto_ok C /\ good_account a /\ put_result put = Ok tt /\
  addNewDevice C a (e, basepub C e) iv eph (encodeKey (basepub C d)) code put = (Some (eph, text), Ok tt) /\
  device_opens C d text = Some p /\ pv_profile p = None.
Proof.
  destruct (C119_linked_device_gets_the_account toy toy_ok (mkAccount [1] [2] [3] [4]) [5] [6] [7] (zeros 16) [8] (Some 200))
    as (text & E & D).
  - unfold good_account. cbn [ac_pub ac_priv ac_uuid ac_tel]. repeat split; try (constructor; [unfold isbyte; lia|constructor]).
  - constructor; [unfold isbyte; lia|constructor].
  - reflexivity.
  - reflexivity.
  - apply wfb_zeros.
  - exists toy, (mkAccount [1] [2] [3] [4]), [5], [6], [7], (zeros 16), [8], (Some 200), text, (mkProv [5; 1] [2] [4] [8] [3] None).
    split; [exact toy_ok|]. split.
    { unfold good_account. cbn [ac_pub ac_priv ac_uuid ac_tel]. repeat split; try (constructor; [unfold isbyte; lia|constructor]). }
    split; [reflexivity|]. split; [exact E|]. split; [exact D|reflexivity].
Qed.
Print Assumptions C119_profile_key_refuted.

(* ---- the code ---- *)

(* whatever was obtained from the server was used: no call that got a code failed afterwards *)
Definition none_wasted (tr : list obs) : Prop := forall o, In o tr -> o_got o <> None -> o_res o = Ok tt.

Definition fresh (s : lstate) (tr : list obs) : Prop :=
  Forall (fun k => (1 <= k <= 10)%nat) (l_timers s) /\
  (forall o, In o tr -> (o_at o <= l_now s)%nat) /\
  (l_code s <> [] -> exists t k, issued tr t (l_code s) /\ In k (l_timers s) /\ (l_now s + k <= t + 10)%nat).

Lemma issued_app tr tr' t c : issued tr t c -> issued (tr ++ tr') t c.
Proof. intros (o & I & H). exists o. split; [apply in_or_app; left; exact I|exact H]. Qed.

Lemma fresh_second s tr : fresh s tr -> fresh (second s) tr.
Proof.
  intros (T & N & F). unfold second, fresh. cbn [l_timers l_now l_code].
  assert (T' : Forall (fun k => (1 <= k <= 10)%nat) (filter (fun n => negb (Nat.eqb 0 n)) (map pred (l_timers s)))).
  { apply Forall_forall. intros k I. apply filter_In in I. destruct I as [I Z]. apply in_map_iff in I. destruct I as (k' & <- & I).
    rewrite Forall_forall in T. specialize (T k' I). apply negb_true_iff, Nat.eqb_neq in Z. lia. }
  split; [exact T'|]. split; [intros o I; specialize (N o I); lia|].
  destruct (existsb (Nat.eqb 0) (map pred (l_timers s))) eqn:E; [intros X; elim X; reflexivity|].
  intros X. destruct (F X) as (t & k & I & K & L). exists t, (pred k). split; [exact I|].
  assert (P : (pred k <> 0)%nat).
  { intros Y. assert (Z : existsb (Nat.eqb 0) (map pred (l_timers s)) = true).
    { apply existsb_exists. exists (pred k). split; [apply in_map; exact K|rewrite Y; reflexivity]. }
    rewrite Z in E. discriminate E. }
  split.
  - apply filter_In. split; [apply in_map; exact K|]. apply negb_true_iff, Nat.eqb_neq. lia.
  - lia.
Qed.

(* what a call does, in its three cases *)
Lemma link_cases C a eph key ours iv get put s s' o :
  AddNewLinkedDevice C a eph key ours iv get put s = (s', o) ->
  o_at o = l_now s /\ l_now s' = l_now s /\
  ((s' = s /\ o_got o = None /\ o_code o = None /\ l_code s = []) \/
   (exists code, l_code s' = code /\ (o_code o = None \/ o_code o = Some code) /\
      ((l_code s = [] /\ o_got o = Some code) \/ (l_code s = code /\ code <> [] /\ o_got o = None)) /\
      ((o_res o = Ok tt /\ l_timers s' = 10%nat :: l_timers s) \/ (o_res o <> Ok tt /\ l_timers s' = l_timers s)))).
Proof.
  unfold AddNewLinkedDevice. cbv zeta. intros H. destruct (l_code s) as [|b t] eqn:L.
  - destruct (getCode get) as [code|e|] eqn:Gc.
    + destruct (addNewDevice C a ours iv eph key code put) as [sent r] eqn:A.
      injection H as <- <-. cbn [o_at l_now o_got o_code o_res l_code l_timers].
      split; [reflexivity|]. split; [reflexivity|]. right. exists code. split; [reflexivity|].
      split; [destruct sent; [right|left]; reflexivity|].
      split; [left; split; reflexivity|].
      destruct r as [[]|e|]; [left; split; reflexivity|right|right]; split; try reflexivity; intros X; discriminate X.
    + injection H as <- <-. cbn [o_at l_now o_got o_code]. split; [reflexivity|]. split; [reflexivity|]. left. repeat split; assumption.
    + injection H as <- <-. cbn [o_at l_now o_got o_code]. split; [reflexivity|]. split; [reflexivity|]. left. repeat split; assumption.
  - destruct (addNewDevice C a ours iv eph key (b :: t) put) as [sent r] eqn:A.
    injection H as <- <-. cbn [o_at l_now o_got o_code o_res l_code l_timers].
    split; [reflexivity|]. split; [reflexivity|]. right. exists (b :: t). split; [reflexivity|].
    split; [destruct sent; [right|left]; reflexivity|].
    split; [right; split; [reflexivity|split; [intros X; discriminate X|reflexivity]]|].
    destruct r as [[]|e|]; [left; split; reflexivity|right|right]; split; try reflexivity; intros X; discriminate X.
Qed.

Definition young (tr : list obs) (o : obs) : Prop :=
  forall code, o_code o = Some code -> exists t, issued tr t code /\ (t <= o_at o < t + 10)%nat.

Lemma fresh_link C a eph key ours iv get put s tr s' o : fresh s tr ->
  AddNewLinkedDevice C a eph key ours iv get put s = (s', o) -> none_wasted (tr ++ [o]) ->
  fresh s' (tr ++ [o]) /\ young (tr ++ [o]) o.
Proof.
  intros (T & N & F) H W. destruct (link_cases _ _ _ _ _ _ _ _ _ _ _ H) as (At & Now & K).
  assert (Io : In o (tr ++ [o])) by (apply in_or_app; right; left; reflexivity).
  destruct K as [(-> & G & Cd & L)|(code & L' & Cd & G & R)].
  - split; [|intros c X; rewrite Cd in X; discriminate X]. split; [exact T|]. split.
    + intros x I. apply in_app_or in I. destruct I as [I|[<-|[]]]; [exact (N x I)|lia].
    + intros X. elim (X L).
  - assert (T' : Forall (fun k => (1 <= k <= 10)%nat) (l_timers s')).
    { destruct R as [[_ ->]|[_ ->]]; [constructor; [lia|exact T]|exact T]. }
    assert (N' : forall x, In x (tr ++ [o]) -> (o_at x <= l_now s')%nat).
    { intros x I. apply in_app_or in I. rewrite Now. destruct I as [I|[<-|[]]]; [exact (N x I)|lia]. }
    destruct G as [(L & G)|(L & Ne & G)].
    + assert (Ok : o_res o = Ok tt) by (apply (W o Io); rewrite G; intros X; discriminate X).
      assert (Is : issued (tr ++ [o]) (l_now s) code) by (exists o; repeat split; assumption).
      split.
      * split; [exact T'|]. split; [exact N'|]. intros _. destruct R as [[_ E]|[X _]]; [|contradiction].
        exists (l_now s), 10%nat. rewrite L'. split; [exact Is|]. split; [rewrite E; left; reflexivity|lia].
      * intros c X. destruct Cd as [Y|Y]; rewrite Y in X; [discriminate X|]. injection X as <-.
        exists (l_now s). split; [exact Is|lia].
    + destruct (F ltac:(rewrite L; exact Ne)) as (t & k & I & K & Le). rewrite L in I.
      split.
      * split; [exact T'|]. split; [exact N'|]. intros _. exists t, k. rewrite L'.
        split; [apply issued_app; exact I|]. split; [|lia].
        destruct R as [[_ ->]|[_ ->]]; [right; exact K|exact K].
      * intros c X. destruct Cd as [Y|Y]; rewrite Y in X; [discriminate X|]. injection X as <-.
        exists t. split; [apply issued_app; exact I|].
        rewrite Forall_forall in T. specialize (T k K). destruct I as (x & Ix & At' & _). specialize (N x Ix). lia.
Qed.

Lemma young_app tr tr' o : young tr o -> young (tr ++ tr') o.
Proof. intros Y c X. destruct (Y c X) as (t & I & L). exists t. split; [apply issued_app; exact I|exact L]. Qed.

Lemma fresh_run C a l : forall s tr s' tr', fresh s tr -> (forall o, In o tr -> young tr o) ->
  lrun C a l s = (s', tr') -> none_wasted (tr ++ tr') -> fresh s' (tr ++ tr') /\ forall o, In o (tr ++ tr') -> young (tr ++ tr') o.
Proof.
  induction l as [|x l IH]; intros s tr s' tr' F Y H W.
  - injection H as <- <-. rewrite app_nil_r. split; assumption.
  - cbn [lrun] in H. destruct x as [|eph key ours iv get put].
    + cbn [lstep] in H. destruct (lrun C a l (second s)) as [s2 o2] eqn:E. injection H as <- <-. cbn [app] in *.
      exact (IH _ _ _ _ (fresh_second s tr F) Y E W).
    + cbn [lstep] in H. destruct (AddNewLinkedDevice C a eph key ours iv get put s) as [s1 o] eqn:E1.
      destruct (lrun C a l s1) as [s2 o2] eqn:E2. injection H as <- <-.
      assert (A : tr ++ [o] ++ o2 = (tr ++ [o]) ++ o2) by apply app_assoc. cbn [app] in A, W |- *. rewrite A in W |- *.
      assert (W1 : none_wasted (tr ++ [o])) by (intros z I; apply W; apply in_or_app; left; exact I).
      destruct (fresh_link _ _ _ _ _ _ _ _ _ _ _ _ F E1 W1) as [F1 Y1].
      refine (IH _ _ _ _ F1 _ E2 W). intros z I. apply in_app_or in I.
      destruct I as [I|[<-|[]]]; [apply young_app; exact (Y z I)|exact Y1].
Qed.

Lemma fresh_start : fresh lstart [].
Proof. split; [constructor|]. split; [intros o []|]. intros X. elim X. reflexivity. Qed.

(* As long as no call fails after it has asked for a code, the code a device gets was given out by the server less than
   ten seconds before. *)
Theorem C120_young_partial : forall C a l s tr, lrun C a l lstart = (s, tr) -> none_wasted tr ->
  forall o code, In o tr -> o_code o = Some code -> exists t, issued tr t code /\ (t <= o_at o < t + 10)%nat.
Proof.
  intros C a l s tr H W o code I X. destruct (fresh_run C a l lstart [] s tr fresh_start ltac:(intros ? []) H W) as [_ Y].
  exact (Y o I code X).
Qed.
Print Assumptions C120_young_partial.

Lemma lrun_app C a l1 : forall l2 s, lrun C a (l1 ++ l2) s =
  let '(s1, o1) := lrun C a l1 s in let '(s2, o2) := lrun C a l2 s1 in (s2, o1 ++ o2).
Proof.
  induction l1 as [|x l1 IH]; intros l2 s; cbn [app lrun].
  - destruct (lrun C a l2 s). reflexivity.
  - destruct (lstep C a x s) as [s1 o1]. rewrite IH. destruct (lrun C a l1 s1) as [s2 o2].
    destruct (lrun C a l2 s2) as [s3 o3]. rewrite app_assoc. reflexivity.
Qed.
Lemma lrun_seconds C a n : forall code now, lrun C a (repeat Second n) (mkL code [] now) = (mkL code [] (now + n), []).
Proof.
  induction n as [|n IH]; intros code now; cbn [repeat lrun lstep]; [rewrite Nat.add_0_r; reflexivity|].
  unfold second. cbn [l_timers map existsb l_code l_now filter]. rewrite IH. do 2 f_equal. lia.
Qed.

(* After one attempt that failed - here with a text that is not a key - the code is kept however long it takes, and given
   to the next device as if it were good. *)
Theorem C120_stale : forall C, crypto_ok C -> forall a d eph e iv bad code n get put,
  good_account a -> wfb code -> code <> [] -> zlen code < 2 ^ 32 -> length iv = 16%nat -> wfb iv -> (forall k, decodeKey bad <> Ok k) ->
  exists s tr o text,
    lrun C a (Link eph bad (e, basepub C e) iv (Some (200, Some code)) put :: repeat Second n ++
              [Link eph (encodeKey (basepub C d)) (e, basepub C e) iv get (Some 200)]) lstart = (s, tr ++ [o]) /\
    o_at o = n /\ o_res o = Ok tt /\ o_got o = None /\ o_code o = Some code /\ o_sent o = Some (eph, text) /\
    device_opens C d text = Some (mkProv (5 :: ac_pub a) (ac_priv a) (ac_tel a) code (ac_uuid a) None) /\
    (forall t c, issued (tr ++ [o]) t c -> t = O).
Proof.
  intros C OK a d eph e iv bad code n get put G Wc Ne Lc Hi Hiw B.
  destruct (C119_linked_device_gets_the_account C OK a d eph e iv code (Some 200) G Wc Lc Hi Hiw) as (text & E & D).
  destruct (C119_bad_key_sends_nothing C a (e, basepub C e) iv eph bad code put B) as (r & Eb & Nr).
  cbn [lrun lstep]. unfold AddNewLinkedDevice at 1. cbv zeta. cbn [lstart l_code getCode]. rewrite Eb.
  assert (M : match r with Ok _ => 10%nat :: l_timers (mkL [] [] 0) | _ => l_timers (mkL [] [] 0) end = []).
  { destruct r as [[]|x|]; [elim Nr; reflexivity|reflexivity|reflexivity]. }
  unfold lstart. rewrite M. cbn [l_now]. rewrite lrun_app, lrun_seconds. cbn [lrun lstep].
  unfold AddNewLinkedDevice. cbv zeta. cbn [l_code]. destruct code as [|b t]; [elim Ne; reflexivity|].
  rewrite E. cbn [app].
  eexists. exists [mkObs 0 (Some (b :: t)) None None r]. eexists. exists text. split; [reflexivity|].
  cbn [o_at o_res o_got o_sent l_now]. split; [apply Nat.add_0_l|]. split; [reflexivity|]. split; [reflexivity|].
  split; [reflexivity|]. split; [reflexivity|]. split; [exact D|].
  intros t' c (x & [<-|[<-|[]]] & At & Got).
  - cbn [o_at] in At. symmetry. exact At.
  - cbn [o_got] in Got. discriminate Got.
Qed.
Print Assumptions C120_stale.

Definition ex_account : account := mkAccount [1; 2; 3] [4; 5; 6] [97; 98] [43; 52; 57].
Lemma ex_account_ok : good_account ex_account.
Proof.
  unfold good_account, ex_account. cbn [ac_pub ac_priv ac_uuid ac_tel].
  repeat split; repeat (constructor; [unfold isbyte; lia|]); constructor.
Qed.
Lemma bad_key_bad : forall k, decodeKey [65] <> Ok k.
Proof. intros k. vm_compute. discriminate. Qed.
Lemma wfb1 c : 0 <= c < 256 -> wfb [c].
Proof. intros H. constructor; [exact H|constructor]. Qed.

(* So for every span of time there is a history in which a device gets a code that is older, and the caller is told that
   all went well. *)
Theorem C120_code_is_young_refuted : forall T : nat, exists C a l s tr o code,
  crypto_ok C /\ good_account a /\ lrun C a l lstart = (s, tr) /\ In o tr /\ o_res o = Ok tt /\ o_code o = Some code /\
  forall t, issued tr t code -> (t + T < o_at o)%nat.
Proof.
  intros T. destruct (C120_stale toy toy_ok ex_account [5] [6] [7] (zeros 16) [65] [56] (S T) None None
    ex_account_ok (wfb1 56 ltac:(lia)) ltac:(intros X; discriminate X) ltac:(reflexivity) ltac:(reflexivity) (wfb_zeros 16) bad_key_bad)
    as (s & tr & o & text & E & At & R & G & Cd & S & D & I).
  exists toy, ex_account. eexists. exists s, (tr ++ [o]), o, [56].
  split; [exact toy_ok|]. split; [exact ex_account_ok|]. split; [exact E|].
  split; [apply in_or_app; right; left; reflexivity|]. split; [exact R|].
  split; [exact Cd|].
  intros t X. rewrite At, (I t [56] X). lia.
Qed.
Print Assumptions C120_code_is_young_refuted.

(* C121: an attempt made at least ten seconds after all earlier ones gets a code of its own, if none was wasted before. *)
Theorem C121_own_code_partial : forall C a l s tr o tr2, lrun C a l lstart = (s, tr ++ o :: tr2) -> none_wasted (tr ++ o :: tr2) ->
  (forall p, In p tr -> (o_at p + 10 <= o_at o)%nat) -> (forall p, In p tr2 -> (o_at o < o_at p)%nat) ->
  forall code, o_code o = Some code -> o_got o = Some code.
Proof.
  intros C a l s tr o tr2 H W P Q code X.
  destruct (C120_young_partial C a l s (tr ++ o :: tr2) H W o code ltac:(apply in_or_app; right; left; reflexivity) X)
    as (t & (p & I & At & Got) & L).
  apply in_app_or in I. destruct I as [I|[<-|I]].
  - specialize (P p I). lia.
  - exact Got.
  - specialize (Q p I). lia.
Qed.
Print Assumptions C121_own_code_partial.

(* rewriting up to the conversion of bytes and list Z *)
Ltac rw E := match type of E with addNewDevice _ _ _ _ _ _ ?c _ = ?v =>
  match goal with |- context [addNewDevice toy ex_account ?k ?i ?e ?b ?d ?p] => replace (addNewDevice toy ex_account k i e b d p) with v by (symmetry; exact E) end end.

(* two devices linked within ten seconds, by calls that report success: both get the code the server gave once *)
Theorem C121_two_devices_two_codes_refuted : exists C a d1 d2 l s o1 o2 p1 p2 t1 t2,
  crypto_ok C /\ good_account a /\ lrun C a l lstart = (s, [o1; o2]) /\ o_res o1 = Ok tt /\ o_res o2 = Ok tt /\
  o_sent o1 = Some ([1], t1) /\ o_sent o2 = Some ([2], t2) /\
  device_opens C d1 t1 = Some p1 /\ device_opens C d2 t2 = Some p2 /\ pv_code p1 = pv_code p2 /\ pv_code p1 <> [] /\
  o_got o1 = Some (pv_code p1) /\ o_got o2 = None.
Proof.
  destruct (C119_linked_device_gets_the_account toy toy_ok ex_account [5] [1] [7] (zeros 16) [56] (Some 200)
    ex_account_ok (wfb1 56 ltac:(lia)) ltac:(reflexivity) ltac:(reflexivity) (wfb_zeros 16)) as (t1 & E1 & D1).
  destruct (C119_linked_device_gets_the_account toy toy_ok ex_account [6] [2] [8] (zeros 16) [56] (Some 200)
    ex_account_ok (wfb1 56 ltac:(lia)) ltac:(reflexivity) ltac:(reflexivity) (wfb_zeros 16)) as (t2 & E2 & D2).
  exists toy, ex_account, [5], [6].
  exists [Link [1] (encodeKey (basepub toy [5])) ([7], basepub toy [7]) (zeros 16) (Some (200, Some [56])) (Some 200); Second;
          Link [2] (encodeKey (basepub toy [6])) ([8], basepub toy [8]) (zeros 16) (Some (200, Some [57])) (Some 200)].
  exists (mkL [56] [10%nat; 9%nat] 1), (mkObs 0 (Some [56]) (Some [56]) (Some ([1], t1)) (Ok tt)),
    (mkObs 1 None (Some [56]) (Some ([2], t2)) (Ok tt)).
  exists (mkProv [5; 1; 2; 3] [4; 5; 6] [43; 52; 57] [56] [97; 98] None), (mkProv [5; 1; 2; 3] [4; 5; 6] [43; 52; 57] [56] [97; 98] None), t1, t2.
  split; [exact toy_ok|]. split; [exact ex_account_ok|]. split.
  - cbn [lrun lstep]. unfold AddNewLinkedDevice at 1. cbv zeta. cbn [lstart l_code getCode]. rw E1.
    change (put_result (Some 200)) with (@Ok unit tt). cbn [lstart l_timers l_now].
    unfold AddNewLinkedDevice. cbv zeta. unfold second. cbn [l_timers l_code l_now map pred existsb Nat.eqb orb filter negb].
    rw E2. change (put_result (Some 200)) with (@Ok unit tt). reflexivity.
  - cbn [o_res o_sent o_got pv_code].
    split; [reflexivity|]. split; [reflexivity|]. split; [reflexivity|]. split; [reflexivity|]. split; [exact D1|]. split; [exact D2|].
    split; [reflexivity|]. split; [intros X; discriminate X|]. split; reflexivity.
Qed.
Print Assumptions C121_two_devices_two_codes_refuted.

(* C122: the code in a message is always one that an answer of the server carried, and empty if that answer carried none *)
Definition answered (l : list act) (code : bytes) : Prop :=
  exists eph key ours iv st b put, In (Link eph key ours iv (Some (st, b)) put) l /\ code = match b with Some c => c | None => [] end.

Theorem C122_code_from_an_answer : forall C a l s tr, lrun C a l lstart = (s, tr) ->
  forall o code, In o tr -> o_code o = Some code -> answered l code.
Proof.
  intros C a l0 s0 tr0 H0.
  assert (Gen : forall l s s' tr pre, lrun C a l s = (s', tr) -> (l_code s <> [] -> answered pre (l_code s)) ->
     forall o code, In o tr -> o_code o = Some code -> answered (pre ++ l) code).
  { induction l as [|x l IH]; intros s s' tr pre H A o code I X.
    - injection H as <- <-. destruct I.
    - assert (Ap : pre ++ x :: l = (pre ++ [x]) ++ l) by (rewrite <- app_assoc; reflexivity). rewrite Ap.
      assert (Mono : forall q c, answered q c -> answered (q ++ [x]) c).
      { intros q c (e1 & e2 & e3 & e4 & e5 & e6 & e7 & J & ->). exists e1, e2, e3, e4, e5, e6, e7. split; [apply in_or_app; left; exact J|reflexivity]. }
      cbn [lrun] in H. destruct x as [|eph key ours iv get put].
      + cbn [lstep] in H. destruct (lrun C a l (second s)) as [s2 o2] eqn:E. injection H as <- <-. cbn [app] in I.
        refine (IH _ _ _ (pre ++ [Second]) E _ o code I X). unfold second. cbn [l_code].
        destruct (existsb _ _); intros Y; [elim Y; reflexivity|apply Mono, A, Y].
      + cbn [lstep] in H. destruct (AddNewLinkedDevice C a eph key ours iv get put s) as [s1 o1] eqn:E1.
        destruct (lrun C a l s1) as [s2 o2] eqn:E2. injection H as <- <-.
        assert (K : forall c, (l_code s1 = c /\ c <> []) \/ o_code o1 = Some c -> answered (pre ++ [Link eph key ours iv get put]) c).
        { unfold AddNewLinkedDevice in E1. cbv zeta in E1. destruct (l_code s) as [|b t] eqn:L.
          - destruct get as [[st b]|]; cbn [getCode] in E1.
            + assert (Z : getCode (Some (st, b)) = Ok (match b with Some c => c | None => [] end)) by (destruct b; reflexivity).
              unfold getCode in Z. rewrite Z in E1.
              destruct (addNewDevice C a ours iv eph key _ put) as [sent r].
              injection E1 as <- <-. cbn [l_code o_code]. intros c Hc.
              exists eph, key, ours, iv, st, b, put. split; [apply in_or_app; right; left; reflexivity|].
              destruct Hc as [[<- _]|Hc]; [reflexivity|]. unfold sent_code in Hc. destruct sent; [|discriminate Hc].
              injection Hc as <-. reflexivity.
            + injection E1 as <- <-. cbn [o_code]. intros c [[Y Ne]|Y]; [|discriminate Y].
              rewrite L in Y. subst c. elim Ne. reflexivity.
          - destruct (addNewDevice C a ours iv eph key (b :: t) put) as [sent r].
            injection E1 as <- <-. cbn [l_code o_code]. intros c Hc.
            assert (Y : c = b :: t).
            { destruct Hc as [[<- _]|Hc]; [reflexivity|]. unfold sent_code in Hc. destruct sent; [|discriminate Hc]. injection Hc as <-. reflexivity. }
            subst c. apply Mono, A. intros Z. discriminate Z. }
        cbn [app] in I. destruct I as [<-|I].
        * specialize (K code (or_intror X)). destruct K as (e1 & e2 & e3 & e4 & e5 & e6 & e7 & J & ->).
          exists e1, e2, e3, e4, e5, e6, e7. split; [apply in_or_app; left; exact J|reflexivity].
        * refine (IH _ _ _ (pre ++ [Link eph key ours iv get put]) E2 _ o code I X).
          intros Y. apply K. left. split; [reflexivity|exact Y]. }
  intros o code I X. exact (Gen l0 lstart s0 tr0 [] H0 ltac:(intros Y; elim Y; reflexivity) o code I X).
Qed.
Print Assumptions C122_code_from_an_answer.

(* the server refuses another device (411 is the answer when there are too many); the caller is told of a success and the
   device gets the empty code *)
Theorem C122_success_means_a_code_refuted : exists C a d l s o p t,
  crypto_ok C /\ good_account a /\ l = [Link [1] (encodeKey (basepub C d)) ([7], basepub C [7]) (zeros 16) (Some (411, None)) (Some 200)] /\
  lrun C a l lstart = (s, [o]) /\ o_res o = Ok tt /\ o_sent o = Some ([1], t) /\ device_opens C d t = Some p /\ pv_code p = [].
Proof.
  destruct (C119_linked_device_gets_the_account toy toy_ok ex_account [5] [1] [7] (zeros 16) [] (Some 200)
    ex_account_ok ltac:(constructor) ltac:(reflexivity) ltac:(reflexivity) (wfb_zeros 16)) as (t1 & E1 & D1).
  exists toy, ex_account, [5]. eexists.
  exists (mkL [] [10%nat] 0), (mkObs 0 (Some []) (Some []) (Some ([1], t1)) (Ok tt)), (mkProv [5; 1; 2; 3] [4; 5; 6] [43; 52; 57] [] [97; 98] None), t1.
  split; [exact toy_ok|]. split; [exact ex_account_ok|]. split; [reflexivity|]. split.
  - cbn [lrun lstep]. unfold AddNewLinkedDevice. cbv zeta. cbn [lstart l_code getCode]. rw E1. reflexivity.
  - cbn [o_res o_sent pv_code]. split; [reflexivity|]. split; [reflexivity|]. split; [exact D1|reflexivity].
Qed.
Print Assumptions C122_success_means_a_code_refuted.

(* ---- the devices of the account ---- *)

(* The server has a set of devices; it answers a request to remove one, or not at all; on success it removed it. *)
Definition honest_removal (before after : list Z) (id : Z) (r : option Z) : Prop :=
  match r with
  | Some st => if (200 <=? st) && (st <? 300) then after = filter (fun x => negb (x =? id)) before else after = before
  | None => True
  end.

(* C123: when the server says that the device was removed, UnlinkDevice succeeds and the device is gone *)
Theorem C123_removed_partial : forall before after id st, honest_removal before after id (Some st) -> 200 <= st < 300 ->
  unlinkDevice (Some st) = Ok tt /\ ~ In id after.
Proof.
  intros before after id st H L. split; [reflexivity|]. unfold honest_removal in H.
  rewrite (proj2 (Z.leb_le 200 st)), (proj2 (Z.ltb_lt st 300)) in H by lia. cbn [andb] in H. subst after.
  intros I. apply filter_In in I. destruct I as [_ I]. rewrite Z.eqb_refl in I. discriminate I.
Qed.
Print Assumptions C123_removed_partial.
(* but it also succeeds whenever the server refuses, whatever the status *)
Theorem C123_refused_is_success : forall before after id st, honest_removal before after id (Some st) -> ~ (200 <= st < 300) ->
  In id before -> unlinkDevice (Some st) = Ok tt /\ In id after.
Proof.
  intros before after id st H L I. split; [reflexivity|]. unfold honest_removal in H.
  destruct ((200 <=? st) && (st <? 300)) eqn:E; [|subst after; exact I].
  apply andb_true_iff in E. destruct E as [E1 E2]. apply Z.leb_le in E1. apply Z.ltb_lt in E2. lia.
Qed.
Print Assumptions C123_refused_is_success.
Theorem C123_unlinked_is_gone_refuted : exists before after id r, honest_removal before after id r /\
  unlinkDevice r = Ok tt /\ In id after.
Proof. exists [1; 2; 3], [1; 2; 3], 2, (Some 401). split; [reflexivity|]. split; [reflexivity|right; left; reflexivity]. Qed.
Print Assumptions C123_unlinked_is_gone_refuted.

(* C124: when the answer is a list of devices, that list is returned *)
Theorem C124_list_returned : forall (A : Type) st (l : list A), getLinkedDevices (Some (st, LList l)) = Ok l.
Proof. reflexivity. Qed.
Print Assumptions C124_list_returned.
(* An answer that is not one: the caller of LinkedDevices is told that there are no devices - or, for null, the process
   stops. *)
Theorem C124_failure_is_reported_refuted :
  (exists st (b : listing Z), bad_status st = true /\ getLinkedDevices (Some (st, b)) = Ok []) /\
  (exists st (b : listing Z), bad_status st = false /\ getLinkedDevices (Some (st, b)) = Panic).
Proof.
  split.
  - exists 500, (LBroken []). split; reflexivity.
  - exists 200, LNull. split; reflexivity.
Qed.
Print Assumptions C124_failure_is_reported_refuted.

(* Examples: the hypotheses are met. *)
Example C119_example :
  match addNewDevice toy ex_account ([7], basepub toy [7]) (zeros 16) [1] (encodeKey (basepub toy [5])) [56; 57] (Some 200) with
  | (Some (_, t), Ok _) => match device_opens toy [5] t with
                           | Some p => beq (pv_code p) [56; 57] && beq (pv_priv p) [4; 5; 6] | None => false end
  | _ => false
  end = true.
Proof. vm_compute. reflexivity. Qed.
Example C120_example :
  let l := [Link [1] (encodeKey (basepub toy [5])) ([7], basepub toy [7]) (zeros 16) (Some (200, Some [56])) (Some 200)] ++ repeat Second 11 ++
           [Link [2] (encodeKey (basepub toy [6])) ([8], basepub toy [8]) (zeros 16) (Some (200, Some [57])) (Some 200)] in
  map (fun o => (o_at o, o_got o, o_code o, o_res o)) (snd (lrun toy ex_account l lstart)) =
  [(0%nat, Some [56], Some [56], Ok tt); (11%nat, Some [57], Some [57], Ok tt)].
Proof. vm_compute. reflexivity. Qed.
